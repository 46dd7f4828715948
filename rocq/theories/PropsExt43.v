(** * Property C168: CIELAB when the compiler fuses multiplications and additions.

    [evV lm e r]: [r] is a value of the colour [e] for some choice of fused operations (MFma.v).  Both conversions compare
    only quotients and sums of quotients, which have a single value; so which branch is taken does not depend on the choice. *)
From Coq Require Import ZArith Reals.
From Flocq Require Import Core BinarySingleNaN.
From Verif Require Import Num NumR NumF MVec MTri MFma RTac SpecMat F32 PMatF PLibm PNearF PFma10.
Local Open Scope R_scope.

(** C168: the bounds of C101 hold for every choice. *)
Theorem C168_to_lab (lm : libm) (t w r : Vector3 f32) : accurate lm ->
  fin (v0 t) /\ fin (v1 t) /\ fin (v2 t) -> fin (v0 w) /\ fin (v1 w) /\ fin (v2 w) ->
  (forall x, x = B2R (v0 t) \/ x = B2R (v1 t) \/ x = B2R (v2 t) -> 0 <= x <= bpow radix2 100) ->
  (forall x, x = B2R (v0 w) \/ x = B2R (v1 w) \/ x = B2R (v2 w) -> bpow radix2 (-20) <= x <= bpow radix2 20) ->
  evV lm (toCIELAB (EN lm) (inV lm t) (inV lm w)) r ->
  exists L a b, toCIELAB RN (finV (vR t)) (finV (vR w)) = finV (V3 L a b) /\ near (v0 r) L (850 * u) /\ near (v1 r) a (6400 * u) /\ near (v2 r) b (2550 * u).
Proof. exact (fun A => toLab_fstmt lm A t w r). Qed.
Print Assumptions C168_to_lab.
Theorem C168_from_lab (lm : libm) (t w r : Vector3 f32) : accurate lm ->
  fin (v0 t) /\ fin (v1 t) /\ fin (v2 t) -> fin (v0 w) /\ fin (v1 w) /\ fin (v2 w) ->
  0 <= B2R (v0 t) <= 100 -> Rabs (B2R (v1 t)) <= 500 -> Rabs (B2R (v2 t)) <= 200 ->
  (forall x, x = B2R (v0 w) \/ x = B2R (v1 w) \/ x = B2R (v2 w) -> bpow radix2 (-20) <= x <= bpow radix2 20) ->
  evV lm (fromCIELAB (EN lm) (inV lm t) (inV lm w)) r ->
  exists x y z, fromCIELAB RN (finV (vR t)) (finV (vR w)) = finV (V3 x y z) /\
    near (v0 r) x (22 * u * B2R (v0 w)) /\ near (v1 r) y (22 * u * B2R (v1 w)) /\ near (v2 r) z (22 * u * B2R (v2 w)).
Proof. exact (fun A => fromLab_fstmt lm A t w r). Qed.
Print Assumptions C168_from_lab.
(** The two conversions may make different choices. *)
Theorem C168_lab_round_trip (lm : libm) (t w s r : Vector3 f32) : accurate lm ->
  fin (v0 t) /\ fin (v1 t) /\ fin (v2 t) -> fin (v0 w) /\ fin (v1 w) /\ fin (v2 w) ->
  (forall x, x = B2R (v0 t) \/ x = B2R (v1 t) \/ x = B2R (v2 t) -> 0 <= x <= bpow radix2 100) ->
  (forall x, x = B2R (v0 w) \/ x = B2R (v1 w) \/ x = B2R (v2 w) -> bpow radix2 (-20) <= x <= bpow radix2 20) ->
  evV lm (toCIELAB (EN lm) (inV lm t) (inV lm w)) s -> evV lm (fromCIELAB (EN lm) (inV lm s) (inV lm w)) r ->
  near (v0 r) (Rmin (B2R (v0 t)) (B2R (v0 w))) (83 * u * B2R (v0 w)) /\ near (v1 r) (Rmin (B2R (v1 t)) (B2R (v1 w))) (83 * u * B2R (v1 w)) /\
  near (v2 r) (Rmin (B2R (v2 t)) (B2R (v2 w))) (83 * u * B2R (v2 w)).
Proof. exact (fun A => labrt_fstmt lm A t w s r). Qed.
Print Assumptions C168_lab_round_trip.
(** Not fusing anything is one of the choices. *)
Theorem C168_unfused (lm : libm) (t w : Vector3 f32) :
  evV lm (toCIELAB (EN lm) (inV lm t) (inV lm w)) (toCIELAB (FN lm) t w) /\ evV lm (fromCIELAB (EN lm) (inV lm t) (inV lm w)) (fromCIELAB (FN lm) t w).
Proof. exact (lab_plain lm t w). Qed.
Print Assumptions C168_unfused.
(** The compared values do not depend on the choice: the ratios in [toCIELAB], fy, fx and fz in [fromCIELAB]. *)
Theorem C168_compared (lm : libm) (t w l a b q : f32) : (ev lm (@fdiv (EN lm) (Val t) (Val w)) q -> q = @fdiv (FN lm) t w) /\
  let fy (n : Num) (x : F n) := @fdiv n (@fadd n x (@flit n 16%dec)) (@flit n 116%dec) in
  (ev lm (fy (EN lm) (Val l)) q -> q = fy (FN lm) l) /\
  (ev lm (@fadd (EN lm) (fy (EN lm) (Val l)) (@fdiv (EN lm) (Val a) (@flit (EN lm) 500%dec))) q -> q = @fadd (FN lm) (fy (FN lm) l) (@fdiv (FN lm) a (@flit (FN lm) 500%dec))) /\
  (ev lm (@fsub (EN lm) (fy (EN lm) (Val l)) (@fdiv (EN lm) (Val b) (@flit (EN lm) 200%dec))) q -> q = @fsub (FN lm) (fy (FN lm) l) (@fdiv (FN lm) b (@flit (FN lm) 200%dec))).
Proof. exact (lab_compared lm t w l a b q). Qed.
Print Assumptions C168_compared.
Theorem C168_choice_matters (lm : libm) : exists t w r r', evV lm (toCIELAB (EN lm) (inV lm t) (inV lm w)) r /\ evV lm (toCIELAB (EN lm) (inV lm t) (inV lm w)) r' /\ B2R (v0 r) <> B2R (v0 r').
Proof. exact (lab_matters lm). Qed.
Print Assumptions C168_choice_matters.
(** Mid grey, D50. *)
Example C168_case (lm : libm) : accurate lm -> let t := V3 (@flit (FN lm) 0.5%dec) (@flit (FN lm) 0.5%dec) (@flit (FN lm) 0.5%dec) in let w := lab_default_white (FN lm) in
  exists s r, evV lm (toCIELAB (EN lm) (inV lm t) (inV lm w)) s /\ evV lm (fromCIELAB (EN lm) (inV lm s) (inV lm w)) r /\ near (v1 r) 0.5 (83 * u).
Proof. exact (case168 lm). Qed.
Print Assumptions C168_case.
