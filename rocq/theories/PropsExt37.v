(** * Property C162: Euclidean colour differences when the compiler fuses multiplications and additions.

    [ev lm e r]: [r] is a value of the expression [e] for some choice of fused operations (MFma.v).  [close p q]: finite colours whose
    components differ by at most 2^60.  [dist3], [dist2]: the Euclidean distance of all three, respectively the last two, components. *)
From Coq Require Import ZArith Reals.
From Flocq Require Import Core BinarySingleNaN.
From Verif Require Import Num NumF MVec MDelta MFma F32 PMatF PEuclF PFma5.
Local Open Scope R_scope.

(** C162: the bounds of C94 hold for every choice. *)
Theorem C162_error (lm : libm) (p q : Vector3 f32) (r : f32) : close p q ->
  (ev lm (Delta_E76 (EN lm) (inV lm p) (inV lm q)) r -> fin r /\ Rabs (B2R r - dist3 p q) <= 4 * u * dist3 p q + bpow radix2 (-73)) /\
  (ev lm (Delta_UV (EN lm) (inV lm p) (inV lm q)) r -> fin r /\ Rabs (B2R r - dist2 p q) <= 4 * u * dist2 p q + bpow radix2 (-73)).
Proof. exact (fun C => conj (E76_fused lm p q r C) (UV_fused lm p q r C)). Qed.
Print Assumptions C162_error.
(** Exchanging the colours gives the same values. *)
Theorem C162_symmetric (lm : libm) (p q : Vector3 f32) (r : f32) : close p q ->
  (ev lm (Delta_E76 (EN lm) (inV lm p) (inV lm q)) r -> exists r', ev lm (Delta_E76 (EN lm) (inV lm q) (inV lm p)) r' /\ B2R r' = B2R r) /\
  (ev lm (Delta_UV (EN lm) (inV lm p) (inV lm q)) r -> exists r', ev lm (Delta_UV (EN lm) (inV lm q) (inV lm p)) r' /\ B2R r' = B2R r).
Proof. exact (fused_sym lm p q r). Qed.
Print Assumptions C162_symmetric.
(** The difference of a colour to itself is 0 for every choice. *)
Theorem C162_zero (lm : libm) (p : Vector3 f32) (r : f32) : allV fin p ->
  (ev lm (Delta_E76 (EN lm) (inV lm p) (inV lm p)) r \/ ev lm (Delta_UV (EN lm) (inV lm p) (inV lm p)) r) -> fin r /\ B2R r = 0.
Proof. exact (fused_zero lm p r). Qed.
Print Assumptions C162_zero.
(** The choice does change the result. *)
Theorem C162_choice_matters (lm : libm) : exists p q r r', close p q /\
  ev lm (Delta_E76 (EN lm) (inV lm p) (inV lm q)) r /\ ev lm (Delta_E76 (EN lm) (inV lm p) (inV lm q)) r' /\ B2R r <> B2R r'.
Proof. exact (fused_matters lm). Qed.
Print Assumptions C162_choice_matters.
(** (0.2, 1.2, 0.9) against black: a fused value whose bits are those of 1.51327… *)
Example C162_case : exists r, ev no_libm (Delta_E76 (EN no_libm) (inV no_libm (cA no_libm)) (inV no_libm (cB no_libm))) r /\ B2SF r = SpecFloat.S754_finite false 12694268 (-23).
Proof. exact case162. Qed.
