(** * Property C165: HSV when the compiler fuses multiplications and subtractions.

    [evV lm e r]: the triple [r] is a value of the expressions [e] for some choice of fused operations (MFma.v).  Whatever the conversions
    compare or truncate is computed without any operation that can be fused, so the branches taken do not depend on the choice. *)
From Coq Require Import ZArith Reals.
From Flocq Require Import Core BinarySingleNaN.
From Verif Require Import Num NumF MVec MTri MFma F32 PMatF PMod360 PFma7.
Local Open Scope R_scope.

(** C165: converting to HSV gives one result only, that of the unfused program. *)
Theorem C165_toHSV (lm : libm) (n : nat) (t r : Vector3 f32) : toHSV (FN lm) n t = Ret r ->
  exists e, toHSV (EN lm) n (inV lm t) = Ret e /\ forall r', evV lm e r' <-> r' = r.
Proof. exact (toHSV_fused lm n t r). Qed.
Print Assumptions C165_toHSV.
(** Converting back: the ranges of C91 hold for every choice. *)
Theorem C165_fromHSV_range (lm : libm) (h s v : f32) :
  fin h -> fin s -> fin v -> Rabs (B2R h) <= bpow radix2 33 -> 0 <= B2R s <= 1 -> 0 <= B2R v ->
  exists e, terminates_with (fun n => fromHSV (EN lm) n (inV lm (V3 h s v))) (Ret e) /\ forall t, evV lm e t -> allV fin t /\
    allV (fun x => 0 <= B2R x <= B2R v) t /\ (B2R (v0 t) = B2R v \/ B2R (v1 t) = B2R v \/ B2R (v2 t) = B2R v) /\
    exists m, (m = B2R (v0 t) \/ m = B2R (v1 t) \/ m = B2R (v2 t)) /\ allV (fun x => m <= B2R x) t /\
      Rabs (m - B2R v * (1 - B2R s)) <= 3.01 * u * B2R v + eta.
Proof. exact (from_range_fused lm h s v). Qed.
Print Assumptions C165_fromHSV_range.
(** There and back: the bound of C92 holds for every choice. *)
Theorem C165_round_trip (lm : libm) (t : Vector3 f32) : allV fin t -> allV (fun x => 0 <= B2R x <= bpow radix2 120) t ->
  exists e, terminates_with (fun n => let! h := toHSV (EN lm) n (inV lm t) in fromHSV (EN lm) n h) (Ret e) /\ forall t', evV lm e t' -> allV fin t' /\
    let M := Rmax (Rmax (B2R (v0 t)) (B2R (v1 t))) (B2R (v2 t)) in
    Rabs (B2R (v0 t') - B2R (v0 t)) <= 24 * u * M + eta /\
    Rabs (B2R (v1 t') - B2R (v1 t)) <= 24 * u * M + eta /\
    Rabs (B2R (v2 t') - B2R (v2 t)) <= 24 * u * M + eta.
Proof. exact (hsv_rt_fused lm t). Qed.
Print Assumptions C165_round_trip.
(** Fusing nothing is one of the choices. *)
Theorem C165_unfused (lm : libm) (n : nat) (t r : Vector3 f32) : fromHSV (FN lm) n t = Ret r ->
  exists e, fromHSV (EN lm) n (inV lm t) = Ret e /\ evV lm e r.
Proof. exact (from_plain lm n t r). Qed.
Print Assumptions C165_unfused.
(** The choice does change the result of the way back. *)
Theorem C165_choice_matters (lm : libm) : exists t e r r', fromHSV (EN lm) 1 (inV lm t) = Ret e /\ evV lm e r /\ evV lm e r' /\ B2R (v0 r) <> B2R (v0 r').
Proof. exact (hsv_matters lm). Qed.
Print Assumptions C165_choice_matters.
(** Hue 110, saturation 0.7, value 1. *)
Example C165_case (lm : libm) : let t := hA lm in
  fin (v0 t) /\ fin (v1 t) /\ fin (v2 t) /\ B2R (v0 t) = 110 /\ B2R (v2 t) = 1 /\ Rabs (B2R (v0 t)) <= bpow radix2 33 /\ 0 <= B2R (v1 t) <= 1 /\ 0 <= B2R (v2 t).
Proof. exact (hA_case lm). Qed.
Print Assumptions C165_case.
