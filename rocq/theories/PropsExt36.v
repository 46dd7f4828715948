(** * Property C161: for which HSV triples the conversion back is defined, in binary32. *)
From Coq Require Import ZArith Reals.
From Flocq Require Import Core BinarySingleNaN.
From Verif Require Import Num NumF MVec MTri F32 PHsvU.
Local Open Scope R_scope.

(** C161: fromHSV returns for every triple.  REFUTED: a NaN hue is converted to an integer, which is undefined behaviour, and for an
    infinite hue or one beyond 2^33 the normalisation never ends. *)
Theorem C161_nan_hue_refuted (lm : libm) (s v : f32) : terminates_with (fun n => fromHSV (FN lm) n (V3 (B754_nan : f32) s v)) UB.
Proof. exact (from_nan lm s v). Qed.
Print Assumptions C161_nan_hue_refuted.
Theorem C161_large_hue_refuted (lm : libm) (h s v : f32) : (exists b, h = B754_infinity b) \/ (is_finite h = true /\ bpow radix2 33 < Rabs (B2R h)) ->
  never_terminates (fun n => fromHSV (FN lm) n (V3 h s v)).
Proof. exact (from_never lm h s v). Qed.
Print Assumptions C161_large_hue_refuted.
(** It returns exactly for the finite hues up to 2^33 in magnitude, whatever saturation and value are (including infinities and NaN). *)
Theorem C161_returns_partial (lm : libm) (h s v : f32) :
  (exists t, terminates_with (fun n => fromHSV (FN lm) n (V3 h s v)) (Ret t)) <-> is_finite h = true /\ Rabs (B2R h) <= bpow radix2 33.
Proof. exact (from_iff lm h s v). Qed.
Print Assumptions C161_returns_partial.
(** Such a NaN hue is what toHSV itself produces: converting a colour with infinite red and green to HSV and back is undefined. *)
Theorem C161_round_trip_refuted (lm : libm) (b : f32) : is_finite b = true ->
  terminates_with (fun n => let! h := toHSV (FN lm) n (V3 (B754_infinity false : f32) (B754_infinity false : f32) b) in fromHSV (FN lm) n h) UB.
Proof. exact (back_ub lm b). Qed.
Print Assumptions C161_round_trip_refuted.
Example C161_case (lm : libm) : exists h : f32, is_finite h = true /\ B2R h = 400 /\ Rabs (B2R h) <= bpow radix2 33.
Proof. exact (hue400 lm). Qed.
