(** * Property C159: when the HSV conversions return, in binary32. *)
From Coq Require Import ZArith Reals.
From Flocq Require Import Core BinarySingleNaN.
From Verif Require Import Num NumF MVec MTri F32 PMatF PHsv PHsvF PLibm PHsvT.
Local Open Scope R_scope.

(** C159: toHSV returns for every colour.  REFUTED: it never returns for any finite colour with red >= green, blue >= 0 and
    green - blue >= 2^123 (about 1.1e37); 60 times that difference overflows, and the hue normalisation then subtracts 360 from
    infinity for ever. *)
Theorem C159_returns_refuted (lm : libm) (r g b : f32) : fin r -> fin g -> fin b -> 0 <= B2R b -> B2R g <= B2R r -> bpow radix2 123 <= B2R g - B2R b ->
  never_terminates (fun n => toHSV (FN lm) n (V3 r g b)).
Proof. exact (toHSV_hang lm r g b). Qed.
Print Assumptions C159_returns_refuted.
(** It does return for every finite colour, of any signs, whose channels are within 2^120 of each other ... *)
Theorem C159_finite_partial (lm : libm) (t : Vector3 f32) : allV fin t -> max3 (tR t) - min3 (tR t) <= bpow radix2 120 ->
  exists r, terminates_with (fun n => toHSV (FN lm) n t) (Ret r).
Proof. exact (toHSV_fin lm t). Qed.
Print Assumptions C159_finite_partial.
(** ... and for every colour with an infinite or NaN channel. *)
Theorem C159_not_finite_partial (lm : libm) (t : Vector3 f32) : ~ allV fin t -> exists r, terminates_with (fun n => toHSV (FN lm) n t) (Ret r).
Proof. exact (toHSV_nonfin lm t). Qed.
Print Assumptions C159_not_finite_partial.
(** The arctangent variant returns for every colour, whatever the library, if its atan2 gives a NaN or at most 4 in size. *)
Theorem C159_atan_partial (lm : libm) (t : Vector3 f32) :
  (forall y x : f32, lm_atan2f lm y x = B754_nan \/ (fin (lm_atan2f lm y x) /\ Rabs (B2R (lm_atan2f lm y x)) <= 4)) ->
  exists r, terminates_with (fun n => toHSV_atan (FN lm) n t) (Ret r).
Proof. exact (atan_all lm t). Qed.
Print Assumptions C159_atan_partial.
Example C159_case : exists lm, (forall y x : f32, lm_atan2f lm y x = B754_nan \/ (fin (lm_atan2f lm y x) /\ Rabs (B2R (lm_atan2f lm y x)) <= 4)) /\ accurate lm /\
  let r := lit 24 128 p24 p24e 3e38%dec in let g := lit 24 128 p24 p24e 1e38%dec in let b := lit 24 128 p24 p24e 1%dec in
  fin r /\ fin g /\ fin b /\ 0 <= B2R b /\ B2R g <= B2R r /\ bpow radix2 123 <= B2R g - B2R b.
Proof. exact hang_case. Qed.
