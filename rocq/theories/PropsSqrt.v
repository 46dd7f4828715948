(** * Properties C12, C13: the constexpr square root in binary32. *)
From Coq Require Import ZArith Reals Lra.
From Flocq Require Import Core BinarySingleNaN.
From Verif Require Import Num NumF MVec MTri F32 PSqrt PSqrtF.
Local Open Scope R_scope.

(** C12.  [round radix2 (FLT_exp (-149) 24) Zfloor y] is the largest binary32
    number not above [y], [... Zceil y] the smallest not below it. *)
Theorem C12_sqrtf_terminates_and_brackets (lm : libm) (x : f32) :
  is_finite x = true -> 0 <= B2R x -> exists r : f32,
  terminates_with (fun fuel => util_sqrtf (FN lm) fuel x) (Ret r) /\ is_finite r = true /\
  (B2R r = round radix2 (FLT_exp (-149) 24) Zfloor (sqrt (B2R x)) \/
   B2R r = round radix2 (FLT_exp (-149) 24) Zceil (sqrt (B2R x))).
Proof. exact (C12_l lm x). Qed.
Print Assumptions C12_sqrtf_terminates_and_brackets.
Theorem C12_sqrtf_nan (lm : libm) (x : f32) : is_finite x = false \/ B2R x < 0 ->
  terminates_with (fun fuel => util_sqrtf (FN lm) fuel x) (Ret (B754_nan : f32)).
Proof. exact (C12_nan_l lm x). Qed.
Print Assumptions C12_sqrtf_nan.
(** the smallest subnormal, 2^-149, takes the 76 iterations down to 2^-74.5. *)
Example C12_case : oSF (util_sqrtf (FN no_libm) 90 (@B754_finite 24 128 false 1 (-149) eq_refl)) =
  Ret (SpecFloat.S754_finite false 11863283 (-98)).
Proof. vm_compute. reflexivity. Qed.

(** C13 is false: [sqrtf(3)] is not the nearest float. *)
Theorem C13_correct_rounding_refuted (lm : libm) : exists x r : f32, is_finite x = true /\ B2R x = 3 /\
  terminates_with (fun fuel => util_sqrtf (FN lm) fuel x) (Ret r) /\
  B2R r <> round radix2 (FLT_exp (-149) 24) ZnearestE (sqrt (B2R x)).
Proof. exact (C13_witness lm). Qed.
Print Assumptions C13_correct_rounding_refuted.
(** What does hold: an exact root is found, and the error is below one ulp. *)
Theorem C13_exact_root_partial (lm : libm) (x y : f32) :
  is_finite x = true -> 0 <= B2R y -> B2R y * B2R y = B2R x -> exists r : f32,
  terminates_with (fun fuel => util_sqrtf (FN lm) fuel x) (Ret r) /\ B2R r = B2R y.
Proof. exact (C13_exact_l lm x y). Qed.
Print Assumptions C13_exact_root_partial.
Theorem C13_error_below_ulp_partial (lm : libm) (x r : f32) : is_finite x = true -> 0 <= B2R x ->
  terminates_with (fun fuel => util_sqrtf (FN lm) fuel x) (Ret r) ->
  Rabs (B2R r - sqrt (B2R x)) < ulp radix2 (FLT_exp (-149) 24) (sqrt (B2R x)).
Proof. exact (C13_ulp_l lm x r). Qed.
Print Assumptions C13_error_below_ulp_partial.
Example C13_case : oSF (util_sqrtf (FN no_libm) 20 (@flit (FN no_libm) 6.25)) =
  Ret (B2SF (@flit (FN no_libm) 2.5)).
Proof. vm_compute. reflexivity. Qed.
