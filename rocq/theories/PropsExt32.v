(** * Property C156. *)
From Coq Require Import ZArith Reals.
From Flocq Require Import Core BinarySingleNaN.
From Verif Require Import Num NumR NumF MVec MTri F32 RTac PHsv PHsvF PMatF PLibm PE00acc PE00acc8 PHsvAF.
Local Open Scope R_scope.

(** C156: the arctangent variant of the HSV conversion in binary32.  For channels between 0 and 2^120 whose spread D (largest
    minus smallest) is at least 2^-100 and at least 1/65536 of the largest channel M, with different second and third channels,
    it terminates; the value is exact, the saturation within 2.01 * 2^-24 and the hue, measured around the circle, within
    (140 M/D + 2100) * 2^-24 degrees of the exact result. *)
Theorem C156_toHSV_atan_accuracy (lm : libm) (t : Vector3 f32) : accurate_trig lm ->
  let M := max3 (tR t) in let D := M - min3 (tR t) in let B := (140 * (M / D) + 2100) * u in
  allV fin t -> allV (fun x => 0 <= B2R x <= bpow radix2 120) t -> bpow radix2 (-100) <= D -> M <= 65536 * D -> B2R (v1 t) <> B2R (v2 t) ->
  exists (h s v : f32) (hr sr vr : R), terminates_with (fun n => toHSV_atan (FN lm) n t) (Ret (V3 h s v)) /\ allV fin (V3 h s v) /\
    terminates_with (fun n => toHSV_atan RN n (finV (tR t))) (Ret (finV (V3 hr sr vr))) /\ 0 <= B2R h <= 360 /\
    B2R v = vr /\ Rabs (B2R s - sr) <= 2.01 * u /\ (Rabs (B2R h - hr) <= B \/ Rabs (B2R h - hr + 360) <= B \/ Rabs (B2R h - hr - 360) <= B).
Proof. exact (fun Tr => hsv_atan_acc lm Tr t). Qed.
Print Assumptions C156_toHSV_atan_accuracy.
Example C156_case : (exists lm, accurate_trig lm) /\ let t := V3 (lit 24 128 p24 p24e 1%dec) (lit 24 128 p24 p24e 0.25%dec) (lit 24 128 p24 p24e 0.5%dec) in
  allV fin t /\ allV (fun x => 0 <= B2R x <= bpow radix2 120) t /\ bpow radix2 (-100) <= max3 (tR t) - min3 (tR t) /\
  max3 (tR t) <= 65536 * (max3 (tR t) - min3 (tR t)) /\ B2R (v1 t) <> B2R (v2 t).
Proof. exact atan_case. Qed.
