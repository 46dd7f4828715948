(** * Properties C117 onwards. *)
From Coq Require Import ZArith Reals List.
From Flocq Require Import Core BinarySingleNaN.
From Verif Require Import Num NumR NumF MVec MTri RTac PMat F32 PMatF PHsvF PGamut PNearF PLocF PGamF PGamF2 PGamF3 PBradF MDelta PDelta POkF PYuvF SpecMat PInvF.
Local Open Scope R_scope.

(** C117: the Planckian-locus spline in binary32; [near x r e]: x is finite and within e of r; [u] = 2^-24. *)
Theorem C117_locus_binary32 (lm : libm) (T Y : f32) : fin T -> fin Y -> 1667 <= B2R T <= 25000 -> 1e-6 <= B2R Y <= 1e6 ->
  exists X' Z' X Z, fromPlanckianLocus (FN lm) T Y = V3 X' Y Z' /\
    fromPlanckianLocus RN (Some (B2R T)) (Some (B2R Y)) = finV (V3 X (B2R Y) Z) /\
    near X' X (48 * u * B2R Y) /\ near Z' Z (128 * u * B2R Y) /\ 0 < B2R X' /\ 0 < B2R Z'.
Proof. exact (locus_near lm T Y). Qed.
Print Assumptions C117_locus_binary32.
Example C117_case (lm : libm) : let N := FN lm in let t : Vector3 f32 := fromPlanckianLocus N (@flit N 6504%dec) (@flit N 1%dec) in
  V3 (B2SF (v0 t)) (B2SF (v1 t)) (B2SF (v2 t)) = V3 (SpecFloat.S754_finite false 16249962 (-24)) (SpecFloat.S754_finite false 8388608 (-23)) (SpecFloat.S754_finite false 9409035 (-23)).
Proof. vm_compute. reflexivity. Qed.

(** C118: conversion between any two predefined gamuts. [near_app K f e M]: [f] is finite and each
    component is within [K u M + 4 eta] of the real one (PGamF2.v); [norm3]: largest magnitude. *)
Theorem C118_convert_binary32 (lm : libm) (G H : forall N : Num, Gamut (F N)) (t : Vector3 f32) :
  let all := (AdobeRGB :: Rec709 :: Rec2020 :: DCI_P3 :: S_Gamut :: S_Gamut3_Cine :: ACEScg :: ACES2065 :: LMS :: XYZ_gamut :: nil)%list in
  In G all -> In H all -> allV fin t -> norm3 t <= bpow radix2 110 ->
  exists e, M_apply RN (GamutConvert RN (G RN) (H RN)) (finV (vR t)) = finV e /\
    near_app 32 (M_apply (FN lm) (GamutConvert (FN lm) (G (FN lm)) (H (FN lm))) t) e (norm3 t).
Proof. exact (convert_named lm G H t). Qed.
Print Assumptions C118_convert_binary32.
(** Not exact: Rec.709 white in AdobeRGB. *)
Example C118_case (lm : libm) : let N := FN lm in let w := V3 (@flit N 1%dec) (@flit N 1%dec) (@flit N 1%dec) in
  allV (fun x => is_finite x = true) w /\
  vSF (M_apply N (GamutConvert N (Rec709 N) (AdobeRGB N)) w) = V3 (SpecFloat.S754_finite false 8388610 (-23)) (SpecFloat.S754_finite false 8388610 (-23)) (SpecFloat.S754_finite false 8388609 (-23)).
Proof. split; [repeat split; vm_compute; reflexivity|vm_compute; reflexivity]. Qed.

(** C119: Bradford adaptation; [cone w] is the published Bradford matrix applied to [w], [m] a lower bound on
    the cone responses of the source white. The last clause: the source white goes to the destination white. *)
Theorem C119_bradford_binary32 (lm : libm) (s d : Vector3 f32) (m : R) : 0.25 <= m <= 1 ->
  allV fin s -> allV fin d -> norm3 s <= 1.25 -> norm3 d <= 1.25 ->
  m <= v0 (cone (vR s)) -> m <= v1 (cone (vR s)) -> m <= v2 (cone (vR s)) ->
  (forall t, allV fin t -> norm3 t <= bpow radix2 110 ->
    exists e, M_apply RN (Bradford RN (finV (vR s)) (finV (vR d))) (finV (vR t)) = finV e /\
      near_app (332 / (m * m)) (M_apply (FN lm) (Bradford (FN lm) s d) t) e (norm3 t)) /\
  near_app (332 / (m * m)) (M_apply (FN lm) (Bradford (FN lm) s d) s) (vR d) (norm3 s).
Proof. exact (Bradford_binary32 lm s d m). Qed.
Print Assumptions C119_bradford_binary32.
Example C119_case (lm : libm) : let s : Vector3 f32 := Illuminant_A (FN lm) in let d : Vector3 f32 := Illuminant_D65 (FN lm) in
  allV fin s /\ allV fin d /\ norm3 s <= 1.25 /\ norm3 d <= 1.25 /\
  0.3 <= v0 (cone (vR s)) /\ 0.3 <= v1 (cone (vR s)) /\ 0.3 <= v2 (cone (vR s)).
Proof. exact (Bradford_case lm). Qed.

(** C120: Oklab there and back in binary32. [cbrt_ok lm]: the library's [cbrtf] has relative error at most 4u (POkF.v). *)
Theorem C120_oklab_binary32 (lm : libm) (t : Vector3 f32) : cbrt_ok lm -> allV fin t -> norm3 t <= 1e30 ->
  let t' := OKLAB_to_XYZ (FN lm) (XYZ_to_OKLAB (FN lm) t) in
  allV fin t' /\ Rabs (B2R (v0 t') - B2R (v0 t)) <= 540 * u * norm3 t + 1e-37 /\
  Rabs (B2R (v1 t') - B2R (v1 t)) <= 540 * u * norm3 t + 1e-37 /\ Rabs (B2R (v2 t') - B2R (v2 t)) <= 540 * u * norm3 t + 1e-37.
Proof. exact (oklab_roundtrip lm t). Qed.
Print Assumptions C120_oklab_binary32.
(** Such libraries exist, and the D65 white is within the hypotheses. *)
Example C120_case : (exists lm, cbrt_ok lm) /\ forall lm, let t : Vector3 f32 := Illuminant_D65 (FN lm) in allV fin t /\ norm3 t <= 1e30.
Proof. exact oklab_case. Qed.

(** C121: CIE 1960 (u, v) in binary32. *)
Theorem C121_toYuv_accuracy (lm : libm) (X Y Z : f32) : fin X -> fin Y -> fin Z -> 0 <= B2R X -> 0 <= B2R Y -> 0 <= B2R Z ->
  2e-8 <= B2R X + B2R Y + B2R Z <= 1e30 ->
  exists p q, toYuv (FN lm) (V3 X Y Z) = V3 Y p q /\ fin p /\ fin q /\
  let D := B2R X + 15 * B2R Y + 3 * B2R Z in
  Rabs (B2R p - 4 * B2R X / D) <= 17 * u * (4 * B2R X / D) + 1e-43 /\ Rabs (B2R q - 6 * B2R Y / D) <= 17 * u * (6 * B2R Y / D) + 1e-43.
Proof. exact (toYuv_acc lm X Y Z). Qed.
Print Assumptions C121_toYuv_accuracy.
Theorem C121_Yxy_Yuv_Yxy (lm : libm) (Y x y : f32) : fin x -> fin y -> 0 <= B2R x -> 0 <= B2R y -> B2R x + B2R y <= 1.0001 ->
  exists x' y' : f32, YuvToYxy (FN lm) (YxyToYuv (FN lm) (V3 Y x y)) = V3 Y x' y' /\ fin x' /\ fin y' /\
    Rabs (B2R x' - B2R x) <= 48 * u * B2R x + 1e-43 /\ Rabs (B2R y' - B2R y) <= 48 * u * B2R y + 1e-43.
Proof. exact (yxy_yuv lm Y x y). Qed.
Print Assumptions C121_Yxy_Yuv_Yxy.
(** The luminance comes back bit for bit. *)
Theorem C121_XYZ_Yuv_XYZ (lm : libm) (X Y Z : f32) : fin X -> fin Y -> fin Z -> 0 <= B2R X -> 0 <= B2R Y -> 0 <= B2R Z ->
  let S := B2R X + B2R Y + B2R Z in 1e-6 <= S <= 1e6 -> 1e-6 * S <= B2R Y ->
  exists X' Z', fromYuv (FN lm) (toYuv (FN lm) (V3 X Y Z)) = V3 X' Y Z' /\ fin X' /\ fin Z' /\
  Rabs (B2R X' - B2R X) <= 106 * u * B2R X + 1e-30 /\ Rabs (B2R Z' - B2R Z) <= 110 * u * S.
Proof. exact (yuv_round lm X Y Z). Qed.
Print Assumptions C121_XYZ_Yuv_XYZ.
(** Not exact: the computed X and Z are one and two units away from the literals 0.2 and 0.7. *)
Example C121_case (lm : libm) : let N := FN lm in
  vSF (fromYuv N (toYuv N (V3 (@flit N 0.2%dec) (@flit N 0.3%dec) (@flit N 0.7%dec)))) =
  V3 (SpecFloat.S754_finite false 13421772 (-26)) (SpecFloat.S754_finite false 10066330 (-25)) (SpecFloat.S754_finite false 11744053 (-24)).
Proof. vm_compute. reflexivity. Qed.

(** C122: determinant and inverse in binary32. [sm x]: x is finite and |x| <= 1e9; [perm a]: the sum of the absolute
    values of the six products of the determinant, so [perm a / |det a|] measures the cancellation in it. *)
Theorem C122_determinant (lm : libm) (m : Matrix3 f32) : allM sm m -> near (M_det (FN lm) m) (detR (mR m)) (7.01 * u * perm (mR m) + 2e-35).
Proof. exact (fun H => proj1 (det_error lm m H)). Qed.
Print Assumptions C122_determinant.
(** Each entry against the cofactor formula. *)
Theorem C122_inverse (lm : libm) (m : Matrix3 f32) : allM sm m ->
  let a := mR m in let D := detR a in let W := perm a in 1e-18 <= Rabs D -> W <= 20000 * Rabs D ->
  let ok (x : f32) (p q r s : R) := near x ((p * q - r * s) / D) (12 * u * (W / Rabs D) * ((Rabs (p * q) + Rabs (r * s)) / Rabs D) + 1e-26) in
  let i := M_invert (FN lm) m in
  ok (m0 i) (m4 a) (m8 a) (m5 a) (m7 a) /\ ok (m1 i) (m2 a) (m7 a) (m1 a) (m8 a) /\ ok (m2 i) (m1 a) (m5 a) (m2 a) (m4 a) /\
  ok (m3 i) (m5 a) (m6 a) (m3 a) (m8 a) /\ ok (m4 i) (m0 a) (m8 a) (m2 a) (m6 a) /\ ok (m5 i) (m2 a) (m3 a) (m0 a) (m5 a) /\
  ok (m6 i) (m3 a) (m7 a) (m4 a) (m6 a) /\ ok (m7 i) (m1 a) (m6 a) (m0 a) (m7 a) /\ ok (m8 i) (m0 a) (m4 a) (m1 a) (m3 a).
Proof. exact (inverse_error lm m). Qed.
Print Assumptions C122_inverse.
Example C122_case (lm : libm) : let z (k : Z) : f32 := @fofZ (FN lm) k in let m := M3 (z 2%Z) (z 1%Z) (z 0%Z) (z 0%Z) (z 3%Z) (z 1%Z) (z 1%Z) (z 0%Z) (z 1%Z) in
  allM sm m /\ 1e-18 <= Rabs (detR (mR m)) /\ perm (mR m) <= 20000 * Rabs (detR (mR m)).
Proof. exact (inverse_case lm). Qed.
