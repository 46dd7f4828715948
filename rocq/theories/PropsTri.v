(** * Properties C07-C11, C14: clipping, Yxy, Yuv, hue normalisation. *)
From Coq Require Import ZArith Reals Lra Lia List.
From Flocq Require Import Core BinarySingleNaN.
From Verif Require Import Num NumR NumF MVec MTri SpecMat RTac PMat PVec F32 PMatF PClip PTri PMod360.
Local Open Scope R_scope.

(** C07: every float input, NaN and infinities included. *)
Theorem C07_clip (lm : libm) (t : Vector3 f32) (l h : f32) :
  @fleb (FN lm) l h = true ->
  exists c, T_clip (FN lm) t l h = c /\
    allV (fun y => @fleb (FN lm) l y = true /\ @fleb (FN lm) y h = true) c /\
    T_clip (FN lm) c l h = c /\
    forall i x y, V_index t i = Ret x -> V_index c i = Ret y ->
      (@fltb (FN lm) l x = true -> @fltb (FN lm) x h = true -> y = x) /\
      (@fleb (FN lm) l x = true -> @fleb (FN lm) x h = true -> @feqb (FN lm) y x = true) /\
      (@fleb (FN lm) x l = true -> y = l) /\
      (@fleb (FN lm) h x = true -> @feqb (FN lm) y h = true) /\
      (x = B754_nan -> @feqb (FN lm) y h = true).
Proof. exact (C07_clip_l lm t l h). Qed.
Print Assumptions C07_clip.
Theorem C07_positive (lm : libm) (t : Vector3 f32) :
  exists c, T_positive (FN lm) t = c /\
    forall i x y, V_index t i = Ret x -> V_index c i = Ret y ->
      @fleb (FN lm) (fofZ 0) y = true /\
      (@fltb (FN lm) (fofZ 0) x = true -> y = x) /\
      (@fltb (FN lm) (fofZ 0) x = false -> y = fofZ 0).
Proof. exact (C07_positive_l lm t). Qed.
Print Assumptions C07_positive.
Theorem C07_hasNegative (lm : libm) (t : Vector3 f32) :
  T_hasNegative (FN lm) t = true <->
  exists i x, V_index t i = Ret x /\ @fltb (FN lm) x (fofZ 0) = true.
Proof. exact (C07_hasNegative_l lm t). Qed.
Print Assumptions C07_hasNegative.
Example C07_case : let N := FN no_libm in
  @fleb N (fofZ 0) (fofZ 1) = true /\
  vSF (T_clip N (V3 (B754_nan : f32) (B754_infinity true) (@flit N 0.25)) (fofZ 0) (fofZ 1))
    = vSF (V3 (@fofZ N 1) (fofZ 0) (@flit N 0.25)).
Proof. split; vm_compute; reflexivity. Qed.

(** C08: [eps8] is 1e-8. *)
Theorem C08_XYZ_Yxy_XYZ (X Y Z : R) :
  eps8 <= Rabs (X + Y + Z) -> eps8 <= Rabs (Y / (X + Y + Z)) ->
  fromYxy RN (toYxy RN (finV (V3 X Y Z))) = finV (V3 X Y Z).
Proof. exact (C08_l1 X Y Z). Qed.
Print Assumptions C08_XYZ_Yxy_XYZ.
Theorem C08_Yxy_XYZ_Yxy (Y x y : R) :
  eps8 <= Rabs y -> eps8 <= Rabs (Y / y) ->
  toYxy RN (fromYxy RN (finV (V3 Y x y))) = finV (V3 Y x y).
Proof. exact (C08_l2 Y x y). Qed.
Print Assumptions C08_Yxy_XYZ_Yxy.
(** the chromaticities are the CIE ones *)
Theorem C08_chromaticity (X Y Z : R) : eps8 <= Rabs (X + Y + Z) ->
  toYxy RN (finV (V3 X Y Z)) = finV (V3 Y (X / (X + Y + Z)) (Y / (X + Y + Z))).
Proof. exact (toYxy_ok X Y Z). Qed.
Print Assumptions C08_chromaticity.
Theorem C08_luminance_exact (N : Num) (t : Vector3 (F N)) :
  v0 (toYxy N t) = v1 t /\ v1 (fromYxy N t) = v0 t /\ v0 (toYuv N t) = v1 t /\ v1 (fromYuv N t) = v0 t.
Proof. exact (C08_l3 N t). Qed.
Print Assumptions C08_luminance_exact.
Example C08_case : eps8 <= Rabs (0.5 + 0.4 + 0.3) /\ eps8 <= Rabs (0.4 / (0.5 + 0.4 + 0.3)).
Proof. rewrite !Rabs_pos_eq by lra. unfold eps8. lra. Qed.

(** C09 *)
Theorem C09_black_and_totality (t : Vector3 R) :
  (exists r, toYxy RN (finV t) = finV r) /\ (exists r, fromYxy RN (finV t) = finV r) /\
  (Rabs (v0 t + v1 t + v2 t) < eps8 -> toYxy RN (finV t) = finV (V3 (v1 t) (3127 / 10000) (3290 / 10000))) /\
  (Rabs (v2 t) < eps8 -> fromYxy RN (finV t) = finV (V3 0 (v0 t) 0)).
Proof. exact (C09_l t). Qed.
Print Assumptions C09_black_and_totality.
Example C09_case : Rabs (1 + -1 + 0) < eps8.
Proof. replace (1 + -1 + 0) with 0 by lra. rewrite Rabs_R0. unfold eps8. lra. Qed.

(** C10 *)
Theorem C10_XYZ_Yuv_XYZ (X Y Z : R) :
  eps8 <= Rabs (X + Y + Z) -> eps8 <= Rabs (Y / (X + Y + Z)) -> X + 15 * Y + 3 * Z <> 0 ->
  toYuv RN (finV (V3 X Y Z)) =
    finV (V3 Y (4 * X / (X + 15 * Y + 3 * Z)) (6 * Y / (X + 15 * Y + 3 * Z))) /\
  fromYuv RN (toYuv RN (finV (V3 X Y Z))) = finV (V3 X Y Z).
Proof. exact (C10_l X Y Z). Qed.
Print Assumptions C10_XYZ_Yuv_XYZ.
Theorem C10_Yuv_XYZ_Yuv (Y u v : R) : 2 * u - 8 * v + 4 <> 0 ->
  eps8 <= Rabs (2 * v / (2 * u - 8 * v + 4)) -> eps8 <= Rabs (Y / (2 * v / (2 * u - 8 * v + 4))) ->
  toYuv RN (fromYuv RN (finV (V3 Y u v))) = finV (V3 Y u v).
Proof. exact (C10_l2 Y u v). Qed.
Print Assumptions C10_Yuv_XYZ_Yuv.
Example C10_case : eps8 <= Rabs (1 + 1 + 1) /\ eps8 <= Rabs (1 / (1 + 1 + 1)) /\ 1 + 15 * 1 + 3 * 1 <> 0 /\
  2 * 0.2 - 8 * 0.3 + 4 <> 0 /\ eps8 <= Rabs (2 * 0.3 / (2 * 0.2 - 8 * 0.3 + 4)) /\
  eps8 <= Rabs (1 / (2 * 0.3 / (2 * 0.2 - 8 * 0.3 + 4))).
Proof.
  replace (2 * 0.3 / (2 * 0.2 - 8 * 0.3 + 4)) with 0.3 by lra.
  rewrite !Rabs_pos_eq by lra. unfold eps8. lra.
Qed.

(** C11: the README's CIE 1976 u'v' is not what is computed. *)
Theorem C11_yuv_is_cie1976_refuted :
  exists X Y Z : R, eps8 <= Rabs (X + Y + Z) /\ 0 < X + 15 * Y + 3 * Z /\
  toYuv RN (finV (V3 X Y Z)) <>
  finV (V3 Y (4 * X / (X + 15 * Y + 3 * Z)) (9 * Y / (X + 15 * Y + 3 * Z))).
Proof. exact C11_l. Qed.
Print Assumptions C11_yuv_is_cie1976_refuted.
(** what does hold: u = u', v = (2/3) v'. *)
Theorem C11_yuv_is_cie1960_partial (X Y Z : R) :
  eps8 <= Rabs (X + Y + Z) -> X + 15 * Y + 3 * Z <> 0 ->
  toYuv RN (finV (V3 X Y Z)) =
  finV (V3 Y (4 * X / (X + 15 * Y + 3 * Z)) (6 * Y / (X + 15 * Y + 3 * Z))).
Proof. exact (toYuv_ok X Y Z). Qed.
Print Assumptions C11_yuv_is_cie1960_partial.
Example C11_case : eps8 <= Rabs (1 + 1 + 1) /\ 1 + 15 * 1 + 3 * 1 <> 0.
Proof. rewrite !Rabs_pos_eq by lra. unfold eps8. lra. Qed.

(** C14 *)
Theorem C14_mod360_real (r : R) :
  exists y j, 0 <= y <= 360 /\ r = y + 360 * IZR j /\
    (0 <= r <= 360 -> y = r) /\
    terminates_with (fun n => mod360 RN n (Some r)) (Ret (Some y)).
Proof. exact (C14_real_l r). Qed.
Print Assumptions C14_mod360_real.
Theorem C14_mod360_float (lm : libm) (r : f32) :
  (fin r -> Rabs (B2R r) <= bpow radix2 33 ->
     exists y, fin y /\ 0 <= B2R y <= 360 /\ (0 <= B2R r <= 360 -> y = r) /\
       terminates_with (fun n => mod360 (FN lm) n r) (Ret y)) /\
  (fin r -> bpow radix2 33 < Rabs (B2R r) -> never_terminates (fun n => mod360 (FN lm) n r)) /\
  (forall s, r = B754_infinity s -> never_terminates (fun n => mod360 (FN lm) n r)) /\
  (r = B754_nan -> terminates_with (fun n => mod360 (FN lm) n r) (Ret r)).
Proof. exact (C14_float_l lm r). Qed.
Print Assumptions C14_mod360_float.
(** below 2^27 the result is congruent to the argument modulo 360: exactly when it is not negative, within 2^-16 otherwise. *)
Theorem C14_mod360_float_congruent (lm : libm) (r : f32) : fin r -> Rabs (B2R r) < bpow radix2 27 ->
  exists y j, terminates_with (fun n => mod360 (FN lm) n r) (Ret y) /\ fin y /\
    Rabs (B2R y - (B2R r - 360 * IZR j)) <= bpow radix2 (-16) /\ (0 <= B2R r -> B2R y = B2R r - 360 * IZR j).
Proof. exact (mod360_F_congruent lm r). Qed.
Print Assumptions C14_mod360_float_congruent.
Example C14_case : let N := FN no_libm in
  oSF (mod360 N 5 (@flit N 1000)) = oSF (Ret (@flit N 280)) /\ mod360 N 3 (@flit N 1e10) = Timeout.
Proof. split; vm_compute; reflexivity. Qed.
