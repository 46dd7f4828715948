(** * Properties C110-C112: published transfer functions, hexcone and ICtCp; closed formulas for C05 and C39. *)
From Coq Require Import ZArith Reals Lra.
From Verif Require Import Num NumR MVec MTri MOtf MDelta RTac SpecMat SpecOtf SpecHsv SpecIct PStd PHsv PHexcone PICtStd LPins.
Local Open Scope R_scope.

(** C110: sRGB.  Exact except at the single input that the standard assigns to the linear piece and the code to the
    power piece; there the difference is below 4e-8 (1e-7 when decoding). *)
Theorem C110_sRGB_encode (v : R) : v <> 0.0031308 -> Y_to_sRGB RN (Some v) = Some (iec_encode (unit_clip v)).
Proof. exact (iec_enc_l v). Qed.
Print Assumptions C110_sRGB_encode.
Theorem C110_sRGB_encode_all (v : R) : exists x, Y_to_sRGB RN (Some v) = Some x /\ Rabs (x - iec_encode (unit_clip v)) <= 4e-8.
Proof. exact (iec_all v). Qed.
Print Assumptions C110_sRGB_encode_all.
Theorem C110_sRGB_decode (c : R) : c <> 0.04045 -> sRGB_to_Y RN (Some c) = Some (iec_decode (unit_clip c)).
Proof. exact (iec_dec_l c). Qed.
Print Assumptions C110_sRGB_decode.
Theorem C110_sRGB_decode_all (c : R) : exists x, sRGB_to_Y RN (Some c) = Some x /\ Rabs (x - iec_decode (unit_clip c)) <= 1e-7.
Proof. exact (iec_dec_all c). Qed.
Print Assumptions C110_sRGB_decode_all.
(** BT.709. *)
Theorem C110_BT709_encode (v : R) : Y_to_BT709 RN (Some v) = Some (bt709_encode (unit_clip v)).
Proof. exact (bt_enc_l v). Qed.
Print Assumptions C110_BT709_encode.
Theorem C110_BT709_decode (c : R) : BT709_to_Y RN (Some c) = Some (bt709_decode (unit_clip c)).
Proof. exact (bt_dec_l c). Qed.
Print Assumptions C110_BT709_decode.
(** ST 2084: the library's unit is 100 cd/m2, so its 100 is 10000 cd/m2. *)
Theorem C110_ST2084_encode (v : R) : 0 < v <= 100 -> Y_to_ST2084 RN (Some v) = Some (pq_encode (100 * v)).
Proof. exact (pq_enc_l v). Qed.
Print Assumptions C110_ST2084_encode.
Theorem C110_ST2084_decode (c : R) : 0 < c <= 1 -> ST2084_to_Y RN (Some c) = Some (pq_decode c / 100).
Proof. exact (pq_dec_l c). Qed.
Print Assumptions C110_ST2084_decode.
Theorem C110_ST2084_outside (v : R) :
  (v <= 0 -> Y_to_ST2084 RN (Some v) = Some 0) /\ (100 <= v -> Y_to_ST2084 RN (Some v) = Some 1).
Proof. exact (pq_out v). Qed.
Print Assumptions C110_ST2084_outside.
(** HLG: the library's scene light is twelve times the standard's. *)
Theorem C110_HLG_encode (v : R) : 0 <= v -> exists x, Y_to_HLG RN (Some v) = Some x /\
  Rabs (x - hlg_encode (v / 12)) <= 5e-10 /\ (v <> 1 -> x = hlg_encode (v / 12)).
Proof. exact (hlg_enc_l v). Qed.
Print Assumptions C110_HLG_encode.
Theorem C110_HLG_decode (c : R) : 0 <= c -> HLG_to_Y RN (Some c) = Some (12 * hlg_decode c).
Proof. exact (hlg_dec_l c). Qed.
Print Assumptions C110_HLG_decode.
Theorem C110_HLG_negative (v : R) : v < 0 -> Y_to_HLG RN (Some v) = Some 0 /\ HLG_to_Y RN (Some v) = Some 0.
Proof. exact (hlg_neg v). Qed.
Print Assumptions C110_HLG_negative.
(** S-Log and S-Log2 (the S-Log3 decoder is in C35_decode, the S-Log3 encoder is wrong: C35). *)
Theorem C110_SLog_encode (x : R) : Y_to_SLog RN (Some x) = Some (sony_slog (Rmax 0 (Rmin x 10))).
Proof. exact (slog_enc_l x). Qed.
Print Assumptions C110_SLog_encode.
Theorem C110_SLog_decode (y : R) : SLog_to_Y RN (Some y) = Some (sony_slog_inv y).
Proof. exact (slog_dec_l y). Qed.
Print Assumptions C110_SLog_decode.
Theorem C110_SLog2_encode (x : R) : Y_to_SLog2 RN (Some x) = Some (legal (sony_slog2 x)).
Proof. exact (slog2_enc_l x). Qed.
Print Assumptions C110_SLog2_encode.
Theorem C110_SLog2_decode (c : R) : SLog2_to_Y RN (Some c) = Some (Rmax 0 (sony_slog2_inv (unlegal c))).
Proof. exact (slog2_dec_l c). Qed.
Print Assumptions C110_SLog2_decode.
(** The gamma curve. *)
Theorem C110_gamma (v g : R) : 0 < v -> 0 < g ->
  gamma RN (Some v) (Some g) = Some (Rpower v (1 / g)) /\ degamma RN (Some v) (Some g) = Some (Rpower v g).
Proof. exact (gamma_l v g). Qed.
Print Assumptions C110_gamma.
(** The colour functions apply the curve selected by the type to each component, whatever the number type. *)
Theorem C110_toScreen (N : Num) (t : Vector3 (F N)) (g : F N) :
  let each f := V3 (f (v0 t)) (f (v1 t)) (f (v2 t)) in
  toScreen N LINEAR t g = t /\ toScreen N GAMMA t g = each (fun x => gamma N x g) /\ toScreen N SRGB t g = each (Y_to_sRGB N) /\
  toScreen N BT709 t g = each (Y_to_BT709 N) /\ toScreen N ST2084 t g = each (Y_to_ST2084 N) /\
  toScreen N SLOG t g = each (Y_to_SLog N) /\ toScreen N SLOG2 t g = each (Y_to_SLog2 N) /\
  toScreen N SLOG3 t g = each (Y_to_SLog3 N) /\ toScreen N HLG t g = each (Y_to_HLG N).
Proof. exact (screen_each N t g). Qed.
Print Assumptions C110_toScreen.
Theorem C110_toScene (N : Num) (t : Vector3 (F N)) (g : F N) :
  let each f := V3 (f (v0 t)) (f (v1 t)) (f (v2 t)) in
  toScene N LINEAR t g = t /\ toScene N GAMMA t g = each (fun x => degamma N x g) /\ toScene N SRGB t g = each (sRGB_to_Y N) /\
  toScene N BT709 t g = each (BT709_to_Y N) /\ toScene N ST2084 t g = each (ST2084_to_Y N) /\
  toScene N SLOG t g = each (SLog_to_Y N) /\ toScene N SLOG2 t g = each (SLog2_to_Y N) /\
  toScene N SLOG3 t g = each (SLog3_to_Y N) /\ toScene N HLG t g = each (HLG_to_Y N).
Proof. exact (scene_each N t g). Qed.
Print Assumptions C110_toScene.
(** The published curves at some of their landmark values: PQ carries 10000 cd/m2 at 1, HLG 1/12 at 1/2, BT.709 white at 1,
    and S-Log2 black (0) near code 90 of 1024. *)
Example C110_case : pq_encode 10000 = 1 /\ hlg_encode (1 / 12) = 1 / 2 /\ bt709_encode 1 = 1 /\ iec_encode 1 = 1 /\
  iec_encode 0.001 = 0.01292 /\ legal 0.03 = (64 + 26.28) / 1024.
Proof. exact std_landmarks. Qed.

(** C111: HSV is the hexcone model ([hexcone], SpecHsv.v), for every real hue, saturation and value. *)
Theorem C111_fromHSV_hexcone (h s v : R) :
  terminates_with (fun n => fromHSV RN n (finV (V3 h s v))) (Ret (finV (hexcone h s v))).
Proof. exact (fromHSV_hex h s v). Qed.
Print Assumptions C111_fromHSV_hexcone.
Theorem C111_toHSV_hexcone (t : Vector3 R) : exists h s, 0 <= h < 360 /\
  terminates_with (fun n => toHSV RN n (finV t)) (Ret (finV (V3 h s (max3 t)))) /\
  (max3 t <> 0 -> t = hexcone h s (max3 t) /\ s * max3 t = max3 t - min3 t) /\ (max3 t = min3 t -> h = 0) /\ (max3 t = 0 -> s = 0).
Proof. exact (toHSV_hex t). Qed.
Print Assumptions C111_toHSV_hexcone.
(** The other round trip: hue, saturation and value come back. *)
Theorem C111_hsv_rgb_hsv (h s v : R) : 0 <= h < 360 -> 0 < s -> 0 < v ->
  terminates_with (fun n => let! t := fromHSV RN n (finV (V3 h s v)) in toHSV RN n t) (Ret (finV (V3 h s v))).
Proof. exact (hsv_back h s v). Qed.
Print Assumptions C111_hsv_rgb_hsv.
(** orange and a negative hue. *)
Example C111_case : hexcone 30 1 1 = V3 1 0.5 0 /\ hexcone (-90) 0.5 0.8 = V3 0.6 0.4 0.8.
Proof. exact hexcone_ex. Qed.

(** C112: ICtCp.  The code's forward formula; and for every BT.2020 colour up to 10000 cd/m2 its distance from BT.2100. *)
Theorem C112_ictcp_formula (t : Vector3 R) : exists l m s, XYZ_to_ICtCp RN (finV t) =
    finV (V3 ((l + m) / 2) ((6610 * l - 13613 * m + 7003 * s) / 4096) ((17933 * l - 17390 * m - 543 * s) / 4096)) /\
  Y_to_ST2084 RN (Some (0.3592 * v0 t + 0.6976 * v1 t - 0.0358 * v2 t)) = Some l /\
  Y_to_ST2084 RN (Some (- 0.1922 * v0 t + 1.1004 * v1 t + 0.0755 * v2 t)) = Some m /\
  Y_to_ST2084 RN (Some (0.0070 * v0 t + 0.0749 * v1 t + 0.8434 * v2 t)) = Some s.
Proof. exact (ictcp_formula t). Qed.
Print Assumptions C112_ictcp_formula.
Theorem C112_ictcp_near_BT2100 (r g b : R) : 0 <= r <= 100 -> 0 <= g <= 100 -> 0 <= b <= 100 -> 0 < r + g + b ->
  exists i ct cp, XYZ_to_ICtCp RN (G_toXYZ_t RN (Rec2020 RN) (finV (V3 r g b))) = finV (V3 i ct cp) /\
  let s := bt2100_ICtCp (V3 (100 * r) (100 * g) (100 * b)) in
  Rabs (i - v0 s) <= 0.00013 /\ Rabs (ct - v1 s) <= 0.0009 /\ Rabs (cp - v2 s) <= 0.0012.
Proof. exact (ictcp_std r g b). Qed.
Print Assumptions C112_ictcp_near_BT2100.
Theorem C112_ictcp_black : XYZ_to_ICtCp RN (finV (V3 0 0 0)) = finV (V3 0 0 0).
Proof. exact ictcp_black. Qed.
Print Assumptions C112_ictcp_black.
(** peak white of the standard is (1, 0, 0). *)
Example C112_case : bt2100_ICtCp (V3 (100 * 100) (100 * 100) (100 * 100)) = V3 1 0 0.
Proof. exact bt2100_white. Qed.

(** C05, closed formula: each channel moves towards the other two by the fraction [r]. *)
Theorem C05_crosstalk_formula (r a b c : R) : M_apply RN (M_crosstalk RN (Some r)) (finV (V3 a b c)) =
  finV (V3 (a + r * (b + c - 2 * a)) (b + r * (a + c - 2 * b)) (c + r * (a + b - 2 * c))).
Proof. exact (crosstalk_mix r a b c). Qed.
Print Assumptions C05_crosstalk_formula.
(** C39, closed formulas: CIE 1976 difference, CIE 1960 chromaticity distance, and the ICtCp difference of BT.2124
    without its factor 720. *)
Theorem C39_E76_formula (p q : Vector3 R) :
  Delta_E76 RN (finV p) (finV q) = Some (sqrt ((v0 p - v0 q) ^ 2 + (v1 p - v1 q) ^ 2 + (v2 p - v2 q) ^ 2)).
Proof. exact (E76_formula p q). Qed.
Print Assumptions C39_E76_formula.
Theorem C39_UV_formula (p q : Vector3 R) :
  Delta_UV RN (finV p) (finV q) = Some (sqrt ((v1 p - v1 q) ^ 2 + (v2 p - v2 q) ^ 2)).
Proof. exact (UV_formula p q). Qed.
Print Assumptions C39_UV_formula.
Theorem C39_ICtCp_formula (p q a b : Vector3 R) : XYZ_to_ICtCp RN (finV p) = finV a -> XYZ_to_ICtCp RN (finV q) = finV b ->
  Delta_ICtCp RN (finV p) (finV q) = Some (sqrt ((v0 a - v0 b) ^ 2 + (0.5 * v1 a - 0.5 * v1 b) ^ 2 + (v2 a - v2 b) ^ 2)).
Proof. exact (dICtCp_formula p q a b). Qed.
Print Assumptions C39_ICtCp_formula.
Example C39_formula_case : exists a, XYZ_to_ICtCp RN (finV (V3 0 0 0)) = finV a.
Proof. exists (V3 0 0 0). exact ictcp_black. Qed.
