(** * Properties C15-C21: CIELAB, HSV, colour temperature. *)
From Coq Require Import ZArith Reals Lra Lia List.
From Flocq Require Import Core.Raux.
From Verif Require Import Num NumR MVec MTri SpecMat RTac PMat PTri PLab PHsv PCct.
Local Open Scope R_scope.

(** C15: [posV w] is "all three components positive". *)
Theorem C15_lab_round_trip (t w : Vector3 R) :
  posV w -> v0 t <= v0 w -> v1 t <= v1 w -> v2 t <= v2 w ->
  fromCIELAB RN (toCIELAB RN (finV t) (finV w)) (finV w) = finV t.
Proof. exact (C15_l t w). Qed.
Print Assumptions C15_lab_round_trip.
Example C15_case : let t := V3 (-0.1) 0.001 0.8 in let w := V3 0.9505 1 1.089 in
  posV w /\ v0 t <= v0 w /\ v1 t <= v1 w /\ v2 t <= v2 w.
Proof. unfold posV; cbn [v0 v1 v2]. lra. Qed.

(** C16: [cie_lab] is the CIE 1976 definition. *)
Theorem C16_is_cie_lab (t w : Vector3 R) : posV w -> v0 t <= v0 w -> v1 t <= v1 w -> v2 t <= v2 w ->
  toCIELAB RN (finV t) (finV w) = finV (cie_lab (v0 t) (v1 t) (v2 t) (v0 w) (v1 w) (v2 w)).
Proof. exact (C16_cie_l t w). Qed.
Print Assumptions C16_is_cie_lab.
Theorem C16_grey (k : R) (w : Vector3 R) : posV w ->
  exists L, toCIELAB RN (finV (V3 (k * v0 w) (k * v1 w) (k * v2 w))) (finV w) = finV (V3 L 0 0) /\
    (k = 1 -> L = 100) /\ (k = 0 -> L = 0).
Proof. exact (C16_grey_l k w). Qed.
Print Assumptions C16_grey.
(** strictly increasing up to white, Lipschitz (so continuous), constant above white. *)
Theorem C16_curve : exists c : R -> R,
  (forall f, CIELAB_curve RN (Some f) = Some (c f)) /\
  (forall x y, x < y <= 1 -> c x < c y) /\
  (forall x y, x <= y -> 0 <= c y - c x <= 841 / 108 * (y - x)) /\
  (forall x, c x <= 1) /\
  (forall x, 1 <= x -> c x = 1).
Proof. exact C16_curve_l. Qed.
Print Assumptions C16_curve.
Theorem C16_L_monotone (t t' w : Vector3 R) : posV w -> v1 t <= v1 t' ->
  exists L a b L' a' b', toCIELAB RN (finV t) (finV w) = finV (V3 L a b) /\
    toCIELAB RN (finV t') (finV w) = finV (V3 L' a' b') /\ L <= L' <= 100.
Proof. exact (C16_L_l t t' w). Qed.
Print Assumptions C16_L_monotone.
Example C16_case : let w := V3 0.9505 1 1.089 in posV w /\ v1 (V3 0.1 0.2 0.3) <= v1 w.
Proof. unfold posV; cbn [v0 v1 v2]. lra. Qed.

(** C17: false; the components above the white's are clipped to it. *)
Theorem C17_lab_above_white_refuted : exists t w : Vector3 R, posV w /\
  fromCIELAB RN (toCIELAB RN (finV t) (finV w)) (finV w) <> finV t.
Proof. exact C17_l. Qed.
Print Assumptions C17_lab_above_white_refuted.
Theorem C17_lab_clips_to_white_partial (t w : Vector3 R) : posV w ->
  fromCIELAB RN (toCIELAB RN (finV t) (finV w)) (finV w) =
  finV (V3 (Rmin (v0 t) (v0 w)) (Rmin (v1 t) (v1 w)) (Rmin (v2 t) (v2 w))).
Proof. exact (C17_clip_l t w). Qed.
Print Assumptions C17_lab_clips_to_white_partial.
Example C17_case : posV (V3 0.9505 1 1.089).
Proof. unfold posV; cbn [v0 v1 v2]. lra. Qed.

(** C18: [max3] is the largest component. *)
Theorem C18_hsv_round_trip (t : Vector3 R) : max3 t <> 0 \/ t = V3 0 0 0 ->
  terminates_with (fun n => let! h := toHSV RN n (finV t) in fromHSV RN n h) (Ret (finV t)).
Proof. exact (C18_l t). Qed.
Print Assumptions C18_hsv_round_trip.
Example C18_case : max3 (V3 0.2 0.7 (-0.1)) = 0.7.
Proof. unfold max3; cbn [v0 v1 v2]. unfold Rmax. repeat destruct (Rle_dec _ _); lra. Qed.

(** C19 *)
Theorem C19_toHSV_ranges (t : Vector3 R) : 0 <= v0 t -> 0 <= v1 t -> 0 <= v2 t ->
  exists h s, 0 <= h < 360 /\ 0 <= s <= 1 /\
    (max3 t <> 0 -> s = 1 - min3 t / max3 t) /\
    terminates_with (fun n => toHSV RN n (finV t)) (Ret (finV (V3 h s (max3 t)))).
Proof. exact (C19_to_l t). Qed.
Print Assumptions C19_toHSV_ranges.
Theorem C19_fromHSV_ranges (h s v : R) : 0 <= s <= 1 -> 0 <= v ->
  exists t : Vector3 R, 0 <= v0 t /\ 0 <= v1 t /\ 0 <= v2 t /\ max3 t = v /\ min3 t = v * (1 - s) /\
    terminates_with (fun n => fromHSV RN n (finV (V3 h s v))) (Ret (finV t)).
Proof. exact (C19_from_l h s v). Qed.
Print Assumptions C19_fromHSV_ranges.
Example C19_case : 0 <= v0 (V3 0.5 0.25 1) /\ 0 <= v1 (V3 0.5 0.25 1) /\ 0 <= v2 (V3 0.5 0.25 1) /\
  0 <= 0.25 <= 1 /\ 0 <= 2.
Proof. cbn [v0 v1 v2]. lra. Qed.

(** C20: [bb_x], [bb_y] the two polynomials, [u60], [v60] CIE 1960 coordinates of a
    chromaticity with denominator [uden]; [xden], [y60] the way back. *)
Theorem C20_offset_point (T d Y : R) :
  let u1 := u60 (bb_x T) (bb_y T) in let v1 := v60 (bb_x T) (bb_y T) in
  let u2 := u60 (bb_x (T - 1)) (bb_y (T - 1)) in let v2 := v60 (bb_x (T - 1)) (bb_y (T - 1)) in
  uden (bb_x T) (bb_y T) <> 0 -> uden (bb_x (T - 1)) (bb_y (T - 1)) <> 0 -> (u1, v1) <> (u2, v2) ->
  exists u v, (u - u1) ^ 2 + (v - v1) ^ 2 = d ^ 2 /\ (u - u1) * (u2 - u1) + (v - v1) * (v2 - v1) = 0 /\
    (xden u v <> 0 -> eps8 <= Rabs (y60 u v) -> eps8 <= Rabs (Y / y60 u v) ->
     exists r, fromCCT_sq RN exact_sqrt (Some T) (Some d) (Some Y) = Ret r /\
       toYuv RN r = finV (V3 Y u v)).
Proof. exact (C20_l T d Y). Qed.
Print Assumptions C20_offset_point.
Theorem C20_zero_offset (T Y : R) :
  let u1 := u60 (bb_x T) (bb_y T) in let v1 := v60 (bb_x T) (bb_y T) in
  let u2 := u60 (bb_x (T - 1)) (bb_y (T - 1)) in let v2 := v60 (bb_x (T - 1)) (bb_y (T - 1)) in
  uden (bb_x T) (bb_y T) <> 0 -> uden (bb_x (T - 1)) (bb_y (T - 1)) <> 0 -> (u1, v1) <> (u2, v2) ->
  fromCCT_sq RN exact_sqrt (Some T) (Some 0) (Some Y) = Ret (fromCT RN (Some T) (Some Y)).
Proof. exact (C20_zero_l T Y). Qed.
Print Assumptions C20_zero_offset.
Example C20_case : let T := 6500 in
  uden (bb_x T) (bb_y T) <> 0 /\ uden (bb_x (T - 1)) (bb_y (T - 1)) <> 0 /\
  (u60 (bb_x T) (bb_y T), v60 (bb_x T) (bb_y T)) <>
  (u60 (bb_x (T - 1)) (bb_y (T - 1)), v60 (bb_x (T - 1)) (bb_y (T - 1))).
Proof.
  cbv zeta. replace (6500 - 1) with 6499 by lra.
  replace (bb_x 6500) with (62761646411 / 200000000000) by (unfold bb_x; qn; lra).
  replace (bb_y 6500) with (25906660163 / 80000000000) by (unfold bb_y; qn; lra).
  replace (bb_x 6499) with (3922800991655952523044972041 / 12500000000000000000000000000) by (unfold bb_x; qn; lra).
  replace (bb_y 6499) with (809615791055653327865609 / 2500000000000000000000000) by (unfold bb_y; qn; lra).
  unfold u60, v60, uden.
  replace (- 2 * (62761646411 / 200000000000) + 12 * (25906660163 / 80000000000) + 3) with (312919128017 / 50000000000) by lra.
  replace (- 2 * (3922800991655952523044972041 / 12500000000000000000000000000) + 12 * (809615791055653327865609 / 2500000000000000000000000) + 3) with (39115672740013647312923297959 / 6250000000000000000000000000) by lra.
  repeat split; [lra|lra|]. intros E. injection E. lra.
Qed.

(** C21: [kim_x], [kim_y] the published spline.  False between 2222 K and 4000 K,
    where the code repeats the low-temperature piece; true elsewhere. *)
Theorem C21_planckian_spline_refuted : exists T : R, 2222 < T < 4000 /\
  exists y, toYxy RN (fromPlanckianLocus RN (Some T) (Some 1)) = finV (V3 1 (kim_x T) y) /\
    Rabs (y - kim_y T (kim_x T)) > 0.0012.
Proof. exact C21_l. Qed.
Print Assumptions C21_planckian_spline_refuted.
Theorem C21_planckian_spline_partial (T Y : R) : 0 < T -> T < 2222 \/ 4000 <= T ->
  fromPlanckianLocus RN (Some T) (Some Y) = fromYxy RN (finV (V3 Y (kim_x T) (kim_y T (kim_x T)))).
Proof. exact (C21_agree_l T Y). Qed.
Print Assumptions C21_planckian_spline_partial.
(** the piece used in between, at every such temperature. *)
Theorem C21_planckian_middle_partial (T Y : R) : 2222 <= T < 4000 -> let x := kim_x T in
  fromPlanckianLocus RN (Some T) (Some Y) =
  fromYxy RN (finV (V3 Y x (- 1.1063814 * x ^ 3 - 1.34811020 * x ^ 2 + 2.18555832 * x - 0.20219683))).
Proof. exact (C21_middle_l T Y). Qed.
Print Assumptions C21_planckian_middle_partial.
Example C21_case : 0 < 6500 /\ (6500 < 2222 \/ 4000 <= 6500) /\ 2222 <= 3000 < 4000.
Proof. lra. Qed.
