(** * The transfer functions over the reals against the published formulas of SpecOtf.v. *)
From Coq Require Import ZArith QArith Qreals Reals Lra Lia List Bool.
From Flocq Require Import Core.Raux.
From Verif Require Import Num NumR MVec MTri MOtf SpecMat RTac PMat RPow RExp POtf POtf2 SpecOtf.
Local Open Scope R_scope.

Lemma unit_cases x : (x < 0 /\ unit_clip x = 0) \/ (0 <= x <= 1 /\ unit_clip x = x) \/ (1 < x /\ unit_clip x = 1).
Proof. unfold unit_clip, Rmax, Rmin. destruct (Rle_dec x 1), (Rle_dec 0 _); lra. Qed.

Lemma iec_enc_l v : v <> 0.0031308 -> Y_to_sRGB RN (Some v) = Some (iec_encode (unit_clip v)).
Proof.
  intros N. rewrite s_enc_fin. f_equal. unfold iec_encode.
  destruct (unit_cases v) as [[A ->]|[[A ->]|[A ->]]].
  - rewrite (proj1 (proj1 (s_out v) A)). destruct (Rle_dec _ _); lra.
  - destruct (Rle_dec _ _).
    + apply s_enc_lo. lra.
    + rewrite s_enc_hi by lra. replace (1 / 2.4) with (5 / 12) by lra. reflexivity.
  - rewrite (proj1 (proj2 (s_out v) A)). destruct (Rle_dec _ _); [lra|]. rewrite Rpower_1_l. lra.
Qed.
Lemma iec_dec_l c : c <> 0.04045 -> sRGB_to_Y RN (Some c) = Some (iec_decode (unit_clip c)).
Proof.
  intros N. rewrite s_dec_fin. f_equal. unfold iec_decode.
  destruct (unit_cases c) as [[A ->]|[[A ->]|[A ->]]].
  - rewrite (proj2 (proj1 (s_out c) A)). destruct (Rle_dec _ _); lra.
  - destruct (Rle_dec _ _).
    + apply s_dec_lo. lra.
    + rewrite s_dec_hi by lra. replace 2.4 with (12 / 5) by lra. reflexivity.
  - rewrite (proj2 (proj2 (s_out c) A)). destruct (Rle_dec _ _); [lra|].
    replace ((1 + 0.055) / 1.055) with 1 by lra. rewrite Rpower_1_l. reflexivity.
Qed.
Lemma s_knee_enc : Rabs (s_enc 0.0031308 - iec_encode 0.0031308) <= 4e-8.
Proof.
  rewrite s_enc_hi by lra. unfold iec_encode. destruct (Rle_dec _ _); [|lra]. pose proof s_knee.
  apply Rabs_le. lra.
Qed.
Lemma s_knee_dec : Rabs (s_dec 0.04045 - iec_decode 0.04045) <= 1e-7.
Proof.
  rewrite s_dec_hi by lra. unfold iec_decode. destruct (Rle_dec _ _); [|lra].
  replace ((0.04045 + 0.055) / 1.055) with (0.09545 / 1.055) by lra. pose proof s_knee3. apply Rabs_le. lra.
Qed.
Lemma iec_all v : exists x, Y_to_sRGB RN (Some v) = Some x /\ Rabs (x - iec_encode (unit_clip v)) <= 4e-8.
Proof.
  destruct (Req_dec v 0.0031308) as [->|N].
  - eexists. split; [apply s_enc_fin|]. destruct (unit_cases 0.0031308) as [[A _]|[[A ->]|[A _]]]; try lra. apply s_knee_enc.
  - eexists. split; [apply iec_enc_l, N|]. rewrite Rminus_diag_eq by reflexivity. rewrite Rabs_R0. lra.
Qed.
Lemma iec_dec_all c : exists x, sRGB_to_Y RN (Some c) = Some x /\ Rabs (x - iec_decode (unit_clip c)) <= 1e-7.
Proof.
  destruct (Req_dec c 0.04045) as [->|N].
  - eexists. split; [apply s_dec_fin|]. destruct (unit_cases 0.04045) as [[A _]|[[A ->]|[A _]]]; try lra. apply s_knee_dec.
  - eexists. split; [apply iec_dec_l, N|]. rewrite Rminus_diag_eq by reflexivity. rewrite Rabs_R0. lra.
Qed.

Lemma bt_enc_l v : Y_to_BT709 RN (Some v) = Some (bt709_encode (unit_clip v)).
Proof.
  rewrite bt_enc_fin. f_equal. unfold bt709_encode.
  destruct (unit_cases v) as [[A ->]|[[A ->]|[A ->]]].
  - rewrite (proj1 (proj1 (bt_out v) A)). destruct (Rlt_dec _ _); lra.
  - destruct (Rlt_dec _ _); [apply bt_enc_lo; lra|apply bt_enc_hi; lra].
  - rewrite (proj1 (proj2 (bt_out v) A)). destruct (Rlt_dec _ _); [lra|]. rewrite Rpower_1_l. lra.
Qed.
Lemma bt_dec_l c : BT709_to_Y RN (Some c) = Some (bt709_decode (unit_clip c)).
Proof.
  rewrite bt_dec_fin. f_equal. unfold bt709_decode.
  destruct (unit_cases c) as [[A ->]|[[A ->]|[A ->]]].
  - rewrite (proj2 (proj1 (bt_out c) A)). destruct (Rlt_dec _ _); lra.
  - destruct (Rlt_dec _ _); [apply bt_dec_lo; lra|apply bt_dec_hi; lra].
  - rewrite (proj2 (proj2 (bt_out c) A)). destruct (Rlt_dec _ _); [lra|].
    replace ((1 + 0.099) / 1.099) with 1 by lra. rewrite Rpower_1_l. reflexivity.
Qed.

Lemma st_eq : st_m1 = m1q /\ st_m2 = m2q /\ st_c1 = c1q /\ st_c2 = c2q /\ st_c3 = c3q.
Proof. unfold st_m1, st_m2, st_c1, st_c2, st_c3. pqv. lra. Qed.
Lemma pq_enc_l v : 0 < v <= 100 -> Y_to_ST2084 RN (Some v) = Some (pq_encode (100 * v)).
Proof.
  intros H. unfold pq_encode. destruct st_eq as (-> & -> & -> & -> & ->).
  replace (100 * v / 10000) with (v / 100) by lra. destruct (Rle_lt_dec 100 v).
  - replace v with 100 by lra. rewrite pq_enc_hi by lra. replace (100 / 100) with 1 by lra. rewrite Rpower_1_l.
    fold (pqN 1). rewrite pqN_1, Rpower_1_l. reflexivity.
  - rewrite pq_enc_fin by lra. reflexivity.
Qed.
Lemma pq_dec_l c : 0 < c <= 1 -> ST2084_to_Y RN (Some c) = Some (pq_decode c / 100).
Proof.
  intros H. rewrite pq_dec_fin by exact H. f_equal. unfold pq_decode. destruct st_eq as (-> & -> & -> & -> & ->).
  replace (1 / m2q) with (/ m2q) by (pqv; lra). replace (1 / m1q) with (/ m1q) by (pqv; lra).
  destruct (Rlt_dec _ _), (Rle_dec _ _); try lra.
Qed.
Lemma pq_out v : (v <= 0 -> Y_to_ST2084 RN (Some v) = Some 0) /\ (100 <= v -> Y_to_ST2084 RN (Some v) = Some 1).
Proof. split; [apply pq_enc_lo|apply pq_enc_hi]. Qed.

Lemma hlg_enc_l v : 0 <= v -> exists x, Y_to_HLG RN (Some v) = Some x /\ Rabs (x - hlg_encode (v / 12)) <= 5e-10 /\
  (v <> 1 -> x = hlg_encode (v / 12)).
Proof.
  intros H. unfold hlg_encode. destruct (Rlt_le_dec v 1) as [L|L].
  - exists (0.5 * sqrt v). split; [apply hlg_enc_lo; lra|]. destruct (Rle_dec _ _); [|lra].
    assert (E : 0.5 * sqrt v = sqrt (3 * (v / 12))).
    { replace (3 * (v / 12)) with (v * (0.5 * 0.5)) by lra. rewrite sqrt_mult by lra. rewrite sqrt_square by lra. lra. }
    rewrite E, Rminus_diag_eq by reflexivity. rewrite Rabs_R0. split; [lra|reflexivity].
  - exists (ha * ln (v - hb) + hc). split; [apply hlg_enc_hi, L|].
    assert (B : bt_b = hb) by (unfold bt_b, bt_a, hb; lra). change bt_a with ha. change bt_c with hc. rewrite B.
    destruct (Rle_dec _ _).
    + replace v with 1 by lra. split; [|lra]. pose proof hlg_knee.
      replace (sqrt (3 * (1 / 12))) with 0.5; [apply Rabs_le; lra|].
      replace (3 * (1 / 12)) with (0.5 * 0.5) by lra. rewrite sqrt_square; lra.
    + replace (12 * (v / 12)) with v by lra. rewrite Rminus_diag_eq by reflexivity. rewrite Rabs_R0. split; [lra|reflexivity].
Qed.
Lemma hlg_dec_l c : 0 <= c -> HLG_to_Y RN (Some c) = Some (12 * hlg_decode c).
Proof.
  intros H. unfold hlg_decode. assert (B : bt_b = hb) by (unfold bt_b, bt_a, hb; lra). change bt_a with ha. change bt_c with hc.
  rewrite B. destruct (Rle_dec _ _).
  - rewrite hlg_dec_lo by lra. f_equal. lra.
  - rewrite hlg_dec_hi by lra. f_equal. lra.
Qed.
Lemma hlg_neg v : v < 0 -> Y_to_HLG RN (Some v) = Some 0 /\ HLG_to_Y RN (Some v) = Some 0.
Proof. intros H. split; [apply hlg_enc_neg, H|]. unfold HLG_to_Y. rl. rb. reflexivity. Qed.

Lemma slog_enc_l x : Y_to_SLog RN (Some x) = Some (sony_slog (Rmax 0 (Rmin x 10))).
Proof.
  assert (G : forall z, 0 <= z <= 10 -> slog z = sony_slog z) by reflexivity.
  destruct (Rlt_le_dec x 0) as [L|L]; [|destruct (Rlt_le_dec 10 x) as [K|K]].
  - replace (Rmax 0 (Rmin x 10)) with 0 by (unfold Rmax, Rmin; destruct (Rle_dec x 10), (Rle_dec 0 _); lra).
    rewrite <- G by lra. rewrite <- (slog_enc 0) by lra. unfold Y_to_SLog. rl. rb. reflexivity.
  - replace (Rmax 0 (Rmin x 10)) with 10 by (unfold Rmax, Rmin; destruct (Rle_dec x 10), (Rle_dec 0 _); lra).
    rewrite <- G by lra. rewrite <- (slog_enc 10) by lra. unfold Y_to_SLog. rl. rb. reflexivity.
  - replace (Rmax 0 (Rmin x 10)) with x by (unfold Rmax, Rmin; destruct (Rle_dec x 10), (Rle_dec 0 _); lra).
    rewrite <- G by lra. apply slog_enc. lra.
Qed.
Lemma slog_dec_l y : SLog_to_Y RN (Some y) = Some (sony_slog_inv y).
Proof.
  unfold SLog_to_Y, sony_slog_inv. rl. rewrite rdiv_ok by qlra. rl. change (Rdec 10) with 10. rewrite rpow_pos by lra. rl.
  replace ((y - Rdec 0.616596 - Rdec 0.03) / Rdec 0.432699) with ((y - 0.616596 - 0.03) / 0.432699) by qlra. set (p := Rpower _ _). apply Some_eq. qlra.
Qed.
Lemma slog2_enc_l x : Y_to_SLog2 RN (Some x) = Some (legal (sony_slog2 x)).
Proof.
  unfold sony_slog2, legal. destruct (Rle_dec 0 x).
  - rewrite slog2_enc by lra. f_equal. unfold ire, slog. change (log10 (155 * x / 219 + 0.037584)) with (lg (155 * x / 219 + 0.037584)). lra.
  - unfold Y_to_SLog2, IRE_to_CV_SLog2, slog2_BLACK, slog2_WV. rl. rb. rewrite !rdiv_ok by qlra. rl. f_equal. qlra.
Qed.
Lemma slog2_dec_l c : SLog2_to_Y RN (Some c) = Some (Rmax 0 (sony_slog2_inv (unlegal c))).
Proof.
  unfold SLog2_to_Y, CV_to_IRE_SLog2, slog2_BLACK, slog2_WV. rl. rewrite !rdiv_ok by qlra. rl. rewrite rdiv_ok by qlra. rl.
  replace ((c - Rdec 64 / Rdec 1024) / (Rdec 876 / Rdec 1024)) with (unlegal c) by (unfold unlegal; qlra).
  set (y := unlegal c). unfold sony_slog2_inv.
  replace (Rdec 0.030001222851889303) with 0.030001222851889303 by qlra. destruct (Rle_dec _ _) as [L|L].
  - rewrite Rle_bool_true by exact L. rewrite rdiv_ok by qlra. rl. replace (Rdec 10.0) with 10 by qlra. rewrite rpow_pos by lra. rl.
    rewrite rdiv_ok by qlra. rl.
    replace ((y - Rdec 0.616596 - Rdec 0.03) / Rdec 0.432699) with ((y - 0.616596 - 0.03) / 0.432699) by qlra.
    set (p := Rpower _ _). replace (Rdec 219.0 * (p - Rdec 0.037584) / Rdec 155.0) with (219 * (p - 0.037584) / 155) by qlra.
    replace (Rdec 0) with 0 by qlra. set (z := 219 * _ / 155). unfold Rmax. destruct (Rle_dec 0 z) as [P|P].
    + destruct (Rle_lt_or_eq_dec _ _ P) as [Q|Q]; [rewrite Rlt_bool_true by exact Q; reflexivity|].
      rewrite Rlt_bool_false by lra. f_equal. exact Q.
    + rewrite Rlt_bool_false by lra. reflexivity.
  - rewrite Rle_bool_false by lra. rewrite rdiv_ok by qlra. rl. replace (Rdec 0) with 0 by qlra.
    rewrite Rlt_bool_false.
    + f_equal. unfold Rmax. destruct (Rle_dec 0 _) as [P|P]; [lra|reflexivity].
    + apply Rmult_le_reg_r with 3.53881278538813; [lra|]. replace (Rdec 3.53881278538813) with 3.53881278538813 by qlra. lra.
Qed.
Lemma gamma_l v g : 0 < v -> 0 < g -> gamma RN (Some v) (Some g) = Some (Rpower v (1 / g)) /\ degamma RN (Some v) (Some g) = Some (Rpower v g).
Proof.
  intros V G. unfold gamma, degamma. rl. rewrite rdiv_ok by lra. rl. change (Rdec 1) with 1. rewrite !rpow_pos by lra. split; reflexivity.
Qed.
Lemma screen_each (N : Num) (t : Vector3 (F N)) (g : F N) :
  let each f := V3 (f (v0 t)) (f (v1 t)) (f (v2 t)) in
  toScreen N LINEAR t g = t /\ toScreen N GAMMA t g = each (fun x => gamma N x g) /\ toScreen N SRGB t g = each (Y_to_sRGB N) /\
  toScreen N BT709 t g = each (Y_to_BT709 N) /\ toScreen N ST2084 t g = each (Y_to_ST2084 N) /\
  toScreen N SLOG t g = each (Y_to_SLog N) /\ toScreen N SLOG2 t g = each (Y_to_SLog2 N) /\
  toScreen N SLOG3 t g = each (Y_to_SLog3 N) /\ toScreen N HLG t g = each (Y_to_HLG N).
Proof. repeat split. Qed.
Lemma scene_each (N : Num) (t : Vector3 (F N)) (g : F N) :
  let each f := V3 (f (v0 t)) (f (v1 t)) (f (v2 t)) in
  toScene N LINEAR t g = t /\ toScene N GAMMA t g = each (fun x => degamma N x g) /\ toScene N SRGB t g = each (sRGB_to_Y N) /\
  toScene N BT709 t g = each (BT709_to_Y N) /\ toScene N ST2084 t g = each (ST2084_to_Y N) /\
  toScene N SLOG t g = each (SLog_to_Y N) /\ toScene N SLOG2 t g = each (SLog2_to_Y N) /\
  toScene N SLOG3 t g = each (SLog3_to_Y N) /\ toScene N HLG t g = each (HLG_to_Y N).
Proof. repeat split. Qed.
Lemma std_landmarks : pq_encode 10000 = 1 /\ hlg_encode (1 / 12) = 1 / 2 /\ bt709_encode 1 = 1 /\ iec_encode 1 = 1 /\
  iec_encode 0.001 = 0.01292 /\ legal 0.03 = (64 + 26.28) / 1024.
Proof.
  split; [|split; [|split; [|split; [|split]]]].
  - unfold pq_encode. replace (10000 / 10000) with 1 by lra. rewrite Rpower_1_l. destruct st_eq as (_ & _ & -> & -> & ->).
    fold (pqN 1). rewrite pqN_1. apply Rpower_1_l.
  - unfold hlg_encode. destruct (Rle_dec _ _); [|lra]. replace (3 * (1 / 12)) with (0.5 * 0.5) by lra. rewrite sqrt_square; lra.
  - unfold bt709_encode. destruct (Rlt_dec _ _); [lra|]. rewrite Rpower_1_l. lra.
  - unfold iec_encode. destruct (Rle_dec _ _); [lra|]. rewrite Rpower_1_l. lra.
  - unfold iec_encode. destruct (Rle_dec _ _); lra.
  - unfold legal. lra.
Qed.
