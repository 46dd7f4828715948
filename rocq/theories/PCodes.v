(** * Integer code values: decoding a code and encoding it again, in binary32. *)
From Coq Require Import ZArith QArith Qreals Reals Lra Lia List Bool.
From Flocq Require Import Core IEEE754.BinarySingleNaN.
From Verif Require Import Num NumR NumF MVec MTri MOtf RTac F32 RPow RExp PHsvF PLibm PPowF PNearF PNearF2 PRelF POtf POtf2 POtfF POtfF2.
Local Open Scope R_scope.

(** The float nearest to the code [k] of [M]. *)
Definition code (lm : libm) (k M : Z) : f32 := @fdiv (FN lm) (@fofZ (FN lm) k) (@fofZ (FN lm) M).
Lemma code_ok lm k M : (0 <= k <= M)%Z -> (0 < M <= 2 ^ 24)%Z ->
  fin (code lm k M) /\ B2R (code lm k M) = rnd (IZR k / IZR M) /\ 0 <= IZR k / IZR M <= 1 /\ 0 <= B2R (code lm k M) <= 1 /\
  Rabs (B2R (code lm k M) - IZR k / IZR M) <= u.
Proof.
  intros K HM. destruct (ofZ_ok lm k ltac:(lia)) as [Fk Vk]. destruct (ofZ_ok lm M ltac:(lia)) as [Fm Vm].
  assert (M1 : 1 <= IZR M) by (apply IZR_le; lia). assert (K0 : 0 <= IZR k) by (apply IZR_le; lia). assert (KM : IZR k <= IZR M) by (apply IZR_le; lia).
  assert (Q : 0 <= IZR k / IZR M <= 1).
  { split; apply Rmult_le_reg_r with (IZR M); try lra; unfold Rdiv; rewrite ?Rmult_assoc, ?Rinv_l; lra. }
  destruct (div_ok lm (@fofZ (FN lm) k) (@fofZ (FN lm) M) Fk ltac:(rewrite Vm; lra)) as [F V].
  { rewrite Vk, Vm. pose proof b127_big. rewrite Rabs_pos_eq; lra. }
  rewrite Vk, Vm in V. fold (code lm k M) in F, V. split; [exact F|]. split; [exact V|]. split; [exact Q|]. rewrite V.
  pose proof (rnd_01 _ Q) as Z. split; [exact Z|].
  pose proof (rnd_err_abs (IZR k / IZR M)) as E. rewrite (Rabs_pos_eq (IZR k / IZR M)) in E by lra.
  destruct (Req_dec (IZR k / IZR M) 0) as [X|X]; [rewrite X, rnd_0, Rminus_0_r, Rabs_R0; pose proof F32.u_pos; lra|].
  destruct (Req_dec (IZR k / IZR M) 1) as [Y|Y]; [rewrite Y, (rnd_id 1 fmt_1), Rminus_diag_eq, Rabs_R0 by reflexivity; pose proof F32.u_pos; lra|].
  pose proof u16 as U. pose proof eta16. 
  assert (IZR k / IZR M <= 1 - / 16777216).
  { assert (K1 : (k <= M - 1)%Z). { destruct (Z.eq_dec k M) as [->|]; [exfalso; apply Y; field; lra|lia]. }
    apply IZR_le in K1. rewrite minus_IZR in K1. assert (M2 : IZR M <= 16777216) by (apply IZR_le; lia).
    apply Rmult_le_reg_r with (IZR M); [lra|]. unfold Rdiv. rewrite Rmult_assoc, Rinv_l by lra. lra. }
  rewrite U in *. lra.
Qed.
Lemma code_half x k M e : (0 < M)%Z -> Rabs (x - IZR k / IZR M) <= e -> IZR M * e < / 2 -> Rabs (IZR M * x - IZR k) < / 2.
Proof.
  intros HM X E. assert (M1 : 0 < IZR M) by (apply IZR_lt; lia). apply Rle_lt_trans with (IZR M * e); [|exact E].
  replace (IZR M * x - IZR k) with (IZR M * (x - IZR k / IZR M)) by (field; lra). rewrite Rabs_mult, Rabs_pos_eq by lra. apply Rmult_le_compat_l; lra.
Qed.
Lemma ln_div a b : 0 < a -> 0 < b -> ln (a / b) = ln a - ln b.
Proof. intros A B. unfold Rdiv. rewrite ln_mult, ln_Rinv; auto. apply Rinv_0_lt_compat, B. Qed.
(** Powers with an exponent below one, away from zero. *)
Lemma Rpower_lip_lo a x y p : 0 < a -> a <= x -> a <= y -> 0 <= p <= 1 -> Rabs (Rpower x p - Rpower y p) <= p * (Rpower a p / a) * Rabs (x - y).
Proof.
  intros A. assert (K : forall x y, a <= x -> x < y -> 0 <= p <= 1 -> Rabs (Rpower y p - Rpower x p) <= p * (Rpower a p / a) * (y - x)).
  { intros b c Hb L P. destruct (MVT_cor2 (fun z => Rpower z p) (fun z => p * Rpower z (p - 1)) b c L) as (z & E & Hz).
    { intros w Hw. apply derivable_pt_lim_power. lra. }
    rewrite E. pose proof (Rpower_pos z (p - 1)).
    assert (B : Rpower z (p - 1) <= Rpower a p / a).
    { replace (Rpower a p / a) with (Rpower a (p - 1)).
      - unfold Rpower. assert (ln a <= ln z) by (apply ln_mono; lra). destruct (Req_dec ((p - 1) * ln z) ((p - 1) * ln a)) as [->|]; [lra|].
        apply Rlt_le, exp_increasing. nra.
      - unfold Rminus. rewrite Rpower_plus, Rpower_Ropp, Rpower_1 by lra. reflexivity. }
    rewrite Rabs_pos_eq by (apply Rmult_le_pos; [apply Rmult_le_pos|]; lra). apply Rmult_le_compat_r; [lra|]. apply Rmult_le_compat_l; lra. }
  intros X Y P. destruct (Rtotal_order x y) as [L|[->|L]].
  - rewrite (Rabs_minus_sym (Rpower x p)), (Rabs_minus_sym x), (Rabs_pos_eq (y - x)) by lra. apply K; lra.
  - rewrite !Rminus_diag_eq, Rabs_R0 by reflexivity. lra.
  - rewrite (Rabs_pos_eq (x - y)) by lra. apply K; lra.
Qed.

(** ** sRGB *)
Lemma s_enc_clip x : s_enc x = s_enc (clip x).
Proof.
  unfold clip, Rmax, Rmin. destruct (Rle_dec 1 x), (Rle_dec _ _); try lra.
  - destruct (Req_dec x 1) as [->|]; [reflexivity|]. rewrite (proj1 (proj2 (s_out x) ltac:(lra))). rewrite s_enc_hi, Rpower_1_l by lra. lra.
  - rewrite (proj1 (proj1 (s_out x) ltac:(lra))). rewrite s_enc_lo by lra. lra.
Qed.
Lemma s_enc_lip x y : Rabs (s_enc x - s_enc y) <= 12.92 * Rabs (x - y) + / 10000000.
Proof.
  pose proof s_knee as Kn.
  assert (J : s_enc 0.0031308 <= 0.040449936 <= s_enc 0.0031308 + 4e-8) by (rewrite s_enc_hi by lra; lra).
  assert (H1 : forall a b, 0.0031308 <= a -> a <= b <= 1 -> Rabs (s_enc a - s_enc b) <= 12.92 * (b - a)).
  { intros a b A B. rewrite !s_enc_hi by lra. pose proof (Rpower_lip_lo 0.0031308 a b (5 / 12) ltac:(lra) ltac:(lra) ltac:(lra) ltac:(lra)) as L.
    rewrite (Rabs_left1 (a - b)) in L by lra.
    replace (1.055 * Rpower a (5 / 12) - 0.055 - (1.055 * Rpower b (5 / 12) - 0.055)) with (1.055 * (Rpower a (5 / 12) - Rpower b (5 / 12))) by lra.
    rewrite Rabs_mult, (Rabs_pos_eq 1.055) by lra. set (r := Rpower 0.0031308 (5 / 12)) in *.
    assert (5 / 12 * (r / 0.0031308) * - (a - b) <= 5 / 12 * (0.09544991 / 1.055 / 0.0031308) * (b - a)).
    { replace (- (a - b)) with (b - a) by lra. apply Rmult_le_compat_r; [lra|]. lra. }
    lra. }
  assert (K : forall a b, 0 <= a -> a <= b <= 1 -> Rabs (s_enc a - s_enc b) <= 12.92 * (b - a) + / 10000000).
  { intros a b A B. destruct (Rlt_le_dec b 0.0031308) as [Hb|Hb].
    - rewrite !s_enc_lo by lra. rewrite Rabs_left1; lra.
    - destruct (Rlt_le_dec a 0.0031308) as [Ha|Ha]; [|specialize (H1 a b Ha B); lra].
      specialize (H1 0.0031308 b ltac:(lra) ltac:(lra)). rewrite (s_enc_lo a) by lra. apply Rabs_le_inv in H1. apply Rabs_le. lra. }
  rewrite (s_enc_clip x), (s_enc_clip y). pose proof (clip_01 x) as X. pose proof (clip_01 y) as Y.
  assert (C : Rabs (clip x - clip y) <= Rabs (x - y)) by exact (clamp_lip x y).
  destruct (Rle_dec (clip x) (clip y)) as [L|L].
  - rewrite (Rabs_left1 (clip x - clip y)) in C by lra. specialize (K (clip x) (clip y) ltac:(lra) ltac:(lra)). lra.
  - rewrite (Rabs_pos_eq (clip x - clip y)) in C by lra. rewrite Rabs_minus_sym. specialize (K (clip y) (clip x) ltac:(lra) ltac:(lra)). lra.
Qed.
Lemma s_rt2_err c : 0 <= c <= 1 -> Rabs (s_enc (s_dec c) - c) <= 3e-7.
Proof.
  intros H. destruct (Rlt_le_dec c 0.040449936) as [L|L]; [rewrite s_rt2, Rminus_diag_eq, Rabs_R0 by lra; lra|].
  destruct (Rlt_le_dec c 0.04045) as [L2|L2]; [|rewrite s_rt2, Rminus_diag_eq, Rabs_R0 by lra; lra].
  rewrite s_dec_lo by lra. pose proof (s_enc_lip (c / 12.92) 0.003130799) as E. rewrite (s_enc_lo 0.003130799) in E by lra.
  rewrite (Rabs_pos_eq (c / 12.92 - 0.003130799)) in E by lra. apply Rabs_le_inv in E. apply Rabs_le. lra.
Qed.
Section F.
Context (lm : libm) (Acc : accurate lm).
Notation N := (FN lm).
Lemma srgb_codes k M : (0 <= k <= M)%Z -> (0 < M <= 2 ^ 15)%Z ->
  Rabs (IZR M * B2R (Y_to_sRGB N (sRGB_to_Y N (code lm k M))) - IZR k) < / 2.
Proof.
  intros K HM. destruct (code_ok lm k M K ltac:(lia)) as (Fc & _ & Q & C & E). set (c := code lm k M) in *. pose proof u16 as U.
  destruct (srgb_dec_near lm Acc c Fc) as [Fd Hd]. destruct (srgb_enc_near lm Acc _ Fd) as [_ He]. set (d := sRGB_to_Y N c) in *.
  pose proof (s_enc_lip (B2R d) (s_dec (B2R c))) as L. pose proof (s_rt2_err (B2R c) C) as R0.
  apply (code_half _ _ _ (225 * u)); [lia| |].
  - apply Rabs_le_inv in He. apply Rabs_le_inv in L. apply Rabs_le_inv in R0. apply Rabs_le_inv in E. apply Rabs_le. rewrite U in *. lra.
  - assert (M2 : IZR M <= 32768) by (apply IZR_le; lia). rewrite U. lra.
Qed.

(** ** BT.709 *)
Definition H709 (x : R) : R := 1.099 * Rpower x 0.45 - 0.099.
Lemma Rpower_neg_le a b p : 0 < a -> a <= b -> p <= 0 -> Rpower b p <= Rpower a p.
Proof.
  intros A B P. unfold Rpower. assert (ln a <= ln b) by (apply ln_mono; lra). destruct (Req_dec (p * ln b) (p * ln a)) as [->|]; [lra|].
  apply Rlt_le, exp_increasing. nra.
Qed.
(** Near the switch the two segments are a quarter of a thousandth apart. *)
Lemma H709_gap x : 0.0179 <= x <= 0.0181 -> 0.0002 <= H709 x - 4.5 * x <= 0.000255.
Proof.
  intros X. pose proof bt_knee_hi as B. rewrite bt_enc_hi in B by lra.
  assert (B2 : 0.08124 < 1.099 * Rpower 0.018 0.45 - 0.099).
  { assert (0.18024 / 1.099 < Rpower 0.018 0.45); [|lra]. apply (Rpower_frac_gt _ _ 9 20); [cbn; lra|lra|lia|]. lra. }
  assert (D : forall z, 0.0179 <= z <= 0.0181 -> -0.05 <= 1.099 * (0.45 * Rpower z (0.45 - 1)) - 4.5 <= 0.05).
  { intros z Z. assert (Pz : Rpower z (0.45 - 1) = Rpower z 0.45 / z) by (unfold Rminus; rewrite Rpower_plus, Rpower_Ropp, Rpower_1 by lra; reflexivity).
    pose proof (Rpower_neg_le 0.0179 z (0.45 - 1) ltac:(lra) ltac:(lra) ltac:(lra)) as U1. pose proof (Rpower_neg_le z 0.0181 (0.45 - 1) ltac:(lra) ltac:(lra) ltac:(lra)) as U2.
    assert (Q1 : Rpower 0.0179 (0.45 - 1) <= 9.2).
    { unfold Rminus; rewrite Rpower_plus, Rpower_Ropp, Rpower_1 by lra. assert (Rpower 0.0179 0.45 < 0.1640); [|lra]. apply (Rpower_frac_lt _ _ 9 20); [cbn; lra|lra|lra|lia|]. lra. }
    assert (Q2 : 9.0 <= Rpower 0.0181 (0.45 - 1)).
    { unfold Rminus; rewrite Rpower_plus, Rpower_Ropp, Rpower_1 by lra. assert (0.1643 < Rpower 0.0181 0.45); [|lra]. apply (Rpower_frac_gt _ _ 9 20); [cbn; lra|lra|lia|]. lra. }
    lra. }
  assert (G : forall a b, 0.0179 <= a -> a < b -> b <= 0.0181 -> Rabs ((H709 b - 4.5 * b) - (H709 a - 4.5 * a)) <= 0.05 * (b - a)).
  { intros a b A L Bb. destruct (MVT_cor2 (fun z => 1.099 * Rpower z 0.45 - 4.5 * z) (fun z => 1.099 * (0.45 * Rpower z (0.45 - 1)) - 4.5) a b L) as (z & E & Hz).
    { intros w Hw. apply derivable_pt_lim_minus.
      - apply (derivable_pt_lim_scal (fun z => Rpower z 0.45)). apply derivable_pt_lim_power. lra.
      - rewrite <- (Rmult_1_r 4.5) at 2. apply (derivable_pt_lim_scal id), derivable_pt_lim_id. }
    unfold H709. replace (1.099 * Rpower b 0.45 - 0.099 - 4.5 * b - (1.099 * Rpower a 0.45 - 0.099 - 4.5 * a)) with (1.099 * Rpower b 0.45 - 4.5 * b - (1.099 * Rpower a 0.45 - 4.5 * a)) by lra.
    rewrite E, Rabs_mult, (Rabs_pos_eq (b - a)) by lra. apply Rmult_le_compat_r; [lra|]. apply Rabs_le. specialize (D z ltac:(lra)). lra. }
  assert (E0 : 0.00024 <= H709 0.018 - 4.5 * 0.018 <= 0.00025) by (unfold H709; lra).
  destruct (Rtotal_order x 0.018) as [L|[->|L]].
  - pose proof (G x 0.018 ltac:(lra) L ltac:(lra)) as K. apply Rabs_le_inv in K. lra.
  - lra.
  - pose proof (G 0.018 x ltac:(lra) L ltac:(lra)) as K. apply Rabs_le_inv in K. lra.
Qed.
Lemma H709_lip x y : 0.0179 <= x -> 0.0179 <= y -> Rabs (H709 x - H709 y) <= 4.6 * Rabs (x - y).
Proof.
  intros X Y. pose proof (Rpower_lip_lo 0.0179 x y 0.45 ltac:(lra) X Y ltac:(lra)) as L.
  assert (Q : Rpower 0.0179 0.45 < 0.1640) by (apply (Rpower_frac_lt _ _ 9 20); [cbn; lra|lra|lra|lia|]; lra). unfold H709.
  replace (1.099 * Rpower x 0.45 - 0.099 - (1.099 * Rpower y 0.45 - 0.099)) with (1.099 * (Rpower x 0.45 - Rpower y 0.45)) by lra.
  rewrite Rabs_mult, (Rabs_pos_eq 1.099) by lra. pose proof (Rabs_pos (x - y)).
  assert (0.45 * (Rpower 0.0179 0.45 / 0.0179) * Rabs (x - y) <= 0.45 * (0.1640 / 0.0179) * Rabs (x - y)) by (apply Rmult_le_compat_r; lra). lra.
Qed.
Lemma bt_dec_081_lo : 0.01794 < bt_dec 0.081.
Proof. rewrite bt_dec_hi by lra. apply (Rpower_frac_gt _ _ 20 9); [cbn; lra|lra|lia|]. lra. Qed.
(** What the encoder computes, switch included. *)
Lemma bt_enc_cases (C : f32) : fin C -> -0.001 <= B2R C <= 1.001 ->
  fin (Y_to_BT709 N C) /\ ((B2R C < 0.0180001 /\ Rabs (B2R (Y_to_BT709 N C) - 4.5 * Rmax 0 (B2R C)) <= 9 * u) \/
  (0.01799 <= B2R C /\ Rabs (B2R (Y_to_BT709 N C) - H709 (Rmin 1 (B2R C))) <= 9 * u)).
Proof.
  intros Fc H. pose proof u16 as U. pose proof eta16 as E. destruct bl_a with lm as [Fa Va]. destruct (l0 lm) as [F0 V0]. destruct (l1 lm) as [F1 V1].
  unfold Y_to_BT709. rewrite !ltb_ok by assumption. rewrite V0, V1, Va. set (v := B2R C) in *.
  case Rlt_bool_spec; intro A.
  { split; [exact F0|]. left. split; [lra|]. rewrite V0, Rmax_left by lra. rewrite Rabs_pos_eq; lra. }
  case Rlt_bool_spec; intro B.
  { split; [exact F1|]. right. split; [lra|]. rewrite V1, Rmin_left by lra. unfold H709. rewrite Rpower_1_l. rewrite Rabs_pos_eq; lra. }
  case Rlt_bool_spec; intro D.
  - destruct (bt_lo_near lm C Fc ltac:(fold v; lra)) as [F2 H2]. fold v in H2. split; [exact F2|]. left. split; [lra|]. rewrite Rmax_right by lra. rewrite U in *. lra.
  - destruct (bt_hi_near lm Acc C Fc ltac:(fold v; lra)) as [F2 H2]. split; [exact F2|]. right. split; [lra|]. rewrite Rmin_right by lra. exact H2.
Qed.
Lemma bt_codes_err (c : f32) : fin c -> 0 <= B2R c <= 1 -> Rabs (B2R (Y_to_BT709 N (BT709_to_Y N c)) - B2R c) <= 0.00026.
Proof.
  intros Fc C. pose proof u16 as U. destruct (bt_dec_near lm Acc c Fc) as [Fd Hd]. set (d := BT709_to_Y N c) in *. set (x := B2R c) in *.
  pose proof (bt_dec_range x) as Rg. apply Rabs_le_inv in Hd as Hd'. set (e := bt_dec x) in *.
  destruct (bt_enc_cases d Fd ltac:(rewrite U in *; lra)) as [_ [[D E]|[D E]]]; apply Rabs_le_inv in E.
  - assert (M : Rabs (4.5 * Rmax 0 (B2R d) - 4.5 * e) <= 4.5 * (14 * u)).
    { unfold Rmax. destruct (Rle_dec _ _); apply Rabs_le; lra. }
    apply Rabs_le_inv in M. destruct (Rlt_le_dec x 0.081) as [L|L].
    + assert (e = x / 4.5) by (apply bt_dec_lo; lra). apply Rabs_le. rewrite U in *; lra.
    + assert (X : x = H709 e). { unfold e. rewrite bt_dec_hi by lra. unfold H709. rewrite Rpower_back by lra. lra. }
      assert (Ge : 0.01794 < e). { apply Rlt_le_trans with (1 := bt_dec_081_lo). unfold e. rewrite !bt_dec_hi by lra. apply Rpower_le_l; lra. }
      pose proof (H709_gap e ltac:(rewrite U in *; lra)). apply Rabs_le. rewrite U in *; lra.
  - assert (M : Rabs (Rmin 1 (B2R d) - e) <= 14 * u). { unfold Rmin. destruct (Rle_dec _ _); apply Rabs_le; lra. }
    assert (Rm : 0.0179 <= Rmin 1 (B2R d)) by (apply Rmin_glb; lra). set (m := Rmin 1 (B2R d)) in *.
    assert (Le : 0.01798 <= e) by (apply Rabs_le_inv in M; rewrite U in *; unfold Rmin in *; destruct (Rle_dec _ _); lra).
    pose proof (H709_lip m e Rm ltac:(lra)) as HL. assert (HL' : Rabs (H709 m - H709 e) <= 65 * u) by lra. apply Rabs_le_inv in HL'.
    destruct (Rlt_le_dec x 0.081) as [L|L].
    + assert (X : e = x / 4.5) by (apply bt_dec_lo; lra). pose proof (H709_gap e ltac:(lra)). apply Rabs_le. rewrite U in *; lra.
    + assert (X : x = H709 e). { unfold e. rewrite bt_dec_hi by lra. unfold H709. rewrite Rpower_back by lra. lra. }
      apply Rabs_le. rewrite U in *; lra.
Qed.
Lemma bt_codes k M : (0 <= k <= M)%Z -> (0 < M <= 1900)%Z ->
  Rabs (IZR M * B2R (Y_to_BT709 N (BT709_to_Y N (code lm k M))) - IZR k) < / 2.
Proof.
  intros K HM. destruct (code_ok lm k M K ltac:(lia)) as (Fc & _ & Q & C & E). set (c := code lm k M) in *. pose proof u16 as U.
  pose proof (bt_codes_err c Fc C) as R0. apply (code_half _ _ _ (0.0002605)); [lia| |].
  - apply Rabs_le_inv in R0. apply Rabs_le_inv in E. apply Rabs_le. rewrite U in *. lra.
  - assert (M2 : IZR M <= 1900) by (apply IZR_le; lia). lra.
Qed.
(** Twelve bits are too many. *)
Lemma bt_codes_bad : / 2 < 332 - 4095 * B2R (Y_to_BT709 N (BT709_to_Y N (code lm 332 4095))).
Proof.
  destruct (code_ok lm 332 4095 ltac:(lia) ltac:(lia)) as (Fc & _ & Q & C & E). set (c := code lm 332 4095) in *. pose proof u16 as U.
  apply Rabs_le_inv in E. destruct (bt_dec_near lm Acc c Fc) as [Fd Hd]. set (d := BT709_to_Y N c) in *. apply Rabs_le_inv in Hd.
  assert (D : bt_dec (B2R c) < 0.017965).
  { rewrite bt_dec_hi by (rewrite U in *; lra). apply Rle_lt_trans with (Rpower ((0.081075 + 0.099) / 1.099) (1 / 0.45)); [apply Rpower_le_l; rewrite U in *; lra|].
    apply (Rpower_frac_lt _ _ 20 9); [cbn; lra|lra|lra|lia|]. lra. }
  pose proof (bt_dec_range (B2R c)). destruct (bt_enc_cases d Fd ltac:(rewrite U in *; lra)) as [_ [[D2 E2]|[D2 E2]]]; [|rewrite U in *; lra].
  apply Rabs_le_inv in E2. assert (Rmax 0 (B2R d) <= 0.017966) by (apply Rmax_lub; rewrite U in *; lra). rewrite U in *. lra.
Qed.

Lemma bt_codes_refuted : exists k M : Z, (0 <= k <= M)%Z /\ M = 4095%Z /\
  IZR M * B2R (Y_to_BT709 N (BT709_to_Y N (code lm k M))) < IZR k - / 2.
Proof. exists 332%Z, 4095%Z. split; [lia|]. split; [reflexivity|]. pose proof bt_codes_bad. lra. Qed.

(** ** HLG *)
Lemma hlg_codes_err (c : f32) : fin c -> (B2R c = 0 \/ bpow radix2 (-40) <= B2R c) -> B2R c <= 1 ->
  Rabs (B2R (Y_to_HLG N (HLG_to_Y N c)) - B2R c) <= 50 * u.
Proof.
  intros Fc C0 C1. pose proof u16 as U. set (x := B2R c) in *. pose proof hlg_knee as Kn.
  assert (HiKnee : forall v : f32, fin v -> 1 <= B2R v <= 1 + u -> Rabs (B2R (Y_to_HLG N v) - 0.5) <= 5 * u).
  { intros v Fv Hv. destruct (hlg_hi_near lm Acc v Fv ltac:(rewrite U in *; lra)) as [_ H]. apply Rabs_le_inv in H.
    assert (ln (1 - hb) <= ln (B2R v - hb)) by (apply ln_mono; unfold hb in *; lra).
    assert (ln (B2R v - hb) - ln (1 - hb) <= 1.4 * u).
    { rewrite <- ln_div by (unfold hb; lra). apply Rle_trans with ((B2R v - hb) / (1 - hb) - 1).
      - pose proof (exp_ineq1_le (ln ((B2R v - hb) / (1 - hb)))) as X. rewrite exp_ln in X; [lra|]. apply Rdiv_lt_0_compat; unfold hb; lra.
      - unfold hb. rewrite U in *. lra. }
    unfold ha in *. apply Rabs_le. rewrite U in *. lra. }
  destruct C0 as [Z|C0].
  { assert (D : fin (HLG_to_Y N c) /\ B2R (HLG_to_Y N c) = 0).
    { destruct (l0 lm) as [F0 V0]. destruct (hl_h lm) as [Fh Vh]. destruct (hl_4 lm) as [F4 V4]. unfold HLG_to_Y. rewrite ltb_ok, leb_ok by assumption.
      fold x. rewrite V0, Vh, Rlt_bool_false, Rle_bool_true by lra.
      destruct (mul_ok lm (@flit N 4%dec) c F4 Fc) as [Fm Vm]; [rewrite V4; fold x; rewrite Z, Rmult_0_r, Rabs_R0; apply bpow_ge_0|].
      destruct (mul_ok lm _ c Fm Fc) as [Fp Vp]; [fold x; rewrite Z, Rmult_0_r, Rabs_R0; apply bpow_ge_0|].
      split; [exact Fp|]. rewrite Vp. fold x. rewrite Z, Rmult_0_r. apply rnd_0. }
    destruct D as [Fd Vd]. set (d := HLG_to_Y N c) in *. destruct (l0 lm) as [F0 V0]. destruct (l1 lm) as [F1 V1]. destruct (hl_h lm) as [Fh Vh].
    assert (X : B2R (Y_to_HLG N d) = 0).
    { unfold Y_to_HLG. rewrite !ltb_ok by assumption. rewrite V0, V1, Vd, Rlt_bool_false, Rlt_bool_true by lra.
      destruct (sqrt_ok lm d Fd ltac:(lra)) as [Fs Vs]. rewrite Vd, sqrt_0, rnd_0 in Vs.
      destruct (mul_ok lm (@flit N 0.5%dec) (@fsqrt N d) Fh Fs) as [_ Vm]; [rewrite Vs, Rmult_0_r, Rabs_R0; apply bpow_ge_0|]. rewrite Vm, Vs, Rmult_0_r. apply rnd_0. }
    rewrite X, Z, Rminus_0_r, Rabs_R0, U. lra. }
  pose proof (bpow_gt_0 radix2 (-40)) as P40. destruct (Rle_lt_dec x 0.5) as [L|L].
  - assert (Rd : rel (HLG_to_Y N c) (4 * (x * x)) (1.001 * u)).
    { eapply rel_le; [apply (hlg_dec_lo_rel lm c x 0)|]; try lra.
      - unfold x. apply rel_self; [exact Fc|fold x; lra].
      - exact L.
      - apply Rle_trans with (bpow radix2 (-40)); [apply bpow_le; lia|exact C0]. }
    destruct (rel_ex _ _ _ Rd) as (t & T & V). apply Rabs_le_inv in T. pose proof (proj1 Rd) as Fd. set (d := HLG_to_Y N c) in *.
    destruct (Rlt_le_dec (B2R d) 1) as [L1|L1].
    + assert (Lo : bpow radix2 (-100) <= B2R d).
      { rewrite V. assert (bpow radix2 (-40) * bpow radix2 (-40) <= x * x) by (apply Rmult_le_compat; lra). rewrite <- bpow_plus in H.
        apply Rle_trans with (bpow radix2 (-80)); [apply bpow_le; lia|]. change (-40 + -40)%Z with (-80)%Z in H. pose proof (bpow_gt_0 radix2 (-80)). rewrite U in *. nra. }
      destruct (hlg_lo_rel lm d Fd (conj Lo L1)) as (_ & (_ & _ & He) & _). apply Rabs_le_inv in He.
      assert (S : 2 * x * (1 - 1.001 * u) <= sqrt (B2R d) <= 2 * x * (1 + 1.001 * u)).
      { rewrite V. split.
        - apply Rsqr_incr_0; [|rewrite U; nra|apply sqrt_pos]. rewrite Rsqr_sqrt by (rewrite U in *; nra). unfold Rsqr. assert (0 <= x * x) by nra. rewrite U in *. nra.
        - apply Rsqr_incr_0; [|apply sqrt_pos|rewrite U; nra]. rewrite Rsqr_sqrt by (rewrite U in *; nra). unfold Rsqr. assert (0 <= x * x) by nra. rewrite U in *. nra. }
      apply Rabs_le. rewrite U in *. lra.
    + assert (XX : 4 * (x * x) <= 1) by nra. assert (XT : 4 * (x * x) * (1 + t) <= 1 * (1 + t)) by (apply Rmult_le_compat_r; rewrite U in *; lra).
      assert (B2R d <= 1 + u).
      { destruct (Rle_lt_dec (B2R d) 1) as [|L2]; [pose proof F32.u_pos; lra|exfalso].
        pose proof (gap_lt 0 1 (B2R d) ltac:(lia) fmt_1 (fmt_B2R d)) as G. change (bpow radix2 0) with 1 in G. change (bpow radix2 (0 - 23)) with (/ 8388608) in G.
        specialize (G L2 L2). rewrite V, U in *. lra. }
      specialize (HiKnee d Fd ltac:(lra)). apply Rabs_le_inv in HiKnee. assert (0.5 - u <= x) by (rewrite V in *; rewrite U in *; nra). apply Rabs_le. rewrite U in *; lra.
  - destruct (hlg_dec_hi_near lm Acc c Fc ltac:(fold x; lra)) as [Fd Hd]. fold x in Hd. set (d := HLG_to_Y N c) in *. apply Rabs_le_inv in Hd as Hd'.
    set (w := exp ((x - hc) / ha) + hb) in *.
    assert (Lw : ha * ln (w - hb) + hc = x). { unfold w. replace (exp ((x - hc) / ha) + hb - hb) with (exp ((x - hc) / ha)) by ring. rewrite ln_exp. field. unfold ha; lra. }
    assert (W1 : 1 - 1e-8 <= w).
    { assert (A : ln (1 - hb) - 0.5e-8 <= ln (w - hb)) by (unfold ha, hc in *; lra). 
      assert (Wp : 0 < w - hb) by (unfold w; pose proof (exp_pos ((x - hc) / ha)); lra).
      destruct (Rle_lt_dec (1 - 1e-8) w) as [|Bd]; [assumption|exfalso].
      assert (ln (w - hb) - ln (1 - hb) <= - 1e-8).
      { rewrite <- ln_div by (unfold hb in *; lra). apply Rle_trans with ((w - hb) / (1 - hb) - 1).
        - pose proof (exp_ineq1_le (ln ((w - hb) / (1 - hb)))) as X. rewrite exp_ln in X; [lra|]. apply Rdiv_lt_0_compat; unfold hb in *; lra.
        - unfold hb in *. lra. }
      lra. }
    assert (W2 : w <= 12.02).
    { destruct (Rle_lt_dec w 12.02) as [|Bd]; [assumption|exfalso]. assert (ln (12.02 - hb) < ln (w - hb)) by (apply ln_increasing; unfold hb; lra).
      assert (2.461 <= ln (12.02 - hb)).
      { apply Rle_trans with (ln 11.73); [|apply ln_mono; unfold hb; lra]. rewrite <- (ln_exp 2.461). apply ln_mono; [apply exp_pos|].
        rewrite <- (Ropp_involutive 2.461), exp_Ropp. assert (K : Q2R (Qmake 8533 100000) <= exp (- Q2R (Qmake 2461 1000))) by (apply (exp_lo _ _ 4 12); vm_compute; reflexivity).
        replace (Q2R (Qmake 8533 100000)) with 0.08533 in K by (unfold Q2R; cbn; lra). replace (Q2R (Qmake 2461 1000)) with 2.461 in K by (unfold Q2R; cbn; lra).
        apply Rle_trans with (/ 0.08533); [apply Rinv_le; lra|lra]. }
      unfold ha, hc in *. lra. }
    destruct (Rlt_le_dec (B2R d) 1) as [L1|L1].
    + assert (Lo : bpow radix2 (-100) <= B2R d) by (apply small_100; rewrite U in *; lra).
      destruct (hlg_lo_rel lm d Fd (conj Lo L1)) as (_ & (_ & _ & He) & _). apply Rabs_le_inv in He.
      assert (S : 1 - 0.5001 * (1 - B2R d) <= sqrt (B2R d) <= 1).
      { split; [|rewrite <- sqrt_1; apply sqrt_le_1_alt; lra].
        apply Rsqr_incr_0; [|rewrite U in *; lra|apply sqrt_pos]. rewrite Rsqr_sqrt by (rewrite U in *; lra). unfold Rsqr.
        assert (0 <= 1 - B2R d <= / 10000) by (rewrite U in *; lra). set (g := 1 - B2R d) in *. replace (B2R d) with (1 - g) by (unfold g; ring). nra. }
      assert (X2 : x <= 0.5 + 0.25001 * (w - 1) + 1e-8).
      { assert (ln (w - hb) - ln (1 - hb) <= (w - 1) / (1 - hb)).
        { rewrite <- ln_div by (unfold hb in *; lra). replace ((w - 1) / (1 - hb)) with ((w - hb) / (1 - hb) - 1) by (field; unfold hb; lra).
          pose proof (exp_ineq1_le (ln ((w - hb) / (1 - hb)))) as X. rewrite exp_ln in X; [lra|]. apply Rdiv_lt_0_compat; unfold hb in *; lra. }
        unfold ha, hb in *. rewrite U in *. lra. }
      apply Rabs_le. rewrite U in *. lra.
    + destruct (hlg_hi_near_w lm Acc d Fd ltac:(rewrite U in *; lra)) as [_ He]. apply Rabs_le_inv in He.
      assert (Ld : Rabs (ln (B2R d - hb) - ln (w - hb)) <= 225 * u).
      { assert (Lnb : forall a b, 0.715 <= a -> 0.715 <= b -> Rabs (a - b) <= 160 * u -> ln a - ln b <= 225 * u).
        { intros a b A B Hab. rewrite <- ln_div by lra. apply Rle_trans with (a / b - 1).
          - pose proof (exp_ineq1_le (ln (a / b))) as X. rewrite exp_ln in X; [lra|]. apply Rdiv_lt_0_compat; lra.
          - apply Rabs_le_inv in Hab. apply Rmult_le_reg_r with b; [lra|]. unfold Rdiv. rewrite Rmult_minus_distr_r, Rmult_assoc, Rinv_l by lra. rewrite U in *. nra. }
        pose proof (Lnb (B2R d - hb) (w - hb) ltac:(unfold hb; lra) ltac:(unfold hb; lra) ltac:(apply Rabs_le; lra)).
        pose proof (Lnb (w - hb) (B2R d - hb) ltac:(unfold hb; lra) ltac:(unfold hb; lra) ltac:(apply Rabs_le; lra)). apply Rabs_le. lra. }
      apply Rabs_le_inv in Ld. unfold ha in *. apply Rabs_le. rewrite U in *. lra.
Qed.
Lemma hlg_codes k M : (0 <= k <= M)%Z -> (0 < M <= 2 ^ 17)%Z ->
  Rabs (IZR M * B2R (Y_to_HLG N (HLG_to_Y N (code lm k M))) - IZR k) < / 2.
Proof.
  intros K HM. destruct (code_ok lm k M K ltac:(lia)) as (Fc & Vc & Q & C & E). pose proof u16 as U.
  assert (M1 : 0 < IZR M <= 131072) by (split; [apply IZR_lt|apply IZR_le]; lia).
  assert (C0 : B2R (code lm k M) = 0 \/ bpow radix2 (-40) <= B2R (code lm k M)).
  { destruct (Z.eq_dec k 0) as [->|NZ]; [left; rewrite Vc; unfold Rdiv; rewrite Rmult_0_l; apply rnd_0|right].
    rewrite Vc. apply rnd_ge_fmt; [apply fmt_bpow; lia|]. apply Rle_trans with (bpow radix2 (-17)); [apply bpow_le; lia|]. change (bpow radix2 (-17)) with (/ 131072).
    assert (1 <= IZR k) by (apply IZR_le; lia). apply Rmult_le_reg_r with (IZR M); [lra|]. unfold Rdiv. rewrite Rmult_assoc, Rinv_l by lra. lra. }
  set (c := code lm k M) in *. pose proof (hlg_codes_err c Fc C0 ltac:(lra)) as R0.
  apply (code_half _ _ _ (51 * u)); [lia| |].
  - apply Rabs_le_inv in R0. apply Rabs_le_inv in E. apply Rabs_le. rewrite U in *. lra.
  - rewrite U. lra.
Qed.
End F.
