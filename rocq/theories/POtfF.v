(** * Transfer functions in binary32: sRGB and BT.709 against the exact curves. *)
From Coq Require Import ZArith QArith Qreals Reals Lra Lia List Bool.
From Flocq Require Import Core IEEE754.BinarySingleNaN.
From Verif Require Import Num NumR NumF MVec MTri MOtf RTac F32 RPow RExp PHsvF PLibm PPowF PNearF POtf.
Local Open Scope R_scope.

Lemma gap_lt e x y : (-126 <= e)%Z -> fmt x -> fmt y -> bpow radix2 e < y -> x < y -> x <= y - bpow radix2 (e - 23).
Proof. intros He Fx Fy B L. pose proof (pred_gap e y He Fy B). pose proof (pred_ge_gt radix2 (FLT_exp (-149) 24) x y Fx Fy L). lra. Qed.
Lemma Rdiv_le_r a b c : 0 < b -> a <= c * b -> a / b <= c.
Proof. intros B H. unfold Rdiv. apply Rmult_le_reg_r with b; [exact B|]. rewrite Rmult_assoc, Rinv_l by lra. lra. Qed.
Lemma ln_abs a b x : 0 < a -> a <= x <= 1 -> b <= ln a -> Rabs (ln x) <= - b.
Proof.
  intros A X B. assert (ln x <= 0). { rewrite <- ln_1. destruct (Req_dec x 1) as [->|]; [lra|]. apply Rlt_le, ln_increasing; lra. }
  assert (ln a <= ln x). { destruct (Req_dec x a) as [->|]; [lra|]. apply Rlt_le, ln_increasing; lra. }
  apply Rabs_le. lra.
Qed.
Ltac lnbound k n := first [apply (ln_ge_neg _ _ k n)|apply (ln_le_neg _ _ k n)]; [vm_compute; reflexivity|unfold Q2R; cbn; lra].
Lemma ln_003 : -6 <= ln 0.003.
Proof. replace (-6) with (- Q2R (Qmake 6 1)) by (unfold Q2R; cbn; lra). replace 0.003 with (Q2R (Qmake 3 1000)) by (unfold Q2R; cbn; lra). lnbound 8%nat 10%nat. Qed.
Lemma ln_09 : -2.42 <= ln 0.09.
Proof. replace (-2.42) with (- Q2R (Qmake 121 50)) by (unfold Q2R; cbn; lra). replace 0.09 with (Q2R (Qmake 9 100)) by (unfold Q2R; cbn; lra). lnbound 4%nat 10%nat. Qed.
Lemma ln_0179 : -4.1 <= ln 0.017.
Proof. replace (-4.1) with (- Q2R (Qmake 41 10)) by (unfold Q2R; cbn; lra). replace 0.017 with (Q2R (Qmake 17 1000)) by (unfold Q2R; cbn; lra). lnbound 8%nat 10%nat. Qed.
Lemma ln_16 : -1.84 <= ln 0.16.
Proof. replace (-1.84) with (- Q2R (Qmake 46 25)) by (unfold Q2R; cbn; lra). replace 0.16 with (Q2R (Qmake 16 100)) by (unfold Q2R; cbn; lra). lnbound 4%nat 10%nat. Qed.
Lemma small_100 x : / 1000000 <= x -> bpow radix2 (-100) <= x.
Proof.
  intros H. apply Rle_trans with (bpow radix2 (-20)); [apply bpow_le; lia|]. change (bpow radix2 (-20)) with (/ IZR (2 ^ 20)).
  apply Rle_trans with (2 := H). apply Rinv_le; [lra|]. apply IZR_le. intros X; discriminate X.
Qed.

Section F.
Context (lm : libm) (Acc : accurate lm).
Notation N := (FN lm).
Ltac fval := f32_val.
Lemma sl_a : fin (@flit N 0.0031308%dec) /\ B2R (@flit N 0.0031308%dec) = 3361671 / 1073741824. Proof. f32_val. Qed.
Lemma sl_b : fin (@flit N 12.92%dec) /\ B2R (@flit N 12.92%dec) = 6773801 / 524288. Proof. f32_val. Qed.
Lemma sl_c : fin (@flit N 1.055%dec) /\ B2R (@flit N 1.055%dec) = 8849981 / 8388608. Proof. f32_val. Qed.
Lemma sl_d : fin (@flit N 0.055%dec) /\ B2R (@flit N 0.055%dec) = 7381975 / 134217728. Proof. f32_val. Qed.
Lemma sl_e : fin (@flit N 2.4%dec) /\ B2R (@flit N 2.4%dec) = 5033165 / 2097152. Proof. f32_val. Qed.
Lemma sl_f : fin (@fdiv N (@flit N 1.0%dec) (@flit N 2.4%dec)) /\ B2R (@fdiv N (@flit N 1.0%dec) (@flit N 2.4%dec)) = 13981013 / 33554432. Proof. f32_val. Qed.
Lemma sl_g : fin (@flit N 0.04045%dec) /\ B2R (@flit N 0.04045%dec) = 5429107 / 134217728. Proof. f32_val. Qed.

Lemma s_pow_range v : 0.0031308 <= v <= 1 -> 0.09 <= Rpower v (5 / 12) <= 1.
Proof. intros H. pose proof s_knee. pose proof (Rpower_le_l 0.0031308 v (5 / 12)). pose proof (Rpower_le_1 v (5 / 12)). lra. Qed.
Lemma near_0 r e : Rabs r <= e -> near (@flit N 0%dec) r e.
Proof. intros H. destruct (l0 lm) as [A B]. apply (near_lit _ 0); [split; [exact A|exact B]|]. rewrite Rabs_minus_sym, Rminus_0_r. exact H. Qed.
Lemma near_1 r e : Rabs (1 - r) <= e -> near (@flit N 1%dec) r e.
Proof. intros H. destruct (l1 lm) as [A B]. apply (near_lit _ 1); [split; [exact A|exact B]|exact H]. Qed.

Lemma srgb_enc_near (C : f32) : fin C -> near (Y_to_sRGB N C) (s_enc (B2R C)) (9 * u).
Proof.
  intros Fc. pose proof u16 as U. pose proof eta16 as E. set (v := B2R C).
  destruct (l0 lm) as [F0 V0]. destruct (l1 lm) as [F1 V1]. destruct sl_a as [Fa Va].
  unfold Y_to_sRGB. rewrite !ltb_ok by assumption. rewrite V0, V1, Va. fold v. pose proof (s_out v) as [O1 O2].
  case Rlt_bool_spec; intro A; [rewrite (proj1 (O1 A)); apply near_0; rewrite Rabs_R0; lra|].
  case Rlt_bool_spec; intro B; [rewrite (proj1 (O2 B)); apply near_1; rewrite Rminus_diag_eq, Rabs_R0 by reflexivity; lra|].
  case Rlt_bool_spec; intro D.
  - assert (v <= 0.0031307999).
    { pose proof (gap_lt (-9) v (3361671 / 1073741824) ltac:(lia) (fmt_B2R C) ltac:(rewrite <- Va; apply fmt_B2R)) as G.
      change (bpow radix2 (-9)) with (/ 512) in G. change (bpow radix2 (-9 - 23)) with (/ 4294967296) in G. lra. }
    rewrite s_enc_lo by lra. eapply near_le; [eapply near_eq; [eapply (near_mul lm C _ v 12.92 0 (/ 10000000) 0.0032 12.92)|lra]|].
    + apply near_self, Fc.
    + apply (near_lit _ _ _ _ sl_b). apply Rabs_le; lra.
    + apply Rabs_le; lra.
    + apply Rabs_le; lra.
    + lra.
    + lra.
  - rewrite s_enc_hi by lra. pose proof (s_pow_range v ltac:(lra)) as PR.
    assert (P : near (@fpow N C (@fdiv N (@flit N 1.0%dec) (@flit N 2.4%dec))) (Rpower v (5 / 12)) (5.2 * u)).
    { eapply near_le; [apply (near_pow lm Acc C _ v (5 / 12) 0 (u / 5.9) (6 * u / 5.9) 1)|].
      - eapply near_le; [apply near_self, Fc|lra].
      - apply (near_lit _ _ _ _ sl_f). apply Rabs_le; lra.
      - lra.
      - lra.
      - pose proof (ln_abs 0.003 (-6) v ltac:(lra) ltac:(lra) ln_003). pose proof (Rabs_pos (ln v)). unfold Rdiv in *. nra.
      - lra.
      - lra.
      - lra.
      - lra.
      - apply small_100. lra.
      - lra. }
    eapply near_le; [eapply (near_sub lm _ _ _ 0.055 (7.45 * u) (/ 1000000000) 1); [eapply near_le; [eapply (near_mul lm _ _ 1.055 _ (0.9 * u) _ 1.055 1); [|exact P|..]|]|..]|].
    + apply (near_lit _ _ _ _ sl_c). apply Rabs_le; lra.
    + apply Rabs_le; lra.
    + apply Rabs_le; lra.
    + rewrite U; lra.
    + rewrite U in *; lra.
    + apply (near_lit _ _ _ _ sl_d). apply Rabs_le; lra.
    + apply Rabs_le; lra.
    + rewrite U; lra.
    + rewrite U; lra.
Qed.

Lemma srgb_dec_near (C : f32) : fin C -> near (sRGB_to_Y N C) (s_dec (B2R C)) (16 * u).
Proof.
  intros Fc. pose proof u16 as U. pose proof eta16 as E. set (c := B2R C).
  destruct (l0 lm) as [F0 V0]. destruct (l1 lm) as [F1 V1]. destruct sl_g as [Fg Vg].
  unfold sRGB_to_Y. rewrite !ltb_ok by assumption. rewrite V0, V1, Vg. fold c. pose proof (s_out c) as [O1 O2].
  case Rlt_bool_spec; intro A; [rewrite (proj2 (O1 A)); apply near_0; rewrite Rabs_R0; lra|].
  case Rlt_bool_spec; intro B; [rewrite (proj2 (O2 B)); apply near_1; rewrite Rminus_diag_eq, Rabs_R0 by reflexivity; lra|].
  case Rlt_bool_spec; intro D.
  - rewrite s_dec_lo by lra. eapply near_le; [apply (near_div lm C _ c 12.92 0 (/ 10000000) 0.004 12.92)|].
    + apply near_self, Fc.
    + apply (near_lit _ _ _ _ sl_b). apply Rabs_le; lra.
    + rewrite Rabs_pos_eq; lra.
    + lra.
    + apply Rabs_le; lra.
    + lra.
    + rewrite U in *; lra.
  - set (x0 := (c + 0.055) / 1.055). assert (X0 : 0.09 <= x0 <= 1) by (unfold x0; lra).
    assert (PX : near (@fdiv N (@fadd N C (@flit N 0.055%dec)) (@flit N 1.055%dec)) x0 (2.95 * u * x0)).
    { set (t := @fadd N C (@flit N 0.055%dec)). destruct sl_c as [Fk Vk]. destruct sl_d as [Fd Vd].
      destruct (add_ok lm C _ Fc Fd) as [Ft Vt]; [rewrite Vd; fold c; pose proof b127_big; apply Rabs_le; lra|]. fold t in Ft, Vt.
      pose proof (rnd_add_err _ _ (fmt_B2R C) (fmt_B2R (@flit N 0.055%dec))) as Et. rewrite <- Vt in Et. fold c in Et. rewrite Vd in Et.
      rewrite (Rabs_pos_eq (c + 7381975 / 134217728)) in Et by lra. apply Rabs_le_inv in Et.
      assert (Tt : Rabs (B2R t - (c + 0.055)) <= 1.06 * u * (c + 0.055)) by (apply Rabs_le; rewrite U in *; lra). apply Rabs_le_inv in Tt.
      destruct (div_ok lm t _ Ft ltac:(rewrite Vk; lra)) as [Fq Vq]; [rewrite Vk; pose proof b127_big; apply Rabs_le; rewrite U in *; lra|].
      split; [exact Fq|]. rewrite Vq, Vk. pose proof (rnd_err_abs (B2R t / (8849981 / 8388608))) as Er.
      rewrite (Rabs_pos_eq (B2R t / (8849981 / 8388608))) in Er by (rewrite U in *; lra). apply Rabs_le_inv in Er. unfold x0. apply Rabs_le. rewrite U in *; lra. }
    assert (DE : s_dec c = Rpower x0 (12 / 5) \/ (c < 0.04045 /\ Rabs (s_dec c - Rpower x0 (12 / 5)) <= / 2 * u)).
    { destruct (Rlt_le_dec c 0.04045) as [L|L]; [|left; apply s_dec_hi; lra]. right. split; [exact L|]. rewrite s_dec_lo by lra.
      assert (0.0031308 < Rpower x0 (12 / 5) < 0.00313081).
      { split; [apply Rlt_le_trans with (Rpower (0.0954499992 / 1.055) (12 / 5)); [|apply Rpower_le_l; unfold x0; lra]
               |apply Rle_lt_trans with (Rpower (0.09545 / 1.055) (12 / 5)); [apply Rpower_le_l; unfold x0; lra|]];
        [apply (Rpower_frac_gt _ _ 12 5)|apply (Rpower_frac_lt _ _ 12 5)]; try (cbn; lra); try lra; lia. }
      apply Rabs_le. rewrite U. lra. }
    assert (PR : 0.001 <= Rpower x0 (12 / 5) <= 1).
    { split; [|apply Rpower_le_1; lra]. apply Rle_trans with (Rpower 0.09 (12 / 5)); [|apply Rpower_le_l; lra]. apply Rlt_le, (Rpower_frac_gt _ _ 12 5); try (cbn; lra); try lra; lia. }
    assert (P : near (@fpow N (@fdiv N (@fadd N C (@flit N 0.055%dec)) (@flit N 1.055%dec)) (@flit N 2.4%dec)) (Rpower x0 (12 / 5)) (15.3 * u)).
    { eapply near_le; [apply (near_pow lm Acc _ _ x0 (12 / 5) (2.95 * u) (1.61 * u) (2.42 * (1.61 * u)) 1)|].
      - exact PX.
      - apply (near_lit _ _ _ _ sl_e). apply Rabs_le; lra.
      - lra.
      - lra.
      - pose proof (ln_abs 0.09 (-2.42) x0 ltac:(lra) ltac:(lra) ln_09). pose proof (Rabs_pos (ln x0)). nra.
      - lra.
      - rewrite Rabs_pos_eq by lra. rewrite U; lra.
      - lra.
      - lra.
      - apply small_100. lra.
      - rewrite Rabs_pos_eq by lra. rewrite U; lra. }
    destruct DE as [->|[_ DE]]; [eapply near_le; [exact P|lra]|]. destruct P as [Fp P]. split; [exact Fp|].
    apply Rabs_le_inv in P. apply Rabs_le_inv in DE. apply Rabs_le. lra.
Qed.
End F.
(** ** Lipschitz bounds. *)
Lemma Rpower_lip x y p : 0 < x <= 1 -> 0 < y <= 1 -> 1 <= p -> Rabs (Rpower x p - Rpower y p) <= p * Rabs (x - y).
Proof.
  assert (K : forall x y, 0 < x -> x < y -> y <= 1 -> 1 <= p -> Rabs (Rpower y p - Rpower x p) <= p * (y - x)).
  { intros a b Ha L Hb P. destruct (MVT_cor2 (fun z => Rpower z p) (fun z => p * Rpower z (p - 1)) a b L) as (c & E & Hc).
    { intros c Hc. apply derivable_pt_lim_power. lra. }
    rewrite E. pose proof (Rpower_pos c (p - 1)). pose proof (Rpower_le_1 c (p - 1) ltac:(lra) ltac:(lra) ltac:(lra)).
    rewrite Rabs_pos_eq by (apply Rmult_le_pos; [apply Rmult_le_pos|]; lra). apply Rmult_le_compat_r; [lra|]. nra. }
  intros X Y P. destruct (Rtotal_order x y) as [L|[->|L]].
  - rewrite (Rabs_minus_sym (Rpower x p)), (Rabs_minus_sym x), (Rabs_pos_eq (y - x)) by lra. apply K; lra.
  - rewrite !Rminus_diag_eq, Rabs_R0 by reflexivity. lra.
  - rewrite (Rabs_pos_eq (x - y)) by lra. apply K; lra.
Qed.
Definition clip (x : R) : R := Rmax 0 (Rmin 1 x).
Lemma clip_01 x : 0 <= clip x <= 1. Proof. unfold clip, Rmax, Rmin. repeat destruct (Rle_dec _ _); lra. Qed.
Lemma clip_near x y e : 0 <= y <= 1 -> Rabs (x - y) <= e -> Rabs (clip x - y) <= e.
Proof. intros Y H. apply Rabs_le_inv in H. apply Rabs_le. unfold clip, Rmax, Rmin. repeat destruct (Rle_dec _ _); lra. Qed.
Lemma s_dec_clip x : s_dec x = s_dec (clip x).
Proof.
  unfold clip, Rmax, Rmin. destruct (Rle_dec 1 x) as [A|A]; [destruct (Rle_dec 0 1); [|lra]|destruct (Rle_dec 0 x); [reflexivity|]].
  - destruct (Req_dec x 1) as [->|]; [reflexivity|]. rewrite (proj2 (proj2 (s_out x) ltac:(lra))). rewrite s_dec_hi by lra.
    replace ((1 + 0.055) / 1.055) with 1 by lra. now rewrite Rpower_1_l.
  - rewrite (proj2 (proj1 (s_out x) ltac:(lra))). rewrite s_dec_lo by lra. lra.
Qed.
Lemma s_dec_lip x y : Rabs (s_dec x - s_dec y) <= 2.3 * Rabs (x - y) + / 100000000.
Proof.
  assert (K : forall x y, 0 <= x <= 1 -> 0 <= y <= 1 -> x <= y -> Rabs (s_dec x - s_dec y) <= 2.3 * (y - x) + / 100000000).
  { intros a b A B L. destruct (Rlt_le_dec b 0.04045) as [Hb|Hb].
    { rewrite !s_dec_lo by lra. apply Rabs_le. lra. }
    assert (H1 : forall a, 0.04045 <= a <= 1 -> a <= b -> Rabs (s_dec a - s_dec b) <= 2.3 * (b - a)).
    { intros z Hz Lz. rewrite !s_dec_hi by lra. eapply Rle_trans; [apply Rpower_lip; lra|].
      replace ((z + 0.055) / 1.055 - (b + 0.055) / 1.055) with ((z - b) / 1.055) by lra.
      rewrite (Rabs_left1 ((z - b) / 1.055)) by lra. lra. }
    destruct (Rlt_le_dec a 0.04045) as [Ha|Ha]; [|specialize (H1 a ltac:(lra) L); lra].
    specialize (H1 0.04045 ltac:(lra) Hb). rewrite (s_dec_lo a) by lra.
    assert (M : 0.0031308 < s_dec 0.04045 < 0.00313081).
    { rewrite s_dec_hi by lra. replace ((0.04045 + 0.055) / 1.055) with (0.09545 / 1.055) by lra. split; [apply (Rpower_frac_gt _ _ 12 5)|apply (Rpower_frac_lt _ _ 12 5)]; try (cbn; lra); try lra; lia. }
    apply Rabs_le_inv in H1. apply Rabs_le. lra. }
  rewrite (s_dec_clip x), (s_dec_clip y). pose proof (clip_01 x) as X. pose proof (clip_01 y) as Y.
  assert (C : Rabs (clip x - clip y) <= Rabs (x - y)) by exact (clamp_lip x y). 
  destruct (Rle_dec (clip x) (clip y)) as [L|L].
  - rewrite (Rabs_left1 (clip x - clip y)) in C by lra. specialize (K _ _ X Y L). lra.
  - rewrite (Rabs_pos_eq (clip x - clip y)) in C by lra. rewrite Rabs_minus_sym. specialize (K _ _ Y X ltac:(lra)). lra.
Qed.
Lemma srgb_rt_near (lm : libm) (Acc : accurate lm) (C : f32) : fin C -> 0 <= B2R C <= 1 ->
  near (sRGB_to_Y (FN lm) (Y_to_sRGB (FN lm) C)) (B2R C) (41 * u).
Proof.
  intros Fc Hc. pose proof u16 as U. destruct (srgb_enc_near lm Acc C Fc) as [Fe He]. set (y := Y_to_sRGB (FN lm) C) in *.
  destruct (srgb_dec_near lm Acc y Fe) as [Fd Hd]. split; [exact Fd|]. pose proof (s_rt_err (B2R C) Hc) as RT. pose proof (s_dec_lip (B2R y) (s_enc (B2R C))) as L.
  apply Rabs_le_inv in Hd. apply Rabs_le_inv in RT. apply Rabs_le_inv in L. apply Rabs_le. rewrite U in *. lra.
Qed.

(** ** BT.709 *)
Section B.
Context (lm : libm) (Acc : accurate lm).
Notation N := (FN lm).
Lemma bl_a : fin (@flit N 0.018%dec) /\ B2R (@flit N 0.018%dec) = 2415919 / 134217728. Proof. f32_val. Qed.
Lemma bl_b : fin (@flit N 4.50%dec) /\ B2R (@flit N 4.50%dec) = 4.5. Proof. f32_val. Qed.
Lemma bl_c : fin (@flit N 1.099%dec) /\ B2R (@flit N 1.099%dec) = 1152385 / 1048576. Proof. f32_val. Qed.
Lemma bl_d : fin (@flit N 0.099%dec) /\ B2R (@flit N 0.099%dec) = 13287555 / 134217728. Proof. f32_val. Qed.
Lemma bl_e : fin (@flit N 0.45%dec) /\ B2R (@flit N 0.45%dec) = 7549747 / 16777216. Proof. f32_val. Qed.
Lemma bl_f : fin (@fdiv N (@flit N 1%dec) (@flit N 0.45%dec)) /\ B2R (@fdiv N (@flit N 1%dec) (@flit N 0.45%dec)) = 2330169 / 1048576. Proof. f32_val. Qed.
Lemma bl_g : fin (@flit N 0.081%dec) /\ B2R (@flit N 0.081%dec) = 2717909 / 33554432. Proof. f32_val. Qed.

(** The power segment, down to the float [0.018]. *)
Lemma bt_pow_range v : 0.01799 <= v <= 1 -> 0.16 <= Rpower v 0.45 <= 1.
Proof.
  intros H. split; [|apply Rpower_le_1; lra]. apply Rle_trans with (Rpower 0.01799 0.45); [|apply Rpower_le_l; lra].
  apply Rlt_le, (Rpower_frac_gt _ _ 9 20); [cbn; lra|lra|lia|]. lra.
Qed.
Lemma bt_hi_near (C : f32) : fin C -> 0.01799 <= B2R C <= 1 ->
  near (@fsub N (@fmul N (@flit N 1.099%dec) (@fpow N C (@flit N 0.45%dec))) (@flit N 0.099%dec)) (1.099 * Rpower (B2R C) 0.45 - 0.099) (9 * u).
Proof.
  intros Fc H. pose proof u16 as U. pose proof eta16 as E. set (v := B2R C) in *. pose proof (bt_pow_range v H) as PR.
  assert (P : near (@fpow N C (@flit N 0.45%dec)) (Rpower v 0.45) (5 * u)).
  { eapply near_le; [apply (near_pow lm Acc C _ v 0.45 0 (0.21 * u) (4.1 * (0.21 * u)) 1)|].
    - eapply near_le; [apply near_self, Fc|lra].
    - apply (near_lit _ _ _ _ bl_e). apply Rabs_le; lra.
    - lra.
    - lra.
    - pose proof (ln_abs 0.017 (-4.1) v ltac:(lra) ltac:(lra) ln_0179). pose proof (Rabs_pos (ln v)). nra.
    - lra.
    - lra.
    - lra.
    - lra.
    - apply small_100. lra.
    - lra. }
  eapply near_le; [eapply (near_sub lm _ _ _ 0.099 (7.1 * u) (/ 100000000) 1); [eapply near_le; [eapply (near_mul lm _ _ 1.099 _ (0.4 * u) _ 1.099 1); [|exact P|..]|]|..]|].
  + apply (near_lit _ _ _ _ bl_c). apply Rabs_le; lra.
  + apply Rabs_le; lra.
  + apply Rabs_le; lra.
  + rewrite U; lra.
  + rewrite U in *; lra.
  + apply (near_lit _ _ _ _ bl_d). apply Rabs_le; lra.
  + apply Rabs_le; lra.
  + rewrite U; lra.
  + rewrite U; lra.
Qed.
Lemma bt_lo_near (C : f32) : fin C -> 0 <= B2R C <= 0.02 -> near (@fmul N C (@flit N 4.50%dec)) (4.5 * B2R C) (u * (4.5 * B2R C) + eta).
Proof.
  intros Fc H. destruct bl_b as [Fb Vb]. destruct (mul_ok lm C _ Fc Fb) as [F1 V1]; [rewrite Vb; pose proof b127_big; apply Rabs_le; lra|].
  split; [exact F1|]. rewrite V1, Vb. pose proof (rnd_err_abs (B2R C * 4.5)) as E. rewrite (Rabs_pos_eq (B2R C * 4.5)) in E by lra.
  rewrite (Rmult_comm 4.5). exact E.
Qed.
Lemma bt_enc_near (C : f32) : fin C -> B2R C <> B2R (@flit N 0.018%dec) -> near (Y_to_BT709 N C) (bt_enc (B2R C)) (9 * u).
Proof.
  intros Fc Hne. pose proof u16 as U. pose proof eta16 as E. set (v := B2R C) in *.
  destruct (l0 lm) as [F0 V0]. destruct (l1 lm) as [F1 V1]. destruct bl_a as [Fa Va].
  unfold Y_to_BT709. rewrite !ltb_ok by assumption. rewrite V0, V1, Va in *. fold v. pose proof (bt_out v) as [O1 O2].
  case Rlt_bool_spec; intro A; [rewrite (proj1 (O1 A)); apply near_0; rewrite Rabs_R0; lra|].
  case Rlt_bool_spec; intro B; [rewrite (proj1 (O2 B)); apply near_1; rewrite Rminus_diag_eq, Rabs_R0 by reflexivity; lra|].
  case Rlt_bool_spec; intro D.
  - rewrite bt_enc_lo by lra. eapply near_le; [apply bt_lo_near; [exact Fc|fold v; lra]|]. fold v. rewrite U in *. lra.
  - assert (0.018 <= v).
    { pose proof (gap_lt (-6) (2415919 / 134217728) v ltac:(lia) ltac:(rewrite <- Va; apply fmt_B2R) (fmt_B2R C)) as G.
      change (bpow radix2 (-6)) with (/ 64) in G. change (bpow radix2 (-6 - 23)) with (/ 536870912) in G. lra. }
    rewrite bt_enc_hi by lra. apply bt_hi_near; [exact Fc|fold v; lra].
Qed.
Lemma bt_dec_near (C : f32) : fin C -> near (BT709_to_Y N C) (bt_dec (B2R C)) (14 * u).
Proof.
  intros Fc. pose proof u16 as U. pose proof eta16 as E. set (c := B2R C).
  destruct (l0 lm) as [F0 V0]. destruct (l1 lm) as [F1 V1]. destruct bl_g as [Fg Vg].
  unfold BT709_to_Y. rewrite !ltb_ok by assumption. rewrite V0, V1, Vg. fold c. pose proof (bt_out c) as [O1 O2].
  case Rlt_bool_spec; intro A; [rewrite (proj2 (O1 A)); apply near_0; rewrite Rabs_R0; lra|].
  case Rlt_bool_spec; intro B; [rewrite (proj2 (O2 B)); apply near_1; rewrite Rminus_diag_eq, Rabs_R0 by reflexivity; lra|].
  case Rlt_bool_spec; intro D.
  - assert (c <= 0.080999999).
    { pose proof (gap_lt (-4) c (2717909 / 33554432) ltac:(lia) (fmt_B2R C) ltac:(rewrite <- Vg; apply fmt_B2R)) as G.
      change (bpow radix2 (-4)) with (/ 16) in G. change (bpow radix2 (-4 - 23)) with (/ 134217728) in G. lra. }
    rewrite bt_dec_lo by lra. destruct bl_b as [Fb Vb].
    destruct (div_ok lm C (@flit N 4.50%dec) Fc ltac:(rewrite Vb; lra)) as [F2 V2]; [rewrite Vb; fold c; pose proof b127_big; apply Rabs_le; lra|].
    split; [exact F2|]. rewrite V2, Vb. fold c. pose proof (rnd_err_abs (c / 4.5)) as Er. rewrite (Rabs_pos_eq (c / 4.5)) in Er by lra. rewrite U in *. lra.
  - rewrite bt_dec_hi by lra. set (x0 := (c + 0.099) / 1.099). assert (X0 : 0.16 <= x0 <= 1) by (unfold x0; lra).
    assert (PX : near (@fdiv N (@fadd N C (@flit N 0.099%dec)) (@flit N 1.099%dec)) x0 (2.42 * u * x0)).
    { set (t := @fadd N C (@flit N 0.099%dec)). destruct bl_c as [Fk Vk]. destruct bl_d as [Fd Vd].
      destruct (add_ok lm C _ Fc Fd) as [Ft Vt]; [rewrite Vd; fold c; pose proof b127_big; apply Rabs_le; lra|]. fold t in Ft, Vt.
      pose proof (rnd_add_err _ _ (fmt_B2R C) (fmt_B2R (@flit N 0.099%dec))) as Et. rewrite <- Vt in Et. fold c in Et. rewrite Vd in Et.
      rewrite (Rabs_pos_eq (c + 13287555 / 134217728)) in Et by lra. apply Rabs_le_inv in Et.
      assert (Tt : Rabs (B2R t - (c + 0.099)) <= 1.06 * u * (c + 0.099)) by (apply Rabs_le; rewrite U in *; lra). apply Rabs_le_inv in Tt.
      destruct (div_ok lm t _ Ft ltac:(rewrite Vk; lra)) as [Fq Vq]; [rewrite Vk; pose proof b127_big; apply Rabs_le; rewrite U in *; lra|].
      split; [exact Fq|]. rewrite Vq, Vk. pose proof (rnd_err_abs (B2R t / (1152385 / 1048576))) as Er.
      rewrite (Rabs_pos_eq (B2R t / (1152385 / 1048576))) in Er by (rewrite U in *; lra). apply Rabs_le_inv in Er. unfold x0. apply Rabs_le. rewrite U in *; lra. }
    assert (PR : 0.001 <= Rpower x0 (1 / 0.45) <= 1).
    { split; [|apply Rpower_le_1; lra]. apply Rle_trans with (Rpower 0.16 (1 / 0.45)); [|apply Rpower_le_l; lra]. apply Rlt_le, (Rpower_frac_gt _ _ 20 9); try (cbn; lra); try lra; lia. }
    eapply near_le; [apply (near_pow lm Acc _ _ x0 (1 / 0.45) (2.42 * u) (1.8 * u) (1.84 * (1.8 * u)) 1)|].
    + exact PX.
    + apply (near_lit _ _ _ _ bl_f). apply Rabs_le; lra.
    + lra.
    + lra.
    + pose proof (ln_abs 0.16 (-1.84) x0 ltac:(lra) ltac:(lra) ln_16). pose proof (Rabs_pos (ln x0)). nra.
    + lra.
    + rewrite Rabs_pos_eq by lra. rewrite U; lra.
    + lra.
    + lra.
    + apply small_100. lra.
    + rewrite Rabs_pos_eq by lra. rewrite U; lra.
Qed.
Lemma bt_switch (C : f32) : fin C -> B2R C = B2R (@flit N 0.018%dec) ->
  fin (Y_to_BT709 N C) /\ bt_enc (B2R C) + 0.0002 <= B2R (Y_to_BT709 N C).
Proof.
  intros Fc Hc. pose proof u16 as U. destruct (l0 lm) as [F0 V0]. destruct (l1 lm) as [F1 V1]. destruct bl_a as [Fa Va]. rewrite Va in Hc.
  assert (K : 0.01799 <= B2R C <= 1) by (rewrite Hc; lra). pose proof (bt_hi_near C Fc K) as Hn.
  unfold Y_to_BT709. rewrite !ltb_ok by assumption. rewrite V0, V1, Va, Hc in *. rewrite !Rlt_bool_false by lra. destruct Hn as [Fn Hn]. split; [exact Fn|].
  rewrite bt_enc_lo by lra. assert (0.08122 + 0.099 < 1.099 * Rpower (2415919 / 134217728) 0.45).
  { apply Rmult_lt_reg_l with (/ 1.099); [lra|]. rewrite <- Rmult_assoc, Rinv_l, Rmult_1_l by lra.
    apply (Rpower_frac_gt _ _ 9 20); [cbn; lra|lra|lia|]. lra. }
  apply Rabs_le_inv in Hn. rewrite U in *. lra.
Qed.
Lemma bt_rt_near (C : f32) : fin C -> 0 <= B2R C <= 1 -> near (BT709_to_Y N (Y_to_BT709 N C)) (B2R C) (34 * u).
Proof.
  intros Fc Hc. pose proof u16 as U. pose proof eta16 as E. destruct bl_a as [Fa Va].
  destruct (Rlt_le_dec (B2R C) (2415919 / 134217728)) as [L|L].
  - assert (B2R C <= 0.017999998).
    { pose proof (gap_lt (-6) (B2R C) (2415919 / 134217728) ltac:(lia) (fmt_B2R C) ltac:(rewrite <- Va; apply fmt_B2R)) as G.
      change (bpow radix2 (-6)) with (/ 64) in G. change (bpow radix2 (-6 - 23)) with (/ 536870912) in G. lra. }
    destruct (bt_enc_near C Fc) as [Fe He]; [rewrite Va; lra|]. 
    assert (He' : near (Y_to_BT709 N C) (4.5 * B2R C) (u * (4.5 * B2R C) + eta)).
    { destruct (l0 lm) as [F0 V0]. destruct (l1 lm) as [F1 V1]. unfold Y_to_BT709. rewrite !ltb_ok by assumption. rewrite V0, V1, Va.
      rewrite (Rlt_bool_false _ 0), (Rlt_bool_false 1), Rlt_bool_true by lra. apply bt_lo_near; [exact Fc|lra]. }
    destruct He' as [_ He']. set (y := Y_to_BT709 N C) in *. destruct (bt_dec_near y Fe) as [Fd Hd]. split; [exact Fd|].
    apply Rabs_le_inv in He'. assert (Y : - eta <= B2R y < 0.081) by (rewrite U in *; lra).
    destruct (Rlt_le_dec (B2R y) 0) as [Yn|Yn]; [rewrite (proj2 (proj1 (bt_out (B2R y)) Yn)) in Hd|rewrite bt_dec_lo in Hd by lra];
      apply Rabs_le_inv in Hd; apply Rabs_le; rewrite U in *; lra.
  - pose proof (bt_hi_near C Fc ltac:(lra)) as Hn.
    assert (He : near (Y_to_BT709 N C) (1.099 * Rpower (B2R C) 0.45 - 0.099) (9 * u)).
    { destruct (l0 lm) as [F0 V0]. destruct (l1 lm) as [F1 V1]. unfold Y_to_BT709. rewrite !ltb_ok by assumption. rewrite V0, V1, Va.
      rewrite (Rlt_bool_false _ 0), (Rlt_bool_false 1), Rlt_bool_false by lra. exact Hn. }
    clear Hn. destruct He as [Fe He]. set (y := Y_to_BT709 N C) in *. destruct (bt_dec_near y Fe) as [Fd Hd]. split; [exact Fd|].
    set (p := Rpower (B2R C) 0.45) in *.
    assert (P : 0.0812 + 0.099 < 1.099 * p <= 1.099).
    { split; [|unfold p; pose proof (bt_pow_range (B2R C) ltac:(lra)); lra].
      apply Rmult_lt_reg_l with (/ 1.099); [lra|]. rewrite <- Rmult_assoc, Rinv_l, Rmult_1_l by lra.
      apply Rlt_le_trans with (Rpower (2415919 / 134217728) 0.45); [|unfold p; apply Rpower_le_l; lra].
      apply (Rpower_frac_gt _ _ 9 20); [cbn; lra|lra|lia|]. lra. }
    apply Rabs_le_inv in He as He2. apply Rabs_le_inv in Hd.
    destruct (Rlt_le_dec 1 (B2R y)) as [Y1|Y1].
    + rewrite (proj2 (proj2 (bt_out (B2R y)) Y1)) in Hd.
      assert (V : Rpower p (1 / 0.45) = B2R C) by (unfold p; apply Rpower_back; lra).
      pose proof (Rpower_lip p 1 (1 / 0.45) ltac:(lra) ltac:(lra) ltac:(lra)) as LP. rewrite V, Rpower_1_l in LP.
      rewrite (Rabs_left1 (p - 1)) in LP by lra. apply Rabs_le_inv in LP. apply Rabs_le. rewrite U in *. lra.
    + rewrite bt_dec_hi in Hd by (rewrite U in *; lra).
      assert (V : Rpower p (1 / 0.45) = B2R C) by (unfold p; apply Rpower_back; lra).
      pose proof (Rpower_lip ((B2R y + 0.099) / 1.099) p (1 / 0.45) ltac:(rewrite U in *; lra) ltac:(lra) ltac:(lra)) as LP. rewrite V in LP.
      assert (Rabs ((B2R y + 0.099) / 1.099 - p) <= 9 * u / 1.099) by (apply Rabs_le; lra).
      assert (1 / 0.45 * Rabs ((B2R y + 0.099) / 1.099 - p) <= 1 / 0.45 * (9 * u / 1.099)) by (apply Rmult_le_compat_l; lra).
      assert (LP' : Rabs (Rpower ((B2R y + 0.099) / 1.099) (1 / 0.45) - B2R C) <= 18.3 * u) by lra.
      apply Rabs_le_inv in LP'. apply Rabs_le. lra.
Qed.
End B.
