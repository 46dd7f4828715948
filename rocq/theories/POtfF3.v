(** * Transfer functions in binary32: the segments that call no library function, and the statements. *)
From Coq Require Import ZArith QArith Qreals Reals Lra Lia List Bool.
From Flocq Require Import Core IEEE754.BinarySingleNaN.
From Verif Require Import Num NumR NumF MVec MTri MOtf RTac F32 RPow RExp PHsvF PLibm PPowF PNearF PNearF2 PRelF POtf POtf2 POtfF POtfF2.
Local Open Scope R_scope.

(** ** Any library *)
Section F.
Context (lm : libm).
Notation N := (FN lm).
Lemma mid_small r : bpow radix2 (-100) <= r <= 1000000 -> mid r.
Proof. intros H. split; [lra|]. apply Rle_trans with 1000000; [lra|]. apply (mid_ge 1000000). lra. Qed.
Lemma otf_clip (C : f32) : fin C ->
  (B2R C < 0 -> B2R (Y_to_sRGB N C) = 0 /\ B2R (sRGB_to_Y N C) = 0 /\ B2R (Y_to_BT709 N C) = 0 /\ B2R (BT709_to_Y N C) = 0 /\
                B2R (Y_to_HLG N C) = 0 /\ B2R (HLG_to_Y N C) = 0 /\ B2R (Y_to_ST2084 N C) = 0) /\
  (1 < B2R C -> B2R (Y_to_sRGB N C) = 1 /\ B2R (sRGB_to_Y N C) = 1 /\ B2R (Y_to_BT709 N C) = 1 /\ B2R (BT709_to_Y N C) = 1) /\
  (100 <= B2R C -> B2R (Y_to_ST2084 N C) = 1).
Proof.
  intros Fc. destruct (l0 lm) as [F0 V0]. destruct (l1 lm) as [F1 V1]. destruct (pl_100 lm) as [F2 V2].
  unfold Y_to_sRGB, sRGB_to_Y, Y_to_BT709, BT709_to_Y, Y_to_HLG, HLG_to_Y, Y_to_ST2084. rewrite !(ltb_ok lm C), !(leb_ok lm C), !(ltb_ok lm _ C), !(leb_ok lm _ C) by first [assumption|apply (hl_h lm)|apply (sl_a lm)|apply (sl_g lm)|apply (bl_a lm)|apply (bl_g lm)].
  rewrite V0, V1, V2. split; [|split]; intros H.
  - rewrite !(Rlt_bool_true (B2R C) 0), (Rle_bool_true (B2R C) 0) by lra. repeat split; exact V0.
  - rewrite !(Rlt_bool_false (B2R C) 0), !(Rlt_bool_true 1) by lra. repeat split; exact V1.
  - rewrite (Rle_bool_false (B2R C) 0), (Rle_bool_true 100) by lra. exact V1.
Qed.
Lemma srgb_lin (C : f32) : fin C -> bpow radix2 (-100) <= B2R C < B2R (@flit N 0.0031308%dec) ->
  rel (Y_to_sRGB N C) (12.92 * B2R C) (1.2 * u) /\ rel (sRGB_to_Y N (Y_to_sRGB N C)) (B2R C) (2.01 * u).
Proof.
  intros Fc H. destruct (l0 lm) as [F0 V0]. destruct (l1 lm) as [F1 V1]. destruct (sl_a lm) as [Fa Va]. destruct (sl_b lm) as [Fb Vb]. destruct (sl_g lm) as [Fg Vg].
  pose proof u16 as U. pose proof (bpow_gt_0 radix2 (-100)) as P. rewrite Va in H. set (v := B2R C) in *.
  set (w := 6773801 / 524288) in *.
  assert (E : Y_to_sRGB N C = @fmul N C (@flit N 12.92%dec)).
  { unfold Y_to_sRGB. rewrite !ltb_ok by assumption. rewrite V0, V1, Va. fold v. rewrite (Rlt_bool_false v 0), (Rlt_bool_false 1), Rlt_bool_true by lra. reflexivity. }
  assert (Re : rel (@fmul N C (@flit N 12.92%dec)) (v * w) (1.00001 * u)).
  { eapply rel_le; [apply (rel_mul lm C _ v w 0 0)|]; try lra.
    - unfold v. apply rel_self; [exact Fc|fold v; lra].
    - apply rel_exact; [split; assumption|unfold w; lra].
    - apply mid_small. unfold w. lra. }
  rewrite <- E in Re. set (y := Y_to_sRGB N C) in *. split.
  - destruct Re as (Fy & _ & Hy). split; [exact Fy|]. split; [lra|]. apply Rabs_le_inv in Hy. unfold w in *. apply Rabs_le. rewrite U in *. lra.
  - assert (v <= 0.0031307999).
    { pose proof (gap_lt (-9) v (3361671 / 1073741824) ltac:(lia) (fmt_B2R C) ltac:(rewrite <- Va; apply fmt_B2R)) as G.
      change (bpow radix2 (-9)) with (/ 512) in G. change (bpow radix2 (-9 - 23)) with (/ 4294967296) in G. lra. }
    pose proof Re as (Fy & _ & Hy). apply Rabs_le_inv in Hy. assert (Y : 0 <= B2R y <= 0.0404499991) by (unfold w in *; rewrite U in *; lra).
    unfold sRGB_to_Y. rewrite !ltb_ok by assumption. rewrite V0, V1, Vg. rewrite (Rlt_bool_false _ 0), (Rlt_bool_false 1), Rlt_bool_true by lra.
    eapply rel_le; [eapply rel_eq; [apply (rel_div lm y _ (v * w) w _ 0 Re)|unfold w; field]|]; try (rewrite U; lra); try lra.
    + apply rel_exact; [split; assumption|unfold w; lra].
    + replace (v * w / w) with v by (unfold w; field). apply mid_small. lra.
Qed.
Lemma bt_lin (C : f32) : fin C -> bpow radix2 (-100) <= B2R C < B2R (@flit N 0.018%dec) ->
  rel (Y_to_BT709 N C) (4.5 * B2R C) u /\ rel (BT709_to_Y N (Y_to_BT709 N C)) (B2R C) (2.01 * u).
Proof.
  intros Fc H. destruct (l0 lm) as [F0 V0]. destruct (l1 lm) as [F1 V1]. destruct (bl_a lm) as [Fa Va]. destruct (bl_b lm) as [Fb Vb]. destruct (bl_g lm) as [Fg Vg].
  pose proof u16 as U. pose proof (bpow_gt_0 radix2 (-100)) as P. rewrite Va in H. set (v := B2R C) in *.
  assert (E : Y_to_BT709 N C = @fmul N C (@flit N 4.50%dec)).
  { unfold Y_to_BT709. rewrite !ltb_ok by assumption. rewrite V0, V1, Va. fold v. rewrite (Rlt_bool_false v 0), (Rlt_bool_false 1), Rlt_bool_true by lra. reflexivity. }
  assert (Re : rel (@fmul N C (@flit N 4.50%dec)) (v * 4.5) u).
  { eapply rel_le; [apply (rel_mul lm C _ v 4.5 0 0)|]; try lra.
    - unfold v. apply rel_self; [exact Fc|fold v; lra].
    - apply rel_exact; [split; assumption|lra].
    - apply mid_small. lra. }
  rewrite <- E in Re. set (y := Y_to_BT709 N C) in *. split.
  - eapply rel_eq; [exact Re|ring].
  - assert (v <= 0.017999998).
    { pose proof (gap_lt (-6) v (2415919 / 134217728) ltac:(lia) (fmt_B2R C) ltac:(rewrite <- Va; apply fmt_B2R)) as G.
      change (bpow radix2 (-6)) with (/ 64) in G. change (bpow radix2 (-6 - 23)) with (/ 536870912) in G. lra. }
    pose proof Re as (Fy & _ & Hy). apply Rabs_le_inv in Hy. assert (Y : 0 <= B2R y <= 0.0810000001) by (rewrite U in *; lra).
    unfold BT709_to_Y. rewrite !ltb_ok by assumption. rewrite V0, V1, Vg. rewrite (Rlt_bool_false _ 0), (Rlt_bool_false 1), Rlt_bool_true by lra.
    eapply rel_le; [eapply rel_eq; [apply (rel_div lm y _ (v * 4.5) 4.5 _ 0 Re)|lra]|]; try (rewrite U; lra); try lra.
    + apply rel_exact; [split; assumption|lra].
    + replace (v * 4.5 / 4.5) with v by lra. apply mid_small. lra.
Qed.
End F.

(** ** An accurate library: statements against the exact curves *)
Section A.
Context (lm : libm) (Acc : accurate lm).
Notation N := (FN lm).
Lemma srgb_stmt (C : f32) : fin C ->
  exists e d, Y_to_sRGB RN (Some (B2R C)) = Some e /\ near (Y_to_sRGB N C) e (9 * u) /\
              sRGB_to_Y RN (Some (B2R C)) = Some d /\ near (sRGB_to_Y N C) d (16 * u).
Proof. intros Fc. exists (s_enc (B2R C)), (s_dec (B2R C)). rewrite s_enc_fin, s_dec_fin. auto using srgb_enc_near, srgb_dec_near. Qed.
Lemma bt_stmt (C : f32) : fin C ->
  exists e d, Y_to_BT709 RN (Some (B2R C)) = Some e /\ BT709_to_Y RN (Some (B2R C)) = Some d /\ near (BT709_to_Y N C) d (14 * u) /\
    (B2R C <> B2R (@flit N 0.018%dec) -> near (Y_to_BT709 N C) e (9 * u)) /\
    (B2R C = B2R (@flit N 0.018%dec) -> fin (Y_to_BT709 N C) /\ e + 0.0002 <= B2R (Y_to_BT709 N C)).
Proof.
  intros Fc. exists (bt_enc (B2R C)), (bt_dec (B2R C)). rewrite bt_enc_fin, bt_dec_fin.
  split; [reflexivity|]. split; [reflexivity|]. split; [now apply bt_dec_near|]. split; [now apply bt_enc_near|now apply bt_switch].
Qed.
Lemma pq_stmt (C : f32) : fin C -> bpow radix2 (-50) <= B2R C ->
  exists e, Y_to_ST2084 RN (Some (B2R C)) = Some e /\ rel (Y_to_ST2084 N C) e (437 * u) /\ e <= 1.
Proof.
  intros Fc L. pose proof (bpow_gt_0 radix2 (-50)) as P. destruct (Rlt_le_dec (B2R C) 100) as [H|H].
  - exists (pq_enc (B2R C)). rewrite pq_enc_fin by lra. split; [reflexivity|]. split; [apply pq_enc_rel; [exact Acc|exact Fc|lra]|]. pose proof (pq_enc_range (B2R C) ltac:(lra)). lra.
  - exists 1. rewrite pq_enc_hi by lra. split; [reflexivity|]. split; [|lra]. destruct (l0 lm) as [F0 V0]. destruct (l1 lm) as [F1 V1]. destruct (pl_100 lm) as [F2 V2].
    unfold Y_to_ST2084. rewrite !leb_ok by assumption. rewrite V0, V2, Rle_bool_false, Rle_bool_true by lra.
    eapply rel_le; [apply rel_exact; [split; eassumption|lra]|]. pose proof F32.u_pos. lra.
Qed.
Lemma gamma_fin v g : 0 < v -> 0 < g -> gamma RN (Some v) (Some g) = Some (Rpower v (1 / g)).
Proof. intros V G. unfold gamma. rl. change (Rdec 1) with 1. rewrite rdiv_ok by lra. rewrite rpow_pos by lra. reflexivity. Qed.
Lemma gamma_stmt (v g : f32) : fin v -> fin g -> bpow radix2 (-60) <= B2R v <= bpow radix2 60 -> 1 <= B2R g <= 8 ->
  exists e, gamma RN (Some (B2R v)) (Some (B2R g)) = Some e /\
    rel (gamma N v g) e ((5 + 1.1 * Rabs (ln (B2R v))) * u) /\
    rel (degamma N (gamma N v g) g) (B2R v) ((5 + 5 * B2R g + 1.1 * Rabs (ln (B2R v))) * u).
Proof.
  intros Fv Fg V G. pose proof (bpow_gt_0 radix2 (-60)). exists (Rpower (B2R v) (1 / B2R g)). split; [apply gamma_fin; lra|].
  pose proof (Rabs_pos (ln (B2R v))) as P. set (l := Rabs (ln (B2R v))) in *. pose proof F32.u_pos. split.
  - eapply rel_le; [now apply gamma_rel|]. fold l. apply Rmult_le_compat_r; [lra|]. assert (1.02 * l / B2R g <= 1.02 * l); [|lra].
    apply Rmult_le_reg_r with (B2R g); [lra|]. unfold Rdiv. rewrite Rmult_assoc, Rinv_l by lra. nra.
  - eapply rel_le; [now apply gamma_rt_rel|]. fold l. apply Rmult_le_compat_r; lra.
Qed.
Lemma hlg_stmt (C : f32) : fin C -> bpow radix2 (-100) <= B2R C <= 12 ->
  exists e, Y_to_HLG RN (Some (B2R C)) = Some e /\ near (Y_to_HLG N C) e (4.1 * u) /\
    near (HLG_to_Y N (Y_to_HLG N C)) (B2R C) (450 * u) /\ (B2R C < 1 -> near (HLG_to_Y N (Y_to_HLG N C)) (B2R C) (3.01 * u * B2R C)).
Proof.
  intros Fc H. pose proof (bpow_gt_0 radix2 (-100)). pose proof F32.u_pos as U. destruct (Rlt_le_dec (B2R C) 1) as [L|L].
  - exists (0.5 * sqrt (B2R C)). split; [apply hlg_enc_lo; lra|]. destruct (hlg_lo_rel lm C Fc ltac:(lra)) as (_ & Rl & _). pose proof (hlg_rt_lo lm C Fc ltac:(lra)) as Rr.
    assert (S : 0 <= sqrt (B2R C) <= 1) by (split; [apply sqrt_pos|rewrite <- sqrt_1; apply sqrt_le_1_alt; lra]).
    apply rel_near in Rl. apply rel_near in Rr. split; [eapply near_le; [exact Rl|nra]|]. split; [eapply near_le; [exact Rr|nra]|]. intros _. exact Rr.
  - exists (ha * ln (B2R C - hb) + hc). split; [apply hlg_enc_hi; lra|]. split; [apply hlg_hi_near; auto; lra|]. split; [apply hlg_rt_hi; auto; lra|lra].
Qed.
Lemma hlg_dec_stmt (c : f32) : fin c -> 0.5 < B2R c <= 1 -> exists v, HLG_to_Y RN (Some (B2R c)) = Some v /\ near (HLG_to_Y N c) v (160 * u).
Proof. intros Fc H. exists (exp ((B2R c - hc) / ha) + hb). split; [apply hlg_dec_hi; lra|]. apply hlg_dec_hi_near; auto; lra. Qed.
Lemma srgb_half : let x := @flit N 0.5%dec in fin x /\ B2R x = 0.5 /\ 0.7353 < B2R (Y_to_sRGB N x) < 0.7354.
Proof.
  cbv zeta. destruct (hl_h lm) as [F V]. split; [exact F|]. split; [exact V|]. destruct (srgb_enc_near lm Acc _ F) as [_ H]. rewrite V, s_enc_hi in H by lra.
  assert (0.74912 < Rpower 0.5 (5 / 12) < 0.74918) by (split; [apply (Rpower_frac_gt _ _ 5 12)|apply (Rpower_frac_lt _ _ 5 12)]; try (cbn; lra); try lra; lia).
  apply Rabs_le_inv in H. rewrite u16 in H. lra.
Qed.
End A.
