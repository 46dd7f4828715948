(** * Logarithms and exponentials of an accurate library; powers with relative bounds. *)
From Coq Require Import ZArith QArith Qreals Reals Lra Lia List Bool.
From Flocq Require Import Core IEEE754.BinarySingleNaN.
From Verif Require Import Num NumF F32 RPow RExp PHsvF PLibm PPowF PNearF.
Local Open Scope R_scope.

Lemma ln_le_sub x : 0 < x -> ln x <= x - 1.
Proof.
  intros H. pose proof (exp_ineq1_le (x - 1)) as A. replace (1 + (x - 1)) with x in A by ring.
  rewrite <- (ln_exp (x - 1)). destruct (Req_dec x (exp (x - 1))) as [E|N]; [rewrite <- E; lra|]. apply Rlt_le, ln_increasing; lra.
Qed.
Lemma ln_ge_sub x : 0 < x -> 1 - / x <= ln x.
Proof. intros H. pose proof (ln_le_sub (/ x) ltac:(now apply Rinv_0_lt_compat)) as A. rewrite ln_Rinv in A by exact H. lra. Qed.
Lemma ln_bpow e : ln (bpow radix2 e) = IZR e * ln 2.
Proof. rewrite bpow_powerRZ, powerRZ_Rpower by (cbn; lra). unfold Rpower. rewrite ln_exp. reflexivity. Qed.
Lemma ln2_bounds : / 2 <= ln 2 <= 1.
Proof. pose proof (ln_le_sub 2). pose proof (ln_ge_sub 2). lra. Qed.

Section F.
Context (lm : libm) (Acc : accurate lm).
Notation N := (FN lm).

Lemma ln_f32_range (x : f32) : fin x -> 0 < B2R x -> B2R x <> 1 -> / 33554432 <= Rabs (ln (B2R x)) <= 200.
Proof.
  intros Fx P NE. set (v := B2R x) in *.
  assert (L : bpow radix2 (-149) <= v).
  { destruct (Rle_dec (bpow radix2 (-149)) v) as [H|H]; [exact H|exfalso]. 
    assert (Z : v = 0); [|lra]. destruct (Req_dec v 0) as [Z|Z]; [exact Z|].
    pose proof (generic_format_ge_bpow radix2 (FLT_exp (-149) 24) (-149) ltac:(intros e; unfold FLT_exp; lia) v P (fmt_B2R x)). lra. }
  pose proof (b128_max x) as M. fold v in M. rewrite Rabs_pos_eq in M by lra.
  pose proof ln2_bounds as L2.
  assert (A : -149 <= ln v).
  { apply Rle_trans with (ln (bpow radix2 (-149))); [rewrite ln_bpow; lra|]. destruct (Req_dec v (bpow radix2 (-149))) as [->|]; [lra|]. apply Rlt_le, ln_increasing; [apply bpow_gt_0|lra]. }
  assert (B : ln v <= 128).
  { apply Rle_trans with (ln (bpow radix2 128)); [apply Rlt_le, ln_increasing; lra|rewrite ln_bpow; lra]. }
  split; [|apply Rabs_le; lra].
  destruct (Rtotal_order v 1) as [Lt|[Eq|Gt]]; [|contradiction|].
  - assert (v <= 1 - / 16777216).
    { pose proof (pred_gap (-1) 1 ltac:(lia) fmt_1) as G. change (bpow radix2 (-1)) with (/ 2) in G. change (bpow radix2 (-1 - 23)) with (/ 16777216) in G. specialize (G ltac:(lra)).
      pose proof (pred_ge_gt radix2 (FLT_exp (-149) 24) v 1 (fmt_B2R x) fmt_1 Lt). lra. }
    pose proof (ln_le_sub v P). rewrite Rabs_left1 by lra. lra.
  - assert (1 + / 8388608 <= v).
    { pose proof (succ_gap 0 1 ltac:(lia) fmt_1 ltac:(cbn; lra)) as G. change (bpow radix2 (0 - 23)) with (/ 8388608) in G.
      pose proof (succ_le_lt radix2 (FLT_exp (-149) 24) 1 v fmt_1 (fmt_B2R x) Gt). lra. }
    pose proof (ln_ge_sub v P). assert (/ v <= / (1 + / 8388608)) by (apply Rinv_le; lra). rewrite Rabs_pos_eq by lra. lra.
Qed.
Lemma log_rel x : fin x -> 0 < B2R x -> fin (@flog N x) /\ Rabs (B2R (@flog N x) - ln (B2R x)) <= 4 * u * Rabs (ln (B2R x)).
Proof.
  intros Fx P. change (@flog N x) with (lm_logf lm x). destruct (Req_dec (B2R x) 1) as [E|NE].
  - destruct (log_one lm Acc x Fx E) as [F1 V1]. split; [exact F1|]. rewrite V1, E, ln_1, Rminus_0_r, Rabs_R0. lra.
  - pose proof (ln_f32_range x Fx P NE) as R. apply (acc_log lm Acc x Fx P). split.
    + apply Rle_trans with (bpow radix2 (-25)); [apply bpow_le; lia|]. change (bpow radix2 (-25)) with (/ 33554432). lra.
    + pose proof b127_big. lra.
Qed.
Lemma ln10_bounds : 2.3 <= ln 10 <= 2.31.
Proof.
  replace 10 with (/ Q2R (Qmake 1 10)) by (unfold Q2R; cbn; lra). rewrite ln_Rinv by (unfold Q2R; cbn; lra). split.
  - assert (ln (Q2R (Qmake 1 10)) <= - Q2R (Qmake 23 10)) by (apply (ln_le_neg _ _ 4 12); [vm_compute; reflexivity|unfold Q2R; cbn; lra]).
    replace 2.3 with (Q2R (Qmake 23 10)) by (unfold Q2R; cbn; lra). lra.
  - assert (- Q2R (Qmake 231 100) <= ln (Q2R (Qmake 1 10))) by (apply (ln_ge_neg _ _ 4 12); [vm_compute; reflexivity|unfold Q2R; cbn; lra]).
    replace 2.31 with (Q2R (Qmake 231 100)) by (unfold Q2R; cbn; lra). lra.
Qed.
Lemma log10_rel x : fin x -> 0 < B2R x -> fin (@flog10 N x) /\ Rabs (B2R (@flog10 N x) - log10R (B2R x)) <= 4 * u * Rabs (log10R (B2R x)).
Proof.
  intros Fx P. change (@flog10 N x) with (lm_log10f lm x). pose proof ln10_bounds as T. destruct (Req_dec (B2R x) 1) as [E|NE].
  - destruct (log10_one lm Acc x Fx E) as [F1 V1]. split; [exact F1|]. unfold log10R. rewrite V1, E, ln_1. unfold Rdiv. rewrite Rmult_0_l, Rminus_0_r, Rabs_R0. lra.
  - pose proof (ln_f32_range x Fx P NE) as R. apply (acc_log10 lm Acc x Fx P). unfold log10R, Rdiv. rewrite Rabs_mult, Rabs_inv, (Rabs_pos_eq (ln 10)) by lra.
    assert (/ 3 <= / ln 10 <= / 2) by (split; apply Rinv_le; lra). split.
    + apply Rle_trans with (bpow radix2 (-27)); [apply bpow_le; lia|]. change (bpow radix2 (-27)) with (/ 134217728). 
      apply Rle_trans with (/ 33554432 * / 3); [lra|apply Rmult_le_compat; lra].
    + pose proof b127_big. apply Rle_trans with (200 * / 2); [apply Rmult_le_compat; lra|lra].
Qed.
(** [near] forms. *)
Lemma ln_pert x r k : 0 < r -> Rabs (x - r) <= k * r -> k <= / 1000 -> 0 < x /\ Rabs (ln x - ln r) <= 1.002 * k.
Proof.
  intros R H K. set (d := x / r - 1). assert (Ex : x = r * (1 + d)) by (unfold d; field; lra).
  assert (D : Rabs d <= k). { apply Rmult_le_reg_r with r; [exact R|]. rewrite <- (Rabs_pos_eq r) at 1 by lra. rewrite <- Rabs_mult. replace (d * r) with (x - r) by (unfold d; field; lra). exact H. }
  assert (D' := Rabs_le_inv _ _ D). split; [rewrite Ex; apply Rmult_lt_0_compat; lra|].
  rewrite Ex, ln_mult by lra. replace (ln r + ln (1 + d) - ln r) with (ln (1 + d)) by ring.
  eapply Rle_trans; [apply ln_near; lra|]. pose proof (Rabs_pos d). assert (Rabs d * (1 + 2 * Rabs d) <= k * 1.002) by (apply Rmult_le_compat; lra). lra.
Qed.
Lemma near_log x r k B : near x r (k * r) -> 0 < r -> k <= / 1000 -> Rabs (ln r) <= B ->
  near (@flog N x) (ln r) (1.002 * k + 4 * u * (B + 1.002 * k)).
Proof.
  intros [Fx Hx] R K HB. destruct (ln_pert _ _ _ R Hx K) as [P H]. destruct (log_rel x Fx P) as [Fl Hl]. split; [exact Fl|].
  replace (B2R (@flog N x) - ln r) with ((B2R (@flog N x) - ln (B2R x)) + (ln (B2R x) - ln r)) by ring.
  assert (Rabs (ln (B2R x)) <= B + 1.002 * k). { replace (ln (B2R x)) with (ln r + (ln (B2R x) - ln r)) by ring. eapply Rle_trans; [apply Rabs_triang|lra]. }
  eapply Rle_trans; [apply Rabs_triang|]. pose proof F32.u_pos. assert (4 * u * Rabs (ln (B2R x)) <= 4 * u * (B + 1.002 * k)) by (apply Rmult_le_compat_l; lra). lra.
Qed.
Lemma near_log10 x r k B : near x r (k * r) -> 0 < r -> k <= / 1000 -> Rabs (log10R r) <= B ->
  near (@flog10 N x) (log10R r) (0.501 * k + 4 * u * (B + 0.501 * k)).
Proof.
  intros [Fx Hx] R K HB. destruct (ln_pert _ _ _ R Hx K) as [P H]. destruct (log10_rel x Fx P) as [Fl Hl]. split; [exact Fl|].
  pose proof ln10_bounds as T.
  assert (D : Rabs (log10R (B2R x) - log10R r) <= 0.501 * k).
  { unfold log10R. replace (ln (B2R x) / ln 10 - ln r / ln 10) with ((ln (B2R x) - ln r) * / ln 10) by (field; lra). rewrite Rabs_mult, Rabs_inv, (Rabs_pos_eq (ln 10)) by lra.
    assert (/ ln 10 <= / 2) by (apply Rinv_le; lra). assert (0 < / ln 10) by (apply Rinv_0_lt_compat; lra). pose proof (Rabs_pos (ln (B2R x) - ln r)).
    apply Rle_trans with (1.002 * k * / 2); [apply Rmult_le_compat; lra|lra]. }
  replace (B2R (@flog10 N x) - log10R r) with ((B2R (@flog10 N x) - log10R (B2R x)) + (log10R (B2R x) - log10R r)) by ring.
  assert (Rabs (log10R (B2R x)) <= B + 0.501 * k). { replace (log10R (B2R x)) with (log10R r + (log10R (B2R x) - log10R r)) by ring. eapply Rle_trans; [apply Rabs_triang|lra]. }
  eapply Rle_trans; [apply Rabs_triang|]. pose proof F32.u_pos. assert (4 * u * Rabs (log10R (B2R x)) <= 4 * u * (B + 0.501 * k)) by (apply Rmult_le_compat_l; lra). lra.
Qed.
Lemma exp_range r : -20 <= r <= 20 -> bpow radix2 (-100) <= / 2 * exp r /\ 2 * exp r <= bpow radix2 100.
Proof.
  intros H. pose proof ln2_bounds. assert (A : exp (-41 * ln 2) <= exp r <= exp (41 * ln 2)).
  { split; apply Rlt_le, exp_increasing; lra. }
  change (exp (-41 * ln 2)) with (Rpower 2 (-41)) in A. change (exp (41 * ln 2)) with (Rpower 2 41) in A.

  assert (B : Rpower 2 (-41) = bpow radix2 (-41) /\ Rpower 2 41 = bpow radix2 41) by (split; rewrite bpow_powerRZ, powerRZ_Rpower by (cbn; lra); reflexivity).
  destruct B as [B1 B2]. rewrite B1, B2 in A. split.
  - apply Rle_trans with (/ 2 * bpow radix2 (-41)); [rewrite half_bpow; apply bpow_le; lia|lra].
  - apply Rle_trans with (bpow radix2 1 * bpow radix2 41); [change (bpow radix2 1) with 2; lra|rewrite <- bpow_plus; apply bpow_le; lia].
Qed.
Lemma near_exp x r e P : near x r e -> -20 <= r <= 20 -> e <= / 1000 -> exp r <= P ->
  near (@fexp N x) (exp r) ((4.1 * u + 1.003 * e) * P).
Proof.
  intros [Fx Hx] R He HP. set (t := B2R x - r) in *. assert (Et : exp (B2R x) = exp r * exp t) by (rewrite <- exp_plus; f_equal; unfold t; ring).
  pose proof (exp_near t ltac:(lra)) as En. pose proof (Rabs_pos t). pose proof u16 as U.
  assert (En2 : Rabs (exp t - 1) <= 1.002 * e). { eapply Rle_trans; [exact En|]. assert (Rabs t * (1 + 2 * Rabs t) <= e * 1.002) by (apply Rmult_le_compat; lra). lra. }
  pose proof (exp_range r R) as [A B]. pose proof (exp_pos r) as Pr. pose proof (exp_pos t). apply Rabs_le_inv in En2.
  assert (C : / 2 * exp r <= exp (B2R x) <= 2 * exp r) by (rewrite Et; split; nra).
  destruct (acc_exp lm Acc x Fx) as [F1 V1].
  { rewrite Rabs_pos_eq by lra. split; [apply Rle_trans with (bpow radix2 (-100)); [apply bpow_le; lia|lra]|apply Rle_trans with (bpow radix2 100); [lra|apply bpow_le; lia]]. }
  change (@fexp N x) with (lm_expf lm x). split; [exact F1|]. rewrite (Rabs_pos_eq (exp (B2R x))) in V1 by lra. rewrite Et in V1.
  assert (u * (exp r * exp t) <= u * (1.002 * exp r)). { apply Rmult_le_compat_l; [lra|]. nra. }
  assert (0 <= u * exp r) by nra.
  assert (Q : Rabs (exp r * exp t - exp r) <= 1.002 * e * exp r). { apply Rabs_le. nra. }
  assert (G : Rabs (B2R (lm_expf lm x) - exp r) <= (4.1 * u + 1.003 * e) * exp r). { apply Rabs_le_inv in V1. apply Rabs_le_inv in Q. assert (0 <= e * exp r) by nra. apply Rabs_le. lra. }
  eapply Rle_trans; [exact G|]. apply Rmult_le_compat_l; lra.
Qed.
Lemma near_sqrt x : fin x -> 0 <= B2R x -> near (@fsqrt N x) (sqrt (B2R x)) (u * sqrt (B2R x) + eta).
Proof.
  intros Fx P. destruct (sqrt_ok lm x Fx P) as [F1 V1]. split; [exact F1|]. rewrite V1. eapply Rle_trans; [apply rnd_err_abs|]. rewrite Rabs_pos_eq by apply sqrt_pos. lra.
Qed.
End F.
