(** * Powers of perturbed arguments, and [powf] of an accurate library. *)
From Coq Require Import ZArith Reals Lra Lia List Bool.
From Flocq Require Import Core IEEE754.BinarySingleNaN.
From Verif Require Import Num NumF F32 RPow PHsvF PLibm.
Local Open Scope R_scope.

Lemma exp_near t : Rabs t <= / 2 -> Rabs (exp t - 1) <= Rabs t * (1 + 2 * Rabs t).
Proof.
  intros H. pose proof (exp_ineq1_le t) as A. pose proof (exp_ineq1_le (- t)) as B. rewrite exp_Ropp in B.
  pose proof (exp_pos t) as P. apply Rabs_le_inv in H as H'.
  assert (C : exp t * (1 - t) <= 1). { apply (Rmult_le_compat_l (exp t)) in B; [|lra]. rewrite Rinv_r in B by lra. replace (1 - t) with (1 + - t) by ring. lra. }
  apply Rabs_le. destruct (Rle_dec 0 t) as [S|S].
  - rewrite (Rabs_pos_eq t) in * by lra. split; [nra|]. assert (exp t <= 1 + t * (1 + 2 * t)); [|lra].
    apply Rmult_le_reg_r with (1 - t); [lra|]. nra.
  - rewrite (Rabs_left t) in * by lra. split; [nra|]. assert (exp t <= 1); [|nra]. rewrite <- exp_0. apply Rlt_le, exp_increasing. lra.
Qed.
Lemma ln_near d : Rabs d <= / 2 -> Rabs (ln (1 + d)) <= Rabs d * (1 + 2 * Rabs d).
Proof.
  intros H. apply Rabs_le_inv in H as H'.
  assert (U : ln (1 + d) <= d). { pose proof (exp_ineq1_le d). rewrite <- (ln_exp d) at 2. destruct (Req_dec (1 + d) (exp d)) as [->|N]; [lra|apply Rlt_le, ln_increasing; lra]. }
  assert (L : - ln (1 + d) <= - d / (1 + d)).
  { rewrite <- ln_Rinv by lra. assert (E : / (1 + d) = 1 + - d / (1 + d)) by (field; lra). rewrite E.
    set (q := - d / (1 + d)) in *. pose proof (exp_ineq1_le q). assert (0 < / (1 + d)) by (apply Rinv_0_lt_compat; lra).
    rewrite <- (ln_exp q) at 2. destruct (Req_dec (1 + q) (exp q)) as [->|N]; [lra|apply Rlt_le, ln_increasing; lra]. }
  assert (Q : - d / (1 + d) <= Rabs d * (1 + 2 * Rabs d)).
  { apply Rmult_le_reg_r with (1 + d); [lra|]. unfold Rdiv. rewrite Rmult_assoc, Rinv_l by lra.
    destruct (Rle_dec 0 d); [rewrite (Rabs_pos_eq d) by lra|rewrite (Rabs_left d) by lra]; nra. }
  apply Rabs_le. pose proof (Rle_abs d). pose proof (Rabs_pos d). split; [lra|]. nra.
Qed.
(** Relative change of [x^e] when the base changes by [d] and the exponent by [f]. *)
Lemma Rpower_pert x e d f k h : 0 < x -> Rabs d <= k -> k <= / 1000 -> Rabs (f * ln x) <= h -> h <= / 1000 ->
  Rabs (e + f) * k <= / 1000 ->
  let T := h + 1.002 * (Rabs (e + f) * k) in
  Rabs (Rpower (x * (1 + d)) (e + f) - Rpower x e) <= T * (1 + 2 * T) * Rpower x e.
Proof.
  intros X D K F H E T. assert (D' := Rabs_le_inv _ _ D).
  assert (A : Rabs (ln (1 + d)) <= 1.002 * k).
  { eapply Rle_trans; [apply ln_near; lra|]. pose proof (Rabs_pos d).
    assert (Rabs d * (1 + 2 * Rabs d) <= k * 1.002) by (apply Rmult_le_compat; lra). lra. }
  set (t := f * ln x + (e + f) * ln (1 + d)).
  assert (P : Rpower (x * (1 + d)) (e + f) = Rpower x e * exp t).
  { unfold Rpower. rewrite ln_mult by lra. rewrite <- exp_plus. f_equal. unfold t. ring. }
  assert (B : Rabs t <= T).
  { unfold t, T. eapply Rle_trans; [apply Rabs_triang|]. apply Rplus_le_compat; [exact F|]. rewrite Rabs_mult.
    replace (1.002 * (Rabs (e + f) * k)) with (Rabs (e + f) * (1.002 * k)) by ring. apply Rmult_le_compat_l; [apply Rabs_pos|exact A]. }
  assert (TT : 0 <= T <= / 2). { split; [pose proof (Rabs_pos t); lra|]. unfold T. lra. }
  rewrite P. replace (Rpower x e * exp t - Rpower x e) with (Rpower x e * (exp t - 1)) by ring.
  rewrite Rabs_mult, (Rabs_pos_eq (Rpower x e)) by (apply Rlt_le, Rpower_pos). rewrite Rmult_comm. apply Rmult_le_compat_r; [apply Rlt_le, Rpower_pos|].
  eapply Rle_trans; [apply exp_near; lra|]. pose proof (Rabs_pos t). apply Rmult_le_compat; lra.
Qed.
Lemma pow_close (lm : libm) (x y : f32) (x0 e0 k h : R) : accurate lm -> fin x -> fin y -> 0 < x0 ->
  Rabs (B2R x - x0) <= k * x0 -> k <= / 1000 -> Rabs ((B2R y - e0) * ln x0) <= h -> h <= / 1000 -> Rabs (B2R y) * k <= / 1000 ->
  bpow radix2 (-100) <= Rpower x0 e0 <= bpow radix2 100 ->
  let T := h + 1.002 * (Rabs (B2R y) * k) in
  fin (lm_powf lm x y) /\ Rabs (B2R (lm_powf lm x y) - Rpower x0 e0) <= (4.1 * u + 1.01 * T) * Rpower x0 e0.
Proof.
  intros Acc Fx Fy X0 HX K HF H E R T. pose proof u16 as U.
  set (d := B2R x / x0 - 1). set (f := B2R y - e0).
  assert (Ex : B2R x = x0 * (1 + d)) by (unfold d; field; lra). assert (Ey : B2R y = e0 + f) by (unfold f; ring).
  assert (D : Rabs d <= k).
  { apply Rmult_le_reg_r with x0; [exact X0|]. rewrite <- (Rabs_pos_eq x0) at 1 by lra. rewrite <- Rabs_mult. replace (d * x0) with (B2R x - x0) by (unfold d; field; lra). exact HX. }
  assert (D' := Rabs_le_inv _ _ D).
  pose proof (Rpower_pert x0 e0 d f k h X0 D K HF H) as Q. rewrite <- Ey in Q. specialize (Q E). cbv zeta in Q. fold T in Q. rewrite <- Ex in Q.
  assert (PT : 0 <= T). { unfold T. pose proof (Rabs_pos (f * ln x0)). fold f in HF. pose proof (Rabs_pos (B2R y)). pose proof (Rabs_pos d). assert (0 <= Rabs (B2R y) * k) by (apply Rmult_le_pos; lra). lra. }
  assert (TT : T <= 0.0021) by (unfold T; lra).
  set (r0 := Rpower x0 e0) in *. assert (R0 : 0 < r0) by apply Rpower_pos. set (r := Rpower (B2R x) (B2R y)) in *. assert (Rp : 0 < r) by apply Rpower_pos.
  assert (Q1 : Rabs (r - r0) <= 1.005 * T * r0).
  { eapply Rle_trans; [exact Q|]. apply Rmult_le_compat_r; [lra|]. rewrite Rmult_comm. apply Rmult_le_compat_r; lra. }
  apply Rabs_le_inv in Q1. assert (T * r0 <= 0.0021 * r0) by (apply Rmult_le_compat_r; lra). assert (0 <= T * r0) by (apply Rmult_le_pos; lra).
  assert (B1 : bpow radix2 (-126) <= / 2 * bpow radix2 (-100)). { rewrite half_bpow. apply bpow_le. lia. }
  assert (B2 : 2 * bpow radix2 100 <= bpow radix2 127). { change 2 with (bpow radix2 1). rewrite <- bpow_plus. apply bpow_le. lia. }
  destruct (acc_pow lm Acc x y Fx Fy) as [Fp Ep]; [rewrite Ex; apply Rmult_lt_0_compat; lra| |].
  { fold r. rewrite (Rabs_pos_eq r) by lra. lra. }
  fold r in Ep. rewrite (Rabs_pos_eq r) in Ep by lra. split; [exact Fp|]. apply Rabs_le_inv in Ep.
  assert (u * r <= u * (1.003 * r0)) by (apply Rmult_le_compat_l; lra). assert (0 < u * r0) by (apply Rmult_lt_0_compat; lra).
  apply Rabs_le. lra.
Qed.
