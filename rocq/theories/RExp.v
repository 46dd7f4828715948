(** * Rational bounds on the exponential, checked by computation in [Q]. *)
From Coq Require Import ZArith QArith Qpower Qreals Qround Reals Lra Lia AltSeries Rtrigo_def Bool.
Local Open Scope R_scope.

Definition psum (x : R) (n : nat) : R := sum_f_R0 (fun i => / INR (fact i) * x ^ i) n.
Lemma psum_alt y n : psum (- y) n = sum_f_R0 (tg_alt (fun i => / INR (fact i) * y ^ i)) n.
Proof.
  unfold psum. apply sum_eq. intros i _. unfold tg_alt. replace (- y) with (-1 * y) by ring. rewrite Rpow_mult_distr. ring.
Qed.
Lemma exp_alt y n : 0 <= y <= 1 -> psum (- y) (S (2 * n)) <= exp (- y) <= psum (- y) (2 * n).
Proof.
  intros H. rewrite !psum_alt. apply alternated_series_ineq.
  - intros i. cbn [pow]. rewrite fact_simpl, mult_INR, Rinv_mult.
    pose proof (pow_le y i (proj1 H)). pose proof (INR_fact_lt_0 i). pose proof (Rinv_0_lt_compat _ H1).
    assert (/ INR (S i) <= 1). { rewrite <- Rinv_1. apply Rinv_le_contravar; [lra|]. rewrite S_INR. pose proof (pos_INR i). lra. }
    assert (0 < / INR (S i)) by (apply Rinv_0_lt_compat, lt_0_INR; lia).
    assert (0 <= / INR (fact i) * y ^ i) by (apply Rmult_le_pos; lra).
    replace (/ INR (S i) * / INR (fact i) * (y * y ^ i)) with ((/ INR (S i) * y) * (/ INR (fact i) * y ^ i)) by ring.
    rewrite <- (Rmult_1_l (/ INR (fact i) * y ^ i)) at 2. apply Rmult_le_compat_r; [assumption|].
    replace 1 with (1 * 1) by ring. apply Rmult_le_compat; lra.
  - intros e He. destruct (cv_speed_pow_fact y e He) as [N K]. exists N. intros n' Hn. specialize (K n' Hn).
    unfold Rdiv in K. rewrite Rmult_comm in K. exact K.
  - unfold exp. destruct (exist_exp (- y)) as [l Hl]. cbn [proj1_sig]. intros e He. destruct (Hl e He) as [N K].
    exists N. intros n' Hn. rewrite <- psum_alt. apply K, Hn.
Qed.

(** ** The same sums in [Q], by Horner's rule (no gcds: the terms stay products of small numbers). *)
Lemma Q2R_inj z : Q2R (inject_Z z) = IZR z. Proof. unfold Q2R, inject_Z. cbn. lra. Qed.
Fixpoint horQ (m k : nat) (q : Q) : Q :=
  match m with O => 1 | S m' => 1 + q / inject_Z (Z.of_nat (S k)) * horQ m' (S k) q end.
Fixpoint hor (m k : nat) (x : R) : R :=
  match m with O => 1 | S m' => 1 + x / INR (S k) * hor m' (S k) x end.
Lemma horQ_ok m : forall k q, Q2R (horQ m k q) = hor m k (Q2R q).
Proof.
  assert (Q2R 1 = 1) by (unfold Q2R; cbn; lra).
  induction m as [|m IH]; intros k q; [assumption|]. cbn [horQ hor].
  rewrite Q2R_plus, Q2R_mult, IH, Q2R_div, Q2R_inj, <- INR_IZR_INZ, H; [reflexivity|]. unfold Qeq. cbn. lia.
Qed.
Lemma hor_ok m : forall k x, psum x (k + m) = psum x k + / INR (fact k) * x ^ k * (hor m k x - 1).
Proof.
  induction m as [|m IH]; intros k x.
  - rewrite Nat.add_0_r. cbn [hor]. ring.
  - replace (k + S m)%nat with (S k + m)%nat by lia. rewrite IH. unfold psum at 1. cbn [sum_f_R0]. fold (psum x k).
    cbn [hor]. rewrite (fact_simpl k), mult_INR. cbn [pow]. field. split; [apply not_0_INR; lia|apply INR_fact_neq_0].
Qed.
Definition expQ (m : nat) (q : Q) : Q := horQ m 0 q.
Lemma expQ_ok m q : Q2R (expQ m q) = psum (Q2R q) m.
Proof. unfold expQ. rewrite horQ_ok, (hor_ok m 0). unfold psum. cbn. lra. Qed.
Lemma Q2R_red q : Q2R (Qred q) = Q2R q. Proof. apply Qeq_eqR, Qred_correct. Qed.

(** ** [exp (-q)] against a rational, with argument reduction by [k]. *)
Lemma Q2R_pow q n : Q2R (Qpower q (Z.of_nat n)) = Q2R q ^ n.
Proof.
  induction n as [|n IH]; [unfold Q2R; cbn; lra|].
  rewrite Nat2Z.inj_succ. unfold Z.succ. cbn [pow]. rewrite <- IH, <- Q2R_mult. apply Qeq_eqR.
  destruct n as [|n].
  - cbn. destruct q; unfold Qeq; cbn; lia.
  - rewrite Z.add_comm. rewrite Qpower_plus'; [reflexivity|lia].
Qed.
Lemma exp_pow x k : (0 < k)%nat -> exp x = exp (x / INR k) ^ k.
Proof.
  intros H. rewrite <- Rpower_pow by apply exp_pos. unfold Rpower. rewrite ln_exp. f_equal. field. apply not_0_INR. lia.
Qed.
Definition qk (q : Q) (k : nat) : Q := Qred (q / inject_Z (Z.of_nat k)).
Lemma qk_ok q k : (0 < k)%nat -> Q2R (qk q k) = Q2R q / INR k.
Proof.
  intros H. unfold qk. rewrite Q2R_red, Q2R_div, Q2R_inj, <- INR_IZR_INZ; [reflexivity|].
  unfold Qeq, inject_Z. cbn. lia.
Qed.
Definition in01 (q : Q) : bool := Qle_bool 0 q && Qle_bool q 1.
Lemma in01_ok q : in01 q = true -> 0 <= Q2R q <= 1.
Proof.
  unfold in01. rewrite andb_true_iff, !Qle_bool_iff. intros [A B]. apply Qle_Rle in A, B.
  replace (Q2R 0) with 0 in A by (unfold Q2R; cbn; lra). replace (Q2R 1) with 1 in B by (unfold Q2R; cbn; lra). lra.
Qed.
Definition exp_hi_b (q c : Q) (k n : nat) : bool :=
  Nat.ltb 0 k && in01 (qk q k) &&
  Qle_bool (Qpower (expQ (2 * n) (Qopp (qk q k))) (Z.of_nat k)) c.
Definition exp_lo_b (q c : Q) (k n : nat) : bool :=
  Nat.ltb 0 k && in01 (qk q k) &&
  Qle_bool 0 (expQ (S (2 * n)) (Qopp (qk q k))) &&
  Qle_bool c (Qpower (expQ (S (2 * n)) (Qopp (qk q k))) (Z.of_nat k)).
Lemma exp_hi q c k n : exp_hi_b q c k n = true -> exp (- Q2R q) <= Q2R c.
Proof.
  unfold exp_hi_b. rewrite !andb_true_iff, Nat.ltb_lt. intros [[K I] L].
  apply in01_ok in I. apply Qle_bool_iff, Qle_Rle in L. rewrite Q2R_pow, expQ_ok, Q2R_opp in L.
  rewrite (exp_pow _ k K). apply Rle_trans with (2 := L). apply pow_incr. split; [left; apply exp_pos|].
  replace (- Q2R q / INR k) with (- (Q2R (qk q k))) by (rewrite qk_ok by exact K; unfold Rdiv; ring).
  apply exp_alt, I.
Qed.
Lemma exp_lo q c k n : exp_lo_b q c k n = true -> Q2R c <= exp (- Q2R q).
Proof.
  unfold exp_lo_b. rewrite !andb_true_iff, Nat.ltb_lt. intros [[[K I] P] L].
  apply in01_ok in I. apply Qle_bool_iff, Qle_Rle in L. rewrite Q2R_pow, expQ_ok, Q2R_opp in L.
  apply Qle_bool_iff, Qle_Rle in P. rewrite expQ_ok, Q2R_opp in P.
  replace (Q2R 0) with 0 in P by (unfold Q2R; cbn; lra).
  rewrite (exp_pow _ k K). apply Rle_trans with (1 := L). apply pow_incr. split; [exact P|].
  replace (- Q2R q / INR k) with (- (Q2R (qk q k))) by (rewrite qk_ok by exact K; unfold Rdiv; ring).
  apply exp_alt, I.
Qed.

(** logarithms: [ln c <= q] etc. from the above, for [c] positive. *)
Lemma ln_le_neg q c k n : exp_lo_b q c k n = true -> 0 < Q2R c -> ln (Q2R c) <= - Q2R q.
Proof. intros H P. apply exp_lo in H. apply Rnot_lt_le. intros L. apply exp_increasing in L. rewrite exp_ln in L by exact P. lra. Qed.
Lemma ln_ge_neg q c k n : exp_hi_b q c k n = true -> 0 < Q2R c -> - Q2R q <= ln (Q2R c).
Proof. intros H P. apply exp_hi in H. apply Rnot_lt_le. intros L. apply exp_increasing in L. rewrite exp_ln in L by exact P. lra. Qed.
