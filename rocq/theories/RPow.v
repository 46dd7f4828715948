(** * Real powers. *)
From Coq Require Import ZArith Reals Lra Lia.
Local Open Scope R_scope.

Lemma Rpower_pos x y : 0 < Rpower x y. Proof. unfold Rpower. apply exp_pos. Qed.
Lemma Rpower_inv_r x y : 0 < x -> y <> 0 -> Rpower (Rpower x y) (/ y) = x.
Proof. intros Hx Hy. rewrite Rpower_mult, Rinv_r, Rpower_1 by assumption. reflexivity. Qed.
Lemma Rpower_inv_l x y : 0 < x -> y <> 0 -> Rpower (Rpower x (/ y)) y = x.
Proof. intros Hx Hy. rewrite Rpower_mult, Rinv_l, Rpower_1 by assumption. reflexivity. Qed.
Lemma Rpower_3 c : 0 < c -> Rpower c 3 = c * c * c.
Proof. intros H. replace 3 with (INR 3) by (cbn; lra). rewrite Rpower_pow by exact H. ring. Qed.
Lemma Rpower_third x : 0 < x -> Rpower x (1 / 3) * Rpower x (1 / 3) * Rpower x (1 / 3) = x.
Proof.
  intros H. rewrite <- Rpower_3 by apply Rpower_pos.
  replace (1 / 3) with (/ 3) by lra. apply Rpower_inv_l; lra.
Qed.
Lemma cube_lt a b : 0 <= a -> a * a * a < b * b * b -> a < b.
Proof.
  intros A H. destruct (Rlt_le_dec a b) as [L|L]; [exact L|]. exfalso.
  assert (0 <= (a - b) * (a * a + a * b + b * b)) by (apply Rmult_le_pos; nra). lra.
Qed.
Lemma cube_le a b : 0 <= a -> 0 <= b -> a * a * a <= b * b * b -> a <= b.
Proof.
  intros A B H. destruct (Rle_lt_dec a b) as [L|L]; [exact L|]. exfalso.
  assert (0 < (a - b) * (a * a + a * b + b * b)) by (apply Rmult_lt_0_compat; nra). lra.
Qed.
Lemma cube_inj a b : 0 <= a -> 0 <= b -> a * a * a = b * b * b -> a = b.
Proof. intros. apply Rle_antisym; apply cube_le; lra. Qed.
Lemma Rpower_third_cube c : 0 < c -> Rpower (c * c * c) (1 / 3) = c.
Proof.
  intros H. assert (0 < c * c * c) by (repeat apply Rmult_lt_0_compat; exact H).
  apply cube_inj; [left; apply Rpower_pos|lra|]. apply Rpower_third. assumption.
Qed.
Lemma Rpower_le_l x y p : 0 < x -> x <= y -> 0 <= p -> Rpower x p <= Rpower y p.
Proof. intros. apply Rle_Rpower_l; lra. Qed.
Lemma Rpower_lt_l x y p : 0 < x -> x < y -> 0 < p -> Rpower x p < Rpower y p.
Proof. intros. apply Rlt_Rpower_l; lra. Qed.
Lemma Rpower_1_l p : Rpower 1 p = 1.
Proof. unfold Rpower. rewrite ln_1, Rmult_0_r. apply exp_0. Qed.
Lemma Rpower_le_1 x p : 0 < x -> x <= 1 -> 0 <= p -> Rpower x p <= 1.
Proof. intros. rewrite <- (Rpower_1_l p). apply Rpower_le_l; assumption. Qed.
Lemma Rpower_ge_1 x p : 1 <= x -> 0 <= p -> 1 <= Rpower x p.
Proof. intros. rewrite <- (Rpower_1_l p). apply Rpower_le_l; lra. Qed.
Lemma Rpower_nat x n : 0 < x -> Rpower x (INR n) = x ^ n.
Proof. apply Rpower_pow. Qed.
