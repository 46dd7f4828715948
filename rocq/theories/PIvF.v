(** * Intervals of binary32 values.  [iv x a b]: [x] is finite with value in [a, b]. *)
From Coq Require Import ZArith Reals Lra Lia Psatz.
From Flocq Require Import Core BinarySingleNaN.
From Verif Require Import Num NumF F32 PNearF.
Local Open Scope R_scope.

Definition iv (x : f32) (a b : R) : Prop := fin x /\ a <= B2R x <= b.
Definition safe (r : R) : Prop := fmt r /\ Rabs r <= bpow radix2 127.
Lemma safe_Z m : (Z.abs m <= 2 ^ 24)%Z -> safe (IZR m).
Proof.
  intros H. split; [now apply fmt_IZR|]. rewrite <- abs_IZR. apply Rle_trans with (IZR (2 ^ 24)); [now apply IZR_le|].
  change (IZR (2 ^ 24)) with (bpow radix2 24). apply bpow_le. lia.
Qed.
Lemma safe_dy m (k : positive) : (Z.abs m <= 2 ^ 24)%Z -> (Zpos k <= 149)%Z -> safe (IZR m / IZR (Z.pow_pos 2 k)).
Proof.
  intros H K. change (/ IZR (Z.pow_pos 2 k)) with (bpow radix2 (Zneg k)) || idtac.
  assert (E : IZR m / IZR (Z.pow_pos 2 k) = IZR m * bpow radix2 (Zneg k)) by reflexivity. rewrite E. split.
  - apply fmt_F2R; [assumption|lia].
  - rewrite Rabs_mult, <- abs_IZR, (Rabs_right (bpow _ _)) by (apply Rle_ge, bpow_ge_0). 
    apply Rle_trans with (bpow radix2 24 * bpow radix2 0).
    + apply Rmult_le_compat; [now apply IZR_le, Z.abs_nonneg|apply bpow_ge_0| |apply bpow_le; lia].
      change (bpow radix2 24) with (IZR (2 ^ 24)). now apply IZR_le.
    + rewrite <- bpow_plus. apply bpow_le. lia.
Qed.
Lemma safe_b e : (-149 <= e <= 127)%Z -> safe (bpow radix2 e).
Proof. intros H. split; [apply fmt_bpow; lia|]. rewrite Rabs_right by (apply Rle_ge, bpow_ge_0). apply bpow_le. lia. Qed.
Lemma safe_opp r : safe r -> safe (- r).
Proof. intros [F B]. split; [now apply fmt_opp|now rewrite Rabs_Ropp]. Qed.
Lemma iv_le x a b a' b' : iv x a b -> a' <= a -> b <= b' -> iv x a' b'.
Proof. intros [F H] A B. split; [exact F|lra]. Qed.
Lemma iv_val x v a b : fin x /\ B2R x = v -> a <= v <= b -> iv x a b.
Proof. intros [F E] H. split; [exact F|]. now rewrite E. Qed.
Lemma iv_near x r e a b : near x r e -> a <= r - e -> r + e <= b -> iv x a b.
Proof. intros [F H] A B. split; [exact F|]. apply Rabs_le_inv in H. lra. Qed.
Lemma rnd_iv z lo hi : safe lo -> safe hi -> lo <= z <= hi -> Rabs (rnd z) < bpow radix2 128 /\ lo <= rnd z <= hi.
Proof.
  intros [F1 B1] [F2 B2] [H1 H2]. assert (R1 : lo <= rnd z) by now apply rnd_ge_fmt. assert (R2 : rnd z <= hi) by now apply rnd_le_fmt.
  split; [|lra]. pose proof big_127_lt. apply Rabs_def1; apply Rabs_le_inv in B1; apply Rabs_le_inv in B2; lra.
Qed.
Section Ops.
Variable lm : libm.
Notation N := (FN lm).
Lemma iv_add x y a b c d lo hi : iv x a b -> iv y c d -> safe lo -> safe hi -> lo <= a + c -> b + d <= hi -> iv (@fadd N x y) lo hi.
Proof.
  intros [Fx Hx] [Fy Hy] S1 S2 L H. destruct (rnd_iv (B2R x + B2R y) lo hi S1 S2 ltac:(lra)) as [A B].
  destruct (add_gen lm x y Fx Fy A) as [F E]. split; [exact F|]. now rewrite E.
Qed.
Lemma iv_sub x y a b c d lo hi : iv x a b -> iv y c d -> safe lo -> safe hi -> lo <= a - d -> b - c <= hi -> iv (@fsub N x y) lo hi.
Proof.
  intros [Fx Hx] [Fy Hy] S1 S2 L H. destruct (rnd_iv (B2R x - B2R y) lo hi S1 S2 ltac:(lra)) as [A B].
  destruct (sub_gen lm x y Fx Fy A) as [F E]. split; [exact F|]. now rewrite E.
Qed.
Lemma iv_mul x y a b c d lo hi : iv x a b -> iv y c d -> safe lo -> safe hi ->
  (forall r s, a <= r <= b -> c <= s <= d -> lo <= r * s <= hi) -> iv (@fmul N x y) lo hi.
Proof.
  intros [Fx Hx] [Fy Hy] S1 S2 P. destruct (rnd_iv (B2R x * B2R y) lo hi S1 S2 (P _ _ Hx Hy)) as [A B].
  destruct (mul_gen lm x y Fx Fy A) as [F E]. split; [exact F|]. now rewrite E.
Qed.
Lemma div_between r s lo hi : 0 < s -> lo * s <= r -> r <= hi * s -> lo <= r / s <= hi.
Proof.
  intros S A B. split; apply Rmult_le_reg_r with s; try assumption; unfold Rdiv; rewrite Rmult_assoc, Rinv_l by lra; lra.
Qed.
Lemma iv_div x y a b c d lo hi : iv x a b -> iv y c d -> 0 < c -> safe lo -> safe hi ->
  (forall r s, a <= r <= b -> c <= s <= d -> lo * s <= r /\ r <= hi * s) -> iv (@fdiv N x y) lo hi.
Proof.
  intros [Fx Hx] [Fy Hy] C S1 S2 P. destruct (P _ _ Hx Hy) as [P1 P2].
  assert (Y : 0 < B2R y) by lra.
  destruct (rnd_iv (B2R x / B2R y) lo hi S1 S2 (div_between _ _ _ _ Y P1 P2)) as [A B].
  destruct (div_gen lm x y Fx (Rgt_not_eq _ _ Y) A) as [F E]. split; [exact F|]. now rewrite E.
Qed.
Lemma iv_sqrt x a b lo hi : iv x a b -> safe lo -> safe hi -> 0 <= lo -> 0 <= hi -> lo * lo <= a -> b <= hi * hi -> iv (@fsqrt N x) lo hi.
Proof.
  intros [Fx Hx] S1 S2 L0 H0 L H. assert (P : 0 <= B2R x) by nra. destruct (sqrt_ok lm x Fx P) as [F E]. split; [exact F|]. rewrite E.
  apply (rnd_iv _ lo hi S1 S2). split.
  - rewrite <- (sqrt_square lo) by assumption. apply sqrt_le_1_alt. lra.
  - rewrite <- (sqrt_square hi) by assumption. apply sqrt_le_1_alt. lra.
Qed.
Lemma iv_opp x a b : iv x a b -> iv (@fopp N x) (- b) (- a).
Proof. intros [Fx Hx]. destruct (opp_ok lm x Fx) as [F E]. split; [exact F|]. rewrite E. lra. Qed.
Lemma iv_abs x a : iv x (- a) a -> iv (@ffabs N x) 0 a.
Proof. intros [Fx Hx]. destruct (abs_ok lm x Fx) as [F E]. split; [exact F|]. rewrite E. split; [apply Rabs_pos|]. apply Rabs_le; lra. Qed.
End Ops.
(** [safe] of a numeral [m], a dyadic [m / 2^k] or [bpow radix2 e] *)
Ltac safe_tac := first [apply safe_b; lia | apply safe_Z; vm_compute; discriminate | apply safe_opp, safe_Z; vm_compute; discriminate
  | lazymatch goal with |- safe (IZR ?m / IZR ?q) => let k := eval vm_compute in (Z.to_pos (Z.log2 q)) in
      change (IZR q) with (IZR (Z.pow_pos 2 k)); apply safe_dy; vm_compute; discriminate end].
(** [litv]: a closed float, by computation *)
Ltac litv := lazymatch goal with
  |- iv ?x ?a ?b =>
    let sf := eval vm_compute in (B2SF x) in
    lazymatch sf with
    | SpecFloat.S754_finite ?s ?m ?e =>
        let H := fresh in assert (H : B2SF x = SpecFloat.S754_finite s m e) by (vm_compute; reflexivity);
        let A := fresh in let B := fresh in
        destruct (val_SF x s m e H) as [A B]; split; [exact A|]; rewrite B; clear;
        unfold F2R; cbn [Fnum Fexp SpecFloat.cond_Zopp Z.opp]; bpow_val e; lra
    end
  end.
