(** * Relative error calculus for positive binary32 expressions. *)
From Coq Require Import ZArith Reals Lra Lia List Bool.
From Flocq Require Import Core IEEE754.BinarySingleNaN.
From Verif Require Import Num NumF F32 RPow PHsvF PYxyF PLibm PPowF PNearF PNearF2.
Local Open Scope R_scope.

(** [x] is within [k] of [r > 0], relatively. *)
Definition rel (x : f32) (r k : R) : Prop := fin x /\ 0 < r /\ Rabs (B2R x - r) <= k * r.
Lemma rel_near x r k : rel x r k -> near x r (k * r).
Proof. intros (A & _ & B). now split. Qed.
Lemma rel_self x : fin x -> 0 < B2R x -> rel x (B2R x) 0.
Proof. intros F P. split; [exact F|]. split; [exact P|]. rewrite Rminus_diag_eq, Rabs_R0 by reflexivity. lra. Qed.
Lemma rel_lit x v r k : fin x /\ B2R x = v -> 0 < r -> Rabs (v - r) <= k * r -> rel x r k.
Proof. intros [A <-] P H. now repeat split. Qed.
Lemma rel_le x r k k' : rel x r k -> k <= k' -> rel x r k'.
Proof. intros (A & B & C) H. repeat split; auto. eapply Rle_trans; [exact C|]. apply Rmult_le_compat_r; lra. Qed.
Lemma rel_eq x r r' k : rel x r k -> r = r' -> rel x r' k. Proof. now intros H <-. Qed.
Lemma rel_k x r k : rel x r k -> 0 <= k.
Proof. intros (_ & A & B). pose proof (Rabs_pos (B2R x - r)). apply Rmult_le_reg_r with r; lra. Qed.
Lemma rel_ex x r k : rel x r k -> exists d, Rabs d <= k /\ B2R x = r * (1 + d).
Proof.
  intros (A & B & C). exists (B2R x / r - 1). split; [|field; lra].
  apply Rmult_le_reg_r with r; [exact B|]. rewrite <- (Rabs_pos_eq r) at 2 by lra. rewrite <- Rabs_mult.
  replace ((B2R x / r - 1) * r) with (B2R x - r) by (field; lra). exact C.
Qed.
Lemma rel_of x r d k : fin x -> 0 < r -> Rabs d <= k -> B2R x = r * (1 + d) -> rel x r k.
Proof.
  intros F P D E. repeat split; auto. rewrite E. replace (r * (1 + d) - r) with (d * r) by ring.
  rewrite Rabs_mult, (Rabs_pos_eq r) by lra. apply Rmult_le_compat_r; lra.
Qed.
Lemma b100 : 0 < bpow radix2 (-100) /\ 2 * bpow radix2 (-126) <= bpow radix2 (-100) /\ 2 * bpow radix2 100 <= bpow radix2 127.
Proof.
  split; [apply bpow_gt_0|]. change 2 with (bpow radix2 1). rewrite <- !bpow_plus. split; apply bpow_le; lia.
Qed.
Definition mid (r : R) : Prop := bpow radix2 (-100) <= r <= bpow radix2 100.

(** Rounding a value of moderate size. *)
Lemma rnd_mid z r d : mid r -> Rabs d <= / 2 -> z = r * (1 + d) ->
  Rabs z <= bpow radix2 127 /\ exists t, Rabs t <= u /\ rnd z = r * (1 + (d + t + d * t)).
Proof.
  intros [L H] D E. apply Rabs_le_inv in D. pose proof b100 as (B0 & B1 & B2). assert (Z : / 2 * r <= z <= 2 * r) by (rewrite E; nra).
  split; [rewrite Rabs_pos_eq by lra; lra|]. destruct (rnd_rel z) as (t & T & R); [rewrite Rabs_pos_eq by lra; lra|].
  exists t. split; [exact T|]. rewrite R, E. ring.
Qed.
Section F.
Context (lm : libm).
Notation N := (FN lm).

Lemma abs_comb a b c ka kb : Rabs a <= ka -> Rabs b <= kb -> c = a + b + a * b -> Rabs c <= ka + kb + ka * kb.
Proof.
  intros A B ->. pose proof (Rabs_pos a). pose proof (Rabs_pos b). eapply Rle_trans; [apply Rabs_triang|]. apply Rplus_le_compat.
  - eapply Rle_trans; [apply Rabs_triang|]. lra.
  - rewrite Rabs_mult. apply Rmult_le_compat; lra.
Qed.
Lemma rel_mul x y r s k l : rel x r k -> rel y s l -> mid (r * s) -> k <= / 100 -> l <= / 100 ->
  rel (@fmul N x y) (r * s) ((k + l + k * l) + u + (k + l + k * l) * u).
Proof.
  intros Rx Ry M K L. destruct (rel_ex _ _ _ Rx) as (a & A & Ea). destruct (rel_ex _ _ _ Ry) as (b & B & Eb).
  pose proof (rel_k _ _ _ Rx) as k0. pose proof (rel_k _ _ _ Ry) as l0.
  destruct Rx as (Fx & R & _), Ry as (Fy & S & _).
  pose proof (abs_comb a b _ k l A B eq_refl) as C. set (c := a + b + a * b) in *.
  assert (C' : Rabs c <= / 2) by nra.
  destruct (rnd_mid (B2R x * B2R y) (r * s) c M C') as (Z & t & T & E); [rewrite Ea, Eb; unfold c; ring|].
  destruct (mul_ok lm x y Fx Fy Z) as [F V]. rewrite E in V. eapply rel_of; [exact F|now apply Rmult_lt_0_compat| |exact V].
  eapply abs_comb; [exact C|exact T|reflexivity].
Qed.
Lemma rel_div x y r s k l : rel x r k -> rel y s l -> mid (r / s) -> k <= / 100 -> l <= / 100 ->
  rel (@fdiv N x y) (r / s) ((k + 1.011 * l + k * (1.011 * l)) + u + (k + 1.011 * l + k * (1.011 * l)) * u).
Proof.
  intros Rx Ry M K L. destruct (rel_ex _ _ _ Rx) as (a & A & Ea). destruct (rel_ex _ _ _ Ry) as (b & B & Eb).
  pose proof (rel_k _ _ _ Rx) as k0. pose proof (rel_k _ _ _ Ry) as l0. assert (B' := Rabs_le_inv _ _ B).
  destruct Rx as (Fx & R & _), Ry as (Fy & S & _).
  set (b' := / (1 + b) - 1). assert (Bb : Rabs b' <= 1.011 * l).
  { unfold b'. replace (/ (1 + b) - 1) with (- b * / (1 + b)) by (field; lra). rewrite Rabs_mult, Rabs_Ropp, Rabs_inv, (Rabs_pos_eq (1 + b)) by lra.
    assert (/ (1 + b) <= 1.011). { apply Rmult_le_reg_l with (1 + b); [lra|]. rewrite Rinv_r by lra. lra. }
    assert (0 < / (1 + b)) by (apply Rinv_0_lt_compat; lra). pose proof (Rabs_pos b). rewrite (Rmult_comm 1.011). apply Rmult_le_compat; lra. }
  pose proof (abs_comb a b' _ k _ A Bb eq_refl) as C. set (c := a + b' + a * b') in *.
  assert (C' : Rabs c <= / 2) by nra.
  assert (Y0 : B2R y <> 0) by (rewrite Eb; apply Rgt_not_eq, Rmult_lt_0_compat; lra).
  destruct (rnd_mid (B2R x / B2R y) (r / s) c M C') as (Z & t & T & E); [rewrite Ea, Eb; unfold c, b'; field; lra|].
  destruct (div_ok lm x y Fx Y0 Z) as [F V]. rewrite E in V. eapply rel_of; [exact F|now apply Rdiv_lt_0_compat| |exact V].
  eapply abs_comb; [exact C|exact T|reflexivity].
Qed.
Lemma rel_add x y r s k : rel x r k -> rel y s k -> mid (r + s) -> k <= / 100 ->
  rel (@fadd N x y) (r + s) (k + u + k * u).
Proof.
  intros (Fx & R & X) (Fy & S & Y) M K. set (c := (B2R x + B2R y) / (r + s) - 1).
  assert (E : B2R x + B2R y = (r + s) * (1 + c)) by (unfold c; field; lra).
  assert (C : Rabs c <= k).
  { apply Rmult_le_reg_r with (r + s); [lra|]. rewrite <- (Rabs_pos_eq (r + s)) at 1 by lra. rewrite <- Rabs_mult.
    replace (c * (r + s)) with ((B2R x - r) + (B2R y - s)) by (unfold c; field; lra). eapply Rle_trans; [apply Rabs_triang|]. lra. }
  destruct (rnd_mid _ (r + s) c M ltac:(lra) E) as (Z & t & T & V'). destruct (add_ok lm x y Fx Fy Z) as [F V]. rewrite V' in V.
  eapply rel_of; [exact F|lra| |exact V]. eapply abs_comb; [exact C|exact T|reflexivity].
Qed.
Context (Acc : accurate lm).
Lemma rel_pow x y r e k g h : rel x r k -> near y e g -> k <= / 1000 -> g * Rabs (ln r) <= h -> h <= / 1000 ->
  (Rabs e + g) * k <= / 1000 -> mid (Rpower r e) ->
  rel (@fpow N x y) (Rpower r e) (4.1 * u + 1.01 * (h + 1.002 * ((Rabs e + g) * k))).
Proof.
  intros Rx [Fy Hy] K HG HH EK M. pose proof (rel_k _ _ _ Rx) as k0. destruct Rx as (Fx & R0 & Hx).
  assert (Ay : Rabs (B2R y) <= Rabs e + g). { replace (B2R y) with (e + (B2R y - e)) by ring. eapply Rle_trans; [apply Rabs_triang|lra]. }
  assert (Ayk : Rabs (B2R y) * k <= (Rabs e + g) * k) by (apply Rmult_le_compat_r; lra).
  destruct (pow_close lm x y r e k h Acc Fx Fy R0 Hx K) as [F1 V1]; auto; try lra.
  - rewrite Rabs_mult. eapply Rle_trans; [|exact HG]. apply Rmult_le_compat_r; [apply Rabs_pos|exact Hy].
  - change (@fpow N x y) with (lm_powf lm x y). split; [exact F1|]. split; [apply Rpower_pos|]. eapply Rle_trans; [exact V1|]. apply Rmult_le_compat_r; [apply Rlt_le, Rpower_pos|]. lra.
Qed.
End F.
