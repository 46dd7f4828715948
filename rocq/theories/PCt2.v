(** * The temperature from which [fromCT] leaves the realisable stimuli. *)
From Coq Require Import ZArith Reals Lra Lia List.
From Verif Require Import Num NumR MVec MTri RTac PTri PCct PPoly PCt.
Import ListNotations.
Local Open Scope R_scope.

Lemma bbx_cont : continuity (fun T => - bb_x T).
Proof. unfold bb_x. reg. Qed.
Lemma root : exists T0, 13073 < T0 < 13074 /\ bb_x T0 = 0.
Proof.
  assert (A : 0 < bb_x 13073) by (unfold bb_x; lra). assert (B : bb_x 13074 < 0) by (unfold bb_x; lra).
  destruct (IVT (fun T => - bb_x T) 13073 13074 bbx_cont ltac:(lra) ltac:(cbv beta; lra) ltac:(cbv beta; lra)) as (z & [Z1 Z2] & E).
  exists z. cbv beta in E. split; [|lra].
  split; [destruct (Req_dec z 13073) as [->|]; lra|destruct (Req_dec z 13074) as [->|]; lra].
Qed.
Lemma bby_mid T : 13000 <= T <= 13200 -> 0.2 <= bb_y T.
Proof.
  intros H. rewrite bby_pe. assert (0 < pe (padd BY [- 2000000000000000000000000]%Z) T) by ppos 12%nat 13000%Z 200%Z.
  rewrite ?pe_add in *. cbn [pe] in *. lra.
Qed.
Lemma bby_all T : 1100 <= T -> 0.2 <= bb_y T.
Proof.
  intros H. destruct (Rle_lt_dec T 13000); [apply bb_inside; lra|]. destruct (Rle_lt_dec T 13200); [apply bby_mid; lra|].
  pose proof (bb_outside T ltac:(lra)). lra.
Qed.
Lemma bb_sum T : 1100 <= T <= 13074 -> bb_x T + bb_y T < 1.
Proof.
  intros H. destruct (Rle_lt_dec T 13000); [pose proof (bb_inside T ltac:(lra)); lra|]. rewrite bby_pe, bbx_pe.
  assert (0 < pe (padd [99900000000000000000000000000]%Z (pscale (-1) (padd BX (pscale 10000 BY)))) T) by ppos 12%nat 13000%Z 74%Z.
  rewrite !pe_add, ?pe_scale, ?pe_add, ?pe_scale in *. cbn [pe] in *. lra.
Qed.
Lemma ct_threshold : exists T0, 13073 < T0 < 13074 /\ forall T Y, 1100 <= T -> 0 < Y -> exists X Z,
  fromCT RN (Some T) (Some Y) = finV (V3 X Y Z) /\ (T < T0 -> 0 < X /\ 0 < Z) /\ (T = T0 -> X = 0) /\ (T0 < T -> X < 0).
Proof.
  destruct root as (T0 & B & R0). exists T0. split; [exact B|]. intros T Y HT HY. pose proof (bby_all T HT) as Y0.
  exists (bb_x T * Y / bb_y T), ((1 - bb_x T - bb_y T) * Y / bb_y T). split; [|split; [|split]].
  - rewrite fromCT_yxy. rewrite fromYxy_ok; [|rewrite Rabs_pos_eq; unfold eps8; lra]. reflexivity.
  - intros L. pose proof (bbx_dec T T0 ltac:(lra)) as D. pose proof (bb_sum T ltac:(lra)) as S.
    split; apply Rdiv_lt_0_compat; try lra; apply Rmult_lt_0_compat; lra.
  - intros ->. rewrite R0. unfold Rdiv. ring.
  - intros L. pose proof (bbx_dec T0 T ltac:(lra)) as D.
    replace (bb_x T * Y / bb_y T) with (- (- bb_x T * Y / bb_y T)) by (field; lra).
    enough (0 < - bb_x T * Y / bb_y T) by lra. apply Rdiv_lt_0_compat; [apply Rmult_lt_0_compat|]; lra.
Qed.
