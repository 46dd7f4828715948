(** * Lemmas behind C113 and C114. *)
From Coq Require Import ZArith Reals Lra Lia List.
From Flocq Require Import Core BinarySingleNaN.
From Verif Require Import Num NumR NumF MVec MTri MOtf SpecMat SpecOtf RTac F32 PLibm PNearF POtf2 PSlogF PCct PCt PBlackF.
Local Open Scope R_scope.

Lemma C113_slog_l (lm : libm) (x : f32) : accurate lm -> fin x ->
  let v := Rmax 0 (Rmin 10 (B2R x)) in let c := Y_to_SLog (FN lm) x in let y := SLog_to_Y (FN lm) c in
  fin c /\ Rabs (B2R c - sony_slog v) <= 5 * u /\ fin y /\ Rabs (B2R y - v) <= 46 * u * (v + 0.037584).
Proof.
  intros A F v c y. destruct (slog_enc_near lm A x F) as [F1 V1]. destruct (slog_rt_near lm A x F) as [F2 V2]. repeat split; assumption.
Qed.
Lemma C113_slog_dec_l (lm : libm) (c : f32) : accurate lm -> fin c -> 0 <= B2R c <= 1.1 ->
  let v := sony_slog_inv (B2R c) in let y := SLog_to_Y (FN lm) c in fin y /\ Rabs (B2R y - v) <= 18.4 * u * (v + 0.037584).
Proof. intros A F H. exact (slog_dec_near lm A c F H). Qed.
Lemma C113_slog2_l (lm : libm) (x : f32) : accurate lm -> fin x -> 0 <= B2R x <= 14 ->
  let v := B2R x in let c := Y_to_SLog2 (FN lm) x in let y := SLog2_to_Y (FN lm) c in
  fin c /\ Rabs (B2R c - legal (sony_slog2 v)) <= 7.5 * u /\ fin y /\ Rabs (B2R y - v) <= 82 * u * (v + 0.0532).
Proof.
  intros A F H v c y. destruct (slog2_enc_near lm A x F H) as [F1 V1]. destruct (slog2_rt_near lm A x F H) as [F2 V2]. repeat split; assumption.
Qed.
Lemma C113_slog2_neg_l (lm : libm) (x : f32) : fin x -> -1 <= B2R x < 0 ->
  let c := Y_to_SLog2 (FN lm) x in fin c /\ Rabs (B2R c - legal (sony_slog2 (B2R x))) <= 13.5 * u.
Proof. intros F H. exact (slog2_enc_neg lm x F H). Qed.
Lemma C113_slog2_dec_l (lm : libm) (c : f32) : accurate lm -> fin c -> 0 <= B2R c <= 1 ->
  let v := Rmax 0 (sony_slog2_inv (unlegal (B2R c))) in let y := SLog2_to_Y (FN lm) c in fin y /\ Rabs (B2R y - v) <= 33 * u * (v + 0.0532).
Proof. intros A F H. exact (slog2_dec_near lm A c F H). Qed.
Lemma C113_slog3_dec_l (lm : libm) (c : f32) : accurate lm -> fin c -> 0 <= B2R c <= 1 ->
  let v := sony_dec (B2R c) in let y := SLog3_to_Y (FN lm) c in fin y /\ Rabs (B2R y - v) <= 32 * u * (Rabs v + 0.01).
Proof. intros A F H. exact (slog3_dec_near lm A c F H). Qed.
Lemma C114_xy_l (lm : libm) (T : f32) : fin T -> 0 <= B2R T <= 13000 ->
  let x := blackbody_x_approx (FN lm) T in let y := blackbody_y_approx (FN lm) T in
  fin x /\ Rabs (B2R x - bb_x (B2R T)) <= 0.83 * u /\ fin y /\ Rabs (B2R y - bb_y (B2R T)) <= 0.91 * u.
Proof.
  intros F H x y. assert (L : bb_x 13000 <= bb_x (B2R T)).
  { destruct (Req_dec (B2R T) 13000) as [->|]; [lra|]. apply Rlt_le, bbx_dec; lra. }
  destruct (bbx_near lm T F H) as [F1 V1].
  { apply Rabs_le. pose proof (bbx_range (B2R T) ltac:(lra)). assert (-0.82 <= bb_x 13000) by (unfold bb_x; lra). lra. }
  destruct (bby_near lm T F H) as [F2 V2].
  { rewrite Rabs_pos_eq; pose proof (bby_range (B2R T) H); lra. }
  repeat split; assumption.
Qed.
