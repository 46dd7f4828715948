(** * S-Log and S-Log2 outside their range. *)
From Coq Require Import ZArith Reals Lra Lia List Bool.
From Flocq Require Import Core.Raux.
From Verif Require Import Num NumR MVec MTri MOtf SpecMat RTac PMat RPow RExp POtf POtf2 LOtf.
Local Open Scope R_scope.
Lemma slog_below x : x <= 0 -> Y_to_SLog RN (Some x) = Y_to_SLog RN (Some 0).
Proof.
  intros H. unfold Y_to_SLog. rl. destruct (Req_dec x 0) as [->|N]; [reflexivity|].
  rewrite (Rlt_bool_true x 0) by lra. rewrite (Rlt_bool_false 0 0) by lra. rewrite (Rlt_bool_false 10 0) by lra. reflexivity.
Qed.
Lemma slog_above x : 10 <= x -> Y_to_SLog RN (Some x) = Y_to_SLog RN (Some 10).
Proof.
  intros H. unfold Y_to_SLog. rl. destruct (Req_dec x 10) as [->|N]; [reflexivity|].
  rewrite (Rlt_bool_false x 0) by lra. rewrite (Rlt_bool_true 10 x) by lra. rewrite (Rlt_bool_false 10 0), (Rlt_bool_false 10 10) by lra. reflexivity.
Qed.
Definition cl10 (x : R) : R := Rmin 10 (Rmax 0 x).
Lemma slog_cl x : Y_to_SLog RN (Some x) = Some (slog (cl10 x)).
Proof.
  unfold cl10. destruct (Rle_dec x 0) as [H|H].
  - rewrite slog_below by exact H. rewrite Rmax_left, Rmin_right by lra. apply slog_enc. lra.
  - destruct (Rle_dec 10 x) as [K|K].
    + rewrite slog_above by exact K. rewrite Rmax_right, Rmin_left by lra. apply slog_enc. lra.
    + rewrite Rmax_right, Rmin_right by lra. apply slog_enc. lra.
Qed.
Lemma cl10_range x : 0 <= cl10 x <= 10.
Proof. unfold cl10, Rmin, Rmax. repeat destruct Rle_dec; lra. Qed.
Lemma cl10_mono x y : x <= y -> cl10 x <= cl10 y.
Proof. unfold cl10, Rmin, Rmax. repeat destruct Rle_dec; lra. Qed.
Lemma slog_all : increasing_on (fun _ => True) (Y_to_SLog RN).
Proof.
  intros v w _ _ H. rewrite !slog_cl. do 2 eexists. split; [reflexivity|]. split; [reflexivity|].
  apply cl10_mono in H. pose proof (cl10_range v). destruct H as [H|E]; [|rewrite E; apply Rle_refl]. left. apply slog_lt; [lra|exact H].
Qed.
Lemma slog_rt_all x : exists c, Y_to_SLog RN (Some x) = Some c /\ SLog_to_Y RN (Some c) = Some (Rmin 10 (Rmax 0 x)).
Proof. rewrite slog_cl. eexists. split; [reflexivity|]. apply slog_dec. fold (cl10 x). pose proof (cl10_range x). lra. Qed.
Lemma slog2_enc_neg x : x < 0 -> Y_to_SLog2 RN (Some x) = Some (ire (x * 3.53881278538813 + thr2)).
Proof.
  intros H. unfold Y_to_SLog2, IRE_to_CV_SLog2, slog2_BLACK, slog2_WV. rl. rb. rewrite !rdiv_ok by qlra. rl.
  unfold ire, thr2. apply Some_eq. qlra.
Qed.
Lemma slog2_rt_neg x : x < 0 -> exists c, Y_to_SLog2 RN (Some x) = Some c /\ SLog2_to_Y RN (Some c) = Some 0.
Proof.
  intros H. rewrite slog2_enc_neg by exact H. eexists. split; [reflexivity|].
  unfold SLog2_to_Y, CV_to_IRE_SLog2, slog2_BLACK, slog2_WV. rl. rewrite !rdiv_ok by qlra. rl. rewrite rdiv_ok by qlra. rl.
  replace ((ire (x * 3.53881278538813 + thr2) - Rdec 64 / Rdec 1024) / (Rdec 876 / Rdec 1024)) with (x * 3.53881278538813 + thr2) by (unfold ire; qlra).
  rewrite Rle_bool_false by (unfold thr2; qlra). rewrite rdiv_ok by qlra. rl.
  rewrite Rlt_bool_false by (unfold thr2; qlra). reflexivity.
Qed.
Lemma slog2_all_neg : increasing_on (fun x => x < 0) (Y_to_SLog2 RN).
Proof.
  intros v w V W H. rewrite !slog2_enc_neg by assumption. do 2 eexists. split; [reflexivity|]. split; [reflexivity|]. unfold ire. lra.
Qed.
