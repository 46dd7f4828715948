(** * Accuracy of the CIE 2000 difference in binary32: against the published formula; a library that qualifies; a pair of colours. *)
From Coq Require Import ZArith Reals Lra Lia List Bool Psatz.
From Flocq Require Import Core IEEE754.BinarySingleNaN Sterbenz.
From Verif Require Import Num NumR NumF MVec MTri MDelta F32 RTac RPow PHsvF PYxyF PLibm PPowF PNearF PNearF2 PRelF SpecDelta PE00 PE00b PHsvA PE00d PIvF PE00F PE00F2 PE00acc PE00acc2 PE00acc7.
Local Open Scope R_scope.

Lemma E00_accurate lm p q : accurate lm -> accurate_trig lm -> lab_plain p -> lab_plain q -> hues_apart p q ->
  let d := Delta_E00 (FN lm) p q (@flit (FN lm) 1%dec) (@flit (FN lm) 1%dec) (@flit (FN lm) 1%dec) in
  let D := CIEDE2000 (tR p) (tR q) 1 1 1 in fin d /\ Rabs (B2R d - D) <= 0.004 + D / 500.
Proof.
  intros A T Hp Hq Hh d D. destruct (E00_close lm A T p q Hp Hq Hh) as (e & E & F & B). fold d in F, B. split; [exact F|].
  destruct (C41_close_l (tR p) (tR q) 1 1 1 ltac:(lra) ltac:(lra) ltac:(lra)) as (e' & E' & C). rewrite E' in E. injection E as ->. fold D in C.
  assert (D0 : 0 <= D) by (unfold D; rewrite cie_core; apply sqrt_pos). apply Rabs_le_inv in B. apply Rabs_le_inv in C. apply Rabs_le. lra.
Qed.
Lemma accurate_trig_exists : exists lm, accurate lm /\ accurate_trig lm.
Proof.
  destruct accurate_exists as [a [A0 A1 A2 A3 A4 A5 A6]].
  destruct (rnd_fun sin) as [sn Hs]; [intros; apply SIN_bound|]. destruct (rnd_fun cos) as [cs Hc]; [intros; apply COS_bound|].
  destruct (choice2 (fun y x z => fin z /\ B2R z = rnd (R_atan2 (B2R y) (B2R x)))) as [at2 Ha].
  { intros y x. apply f32_surj; [apply generic_format_round; typeclasses eauto|]. apply rnd_lt_128. pose proof (atan2_range (B2R y) (B2R x)). pose proof PI_tight. 
    apply Rle_trans with (bpow radix2 2); [change (bpow radix2 2) with 4; apply Rabs_le; lra|apply bpow_le; lia]. }
  destruct (choice2 (fun x y z => fin x -> fin y -> 0 <= B2R x < 2 * B2R y -> fin z /\ B2R z = if Rlt_dec (B2R x) (B2R y) then B2R x else B2R x - B2R y)) as [fm Hf].
  { intros x y. destruct (Rlt_dec (B2R x) (B2R y)) as [L|L]; [exists x; intros; auto|].
    destruct (Rle_dec (B2R x) (2 * B2R y)) as [L'|L']; [|exists x; intros; lra].
    destruct (f32_surj (B2R x - B2R y)) as (z & Z1 & Z2).
    - apply sterbenz; try apply fmt_B2R; try typeclasses eauto. lra.
    - pose proof (abs_B2R_lt_emax 24 128 x) as K. apply Rle_lt_trans with (2 := K). assert (0 <= B2R y) by lra. rewrite !Rabs_pos_eq by lra. lra.
    - exists z. intros. auto. }
  destruct (choice1 (B754_zero false) (fun x z => exp (B2R x) <= bpow radix2 127 -> fin z /\ B2R z = rnd (exp (B2R x)))) as [ex He].
  { intros x. destruct (Rle_dec (exp (B2R x)) (bpow radix2 127)) as [L|L]; [|exists (B754_zero false); intros; contradiction].
    destruct (f32_surj (rnd (exp (B2R x)))) as (z & Z1 & Z2); [apply generic_format_round; typeclasses eauto|apply rnd_lt_128; rewrite Rabs_pos_eq by (left; apply exp_pos); exact L|]. exists z. auto. }
  pose proof u16 as U. pose proof eta16 as Et.
  assert (R1 : forall z, Rabs z <= 4 -> Rabs (rnd z - z) <= 5 * u). { intros z H. pose proof (rnd_err_abs z) as K. pose proof F32.u_pos. assert (u * Rabs z <= u * 4) by (apply Rmult_le_compat_l; lra). rewrite U in *. lra. }
  assert (R2 : forall z, Rabs z <= 1 -> Rabs (rnd z - z) <= 4 * u). { intros z H. pose proof (rnd_err_abs z) as K. pose proof F32.u_pos. assert (u * Rabs z <= u * 1) by (apply Rmult_le_compat_l; lra). rewrite U in *. lra. }
  exists (mkLibm (lm_powf a) ex (lm_logf a) (lm_log10f a) sn cs at2 fm (lm_cbrtf a) (lm_pow a) (lm_exp a)). split.
  - constructor; cbn [lm_powf lm_expf lm_logf lm_log10f]; try assumption. intros x Fx [L H]. rewrite Rabs_pos_eq in H by (left; apply exp_pos). destruct (He x H) as [F V]. split; [exact F|]. rewrite V.
    eapply Rle_trans; [apply rnd_err_abs|]. set (r := exp _) in *.
    assert (eta <= u * Rabs r). { apply Rle_trans with (u * bpow radix2 (-126)); [|apply Rmult_le_compat_l; [apply Rlt_le, u_pos|exact L]]. unfold u, eta. rewrite <- bpow_plus. apply Rle_refl. }
    pose proof u_pos. pose proof (Rabs_pos r). assert (0 <= u * Rabs r) by (apply Rmult_le_pos; lra). lra.
  - constructor; cbn [lm_sinf lm_cosf lm_atan2f lm_fmodf lm_expf].
    + intros x _ _. destruct (Hs x) as [F ->]. split; [exact F|]. apply R2, Rabs_le, SIN_bound.
    + intros x _ _. destruct (Hc x) as [F ->]. split; [exact F|]. apply R2, Rabs_le, COS_bound.
    + intros y x _ _ _. destruct (Ha y x) as [F ->]. split; [exact F|]. apply Rle_trans with (5 * u); [|rewrite U; lra]. apply R1. pose proof (atan2_range (B2R y) (B2R x)). pose proof PI_tight. apply Rabs_le. lra.
    + intros x y Fx Fy H. exact (Hf x y Fx Fy H).
    + intros x _ H. assert (X : 0 < exp (B2R x) <= 1). { split; [apply exp_pos|]. rewrite <- exp_0. destruct H as [H|H]; [left; now apply exp_increasing|rewrite H; lra]. }
      destruct (He x) as [F ->]; [apply Rle_trans with (bpow radix2 0); [change (bpow radix2 0) with 1; lra|apply bpow_le; lia]|]. split; [exact F|]. apply R2. rewrite Rabs_pos_eq; lra.
Qed.
Notation f_ := (lit 24 128 p24 p24e).


Lemma b60 : bpow radix2 (-60) <= 1. Proof. change 1 with (bpow radix2 0). apply bpow_le. lia. Qed.
Lemma E00_acc_case : (exists lm, accurate lm /\ accurate_trig lm) /\
  lab_plain (V3 (f_ 50%dec) (f_ 2.6772%dec) (f_ (-79.7751)%dec)) /\ lab_plain (V3 (f_ 50%dec) (f_ 0%dec) (f_ (-82.7485)%dec)) /\
  hues_apart (V3 (f_ 50%dec) (f_ 2.6772%dec) (f_ (-79.7751)%dec)) (V3 (f_ 50%dec) (f_ 0%dec) (f_ (-82.7485)%dec)).
Proof.
  assert (L0 : iv (f_ 50%dec) 50 50) by litv. assert (L1 : iv (f_ 2.6772%dec) 2 3) by litv. assert (L2 : iv (f_ (-79.7751)%dec) (-80) (-79)) by litv.
  assert (L3 : iv (f_ 0%dec) 0 0) by (replace (f_ 0%dec) with (B754_zero false : f32) by (apply B2SF_inj; vm_compute; reflexivity); split; [reflexivity|cbn [B2R]; lra]). assert (L4 : iv (f_ (-82.7485)%dec) (-83) (-82)) by litv. pose proof b60.
  destruct L0 as [F0 V0], L1 as [F1 V1], L2 as [F2 V2], L3 as [F3 W3], L4 as [F4 V4].
  split; [exact accurate_trig_exists|]. unfold lab_plain, hues_apart. cbn [v0 v1 v2].
  set (a := f_ 50%dec) in *. set (b := f_ 2.6772%dec) in *. set (c := f_ (-79.7751)%dec) in *. set (d := f_ 0%dec) in *. set (e := f_ (-82.7485)%dec) in *. clearbody a b c d e.
  repeat match goal with |- _ /\ _ => split end; try assumption; try lra; try (apply Rabs_le; lra); try nra.
  - right. rewrite Rabs_pos_eq by lra. lra.
  - right. rewrite Rabs_left by lra. lra.
  - right. rewrite Rabs_left by lra. lra.
Qed.
