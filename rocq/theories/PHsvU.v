(** * When [fromHSV] is defined, in binary32. *)
From Coq Require Import ZArith Reals Lra Lia List Bool.
From Flocq Require Import Core IEEE754.BinarySingleNaN.
From Verif Require Import Num NumF MVec MTri F32 PMod360 PMatF PSpecF PHsv PHsvF PNan PLibm PHsvT.
Local Open Scope R_scope.

Section Lm.
Variable lm : libm.
Local Notation N := (FN lm).
Local Notation nan := (B754_nan : f32).
Lemma from_defined (h s v : f32) : fin h -> Rabs (B2R h) <= bpow radix2 33 -> exists t, terminates_with (fun n => fromHSV N n (V3 h s v)) (Ret t).
Proof.
  intros Fh Hh. destruct (mod360_F_ex lm h Fh Hh) as (n & y & E & Fy & Hy).
  pose proof b127_big as BB. destruct (l60 lm) as [F60 V60].
  destruct (div_ok lm y (@flit N 60%dec) Fy) as [Fq Vq]; [rewrite V60; lra|rewrite V60; apply Rabs_le; lra|]. rewrite V60 in Vq.
  assert (Hq : 0 <= B2R (@fdiv N y (@flit N 60%dec)) <= 6).
  { rewrite Vq. split; [apply rnd_ge_fmt; [apply fmt_0|lra]|apply rnd_le_fmt; [apply (fmt_IZR 6); cbn; lia|lra]]. }
  assert (T : @ftoint N (@fdiv N y (@flit N 60%dec)) = Some (Ztrunc (B2R (@fdiv N y (@flit N 60%dec))))).
  { apply (toint_some _ Fq). change (IZR (- 2 ^ 31)) with (-2147483648); change (IZR (2 ^ 31 - 1)) with 2147483647; lra. }
  eexists. exists n. intros m Hm. split; [|discriminate]. unfold fromHSV. cbn [vref v0 v1 v2].
  rewrite (mod360_mono N n m h y E Hm). cbn [bind]. rewrite T. cbn [of_option bind]. reflexivity.
Qed.
Lemma from_nan (s v : f32) : terminates_with (fun n => fromHSV N n (V3 nan s v)) UB.
Proof.
  exists 1%nat. intros m Hm. split; [|discriminate]. destruct m as [|m]; [lia|]. unfold fromHSV. cbn [vref v0 v1 v2].
  rewrite (mod360_F_nan lm m). cbn [bind]. rewrite divl. reflexivity.
Qed.
Lemma from_never (h s v : f32) : (exists b, h = B754_infinity b) \/ (fin h /\ bpow radix2 33 < Rabs (B2R h)) -> never_terminates (fun n => fromHSV N n (V3 h s v)).
Proof.
  intros H n. assert (E : mod360 N n h = Timeout).
  { destruct H as [[b ->]|[F H]]; [apply mod360_F_inf|apply (mod360_F_never lm h F H)]. }
  unfold fromHSV. cbn [vref v0 v1 v2]. rewrite E. reflexivity.
Qed.
Lemma from_iff (h s v : f32) : (exists t, terminates_with (fun n => fromHSV N n (V3 h s v)) (Ret t)) <-> fin h /\ Rabs (B2R h) <= bpow radix2 33.
Proof.
  split; [|intros [F H]; exact (from_defined h s v F H)]. intros (t & n & T).
  destruct (is_finite h) eqn:F.
  - split; [exact F|]. destruct (Rle_lt_dec (Rabs (B2R h)) (bpow radix2 33)) as [L|L]; [exact L|exfalso].
    destruct (T n (le_n n)) as [T1 _]. rewrite (from_never h s v (or_intror (conj F L)) n) in T1. discriminate.
  - exfalso. destruct h as [b|b| |b m e B]; try discriminate.
    + destruct (T n (le_n n)) as [T1 _]. rewrite (from_never _ s v (or_introl (ex_intro _ b eq_refl)) n) in T1. discriminate.
    + destruct (from_nan s v) as (k & K). destruct (T (max n k)) as [T1 _]; [lia|]. destruct (K (max n k)) as [T2 _]; [lia|]. rewrite T2 in T1. discriminate.
Qed.
(** two infinite channels: there and back is undefined *)
Lemma back_ub (b : f32) : fin b -> terminates_with (fun n => let! h := toHSV N n (V3 (B754_infinity false) (B754_infinity false) b) in fromHSV N n h) UB.
Proof.
  intros Fb. exists 1%nat. intros m Hm. split; [|discriminate]. destruct m as [|m]; [lia|]. unfold toHSV. cbv zeta.
  assert (X : hsv_hue_raw N (V3 (B754_infinity false) (B754_infinity false) b) = nan) by (destruct b as [[]|[]| |[] k e K]; try discriminate; reflexivity).
  rewrite X, (mod360_F_nan lm m). cbn [bind].
  unfold fromHSV. cbn [vref v0 v1 v2]. rewrite (mod360_F_nan lm m). cbn [bind]. rewrite divl. reflexivity.
Qed.
Lemma hue400 : exists h : f32, is_finite h = true /\ B2R h = 400 /\ Rabs (B2R h) <= bpow radix2 33.
Proof. destruct (ofZ_ok lm 400 ltac:(lia)) as [F V]. exists (@fofZ N 400). rewrite V. split; [exact F|]. split; [reflexivity|]. rewrite b33, Rabs_pos_eq; lra. Qed.
End Lm.
