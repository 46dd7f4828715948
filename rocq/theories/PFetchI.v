(** * Interpolation between the samples of a spectrum in binary32. *)
From Coq Require Import ZArith Reals Lra Lia List Bool.
From Flocq Require Import Core BinarySingleNaN.
From Verif Require Import Num NumF MVec MTri MSpectrum F32 PSpecF PFetchU PHsvF Tables PTables.
Import ListNotations.
Local Open Scope R_scope.

Lemma fmt_multiple k x : fmt x -> bpow radix2 k <= Rabs x -> (-126 <= k)%Z -> exists z, x = IZR z * bpow radix2 (k - 23).
Proof.
  intros F H K. destruct (FLT_format_generic radix2 (-149) 24 x F) as [[m e] Ex Em Ee]. cbn [Fnum Fexp] in *.
  unfold F2R in Ex. cbn [Fnum Fexp] in Ex.
  assert (L : (k - 23 <= e)%Z).
  { apply Z.lt_pred_le. apply (lt_bpow radix2). apply Rmult_lt_reg_l with (bpow radix2 24); [apply bpow_gt_0|]. rewrite <- !bpow_plus.
    replace (24 + Z.pred (k - 23))%Z with k by lia. apply Rle_lt_trans with (1 := H). rewrite Ex, Rabs_mult, (Rabs_pos_eq (bpow _ _)) by apply bpow_ge_0.
    rewrite bpow_plus. apply Rmult_lt_compat_r; [apply bpow_gt_0|]. rewrite <- abs_IZR. change (bpow radix2 24) with (IZR (2 ^ 24)). apply IZR_lt. exact Em. }
  exists (m * 2 ^ (e - (k - 23)))%Z. rewrite Ex, mult_IZR, (IZR_Zpower radix2) by lia. rewrite Rmult_assoc, <- bpow_plus. do 2 f_equal. lia.
Qed.
Lemma fmt_15 z : (Z.abs z <= 2 ^ 24)%Z -> fmt (IZR z / 32768).
Proof. intros H. change (/ 32768) with (bpow radix2 (-15)). replace (IZR z / 32768) with (IZR z * bpow radix2 (-15)) by (change (bpow radix2 (-15)) with (/ 32768); reflexivity). apply fmt_F2R; lia. Qed.

Lemma fmt_rnd z : fmt (rnd z). Proof. apply generic_format_round; typeclasses eauto. Qed.
Section F.
Context (lm : libm).
Notation N := (FN lm).
Section T.
Context (t : f32) (i : Z) (Ft : fin t) (Hi : (0 <= i <= 398)%Z) (Ht : 380 + IZR i <= B2R t < 381 + IZR i).
Let x := B2R t - 380.
Lemma i_rng : 0 <= IZR i <= 398. Proof. split; apply IZR_le; lia. Qed.
Lemma t_mult : exists z, B2R t = IZR z / 32768.
Proof.
  pose proof i_rng. destruct (fmt_multiple 8 (B2R t) (fmt_B2R t)) as [z E]; [change (bpow radix2 8) with 256; rewrite Rabs_pos_eq; lra|lia|]. exists z. exact E.
Qed.
Lemma x_mult : exists z, x = IZR z / 32768 /\ (32768 * i <= z < 32768 * (i + 1))%Z.
Proof.
  destruct t_mult as [z E]. exists (z - 12451840)%Z. unfold x. rewrite E. split; [rewrite minus_IZR; lra|].
  split; [apply le_IZR|apply lt_IZR]; rewrite mult_IZR, ?plus_IZR, minus_IZR; lra.
Qed.
Lemma x_gap : x <= IZR i + 1 - 2.02 * u * (IZR i + 1).
Proof.
  pose proof i_rng as I. pose proof u16 as U. destruct (Z_le_gt_dec i 131) as [L|L].
  - assert (I' : IZR i <= 131) by (apply IZR_le; lia). destruct x_mult as (z & E & _ & Z). assert (Q : IZR z <= 32768 * (IZR i + 1) - 1).
    { rewrite <- plus_IZR, <- mult_IZR, <- minus_IZR. apply IZR_le. lia. } rewrite E, U. lra.
  - assert (I' : 132 <= IZR i) by (apply IZR_le; lia).
    destruct (fmt_multiple 9 (B2R t) (fmt_B2R t)) as [z E]; [change (bpow radix2 9) with 512; rewrite Rabs_pos_eq; lra|lia|]. change (bpow radix2 (9 - 23)) with (/ 16384) in E.
    assert (Q : (z < (381 + i) * 16384)%Z) by (apply lt_IZR; rewrite mult_IZR, plus_IZR; lra).
    assert (Q' : IZR z <= (381 + IZR i) * 16384 - 1). { rewrite <- plus_IZR, <- mult_IZR, <- minus_IZR. apply IZR_le. lia. } unfold x. rewrite E, U. lra.
Qed.
Lemma x_fmt : rnd x = x.
Proof. apply rnd_id. destruct x_mult as (z & -> & Z). apply fmt_15. lia. Qed.
Lemma index_ok : f32_toint (arg lm t) = Some i.
Proof.
  pose proof i_rng as I. pose proof u16 as U. pose proof eta16 as Eta. pose proof x_gap as G. destruct (arg_q lm t Ft) as [Fa Va]. { apply Rabs_le. change (IZR (2 ^ 32)) with 4294967296. lra. }
  unfold q in Va. fold x in Va. rewrite x_fmt in Va. assert (X : IZR i <= x < IZR i + 1) by (unfold x; lra).
  assert (P : 399 * IZR i <= rnd (399 * x) <= 399 * x * (1 + u) + eta).
  { split. - rewrite <- mult_IZR. apply rnd_ge_fmt; [apply fmtZ; lia|]. rewrite mult_IZR. lra.
    - pose proof (rnd_err_abs (399 * x)) as E. rewrite (Rabs_pos_eq (399 * x)) in E by lra. apply Rabs_le_inv in E. lra. }
  assert (B : IZR i <= B2R (arg lm t) < IZR i + 1).
  { rewrite Va. split; [apply rnd_ge_fmt; [apply fmtZ; lia|lra]|].
    pose proof (rnd_err_abs (rnd (399 * x) / 399)) as E. rewrite (Rabs_pos_eq (rnd (399 * x) / 399)) in E by lra. apply Rabs_le_inv in E. rewrite U in *. lra. }
  rewrite toint_some; [|exact Fa|change (IZR (- 2 ^ 31)) with (-2147483648); change (IZR (2 ^ 31 - 1)) with 2147483647; lra].
  f_equal. rewrite Ztrunc_floor by lra. apply Zfloor_imp. rewrite plus_IZR. exact B.
Qed.
Lemma ratio_ok : let r := @fdiv N (@fsub N (@fsub N t (low lm i)) (@flit N 380%dec)) (@fsub N (low lm (i + 1)) (low lm i)) in
  fin r /\ B2R r = x - IZR i /\ fin (@fsub N (@fofZ N 1) r) /\ B2R (@fsub N (@fofZ N 1) r) = 1 - (x - IZR i).
Proof.
  pose proof i_rng as I. destruct x_mult as (z & E & Z). destruct (low_ok lm i ltac:(lia)) as [F0 V0]. destruct (low_ok lm (i + 1) ltac:(lia)) as [F1 V1]. destruct (v380 lm) as [F3 V3].
  assert (Big : 1048576 <= bpow radix2 127) by (change 1048576 with (bpow radix2 20); apply bpow_le; lia).
  assert (TX : B2R t = x + 380) by (unfold x; lra).
  destruct (sub_ok lm t (low lm i) Ft F0) as [Fa Va]; [rewrite V0; apply Rabs_le; lra|]. rewrite V0, rnd_id in Va.
  2: { rewrite TX, E. replace (IZR z / 32768 + 380 - IZR i) with (IZR (z + 12451840 - i * 32768) / 32768); [apply fmt_15; lia|]. rewrite minus_IZR, plus_IZR, !mult_IZR. lra. }
  destruct (sub_ok lm _ _ Fa F3) as [Fb Vb]; [rewrite Va, V3; apply Rabs_le; lra|]. rewrite Va, V3, rnd_id in Vb.
  2: { rewrite TX, E. replace (IZR z / 32768 + 380 - IZR i - 380) with (IZR (z - i * 32768) / 32768); [apply fmt_15; lia|]. rewrite minus_IZR, !mult_IZR. lra. }
  destruct (sub_ok lm _ _ F1 F0) as [Fc Vc]; [rewrite V0, V1, plus_IZR; apply Rabs_le; lra|]. rewrite V0, V1, plus_IZR, rnd_id in Vc.
  2: { replace (IZR i + 1 - IZR i) with 1 by ring. apply fmt_1. }
  destruct (div_ok lm _ (@fsub N (low lm (i + 1)) (low lm i)) Fb) as [Fd Vd]; [rewrite Vc; lra|rewrite Vb, Vc, TX; replace (IZR i + 1 - IZR i) with 1 by ring; apply Rabs_le; lra|].
  rewrite Vb, Vc in Vd. replace ((B2R t - IZR i - 380) / (IZR i + 1 - IZR i)) with (x - IZR i) in Vd by (unfold x; field; lra).
  rewrite rnd_id in Vd.
  2: { rewrite E. replace (IZR z / 32768 - IZR i) with (IZR (z - i * 32768) / 32768); [apply fmt_15; lia|]. rewrite minus_IZR, !mult_IZR. lra. }
  cbv zeta. split; [exact Fd|]. split; [exact Vd|]. set (r := @fdiv N _ _) in *. clearbody r.
  assert (W1 : fin (@fofZ N 1) /\ B2R (@fofZ N 1) = 1) by f32_val. destruct W1 as [Fo Vo].
  destruct (sub_ok lm _ r Fo Fd) as [Fe Ve]; [rewrite Vo, Vd; apply Rabs_le; unfold x; lra|]. split; [exact Fe|]. rewrite Ve, Vo, Vd. apply rnd_id.
  rewrite E. replace (1 - (IZR z / 32768 - IZR i)) with (IZR (32768 - (z - i * 32768)) / 32768); [apply fmt_15; lia|]. rewrite !minus_IZR, !mult_IZR. lra.
Qed.
Lemma fetch_lerp (s : list f32) : (1 <= i)%Z -> length s = 400%nat -> Forall fin s -> Forall (fun y => Rabs (B2R y) <= bpow radix2 126) s ->
  let a := B2R (sm s (Z.to_nat i)) in let b := B2R (sm s (S (Z.to_nat i))) in let r := B2R t - 380 - IZR i in
  exists y, S_fetch N s t = Ret y /\ fin y /\ B2R y = rnd (rnd (a * (1 - r)) + rnd (b * r)).
Proof.
  intros I1 L Fs Bs a b r. destruct ratio_ok as (F0 & V0 & F1 & V1). rewrite S_fetch_eq, index_ok.
  replace (399 <=? i)%Z with false by (symmetry; apply Z.leb_gt; lia). replace (i <=? 0)%Z with false by (symmetry; apply Z.leb_gt; lia).
  rewrite !(arr_get_in lm B754_nan) by (rewrite L; lia). cbn [bind]. fold (sm s (Z.to_nat i)). replace (Z.to_nat (i + 1)) with (S (Z.to_nat i)) by lia. fold (sm s (S (Z.to_nat i))).
  assert (A : fin (sm s (Z.to_nat i)) /\ Rabs a <= bpow radix2 126).
  { split; [apply (proj1 (Forall_forall _ _) Fs)|apply (proj1 (Forall_forall _ _) Bs)]; apply nth_In; lia. }
  assert (B : fin (sm s (S (Z.to_nat i))) /\ Rabs b <= bpow radix2 126).
  { split; [apply (proj1 (Forall_forall _ _) Fs)|apply (proj1 (Forall_forall _ _) Bs)]; apply nth_In; lia. }
  unfold a, b in *. set (fa := sm s (Z.to_nat i)) in *. set (fb := sm s (S (Z.to_nat i))) in *. clearbody fa fb.
  set (fr := @fdiv N _ _) in *. clearbody fr. eexists. split; [reflexivity|]. unfold lerp.
  assert (R0 : 0 <= r < 1) by (unfold r; lra). assert (Er : x - IZR i = r) by reflexivity. rewrite Er in *.
  assert (B127 : bpow radix2 127 = 2 * bpow radix2 126) by (change 127%Z with (1 + 126)%Z; rewrite bpow_plus; reflexivity). pose proof (bpow_gt_0 radix2 126) as BP.
  assert (K : forall v w : f32, Rabs (B2R v) <= bpow radix2 126 -> 0 <= B2R w <= 1 -> fin v -> fin w -> fin (@fmul N v w) /\ B2R (@fmul N v w) = rnd (B2R v * B2R w) /\ Rabs (rnd (B2R v * B2R w)) <= bpow radix2 126).
  { intros v w Hv Hw Fv Fw. assert (M : Rabs (B2R v * B2R w) <= bpow radix2 126). { rewrite Rabs_mult, (Rabs_pos_eq (B2R w)) by lra. pose proof (Rabs_pos (B2R v)). nra. }
    destruct (mul_ok lm v w Fv Fw) as [X Y]; [lra|]. split; [exact X|]. split; [exact Y|]. apply rnd_abs_le; [apply fmt_bpow; lia|exact M]. }
  destruct A as [Fa Ba], B as [Fb Bb]. destruct (K fa _ Ba ltac:(rewrite V1; lra) Fa F1) as (Fc & Vc & Bc). destruct (K fb fr Bb ltac:(rewrite V0; lra) Fb F0) as (Fd & Vd & Bd).
  rewrite V1 in Vc, Bc. rewrite V0 in Vd, Bd.
  destruct (add_ok lm _ _ Fc Fd) as [Fe Ve]; [rewrite Vc, Vd; eapply Rle_trans; [apply Rabs_triang|]; lra|]. split; [exact Fe|]. rewrite Ve, Vc, Vd. reflexivity.
Qed.
Lemma fetch_first (s : list f32) : i = 0%Z -> length s = 400%nat -> S_fetch N s t = Ret (sm s 0).
Proof. intros E L. rewrite S_fetch_eq, index_ok, E. cbn [Z.leb Z.compare]. now rewrite (arr_get_in lm B754_nan) by (rewrite L; lia). Qed.
Lemma fetch_interp (s : list f32) : (1 <= i)%Z -> length s = 400%nat -> Forall fin s -> Forall (fun y => Rabs (B2R y) <= bpow radix2 126) s ->
  let a := B2R (sm s (Z.to_nat i)) in let b := B2R (sm s (S (Z.to_nat i))) in let r := B2R t - 380 - IZR i in
  exists y, S_fetch N s t = Ret y /\ fin y /\ Rabs (B2R y - (a * (1 - r) + b * r)) <= 2.01 * u * (Rabs a * (1 - r) + Rabs b * r) + 3 * eta.
Proof.
  intros I1 L Fs Bs a b r. destruct (fetch_lerp s I1 L Fs Bs) as (y & E & F & V). exists y. split; [exact E|]. split; [exact F|]. fold a b r in V.
  pose proof u16 as U. assert (R0 : 0 <= r < 1) by (unfold r; lra).
  pose proof (rnd_err_abs (a * (1 - r))) as P. pose proof (rnd_err_abs (b * r)) as Q. rewrite Rabs_mult, (Rabs_pos_eq (1 - r)) in P by lra. rewrite Rabs_mult, (Rabs_pos_eq r) in Q by lra.
  pose proof (rnd_add_err (rnd (a * (1 - r))) (rnd (b * r)) (fmt_rnd _) (fmt_rnd _)) as W. rewrite <- V in W. set (p := rnd (a * (1 - r))) in *. set (w := rnd (b * r)) in *. clearbody p w.
  assert (Tp : Rabs p <= Rabs a * (1 - r) + Rabs (p - a * (1 - r))).
  { replace p with (a * (1 - r) + (p - a * (1 - r))) at 1 by ring. eapply Rle_trans; [apply Rabs_triang|]. rewrite Rabs_mult, (Rabs_pos_eq (1 - r)) by lra. lra. }
  assert (Tw : Rabs w <= Rabs b * r + Rabs (w - b * r)).
  { replace w with (b * r + (w - b * r)) at 1 by ring. eapply Rle_trans; [apply Rabs_triang|]. rewrite Rabs_mult, (Rabs_pos_eq r) by lra. lra. }
  pose proof (Rabs_triang p w) as T2. replace (B2R y - (a * (1 - r) + b * r)) with ((B2R y - (p + w)) + (p - a * (1 - r)) + (w - b * r)) by ring.
  eapply Rle_trans; [apply Rabs_triang|]. eapply Rle_trans; [apply Rplus_le_compat_r, Rabs_triang|]. pose proof eta16 as H.
  assert (X : 0 <= Rabs a * (1 - r)) by (apply Rmult_le_pos; [apply Rabs_pos|lra]). assert (Y : 0 <= Rabs b * r) by (apply Rmult_le_pos; [apply Rabs_pos|lra]).
  set (X' := Rabs a * (1 - r)) in *. set (Y' := Rabs b * r) in *. clearbody X' Y'. rewrite U in *. lra.
Qed.
End T.
End F.
Lemma fetch_interp_nat (lm : libm) (s : list f32) (t : f32) (i : nat) : length s = 400%nat -> Forall fin s -> Forall (fun y => Rabs (B2R y) <= bpow radix2 126) s ->
  fin t -> (1 <= i <= 398)%nat -> 380 + INR i <= B2R t < 381 + INR i ->
  let a := B2R (sm s i) in let b := B2R (sm s (S i)) in let r := B2R t - 380 - INR i in
  exists y, S_fetch (FN lm) s t = Ret y /\ fin y /\ Rabs (B2R y - (a * (1 - r) + b * r)) <= 2.01 * / 16777216 * (Rabs a * (1 - r) + Rabs b * r) + 3 * bpow radix2 (-150).
Proof.
  intros L Fs Bs Ft Hi Ht. pose proof (fetch_interp lm t (Z.of_nat i) Ft ltac:(lia)) as P. rewrite <- INR_IZR_INZ, Nat2Z.id in P. rewrite <- u16. change (bpow radix2 (-150)) with eta. apply P; auto; lia.
Qed.
Lemma fetch_first_F (lm : libm) (s : list f32) (t : f32) : length s = 400%nat -> fin t -> 380 <= B2R t < 381 -> S_fetch (FN lm) s t = Ret (sm s 0).
Proof. intros L Ft H. apply (fetch_first lm t 0 Ft ltac:(lia) ltac:(lra)); auto. Qed.
Definition cst (lm : libm) : outcome f32 := S_fetch (FN lm) (S_E (FN lm) (@flit (FN lm) 0.47%dec)) (@flit (FN lm) 400.1%dec).
Lemma cst_val (lm : libm) : oSF (cst lm) = Ret (SpecFloat.S754_finite false 15770582 (-25)).
Proof. vm_compute. reflexivity. Qed.
Lemma oSF_inv (o : outcome f32) v : oSF o = Ret v -> exists y, o = Ret y /\ B2SF y = v.
Proof. destruct o as [y| | |]; cbn; intros H; try discriminate. injection H as <-. eauto. Qed.
Lemma fetch_constant (lm : libm) : exists (c t y : f32), fin c /\ fin t /\ fin y /\ 400 <= B2R t <= 401 /\ S_fetch (FN lm) (S_E (FN lm) c) t = Ret y /\ B2R y < B2R c.
Proof.
  assert (A : fin (@flit (FN lm) 0.47%dec) /\ B2R (@flit (FN lm) 0.47%dec) = 15770583 / 33554432) by f32_val.
  assert (B : fin (@flit (FN lm) 400.1%dec) /\ B2R (@flit (FN lm) 400.1%dec) = 13110477 / 32768) by f32_val.
  destruct (oSF_inv _ _ (cst_val lm)) as (y & E & C).
  exists (@flit (FN lm) 0.47%dec), (@flit (FN lm) 400.1%dec), y. assert (Y : fin y /\ B2R y = 15770582 / 33554432).
  { destruct (val_SF y _ _ _ C) as [Fy Vy]. split; [exact Fy|]. rewrite Vy. unfold F2R. cbn. lra. }
  split; [apply A|]. split; [apply B|]. split; [apply Y|]. rewrite (proj2 A), (proj2 B), (proj2 Y). split; [lra|]. split; [exact E|lra].
Qed.
Lemma fetch_case (lm : libm) : length (CIE_D65 (FN lm)) = 400%nat /\ Forall fin (CIE_D65 (FN lm)) /\ Forall (fun y : f32 => Rabs (B2R y) <= bpow radix2 126) (CIE_D65 (FN lm)) /\
  fin (@flit (FN lm) 555.25%dec) /\ 380 + INR 175 <= B2R (@flit (FN lm) 555.25%dec) < 381 + INR 175.
Proof.
  destruct (C59_float_l lm) as (_ & _ & _ & L & D). split; [exact L|]. split; [revert D; apply Forall_impl; intros x [K _]; exact K|]. split.
  - revert D. apply Forall_impl. intros x [_ K]. rewrite Rabs_pos_eq by lra. apply Rle_trans with (bpow radix2 8); [change (bpow radix2 8) with 256; lra|apply bpow_le; lia].
  - assert (V : fin (@flit (FN lm) 555.25%dec) /\ B2R (@flit (FN lm) 555.25%dec) = 555.25) by f32_val. rewrite (proj2 V). split; [apply V|]. rewrite (INR_IZR_INZ 175). change (IZR (Z.of_nat 175)) with 175. lra.
Qed.
