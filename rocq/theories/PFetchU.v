(** * The exact set of wavelengths for which [fetch] is defined, in binary32. *)
From Coq Require Import ZArith Reals Lra Lia List Bool.
From Flocq Require Import Core BinarySingleNaN.
From Verif Require Import Num NumF MVec MTri MSpectrum F32 PSpecF POtfF.
Local Open Scope R_scope.

Section F.
Context (lm : libm).
Notation N := (FN lm).
Definition q (x : R) : R := rnd (rnd (399 * rnd (x - 380)) / 399).
Lemma q_mono x y : x <= y -> q x <= q y.
Proof.
  intros H. unfold q. apply rnd_le. apply Rmult_le_compat_r; [lra|]. apply rnd_le. apply Rmult_le_compat_l; [lra|]. apply rnd_le. lra.
Qed.
Lemma arg_q (t : f32) : fin t -> Rabs (B2R t) <= IZR (2 ^ 32) -> fin (arg lm t) /\ B2R (arg lm t) = q (B2R t).
Proof.
  intros Ft H. destruct (v380 lm) as [F1 V1]. destruct (v399 lm) as [F2 V2]. destruct (vw lm) as [F3 V3]. apply Rabs_le_inv in H. change (IZR (2 ^ 32)) with 4294967296 in H.
  assert (Big : IZR (2 ^ 50) <= bpow radix2 127) by (change (IZR (2 ^ 50)) with (bpow radix2 50); apply bpow_le; lia).
  change (IZR (2 ^ 50)) with 1125899906842624 in Big.
  assert (G : forall a b : Z, (Z.abs a <= 2 ^ 24)%Z -> (0 <= b)%Z -> fmt (IZR (a * 2 ^ b))).
  { intros a b A C. rewrite mult_IZR. change 2%Z with (radix_val radix2). rewrite IZR_Zpower by exact C. apply fmt_F2R; lia. }
  assert (A1 : Rabs (B2R t - 380) <= 8589934592) by (apply Rabs_le; lra).
  destruct (sub_ok lm t (@flit N 380%dec) Ft F1) as [F4 V4]. { rewrite V1. lra. } rewrite V1 in V4.
  assert (A2 : Rabs (rnd (B2R t - 380)) <= 8589934592). { apply rnd_abs_le; [apply (G 1%Z 33%Z); lia|exact A1]. }
  destruct (mul_ok lm (@fofZ N 399) _ F2 F4) as [F5 V5]. { rewrite V2, V4, Rabs_mult, Rabs_pos_eq by lra. nra. } rewrite V2, V4 in V5.
  assert (A3 : Rabs (rnd (399 * rnd (B2R t - 380))) <= 4398046511104).
  { apply rnd_abs_le; [apply (G 1%Z 42%Z); lia|]. rewrite Rabs_mult, Rabs_pos_eq by lra. lra. }
  assert (A4 : Rabs (rnd (399 * rnd (B2R t - 380)) / 399) <= 4398046511104).
  { unfold Rdiv. rewrite Rabs_mult, (Rabs_pos_eq (/ 399)) by lra. lra. }
  destruct (div_ok lm _ (width lm) F5 ltac:(lra)) as [F6 V6]. { rewrite V5, V3. lra. } rewrite V5, V3 in V6.
  split; [exact F6|exact V6].
Qed.
(** the last wavelength on either side that is defined, and the first below that is not. *)
Definition tmax : f32 := @fofZ N 2147483904.
Definition tmin : f32 := @fofZ N (-2147483392).
Definition tbad : f32 := @fofZ N (-2147483520).
Lemma vmax : fin tmax /\ B2R tmax = 2147483904. Proof. unfold tmax. f32_val. Qed.
Lemma vmin : fin tmin /\ B2R tmin = -2147483392. Proof. unfold tmin. f32_val. Qed.
Lemma vbad : fin tbad /\ B2R tbad = -2147483520. Proof. unfold tbad. f32_val. Qed.
Lemma amax : fin (arg lm tmax) /\ B2R (arg lm tmax) = 2147483520. Proof. unfold arg, tmax, width. f32_val. Qed.
Lemma amin : fin (arg lm tmin) /\ B2R (arg lm tmin) = -2147483648. Proof. unfold arg, tmin, width. f32_val. Qed.
Lemma abad : fin (arg lm tbad) /\ B2R (arg lm tbad) = -2147483904. Proof. unfold arg, tbad, width. f32_val. Qed.
Lemma qmax : q 2147483904 = 2147483520.
Proof. destruct vmax as [F V]. rewrite <- V, <- (proj2 amax). symmetry. apply arg_q; [exact F|]. rewrite V. apply Rabs_le. change (IZR (2 ^ 32)) with 4294967296. lra. Qed.
Lemma qmin : q (-2147483392) = -2147483648.
Proof. destruct vmin as [F V]. rewrite <- V, <- (proj2 amin). symmetry. apply arg_q; [exact F|]. rewrite V. apply Rabs_le. change (IZR (2 ^ 32)) with 4294967296. lra. Qed.
Lemma qbad : q (-2147483520) = -2147483904.
Proof. destruct vbad as [F V]. rewrite <- V, <- (proj2 abad). symmetry. apply arg_q; [exact F|]. rewrite V. apply Rabs_le. change (IZR (2 ^ 32)) with 4294967296. lra. Qed.

Lemma fetch_in (s : list f32) (t : f32) : length s = 400%nat -> fin t -> -2147483392 <= B2R t <= 2147483904 ->
  fin (arg lm t) /\ B2R (arg lm t) = q (B2R t) /\ f32_toint (arg lm t) = Some (Ztrunc (B2R (arg lm t))) /\ (Ztrunc (B2R (arg lm t)) < 2147483647)%Z.
Proof.
  intros L Ft H. destruct (arg_q t Ft) as [Fa Va]. { apply Rabs_le. change (IZR (2 ^ 32)) with 4294967296. lra. }
  assert (B : -2147483648 <= B2R (arg lm t) <= 2147483520). { rewrite Va, <- qmin, <- qmax. split; apply q_mono; lra. }
  split; [exact Fa|]. split; [exact Va|]. split.
  - apply toint_some; [exact Fa|]. change (IZR (- 2 ^ 31)) with (-2147483648). change (IZR (2 ^ 31 - 1)) with 2147483647. lra.
  - assert (Ztrunc (B2R (arg lm t)) <= 2147483520)%Z by (rewrite <- (Ztrunc_IZR 2147483520); apply Ztrunc_le; lra). lia.
Qed.
Lemma fetch_safe (s : list f32) (t : f32) : length s = 400%nat -> fin t -> -2147483392 <= B2R t <= 2147483904 -> exists y, S_fetch N s t = Ret y.
Proof.
  intros L Ft H. destruct (fetch_in s t L Ft H) as (_ & _ & E & Z). rewrite S_fetch_eq, E. set (z := Ztrunc _) in *. clearbody z.
  destruct (Z.leb_spec 399 z).
  { replace (z =? 2147483647)%Z with false by (symmetry; apply Z.eqb_neq; lia). rewrite (arr_get_in lm B754_nan) by (rewrite L; lia). eauto. }
  destruct (Z.leb_spec z 0). { rewrite (arr_get_in lm B754_nan) by (rewrite L; lia). eauto. }
  rewrite !(arr_get_in lm B754_nan) by (rewrite L; lia). cbn [bind]. eauto.
Qed.
Lemma fetch_above (s : list f32) (t : f32) : length s = 400%nat -> fin t -> 779 <= B2R t <= 2147483904 -> S_fetch N s t = Ret (sm s 399).
Proof.
  intros L Ft H. destruct (fetch_in s t L Ft ltac:(lra)) as (_ & V & E & Z). rewrite S_fetch_eq, E. set (z := Ztrunc _) in *.
  assert (399 <= B2R (arg lm t)).
  { rewrite V. unfold q. apply rnd_ge_fmt; [apply fmtZ; lia|].
    assert (159201 <= rnd (399 * rnd (B2R t - 380))); [|lra]. apply rnd_ge_fmt; [apply fmtZ; lia|].
    assert (399 <= rnd (B2R t - 380)) by (apply rnd_ge_fmt; [apply fmtZ; lia|lra]). lra. }
  assert (399 <= z)%Z by (rewrite <- (Ztrunc_IZR 399); apply Ztrunc_le; lra).
  replace (399 <=? z)%Z with true by (symmetry; apply Z.leb_le; lia).
  replace (z =? 2147483647)%Z with false by (symmetry; apply Z.eqb_neq; lia). now rewrite (arr_get_in lm B754_nan) by (rewrite L; lia).
Qed.
Lemma fetch_below (s : list f32) (t : f32) : length s = 400%nat -> fin t -> -2147483392 <= B2R t <= 380 -> S_fetch N s t = Ret (sm s 0).
Proof.
  intros L Ft H. destruct (fetch_in s t L Ft ltac:(lra)) as (_ & V & E & Z). rewrite S_fetch_eq, E. set (z := Ztrunc _) in *.
  assert (B2R (arg lm t) <= 0).
  { rewrite V. unfold q. apply rnd_le_fmt; [apply fmt_0|].
    assert (rnd (399 * rnd (B2R t - 380)) <= 0); [|lra]. apply rnd_le_fmt; [apply fmt_0|].
    assert (rnd (B2R t - 380) <= 0) by (apply rnd_le_fmt; [apply fmt_0|lra]). lra. }
  assert (z <= 0)%Z by (rewrite <- (Ztrunc_IZR 0); apply Ztrunc_le; lra).
  replace (399 <=? z)%Z with false by (symmetry; apply Z.leb_gt; lia).
  replace (z <=? 0)%Z with true by (symmetry; apply Z.leb_le; lia). now rewrite (arr_get_in lm B754_nan) by (rewrite L; lia).
Qed.
Lemma fetch_ub (s : list f32) (t : f32) : is_finite t = false \/ B2R t < -2147483392 \/ 2147483904 < B2R t -> S_fetch N s t = UB.
Proof.
  intros H. rewrite S_fetch_eq. destruct (f32_toint (arg lm t)) as [z|] eqn:E; [exfalso|reflexivity].
  apply toint_fin in E as (Fa & Vz & Bz). destruct (v380 lm) as [F1 V1]. destruct (v399 lm) as [F2 V2]. destruct (vw lm) as [F3 V3].
  destruct (div_inv lm (@fmul N (@fofZ N 399) (@fsub N t (@flit N 380%dec))) (width lm) ltac:(lra) Fa) as [Fb Va]. rewrite V3 in Va.
  apply mul_inv in Fb as (_ & Fc & Vb). rewrite V2 in Vb. rewrite Vb in Va.
  apply sub_inv in Fc as (Ft & _ & Vc). rewrite V1 in Vc. rewrite Vc in Va. fold (arg lm t) in Va. fold (q (B2R t)) in Va.
  destruct H as [H|[H|H]]; [unfold fin in Ft; congruence| |].
  - assert (B2R t <= -2147483520).
    { destruct vmin as [Fm Vm]. destruct (Rle_dec (B2R t) (-2147483520)) as [|X]; [assumption|exfalso].
      pose proof (gap_lt 30 (2147483392) (- B2R t) ltac:(lia)) as P. assert (Fp : fmt (2147483392)). { replace 2147483392 with (- B2R tmin) by lra. apply generic_format_opp, fmt_B2R. }
      specialize (P Fp (generic_format_opp _ _ _ (fmt_B2R t))). change (bpow radix2 30) with 1073741824 in P. change (bpow radix2 (30 - 23)) with 128 in P. lra. }
    pose proof (q_mono _ _ H0) as Q. rewrite qbad in Q.
    assert (z <= -2147483904)%Z by (rewrite Vz, <- (Ztrunc_IZR (-2147483904)); apply Ztrunc_le; lra). lia.
  - assert (2147483904 + 256 <= B2R t).
    { pose proof (gap_lt 31 2147483904 (B2R t) ltac:(lia)) as P. destruct vmax as [Fm Vm].
      specialize (P ltac:(rewrite <- Vm; apply fmt_B2R) (fmt_B2R t)). change (bpow radix2 31) with 2147483648 in P. change (bpow radix2 (31 - 23)) with 256 in P. lra. }
    assert (G : forall a b : Z, (Z.abs a <= 2 ^ 24)%Z -> (0 <= b)%Z -> fmt (IZR (a * 2 ^ b))).
    { intros a b A C. rewrite mult_IZR. change 2%Z with (radix_val radix2). rewrite IZR_Zpower by exact C. apply fmt_F2R; lia. }
    assert (2147483648 <= B2R (arg lm t)).
    { rewrite Va. unfold q. apply rnd_ge_fmt; [apply (G 1%Z 31%Z); lia|].
      assert (399 * 2147483648 <= rnd (399 * rnd (B2R t - 380))); [|lra]. rewrite <- mult_IZR. apply rnd_ge_fmt; [apply (G 399%Z 31%Z); lia|].
      rewrite mult_IZR. apply Rmult_le_compat_l; [lra|]. apply rnd_ge_fmt; [apply (G 1%Z 31%Z); lia|lra]. }
    assert (2147483648 <= z)%Z by (rewrite Vz, <- (Ztrunc_IZR 2147483648); apply Ztrunc_le; lra). lia.
Qed.
End F.
