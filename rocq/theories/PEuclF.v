(** * Euclidean colour differences in binary32. *)
From Coq Require Import ZArith Reals Lra Lia List Bool.
From Flocq Require Import Core IEEE754.BinarySingleNaN.
From Verif Require Import Num NumR NumF MVec MTri MDelta F32 PMatF PHsvF PYxyF.
Local Open Scope R_scope.

Lemma sq_err x a b : Rabs (a - x) <= u * Rabs x -> Rabs (b - a * a) <= u * (a * a) + eta ->
  Rabs (b - x * x) <= 3.001 * u * (x * x) + eta.
Proof.
  intros Ha Hb. pose proof u16 as U. pose proof eta16 as Et.
  assert (K : Rabs (a * a - x * x) <= 2.00001 * u * (x * x)).
  { replace (a * a - x * x) with ((a - x) * (a - x) + 2 * x * (a - x)) by ring. eapply Rle_trans; [apply Rabs_triang|].
    rewrite !Rabs_mult, (Rabs_pos_eq 2) by lra. assert (Px : 0 <= Rabs x) by apply Rabs_pos. assert (Pa : 0 <= Rabs (a - x)) by apply Rabs_pos.
    assert (X2 : Rabs x * Rabs x = x * x) by (rewrite <- Rabs_mult; apply Rabs_pos_eq; nra).
    assert (Rabs (a - x) * Rabs (a - x) <= (u * Rabs x) * (u * Rabs x)) by (apply Rmult_le_compat; assumption).
    assert (2 * Rabs x * Rabs (a - x) <= 2 * Rabs x * (u * Rabs x)) by (apply Rmult_le_compat_l; lra).
    assert (E : u * Rabs x * (u * Rabs x) = u * (u * (x * x))) by (rewrite <- X2; ring).
    assert (E' : 2 * Rabs x * (u * Rabs x) = 2 * (u * (x * x))) by (rewrite <- X2; ring).
    assert (u * (u * (x * x)) <= 0.000001 * (u * (x * x))) by (apply Rmult_le_compat_r; [apply Rmult_le_pos; nra|lra]).
    assert (0 <= u * (x * x)) by (apply Rmult_le_pos; nra). lra. }
  apply Rabs_le_inv in K, Hb. assert (0 <= u * (x * x)) by (apply Rmult_le_pos; nra).
  assert (u * (x * x) <= /16777216 * (x * x)) by (rewrite U; lra).
  assert (u * (a * a) <= u * (1.0001 * (x * x))) by (apply Rmult_le_compat_l; lra).
  assert (u * (1.0001 * (x * x)) = 1.0001 * (u * (x * x))) by ring.
  apply Rabs_le. lra.
Qed.
(** Square root of a perturbed square. *)
Lemma sqrt_pert D s e : 0 <= D -> 0 <= s -> 0 <= e -> Rabs (s - D * D) <= 5.01 * u * (D * D) + e -> Rabs (sqrt s - D) <= 2.6 * u * D + sqrt e.
Proof.
  intros HD Hs He H. pose proof u16 as U. apply Rabs_le_inv in H. pose proof (sqrt_pos e) as Pe. pose proof (sqrt_pos s) as Ps.
  pose proof (sqrt_sqrt s Hs) as S2. pose proof (sqrt_sqrt e He) as E2.
  assert (0 <= u * D) by (apply Rmult_le_pos; lra).
  apply Rabs_le. split.
  - (* lower *) apply Rnot_lt_le. intros K.
    assert (L : sqrt s + sqrt e < D * (1 - 2.6 * u)) by lra.
    assert (Q : s + e <= (sqrt s + sqrt e) * (sqrt s + sqrt e)) by nra.
    assert (Q2 : (sqrt s + sqrt e) * (sqrt s + sqrt e) < D * (1 - 2.6 * u) * (D * (1 - 2.6 * u))).
    { apply Rmult_le_0_lt_compat; lra. }
    assert (Q3 : D * (1 - 2.6 * u) * (D * (1 - 2.6 * u)) <= D * D * (1 - 5.01 * u)).
    { replace (D * (1 - 2.6 * u) * (D * (1 - 2.6 * u))) with (D * D * ((1 - 2.6 * u) * (1 - 2.6 * u))) by ring. apply Rmult_le_compat_l; [nra|]. rewrite U. lra. }
    lra.
  - apply Rnot_lt_le. intros K.
    assert (L : D * (1 + 2.6 * u) + sqrt e < sqrt s) by lra.
    assert (P : 0 <= D * (1 + 2.6 * u)) by (apply Rmult_le_pos; lra).
    assert (Q2 : (D * (1 + 2.6 * u) + sqrt e) * (D * (1 + 2.6 * u) + sqrt e) < sqrt s * sqrt s) by (apply Rmult_le_0_lt_compat; lra).
    assert (Q3 : D * D * (1 + 5.01 * u) <= D * (1 + 2.6 * u) * (D * (1 + 2.6 * u))).
    { replace (D * (1 + 2.6 * u) * (D * (1 + 2.6 * u))) with (D * D * ((1 + 2.6 * u) * (1 + 2.6 * u))) by ring. apply Rmult_le_compat_l; [nra|]. rewrite U. lra. }
    nra.
Qed.
Lemma sqrt_4eta : sqrt (4 * eta) = bpow radix2 (-74).
Proof.
  replace (4 * eta) with (bpow radix2 (-74) * bpow radix2 (-74)); [apply sqrt_square, bpow_ge_0|].
  rewrite <- bpow_plus. unfold eta. change 4 with (bpow radix2 2). rewrite <- bpow_plus. reflexivity.
Qed.

Section F.
Context (lm : libm).
Notation N := (FN lm).
Lemma dsq (p q : f32) : fin p -> fin q -> Rabs (B2R p - B2R q) <= bpow radix2 60 ->
  let b := @fmul N (@fsub N p q) (@fsub N p q) in
  fin b /\ 0 <= B2R b <= bpow radix2 120 /\ Rabs (B2R b - (B2R p - B2R q) * (B2R p - B2R q)) <= 3.001 * u * ((B2R p - B2R q) * (B2R p - B2R q)) + eta.
Proof.
  intros Fp Fq H. cbv zeta. assert (L : bpow radix2 60 <= bpow radix2 127) by (apply bpow_le; lia).
  destruct (sub_ok lm p q Fp Fq) as [Fa Va]; [lra|].
  pose proof (rnd_add_err (B2R p) (- B2R q) (fmt_B2R p) (fmt_opp _ (fmt_B2R q))) as Ea. change (B2R p + - B2R q) with (B2R p - B2R q) in Ea. rewrite <- Va in Ea.
  assert (Ha : Rabs (B2R (@fsub N p q)) <= bpow radix2 60) by (rewrite Va; apply rnd_abs_le; [apply fmt_bpow; lia|exact H]).
  set (a := @fsub N p q) in *. set (x := B2R p - B2R q) in *. clearbody a x.
  assert (A2 : 0 <= B2R a * B2R a <= bpow radix2 120).
  { split; [nra|]. apply Rle_trans with (Rabs (B2R a) * Rabs (B2R a)); [rewrite <- Rabs_mult; apply Rle_abs|]. change 120%Z with (60 + 60)%Z. rewrite bpow_plus. apply Rmult_le_compat; auto using Rabs_pos. }
  assert (L2 : bpow radix2 120 <= bpow radix2 127) by (apply bpow_le; lia).
  destruct (mul_ok lm a a Fa Fa) as [Fb Vb]; [apply Rabs_le; lra|].
  split; [exact Fb|]. split.
  - rewrite Vb. split; [apply rnd_ge_fmt; [apply fmt_0|lra]|apply rnd_le_fmt; [apply fmt_bpow; lia|lra]].
  - apply (sq_err x (B2R a)); [exact Ea|]. rewrite Vb. eapply Rle_trans; [apply rnd_err_abs|]. rewrite (Rabs_pos_eq (B2R a * B2R a)) by lra. lra.
Qed.
Definition dist3 (p q : Vector3 f32) : R :=
  sqrt ((B2R (v0 p) - B2R (v0 q)) * (B2R (v0 p) - B2R (v0 q)) + (B2R (v1 p) - B2R (v1 q)) * (B2R (v1 p) - B2R (v1 q)) + (B2R (v2 p) - B2R (v2 q)) * (B2R (v2 p) - B2R (v2 q))).
Definition dist2 (p q : Vector3 f32) : R :=
  sqrt ((B2R (v1 p) - B2R (v1 q)) * (B2R (v1 p) - B2R (v1 q)) + (B2R (v2 p) - B2R (v2 q)) * (B2R (v2 p) - B2R (v2 q))).
Lemma sqrt_fin (s : f32) D : fin s -> 0 <= B2R s -> 0 <= D -> Rabs (B2R s - D) <= 5.01 * u * D + 4 * eta ->
  fin (@fsqrt N s) /\ Rabs (B2R (@fsqrt N s) - sqrt D) <= 4 * u * sqrt D + bpow radix2 (-73).
Proof.
  intros Fs Hs HD E. pose proof u16 as U. pose proof eta16 as Et. destruct (sqrt_ok lm s Fs Hs) as [Fr Vr]. split; [exact Fr|].
  pose proof (sqrt_pos D) as PD.
  pose proof (sqrt_pert (sqrt D) (B2R s) (4 * eta) PD Hs ltac:(lra)) as E2. rewrite (sqrt_sqrt D HD) in E2. specialize (E2 E). rewrite sqrt_4eta in E2.
  pose proof (rnd_err_abs (sqrt (B2R s))) as E3. rewrite <- Vr in E3. rewrite (Rabs_pos_eq (sqrt (B2R s))) in E3 by apply sqrt_pos.
  assert (X : bpow radix2 (-73) = 2 * bpow radix2 (-74)) by (change (-73)%Z with (1 + -74)%Z; rewrite bpow_plus; reflexivity).
  assert (Y : eta <= / 4 * bpow radix2 (-74)). { change (/ 4) with (bpow radix2 (-2)). rewrite <- bpow_plus. unfold eta. apply bpow_le. lia. }
  pose proof (bpow_gt_0 radix2 (-74)) as P74. rewrite X. apply Rabs_le_inv in E2, E3.
  assert (u * sqrt (B2R s) <= u * (1.001 * sqrt D + bpow radix2 (-74))). { apply Rmult_le_compat_l; [lra|]. assert (2.6 * u * sqrt D <= 0.001 * sqrt D) by (apply Rmult_le_compat_r; lra). lra. }
  assert (u * bpow radix2 (-74) <= 0.1 * bpow radix2 (-74)) by (apply Rmult_le_compat_r; lra). assert (0 <= u * sqrt D) by (apply Rmult_le_pos; lra).
  apply Rabs_le. lra.
Qed.
Lemma E76_error (p q : Vector3 f32) : allV fin p -> allV fin q ->
  Rabs (B2R (v0 p) - B2R (v0 q)) <= bpow radix2 60 -> Rabs (B2R (v1 p) - B2R (v1 q)) <= bpow radix2 60 -> Rabs (B2R (v2 p) - B2R (v2 q)) <= bpow radix2 60 ->
  fin (Delta_E76 N p q) /\ Rabs (B2R (Delta_E76 N p q) - dist3 p q) <= 4 * u * dist3 p q + bpow radix2 (-73).
Proof.
  destruct p as [p0 p1 p2], q as [q0 q1 q2]. intros (Fp0 & Fp1 & Fp2) (Fq0 & Fq1 & Fq2) H0 H1 H2. unfold Delta_E76, dist3. cbn [vref v0 v1 v2] in *.
  pose proof u16 as U. pose proof eta16 as Et.
  destruct (dsq p0 q0 Fp0 Fq0 H0) as (Fa & Ra & Ea). destruct (dsq p1 q1 Fp1 Fq1 H1) as (Fb & Rb & Eb). destruct (dsq p2 q2 Fp2 Fq2 H2) as (Fc & Rc & Ec).
  set (a := @fmul N (@fsub N p0 q0) _) in *. set (b := @fmul N (@fsub N p1 q1) _) in *. set (c := @fmul N (@fsub N p2 q2) _) in *.
  set (x := B2R p0 - B2R q0) in *. set (y := B2R p1 - B2R q1) in *. set (z := B2R p2 - B2R q2) in *. clearbody a b c x y z.
  assert (B : bpow radix2 127 = 128 * bpow radix2 120) by (change 127%Z with (7 + 120)%Z; rewrite (bpow_plus radix2 7 120); reflexivity).
  destruct (add_ok lm a b Fa Fb) as [Fs Vs]; [apply Rabs_le; lra|].
  pose proof (rnd_add_err _ _ (fmt_B2R a) (fmt_B2R b)) as Es. rewrite <- Vs in Es. rewrite (Rabs_pos_eq (B2R a + B2R b)) in Es by lra.
  assert (Rs : 0 <= B2R (@fadd N a b) <= 4 * bpow radix2 120).
  { rewrite Vs. split; [apply rnd_ge_fmt; [apply fmt_0|lra]|apply rnd_le_fmt; [|lra]]. change 4 with (bpow radix2 2). rewrite <- bpow_plus. apply fmt_bpow. lia. }
  set (s := @fadd N a b) in *. clearbody s.
  destruct (add_ok lm s c Fs Fc) as [Ft Vt]; [apply Rabs_le; lra|].
  pose proof (rnd_add_err _ _ (fmt_B2R s) (fmt_B2R c)) as Ett. rewrite <- Vt in Ett. rewrite (Rabs_pos_eq (B2R s + B2R c)) in Ett by lra.
  assert (Rt : 0 <= B2R (@fadd N s c)) by (rewrite Vt; apply rnd_ge_fmt; [apply fmt_0|lra]).
  set (t := @fadd N s c) in *. clearbody t.
  assert (X2 : 0 <= x * x) by nra. assert (Y2 : 0 <= y * y) by nra. assert (Z2 : 0 <= z * z) by nra.
  apply sqrt_fin; auto; [lra|]. set (X := x * x) in *. set (Y := y * y) in *. set (Z := z * z) in *. clearbody X Y Z.
  apply Rabs_le_inv in Ea, Eb, Ec, Es, Ett. rewrite U in *. apply Rabs_le. split; lra.
Qed.
Lemma UV_error (p q : Vector3 f32) : allV fin p -> allV fin q ->
  Rabs (B2R (v1 p) - B2R (v1 q)) <= bpow radix2 60 -> Rabs (B2R (v2 p) - B2R (v2 q)) <= bpow radix2 60 ->
  fin (Delta_UV N p q) /\ Rabs (B2R (Delta_UV N p q) - dist2 p q) <= 4 * u * dist2 p q + bpow radix2 (-73).
Proof.
  destruct p as [p0 p1 p2], q as [q0 q1 q2]. intros (Fp0 & Fp1 & Fp2) (Fq0 & Fq1 & Fq2) H1 H2. unfold Delta_UV, dist2. cbn [vref v0 v1 v2] in *.
  pose proof u16 as U. pose proof eta16 as Et.
  destruct (dsq p1 q1 Fp1 Fq1 H1) as (Fb & Rb & Eb). destruct (dsq p2 q2 Fp2 Fq2 H2) as (Fc & Rc & Ec).
  set (b := @fmul N (@fsub N p1 q1) _) in *. set (c := @fmul N (@fsub N p2 q2) _) in *.
  set (y := B2R p1 - B2R q1) in *. set (z := B2R p2 - B2R q2) in *. clearbody b c y z.
  assert (B : bpow radix2 127 = 128 * bpow radix2 120) by (change 127%Z with (7 + 120)%Z; rewrite (bpow_plus radix2 7 120); reflexivity).
  destruct (add_ok lm b c Fb Fc) as [Ft Vt]; [apply Rabs_le; lra|].
  pose proof (rnd_add_err _ _ (fmt_B2R b) (fmt_B2R c)) as Ett. rewrite <- Vt in Ett. rewrite (Rabs_pos_eq (B2R b + B2R c)) in Ett by lra.
  assert (Rt : 0 <= B2R (@fadd N b c)) by (rewrite Vt; apply rnd_ge_fmt; [apply fmt_0|lra]).
  set (t := @fadd N b c) in *. clearbody t.
  assert (Y2 : 0 <= y * y) by nra. assert (Z2 : 0 <= z * z) by nra.
  apply sqrt_fin; auto; [lra|]. set (Y := y * y) in *. set (Z := z * z) in *. clearbody Y Z.
  apply Rabs_le_inv in Eb, Ec, Ett. rewrite U in *. apply Rabs_le. split; lra.
Qed.
End F.
