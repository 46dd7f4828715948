(** * Euclidean colour differences with fused multiply-add. *)
From Coq Require Import ZArith Reals Lra Lia Psatz List.
From Flocq Require Import Core BinarySingleNaN.
From Verif Require Import Num NumF MVec MTri MDelta MFma F32 PMatF PHsvF PEuclF PFma.
Local Open Scope R_scope.

Section WithLibm.
Variable lm : libm.
Local Notation N := (FN lm).
Lemma ev_d (p q r : f32) : ev lm (Sub (Val p) (Val q)) r -> r = @fsub N p q.
Proof. intros H. inversion H; subst. match goal with A : ev lm (Val p) _, B : ev lm (Val q) _ |- _ => inversion A; inversion B; subst end. reflexivity. Qed.
Lemma fmt_rnd' z : fmt (rnd z). Proof. apply generic_format_round; typeclasses eauto. Qed.
Definition D (p q : f32) : exp := Sub (Val p) (Val q).
Lemma ev_dd (p q r : f32) : ev lm (Mul (D p q) (D p q)) r -> r = @fmul N (@fsub N p q) (@fsub N p q).
Proof. intros H. inversion H; subst. repeat match goal with A : ev lm (D _ _) _ |- _ => apply ev_d in A; subst end. reflexivity. Qed.
(** one more square [d * d] added to [s]: rounded first ([c = true]), or fused. *)
Definition stepF (c : bool) (s d : f32) : f32 := if c then @fadd N s (@fmul N d d) else fma d d s.
Definition sq (c : bool) (d : R) : R := if c then rnd (d * d) else d * d.
Definition B := bpow radix2 120.
Lemma Bbig : bpow radix2 127 = 128 * B.
Proof. unfold B. change 127%Z with (7 + 120)%Z. rewrite (bpow_plus radix2 7 120). reflexivity. Qed.
Lemma Bpos : 0 < B. Proof. apply bpow_gt_0. Qed.
Lemma sq_bd c d : 0 <= d * d <= B -> 0 <= sq c d <= B /\ Rabs (sq c d - d * d) <= u * (d * d) + eta.
Proof.
  intros H. pose proof (rnd_err_abs (d * d)) as E. rewrite (Rabs_pos_eq (d * d)) in E by lra. assert (P : 0 <= eta) by apply bpow_ge_0. assert (U : u = / 16777216) by reflexivity.
  destruct c; cbn [sq].
  - split; [|exact E]. split; [apply rnd_ge_fmt; [apply fmt_0|lra]|apply rnd_le_fmt; [unfold B; apply fmt_bpow; lia|lra]].
  - split; [exact H|]. rewrite Rminus_diag_eq, Rabs_R0 by reflexivity. rewrite U. lra.
Qed.
Lemma mul_val (d : f32) : fin d -> 0 <= B2R d * B2R d <= B -> fin (@fmul N d d) /\ B2R (@fmul N d d) = sq true (B2R d).
Proof. intros F H. pose proof Bbig. pose proof Bpos. apply (mul_ok lm d d F F). apply Rabs_le. lra. Qed.
Lemma step_val c (s d : f32) : fin s -> fin d -> 0 <= B2R s <= 4 * B -> 0 <= B2R d * B2R d <= B ->
  fin (stepF c s d) /\ B2R (stepF c s d) = rnd (B2R s + sq c (B2R d)).
Proof.
  intros Fs Fd Hs Hd. pose proof Bbig. pose proof Bpos. destruct (sq_bd c (B2R d) Hd) as [Q _]. destruct c; cbn [stepF].
  - destruct (mul_val d Fd Hd) as [Fm Vm]. destruct (add_ok lm s _ Fs Fm) as [F V]; [rewrite Vm; apply Rabs_le; lra|]. split; [exact F|]. rewrite V, Vm. reflexivity.
  - cbn [sq] in *. destruct (fma_ok d d s Fd Fd Fs) as [F V]; [apply Rabs_le; lra|]. split; [exact F|]. rewrite V, Rplus_comm. reflexivity.
Qed.
(** error and range of one step. *)
Lemma step_err c (s d : f32) : fin s -> fin d -> 0 <= B2R s <= 4 * B -> 0 <= B2R d * B2R d <= B -> let t := stepF c s d in
  fin t /\ 0 <= B2R t /\ (B2R s <= B -> B2R t <= 4 * B) /\
  Rabs (B2R t - (B2R s + B2R d * B2R d)) <= u * B2R s + 2.001 * u * (B2R d * B2R d) + 1.001 * eta.
Proof.
  intros Fs Fd Hs Hd. cbv zeta. destruct (step_val c s d Fs Fd Hs Hd) as [F V]. split; [exact F|]. rewrite V.
  destruct (sq_bd c (B2R d) Hd) as [Q E]. assert (P : 0 <= eta) by apply bpow_ge_0. assert (U : u = / 16777216) by reflexivity. pose proof Bpos as PB.
  split; [apply rnd_ge_fmt; [apply fmt_0|lra]|]. split.
  - intros Hs'. apply rnd_le_fmt; [|lra]. unfold B. change 4 with (bpow radix2 2). rewrite <- bpow_plus. apply fmt_bpow. lia.
  - destruct c; cbn [sq] in *.
    + pose proof (rnd_add_err _ (rnd (B2R d * B2R d)) (fmt_B2R s) (fmt_rnd' _)) as G. rewrite (Rabs_pos_eq (B2R s + rnd (B2R d * B2R d))) in G by lra.
      apply Rabs_le_inv in E, G. set (x := B2R d * B2R d) in *. set (y := rnd x) in *. set (z := rnd (B2R s + y)) in *. clearbody x y z. rewrite U in *. apply Rabs_le. lra.
    + pose proof (rnd_err_abs (B2R s + B2R d * B2R d)) as G. rewrite (Rabs_pos_eq (B2R s + B2R d * B2R d)) in G by lra.
      apply Rabs_le_inv in G. set (x := B2R d * B2R d) in *. set (z := rnd (B2R s + x)) in *. clearbody x z. rewrite U in *. apply Rabs_le. lra.
Qed.
(** the values of the two differences *)
Definition pair2 (c : bool) (o : bool) (d0 d1 : f32) : f32 := if o then stepF c (@fmul N d0 d0) d1 else stepF c (@fmul N d1 d1) d0.
Lemma ev_two p0 q0 p1 q1 r : ev lm (Add (Mul (D p0 q0) (D p0 q0)) (Mul (D p1 q1) (D p1 q1))) r ->
  exists c o, (c = true -> o = true) /\ r = pair2 c o (@fsub N p0 q0) (@fsub N p1 q1).
Proof.
  intros H. inversion H; subst; repeat match goal with A : ev lm (Mul _ _) _ |- _ => apply ev_dd in A | A : ev lm (D _ _) _ |- _ => apply ev_d in A end; subst.
  - exists true, true. split; reflexivity.
  - exists false, false. split; [discriminate|reflexivity].
  - exists false, true. split; [discriminate|reflexivity].
Qed.
Lemma two_ev p0 q0 p1 q1 c o : (c = true -> o = true) -> ev lm (Add (Mul (D p0 q0) (D p0 q0)) (Mul (D p1 q1) (D p1 q1))) (pair2 c o (@fsub N p0 q0) (@fsub N p1 q1)).
Proof.
  intros H. assert (E : forall p q, ev lm (D p q) (@fsub N p q)) by (intros; apply ev_sub; apply ev_val).
  destruct c, o; cbn [pair2 stepF]; try (specialize (H eq_refl); discriminate).
  - apply ev_add; apply ev_mul; apply E.
  - apply ev_fma_r; [apply E|apply E|apply ev_mul; apply E].
  - apply ev_fma_l; [apply E|apply E|apply ev_mul; apply E].
Qed.
Definition E76v (c o c2 : bool) (p q : Vector3 f32) : f32 :=
  @fsqrt N (stepF c2 (pair2 c o (@fsub N (v0 p) (v0 q)) (@fsub N (v1 p) (v1 q))) (@fsub N (v2 p) (v2 q))).
Definition UVv (c o : bool) (p q : Vector3 f32) : f32 := @fsqrt N (pair2 c o (@fsub N (v1 p) (v1 q)) (@fsub N (v2 p) (v2 q))).
Lemma ev_E76 p q r : ev lm (Delta_E76 (EN lm) (inV lm p) (inV lm q)) r <-> exists c o c2, (c = true -> o = true) /\ r = E76v c o c2 p q.
Proof.
  destruct p as [p0 p1 p2], q as [q0 q1 q2]. unfold Delta_E76, inV, vref, E76v. cbn [v0 v1 v2 fadd fsub fmul fsqrt EN].
  change (Sub (Val p0) (Val q0)) with (D p0 q0). change (Sub (Val p1) (Val q1)) with (D p1 q1). change (Sub (Val p2) (Val q2)) with (D p2 q2).
  set (E2 := Add (Mul (D p0 q0) (D p0 q0)) (Mul (D p1 q1) (D p1 q1))). split.
  - intros H. inversion H; subst. match goal with A : ev lm (Add E2 _) _ |- _ => inversion A; subst end.
    + repeat match goal with A : ev lm (Mul _ _) _ |- _ => apply ev_dd in A | A : ev lm E2 _ |- _ => apply ev_two in A; destruct A as (c & o & Hc & A) end; subst. exists c, o, true. split; [exact Hc|reflexivity].
    + repeat match goal with A : ev lm (D _ _) _ |- _ => apply ev_d in A | A : ev lm E2 _ |- _ => apply ev_two in A; destruct A as (c & o & Hc & A) end; subst. exists c, o, false. split; [exact Hc|reflexivity].
  - intros (c & o & c2 & Hc & ->). apply ev_op1. assert (E : forall p q, ev lm (D p q) (@fsub N p q)) by (intros; apply ev_sub; apply ev_val).
    pose proof (two_ev p0 q0 p1 q1 c o Hc) as T. destruct c2; cbn [stepF]; [apply ev_add; [exact T|apply ev_mul; apply E]|apply ev_fma_r; [apply E|apply E|exact T]].
Qed.
Lemma ev_UV p q r : ev lm (Delta_UV (EN lm) (inV lm p) (inV lm q)) r <-> exists c o, (c = true -> o = true) /\ r = UVv c o p q.
Proof.
  destruct p as [p0 p1 p2], q as [q0 q1 q2]. unfold Delta_UV, inV, vref, UVv. cbn [v0 v1 v2 fadd fsub fmul fsqrt EN].
  change (Sub (Val p1) (Val q1)) with (D p1 q1). change (Sub (Val p2) (Val q2)) with (D p2 q2). split.
  - intros H. inversion H; subst. match goal with A : ev lm (Add _ _) _ |- _ => apply ev_two in A; destruct A as (c & o & Hc & A) end. subst. exists c, o. split; [exact Hc|reflexivity].
  - intros (c & o & Hc & ->). apply ev_op1. exact (two_ev p1 q1 p2 q2 c o Hc).
Qed.
(** a difference of two channels. *)
Lemma dif (p q : f32) : fin p -> fin q -> Rabs (B2R p - B2R q) <= bpow radix2 60 -> let d := @fsub N p q in let x := B2R p - B2R q in
  fin d /\ B2R d = rnd x /\ 0 <= B2R d * B2R d <= B /\ Rabs (B2R d * B2R d - x * x) <= 2.001 * u * (x * x).
Proof.
  intros Fp Fq H. cbv zeta. assert (L : bpow radix2 60 <= bpow radix2 127) by (apply bpow_le; lia).
  destruct (sub_ok lm p q Fp Fq) as [Fa Va]; [lra|].
  pose proof (rnd_add_err (B2R p) (- B2R q) (fmt_B2R p) (fmt_opp _ (fmt_B2R q))) as Ea. change (B2R p + - B2R q) with (B2R p - B2R q) in Ea. rewrite <- Va in Ea.
  assert (Ha : Rabs (B2R (@fsub N p q)) <= bpow radix2 60) by (rewrite Va; apply rnd_abs_le; [apply fmt_bpow; lia|exact H]).
  split; [exact Fa|]. split; [exact Va|]. set (a := B2R (@fsub N p q)) in *. set (x := B2R p - B2R q) in *. clearbody a x. clear Va.
  split.
  - split; [nra|]. apply Rle_trans with (Rabs a * Rabs a); [rewrite <- Rabs_mult; apply Rle_abs|]. unfold B. change 120%Z with (60 + 60)%Z. rewrite bpow_plus. apply Rmult_le_compat; auto using Rabs_pos.
  - replace (a * a - x * x) with ((a - x) * (a - x) + 2 * x * (a - x)) by ring. assert (U : u = / 16777216) by reflexivity.
    eapply Rle_trans; [apply Rabs_triang|]. rewrite !Rabs_mult, (Rabs_pos_eq 2) by lra. replace (x * x) with (Rabs x * Rabs x) by (rewrite <- Rabs_mult; apply Rabs_pos_eq; nra).
    pose proof (Rabs_pos x) as P1. pose proof (Rabs_pos (a - x)) as P2. set (m := Rabs x) in *. set (e := Rabs (a - x)) in *. clearbody m e. rewrite U in *. nra.
Qed.
Lemma pair2_err c o (d0 d1 : f32) : fin d0 -> fin d1 -> 0 <= B2R d0 * B2R d0 <= B -> 0 <= B2R d1 * B2R d1 <= B ->
  fin (pair2 c o d0 d1) /\ 0 <= B2R (pair2 c o d0 d1) <= 4 * B /\
  Rabs (B2R (pair2 c o d0 d1) - (B2R d0 * B2R d0 + B2R d1 * B2R d1)) <= 2.002 * u * (B2R d0 * B2R d0 + B2R d1 * B2R d1) + 2.01 * eta.
Proof.
  intros F0 F1 H0 H1. pose proof Bpos as PB. assert (P : 0 <= eta) by apply bpow_ge_0. assert (U : u = / 16777216) by reflexivity. destruct o; cbn [pair2].
  - destruct (mul_val d0 F0 H0) as [Fm Vm]. destruct (sq_bd true _ H0) as [Q E]. rewrite <- Vm in Q, E.
    destruct (step_err c _ d1 Fm F1 ltac:(lra) H1) as (Ft & T0 & T1 & T2). specialize (T1 ltac:(lra)). split; [exact Ft|]. split; [lra|].
    apply Rabs_le_inv in E, T2. set (x := B2R d0 * B2R d0) in *. set (y := B2R d1 * B2R d1) in *. set (t := B2R (stepF c _ _)) in *. set (m := B2R (@fmul N d0 d0)) in *. clearbody x y t m. rewrite U in *. apply Rabs_le. lra.
  - destruct (mul_val d1 F1 H1) as [Fm Vm]. destruct (sq_bd true _ H1) as [Q E]. rewrite <- Vm in Q, E.
    destruct (step_err c _ d0 Fm F0 ltac:(lra) H0) as (Ft & T0 & T1 & T2). specialize (T1 ltac:(lra)). split; [exact Ft|]. split; [lra|].
    apply Rabs_le_inv in E, T2. set (x := B2R d0 * B2R d0) in *. set (y := B2R d1 * B2R d1) in *. set (t := B2R (stepF c _ _)) in *. set (m := B2R (@fmul N d1 d1)) in *. clearbody x y t m. rewrite U in *. apply Rabs_le. lra.
Qed.
Definition close (p q : Vector3 f32) : Prop := allV fin p /\ allV fin q /\
  Rabs (B2R (v0 p) - B2R (v0 q)) <= bpow radix2 60 /\ Rabs (B2R (v1 p) - B2R (v1 q)) <= bpow radix2 60 /\ Rabs (B2R (v2 p) - B2R (v2 q)) <= bpow radix2 60.
Lemma E76_fused p q r : close p q -> ev lm (Delta_E76 (EN lm) (inV lm p) (inV lm q)) r ->
  fin r /\ Rabs (B2R r - dist3 p q) <= 4 * u * dist3 p q + bpow radix2 (-73).
Proof.
  intros (Fp & Fq & H0 & H1 & H2) E. apply ev_E76 in E. destruct E as (c & o & c2 & _ & ->). destruct p as [p0 p1 p2], q as [q0 q1 q2]. destruct Fp as (Fp0 & Fp1 & Fp2), Fq as (Fq0 & Fq1 & Fq2).
  unfold E76v, dist3. cbn [v0 v1 v2] in *. assert (P : 0 <= eta) by apply bpow_ge_0. assert (U : u = / 16777216) by reflexivity.
  destruct (dif p0 q0 Fp0 Fq0 H0) as (F0 & _ & B0 & E0). destruct (dif p1 q1 Fp1 Fq1 H1) as (F1 & _ & B1 & E1). destruct (dif p2 q2 Fp2 Fq2 H2) as (F2 & _ & B2 & E2).
  set (d0 := @fsub N p0 q0) in *. set (d1 := @fsub N p1 q1) in *. set (d2 := @fsub N p2 q2) in *. set (x := B2R p0 - B2R q0) in *. set (y := B2R p1 - B2R q1) in *. set (z := B2R p2 - B2R q2) in *. clearbody d0 d1 d2 x y z.
  destruct (pair2_err c o d0 d1 F0 F1 B0 B1) as (Fs & Rs & Es). set (s := pair2 c o d0 d1) in *. clearbody s.
  destruct (step_err c2 s d2 Fs F2 Rs B2) as (Ft & Rt & _ & Et). set (t := stepF c2 s d2) in *. clearbody t.
  assert (X : 0 <= x * x) by nra. assert (Y : 0 <= y * y) by nra. assert (Z : 0 <= z * z) by nra.
  apply sqrt_fin; [exact Ft|exact Rt|lra|]. apply Rabs_le_inv in E0, E1, E2, Es, Et.
  set (X0 := x * x) in *. set (Y0 := y * y) in *. set (Z0 := z * z) in *. set (a := B2R d0 * B2R d0) in *. set (b := B2R d1 * B2R d1) in *. set (g := B2R d2 * B2R d2) in *. clearbody X0 Y0 Z0 a b g.
  rewrite U in *. apply Rabs_le. split; lra.
Qed.
Lemma UV_fused p q r : close p q -> ev lm (Delta_UV (EN lm) (inV lm p) (inV lm q)) r ->
  fin r /\ Rabs (B2R r - dist2 p q) <= 4 * u * dist2 p q + bpow radix2 (-73).
Proof.
  intros (Fp & Fq & H0 & H1 & H2) E. apply ev_UV in E. destruct E as (c & o & _ & ->). destruct p as [p0 p1 p2], q as [q0 q1 q2]. destruct Fp as (Fp0 & Fp1 & Fp2), Fq as (Fq0 & Fq1 & Fq2).
  unfold UVv, dist2. cbn [v0 v1 v2] in *. assert (P : 0 <= eta) by apply bpow_ge_0. assert (U : u = / 16777216) by reflexivity.
  destruct (dif p1 q1 Fp1 Fq1 H1) as (F1 & _ & B1 & E1). destruct (dif p2 q2 Fp2 Fq2 H2) as (F2 & _ & B2 & E2).
  set (d1 := @fsub N p1 q1) in *. set (d2 := @fsub N p2 q2) in *. set (y := B2R p1 - B2R q1) in *. set (z := B2R p2 - B2R q2) in *. clearbody d1 d2 y z.
  destruct (pair2_err c o d1 d2 F1 F2 B1 B2) as (Fs & Rs & Es). set (s := pair2 c o d1 d2) in *. clearbody s.
  assert (Y : 0 <= y * y) by nra. assert (Z : 0 <= z * z) by nra.
  apply sqrt_fin; [exact Fs|apply Rs|lra|]. apply Rabs_le_inv in E1, E2, Es.
  set (Y0 := y * y) in *. set (Z0 := z * z) in *. set (b := B2R d1 * B2R d1) in *. set (g := B2R d2 * B2R d2) in *. clearbody Y0 Z0 b g.
  rewrite U in *. apply Rabs_le. split; lra.
Qed.
(** the value as a function of the three rounded differences. *)
Definition P2 (c o : bool) (a b : R) : R := if o then rnd (sq true a + sq c b) else rnd (sq true b + sq c a).
Lemma pair2_val c o (d0 d1 : f32) : fin d0 -> fin d1 -> 0 <= B2R d0 * B2R d0 <= B -> 0 <= B2R d1 * B2R d1 <= B -> B2R (pair2 c o d0 d1) = P2 c o (B2R d0) (B2R d1).
Proof.
  intros F0 F1 H0 H1. pose proof Bpos. destruct o; cbn [pair2 P2].
  - destruct (mul_val d0 F0 H0) as [Fm Vm]. destruct (sq_bd true _ H0) as [Q _]. rewrite <- Vm in Q. rewrite (proj2 (step_val c _ d1 Fm F1 ltac:(lra) H1)), Vm. reflexivity.
  - destruct (mul_val d1 F1 H1) as [Fm Vm]. destruct (sq_bd true _ H1) as [Q _]. rewrite <- Vm in Q. rewrite (proj2 (step_val c _ d0 Fm F0 ltac:(lra) H0)), Vm. reflexivity.
Qed.
Lemma sq_opp c a : sq c (- a) = sq c a.
Proof. unfold sq. replace (- a * - a) with (a * a) by ring. reflexivity. Qed.
Lemma E76_val c o c2 p q : close p q -> B2R (E76v c o c2 p q) =
  rnd (sqrt (rnd (P2 c o (rnd (B2R (v0 p) - B2R (v0 q))) (rnd (B2R (v1 p) - B2R (v1 q))) + sq c2 (rnd (B2R (v2 p) - B2R (v2 q)))))).
Proof.
  intros (Fp & Fq & H0 & H1 & H2). destruct p as [p0 p1 p2], q as [q0 q1 q2]. destruct Fp as (Fp0 & Fp1 & Fp2), Fq as (Fq0 & Fq1 & Fq2).
  unfold E76v. cbn [v0 v1 v2] in *.
  destruct (dif p0 q0 Fp0 Fq0 H0) as (F0 & W0 & B0 & _). destruct (dif p1 q1 Fp1 Fq1 H1) as (F1 & W1 & B1 & _). destruct (dif p2 q2 Fp2 Fq2 H2) as (F2 & W2 & B2 & _).
  destruct (pair2_err c o _ _ F0 F1 B0 B1) as (Fs & Rs & _). destruct (step_err c2 _ _ Fs F2 Rs B2) as (Ft & Rt & _).
  rewrite (proj2 (sqrt_ok lm _ Ft Rt)), (proj2 (step_val c2 _ _ Fs F2 Rs B2)), (pair2_val c o _ _ F0 F1 B0 B1), W0, W1, W2. reflexivity.
Qed.
Lemma UV_val c o p q : close p q -> B2R (UVv c o p q) = rnd (sqrt (P2 c o (rnd (B2R (v1 p) - B2R (v1 q))) (rnd (B2R (v2 p) - B2R (v2 q))))).
Proof.
  intros (Fp & Fq & H0 & H1 & H2). destruct p as [p0 p1 p2], q as [q0 q1 q2]. destruct Fp as (Fp0 & Fp1 & Fp2), Fq as (Fq0 & Fq1 & Fq2).
  unfold UVv. cbn [v0 v1 v2] in *.
  destruct (dif p1 q1 Fp1 Fq1 H1) as (F1 & W1 & B1 & _). destruct (dif p2 q2 Fp2 Fq2 H2) as (F2 & W2 & B2 & _).
  destruct (pair2_err c o _ _ F1 F2 B1 B2) as (Fs & Rs & _).
  rewrite (proj2 (sqrt_ok lm _ Fs (proj1 Rs))), (pair2_val c o _ _ F1 F2 B1 B2), W1, W2. reflexivity.
Qed.
Lemma close_sym p q : close p q -> close q p.
Proof. intros (A & B' & H0 & H1 & H2). unfold close. rewrite (Rabs_minus_sym (B2R (v0 q))), (Rabs_minus_sym (B2R (v1 q))), (Rabs_minus_sym (B2R (v2 q))). auto. Qed.
Lemma P2_opp c o a b : P2 c o (- a) (- b) = P2 c o a b.
Proof. unfold P2. now rewrite !sq_opp. Qed.
Lemma rnd_sw x y : rnd (x - y) = - rnd (y - x).
Proof. rewrite <- rnd_opp. f_equal. ring. Qed.
Lemma fused_sym p q r : close p q -> (ev lm (Delta_E76 (EN lm) (inV lm p) (inV lm q)) r -> exists r', ev lm (Delta_E76 (EN lm) (inV lm q) (inV lm p)) r' /\ B2R r' = B2R r) /\
  (ev lm (Delta_UV (EN lm) (inV lm p) (inV lm q)) r -> exists r', ev lm (Delta_UV (EN lm) (inV lm q) (inV lm p)) r' /\ B2R r' = B2R r).
Proof.
  intros C. pose proof (close_sym p q C) as C'. split; intros E.
  - apply ev_E76 in E. destruct E as (c & o & c2 & Hc & ->). exists (E76v c o c2 q p). split; [apply ev_E76; exists c, o, c2; auto|].
    rewrite (E76_val c o c2 q p C'), (E76_val c o c2 p q C). rewrite (rnd_sw (B2R (v0 q))), (rnd_sw (B2R (v1 q))), (rnd_sw (B2R (v2 q))), P2_opp, sq_opp. reflexivity.
  - apply ev_UV in E. destruct E as (c & o & Hc & ->). exists (UVv c o q p). split; [apply ev_UV; exists c, o; auto|].
    rewrite (UV_val c o q p C'), (UV_val c o p q C). rewrite (rnd_sw (B2R (v1 q))), (rnd_sw (B2R (v2 q))), P2_opp. reflexivity.
Qed.
Lemma sq0 c : sq c 0 = 0.
Proof. unfold sq. rewrite Rmult_0_l. destruct c; [apply rnd_0|reflexivity]. Qed.
Lemma P20 c o : P2 c o 0 0 = 0.
Proof. unfold P2. rewrite !sq0, Rplus_0_r. destruct o; apply rnd_0. Qed.
Lemma close_refl p : allV fin p -> close p p.
Proof. intros F. unfold close. rewrite !Rminus_diag_eq, Rabs_R0 by reflexivity. pose proof (bpow_ge_0 radix2 60). auto. Qed.
Lemma fused_zero p r : allV fin p -> (ev lm (Delta_E76 (EN lm) (inV lm p) (inV lm p)) r \/ ev lm (Delta_UV (EN lm) (inV lm p) (inV lm p)) r) -> fin r /\ B2R r = 0.
Proof.
  intros F [E|E]; pose proof (close_refl p F) as C.
  - split; [exact (proj1 (E76_fused p p r C E))|]. apply ev_E76 in E. destruct E as (c & o & c2 & _ & ->). rewrite (E76_val c o c2 p p C).
    rewrite !(Rminus_diag_eq _ _ eq_refl), rnd_0, P20, sq0, Rplus_0_r, rnd_0, sqrt_0, rnd_0. reflexivity.
  - split; [exact (proj1 (UV_fused p p r C E))|]. apply ev_UV in E. destruct E as (c & o & _ & ->). rewrite (UV_val c o p p C).
    rewrite !(Rminus_diag_eq _ _ eq_refl), rnd_0, P20, sqrt_0, rnd_0. reflexivity.
Qed.
Definition cA : Vector3 f32 := let q k := @fdiv N (@fofZ N k) (@fofZ N 10) in V3 (q 2%Z) (q 12%Z) (q 9%Z).
Definition cB : Vector3 f32 := let z := @fofZ N 0 in V3 z z z.
Lemma fused_matters : exists p q r r', close p q /\ ev lm (Delta_E76 (EN lm) (inV lm p) (inV lm q)) r /\ ev lm (Delta_E76 (EN lm) (inV lm p) (inV lm q)) r' /\ B2R r <> B2R r'.
Proof.
  exists cA, cB, (E76v true true true cA cB), (E76v false true false cA cB). split; [|split; [apply ev_E76; exists true, true, true; auto|split; [apply ev_E76; exists false, true, false; split; [discriminate|reflexivity]|]]].
  - assert (Z0 : fin (@fofZ N 0) /\ B2R (@fofZ N 0) = 0) by (split; reflexivity).
    assert (Q : forall k, (0 <= k <= 12)%Z -> fin (@fdiv N (@fofZ N k) (@fofZ N 10)) /\ Rabs (B2R (@fdiv N (@fofZ N k) (@fofZ N 10)) - B2R (@fofZ N 0)) <= bpow radix2 60).
    { intros k Hk. destruct (ofZ_ok lm k ltac:(lia)) as [Fk Vk]. destruct (ofZ_ok lm 10 ltac:(lia)) as [Fx Vx].
      assert (K : 0 <= IZR k <= 12) by (split; apply IZR_le; lia). pose proof Bbig. assert (L : 2 <= bpow radix2 60) by (apply (bpow_le radix2 1 60); lia).
      assert (L2 : bpow radix2 60 <= bpow radix2 127) by (apply bpow_le; lia).
      destruct (div_ok lm (@fofZ N k) (@fofZ N 10) Fk) as [F V]; [rewrite Vx; lra|rewrite Vk, Vx; apply Rabs_le; lra|].
      split; [exact F|]. rewrite (proj2 Z0), Rminus_0_r, V, Vk, Vx. apply rnd_abs_le; [apply fmt_bpow; lia|]. apply Rabs_le; lra. }
    destruct (Q 2%Z ltac:(lia)), (Q 12%Z ltac:(lia)), (Q 9%Z ltac:(lia)). unfold close, cA, cB, allV. cbn [v0 v1 v2]. cbv zeta. repeat split; try assumption; apply Z0.
  - intros E. assert (G : Beqb (E76v true true true cA cB) (E76v false true false cA cB) = false) by (vm_compute; reflexivity).
    change (@feqb N (E76v true true true cA cB) (E76v false true false cA cB) = false) in G. rewrite eqb_ok in G by (vm_compute; reflexivity). rewrite E, Req_bool_true in G by reflexivity. discriminate.
Qed.
End WithLibm.
Lemma case162 : exists r, ev no_libm (Delta_E76 (EN no_libm) (inV no_libm (cA no_libm)) (inV no_libm (cB no_libm))) r /\ B2SF r = SpecFloat.S754_finite false 12694268 (-23).
Proof. exists (E76v no_libm false true false (cA no_libm) (cB no_libm)). split; [apply ev_E76; exists false, true, false; split; [discriminate|reflexivity]|vm_compute; reflexivity]. Qed.
