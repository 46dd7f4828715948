(** * [Vector3]/[Matrix3] in binary32. *)
From Coq Require Import ZArith Reals Lra Lia List.
From Flocq Require Import Core BinarySingleNaN.
From Verif Require Import Num NumF MVec F32 PVec.
Local Open Scope R_scope.

(** ** A zero determinant leaves no finite entry in the inverse. *)
Definition allM {A} (P : A -> Prop) (m : Matrix3 A) : Prop :=
  P (m0 m) /\ P (m1 m) /\ P (m2 m) /\ P (m3 m) /\ P (m4 m) /\ P (m5 m) /\ P (m6 m) /\ P (m7 m) /\ P (m8 m).
Definition allV {A} (P : A -> Prop) (v : Vector3 A) : Prop := P (v0 v) /\ P (v1 v) /\ P (v2 v).

Lemma mul_inf (lm : libm) (x : f32) s : is_finite (@fmul (FN lm) x (B754_infinity s)) = false.
Proof. destruct x; reflexivity. Qed.
Lemma one_div_zero (lm : libm) s : exists s', @fdiv (FN lm) (@flit (FN lm) 1) (B754_zero s) = B754_infinity s'.
Proof. destruct s; vm_compute; eauto. Qed.

Lemma M_invert_det0 (lm : libm) (m : Matrix3 f32) :
  @feqb (FN lm) (M_det (FN lm) m) (fofZ 0) = true ->
  allM (fun x => is_finite x = false) (M_invert (FN lm) m).
Proof.
  intros H. destruct (ofZ_ok lm 0 ltac:(lia)) as [F0 V0].
  destruct (eqb_zero lm _ _ F0 V0 H) as [Fd Vd].
  destruct (zero_inv _ Fd Vd) as [s E].
  unfold M_invert. rewrite E. destruct (one_div_zero lm s) as [s' E']. rewrite E'.
  unfold M_scale, allM. cbn [m0 m1 m2 m3 m4 m5 m6 m7 m8].
  repeat split; apply mul_inf.
Qed.

(** ** Rounding error of a dot product of length 3. *)
Definition vR (v : Vector3 f32) : Vector3 R := V3 (B2R (v0 v)) (B2R (v1 v)) (B2R (v2 v)).
Definition absdot (a b : Vector3 f32) : R :=
  Rabs (B2R (v0 a) * B2R (v0 b)) + Rabs (B2R (v1 a) * B2R (v1 b)) + Rabs (B2R (v2 a) * B2R (v2 b)).
Definition dotR (a b : Vector3 f32) : R :=
  B2R (v0 a) * B2R (v0 b) + B2R (v1 a) * B2R (v1 b) + B2R (v2 a) * B2R (v2 b).

Lemma eta_small : eta <= bpow radix2 0. Proof. apply bpow_le. lia. Qed.

Lemma abs_add_bound a b A B : Rabs a <= A -> Rabs b <= B -> Rabs (a + b) <= A + B.
Proof. intros. apply Rle_trans with (1 := Rabs_triang _ _). lra. Qed.

Lemma V_dot_error (lm : libm) (a b : Vector3 f32) :
  allV fin a -> allV fin b -> absdot a b <= bpow radix2 126 ->
  fin (V_dot (FN lm) a b) /\
  Rabs (B2R (V_dot (FN lm) a b) - dotR a b) <= 4 * u * absdot a b + 4 * eta.
Proof.
  destruct a as [x0 x1 x2], b as [y0 y1 y2]. unfold allV, absdot, dotR, V_dot, vref.
  cbn [v0 v1 v2]. intros (Fx0 & Fx1 & Fx2) (Fy0 & Fy1 & Fy2) S.
  set (p0 := B2R x0 * B2R y0) in *. set (p1 := B2R x1 * B2R y1) in *. set (p2 := B2R x2 * B2R y2) in *.
  pose proof (Rabs_pos p0) as P0. pose proof (Rabs_pos p1) as P1. pose proof (Rabs_pos p2) as P2.
  assert (B126 : 2 * bpow radix2 126 = bpow radix2 127) by (change 2 with (bpow radix2 1); rewrite <- bpow_plus; reflexivity).
  assert (B0 : bpow radix2 0 <= bpow radix2 100) by (apply bpow_le; lia).
  assert (B100 : bpow radix2 100 * 67108864 = bpow radix2 126)
    by (change 67108864 with (bpow radix2 26); rewrite <- bpow_plus; reflexivity).
  pose proof eta_small as Es. pose proof eta_pos as Ep. pose proof (bpow_gt_0 radix2 100) as Bp.
  destruct (mul_ok lm x0 y0 Fx0 Fy0) as [Fm0 V0]; [fold p0; lra|].
  destruct (mul_ok lm x1 y1 Fx1 Fy1) as [Fm1 V1]; [fold p1; lra|].
  destruct (mul_ok lm x2 y2 Fx2 Fy2) as [Fm2 V2]; [fold p2; lra|].
  fold p0 in V0. fold p1 in V1. fold p2 in V2.
  set (q0 := @fmul (FN lm) x0 y0) in *. set (q1 := @fmul (FN lm) x1 y1) in *.
  set (q2 := @fmul (FN lm) x2 y2) in *.
  pose proof (rnd_err_abs p0) as E0. rewrite <- V0 in E0.
  pose proof (rnd_err_abs p1) as E1. rewrite <- V1 in E1.
  pose proof (rnd_err_abs p2) as E2. rewrite <- V2 in E2.
  assert (U : u = / 16777216) by reflexivity. rewrite U in *.
  assert (A01 : Rabs (B2R q0 + B2R q1) <= (1 + / 16777216) * (Rabs p0 + Rabs p1) + 2 * eta).
  { replace (B2R q0 + B2R q1) with ((B2R q0 - p0) + (B2R q1 - p1) + (p0 + p1)) by ring.
    pose proof (Rabs_triang (B2R q0 - p0 + (B2R q1 - p1)) (p0 + p1)).
    pose proof (Rabs_triang (B2R q0 - p0) (B2R q1 - p1)). pose proof (Rabs_triang p0 p1). lra. }
  destruct (add_ok lm q0 q1 Fm0 Fm1) as [Fs1 Vs1]; [lra|].
  pose proof (rnd_add_err (B2R q0) (B2R q1) (fmt_B2R _) (fmt_B2R _)) as E3. rewrite <- Vs1, U in E3.
  set (s1 := @fadd (FN lm) q0 q1) in *.
  assert (A2 : Rabs (B2R s1 + B2R q2) <=
     (1 + / 16777216) * (Rabs (B2R q0 + B2R q1)) + (1 + / 16777216) * Rabs p2 + eta).
  { replace (B2R s1 + B2R q2) with ((B2R s1 - (B2R q0 + B2R q1)) + (B2R q0 + B2R q1) + ((B2R q2 - p2) + p2)) by ring.
    pose proof (Rabs_triang (B2R s1 - (B2R q0 + B2R q1) + (B2R q0 + B2R q1)) (B2R q2 - p2 + p2)).
    pose proof (Rabs_triang (B2R s1 - (B2R q0 + B2R q1)) (B2R q0 + B2R q1)).
    pose proof (Rabs_triang (B2R q2 - p2) p2). lra. }
  destruct (add_ok lm s1 q2 Fs1 Fm2) as [Fs2 Vs2]; [lra|].
  pose proof (rnd_add_err (B2R s1) (B2R q2) (fmt_B2R _) (fmt_B2R _)) as E4. rewrite <- Vs2, U in E4.
  split; [exact Fs2|].
  set (s2 := @fadd (FN lm) s1 q2) in *.
  replace (B2R s2 - (p0 + p1 + p2)) with
    ((B2R s2 - (B2R s1 + B2R q2)) + (B2R s1 - (B2R q0 + B2R q1)) +
     ((B2R q0 - p0) + (B2R q1 - p1) + (B2R q2 - p2))) by ring.
  pose proof (Rabs_triang (B2R s2 - (B2R s1 + B2R q2) + (B2R s1 - (B2R q0 + B2R q1)))
     (B2R q0 - p0 + (B2R q1 - p1) + (B2R q2 - p2))).
  pose proof (Rabs_triang (B2R s2 - (B2R s1 + B2R q2)) (B2R s1 - (B2R q0 + B2R q1))).
  pose proof (Rabs_triang (B2R q0 - p0 + (B2R q1 - p1)) (B2R q2 - p2)).
  pose proof (Rabs_triang (B2R q0 - p0) (B2R q1 - p1)).
  lra.
Qed.

Lemma M_apply_error (lm : libm) (m : Matrix3 f32) (v : Vector3 f32) (i : Z) :
  allM fin m -> allV fin v -> (0 <= i < 3)%Z ->
  exists r x, M_row m i = Ret r /\ V_index (M_apply (FN lm) m v) i = Ret x /\
    (absdot r v <= bpow radix2 126 ->
     fin x /\ Rabs (B2R x - dotR r v) <= 4 * u * absdot r v + 4 * eta).
Proof.
  intros Hm Hv Hi. destruct (M_apply_entry (FN lm) m v i Hi) as (r & Hr & Hx).
  exists r, (V_dot (FN lm) r v). split; [exact Hr|]. split; [exact Hx|].
  intros S. apply V_dot_error; [|exact Hv|exact S].
  rewrite M_row_in in Hr by exact Hi. injection Hr as <-.
  destruct m; unfold allM in Hm; cbn in Hm.
  destruct (cases3 i Hi) as [->|[->| ->]]; unfold allV; cbn; tauto.
Qed.

(** A matrix and a vector of small floats meet the overflow guard. *)
Definition mkf (lm : libm) (z : Z) : f32 := @fofZ (FN lm) z.
