(** * Yxy in binary32: round-trip error. *)
From Coq Require Import ZArith Reals Lra Lia List Bool.
From Flocq Require Import Core IEEE754.BinarySingleNaN Relative.
From Verif Require Import Num NumR NumF MVec MTri SpecMat F32 PMatF PHsv PHsvF.
Local Open Scope R_scope.

Lemma rnd_rel z : bpow radix2 (-126) <= Rabs z -> exists d, Rabs d <= u /\ rnd z = z * (1 + d).
Proof.
  intros H. destruct (relative_error_N_FLT_ex radix2 (-149) 24 ltac:(lia) (fun x => negb (Z.even x)) z H) as (d & Hd & E).
  exists d. split; [|exact E]. change (- (24) + 1)%Z with (-24 + 1)%Z in Hd. rewrite half_bpow in Hd. exact Hd.
Qed.
(** A product of three factors close to 1. *)
Lemma near1 a b : Rabs a <= 3.1 * u -> Rabs b <= u -> Rabs ((1 + a) * (1 + b) - 1) <= Rabs a + 1.0001 * u.
Proof.
  intros Ha Hb. pose proof u16 as U. replace ((1 + a) * (1 + b) - 1) with (a + b * (1 + a)) by ring.
  eapply Rle_trans; [apply Rabs_triang|]. apply Rplus_le_compat_l. rewrite Rabs_mult.
  assert (Rabs (1 + a) <= 1.0001). { eapply Rle_trans; [apply Rabs_triang|]. rewrite Rabs_R1. lra. }
  assert (0 <= Rabs b) by apply Rabs_pos. assert (0 <= Rabs (1 + a)) by apply Rabs_pos. nra.
Qed.
Lemma inv1 d : Rabs d <= u -> exists r, / (1 + d) = 1 + r /\ Rabs r <= 1.0001 * u.
Proof.
  intros H. pose proof u16 as U. apply Rabs_le_inv in H. exists (- d / (1 + d)). split; [field; lra|].
  unfold Rdiv. rewrite Rabs_mult, Rabs_Ropp, Rabs_inv, (Rabs_pos_eq (1 + d)) by lra.
  apply Rmult_le_reg_r with (1 + d); [lra|]. rewrite Rmult_assoc, Rinv_l by lra. assert (Rabs d <= u) by (apply Rabs_le; lra). nra.
Qed.
Lemma eta_tiny : eta * IZR (2 ^ 100) <= / IZR (2 ^ 50).
Proof. change (IZR (2 ^ 100)) with (bpow radix2 100). unfold eta. rewrite <- bpow_plus. apply Rle_refl. Qed.

Section Real.
Variables X Y Z : R.
Hypotheses (fX : fmt X) (fY : fmt Y) (fZ : fmt Z) (HX : 0 <= X) (HY : 0 <= Y) (HZ : 0 <= Z).
Let S := X + Y + Z.
Hypotheses (S1 : 2e-8 <= S) (Y1 : 2e-8 * S <= Y).
Let s := rnd (rnd (X + Y) + Z).
Let x := rnd (X / s).
Let y := rnd (Y / s).
Lemma fmt_rnd z : fmt (rnd z). Proof. apply generic_format_round; typeclasses eauto. Qed.
Lemma s_err : Rabs (s - S) <= 2.0001 * u * S.
Proof.
  pose proof u16 as U. pose proof (rnd_add_err X Y fX fY) as E1. pose proof (rnd_add_err (rnd (X + Y)) Z (fmt_rnd _) fZ) as E2.
  rewrite (Rabs_pos_eq (X + Y)) in E1 by lra. pose proof (rnd_ge_fmt 0 (X + Y) fmt_0 ltac:(lra)) as P. rewrite (Rabs_pos_eq (rnd (X + Y) + Z)) in E2 by lra.
  fold s in E2. set (a := rnd (X + Y)) in *. clearbody a s. apply Rabs_le_inv in E1, E2. unfold S in *.
  apply Rabs_le. rewrite U in *. lra.
Qed.
Lemma s_pos : 0.99 * S <= s <= 1.01 * S.
Proof. pose proof s_err as E. apply Rabs_le_inv in E. pose proof u16 as U. rewrite U in E. lra. Qed.
Lemma s_lo : X <= s /\ Y <= s.
Proof.
  assert (X <= rnd (X + Y)) by (apply rnd_ge_fmt; [exact fX|lra]). assert (Y <= rnd (X + Y)) by (apply rnd_ge_fmt; [exact fY|lra]).
  unfold s. split; apply rnd_ge_fmt; auto; lra.
Qed.
Lemma frac a : 0 <= a <= s -> 0 <= a / s <= 1.
Proof.
  intros H. pose proof s_pos. split; [apply div_nonneg; lra|]. apply Rmult_le_reg_r with s; [lra|]. unfold Rdiv. rewrite Rmult_assoc, Rinv_l by lra. lra.
Qed.
Lemma xy_range : 0 <= X / s <= 1 /\ 1.9e-8 <= Y / s <= 1 /\ 0 <= x <= 1 /\ 1.8e-8 <= y <= 1.
Proof.
  pose proof u16 as U. pose proof eta16 as Et. pose proof s_pos as P. pose proof s_lo as [L1 L2].
  pose proof (frac X ltac:(lra)) as Fx. pose proof (frac Y ltac:(lra)) as Fy.
  assert (Q : 1.9e-8 <= Y / s). { apply Rmult_le_reg_r with s; [lra|]. replace (Y / s * s) with Y by (field; lra). lra. }
  split; [exact Fx|]. split; [lra|]. split; [apply rnd_01; lra|].
  pose proof (rnd_01 (Y / s) ltac:(lra)) as R1. fold y in R1. split; [|lra].
  destruct (rnd_rel (Y / s)) as (d & Hd & E).
  { rewrite Rabs_pos_eq by lra. apply Rle_trans with (2 := Q). apply Rle_trans with (bpow radix2 (-30)); [apply bpow_le; lia|]. change (bpow radix2 (-30)) with (/ 1073741824). lra. }
  fold y in E. rewrite E. apply Rabs_le_inv in Hd. rewrite U in Hd. nra.
Qed.
Lemma ratio : exists r, Y / y = s * (1 + r) /\ Rabs r <= 1.0001 * u.
Proof.
  pose proof xy_range as (Rx & Ry & Qx & Qy). pose proof s_pos as P.
  destruct (rnd_rel (Y / s)) as (d & Hd & E).
  { rewrite Rabs_pos_eq by lra. apply Rle_trans with 1.9e-8; [|lra]. apply Rle_trans with (bpow radix2 (-30)); [apply bpow_le; lia|]. change (bpow radix2 (-30)) with (/ 1073741824). lra. }
  fold y in E. destruct (inv1 d Hd) as (r & Er & Hr). exists r. split; [|exact Hr]. rewrite <- Er, E.
  apply Rabs_le_inv in Hd. pose proof u16 as U. field. repeat split; lra.
Qed.
(** Scaling a coordinate [c] in [-1, 1] back. *)
Lemma scale_err c : Rabs c <= 1 -> Rabs (rnd (rnd (c * Y) / y) - s * c) <= 3.001 * u * Rabs c * s + IZR (2 ^ 28) * eta.
Proof.
  intros Hc. pose proof u16 as U. pose proof eta16 as Et. pose proof xy_range as (Rx & Ry & Qx & Qy). pose proof s_pos as P.
  destruct ratio as (r & Er & Hr).
  destruct (rnd_err (c * Y)) as (d3 & e3 & H3 & G3 & _ & E3). destruct (rnd_err (rnd (c * Y) / y)) as (d4 & e4 & H4 & G4 & _ & E4).
  rewrite E4, E3. replace ((c * Y * (1 + d3) + e3) / y * (1 + d4) + e4 - s * c)
    with (c * (Y / y * (1 + d3) * (1 + d4) - s) + (e3 / y * (1 + d4) + e4)) by (field; lra).
  rewrite Er. replace (s * (1 + r) * (1 + d3) * (1 + d4) - s) with (s * ((1 + r) * (1 + d3) * (1 + d4) - 1)) by ring.
  pose proof (near1 r d3 ltac:(lra) H3) as N1. set (a := (1 + r) * (1 + d3) - 1) in *.
  replace ((1 + r) * (1 + d3)) with (1 + a) by (unfold a; ring). pose proof (near1 a d4 ltac:(lra) H4) as N2.
  assert (K : Rabs ((1 + a) * (1 + d4) - 1) <= 3.001 * u) by lra. set (b := (1 + a) * (1 + d4) - 1) in *. clearbody a b.
  eapply Rle_trans; [apply Rabs_triang|]. apply Rplus_le_compat.
  - rewrite !Rabs_mult, (Rabs_pos_eq s) by lra. assert (0 <= Rabs c) by apply Rabs_pos.
    replace (3.001 * u * Rabs c * s) with (Rabs c * (s * (3.001 * u))) by ring. apply Rmult_le_compat_l; [assumption|]. apply Rmult_le_compat_l; lra.
  - assert (K1 : Rabs (e3 / y) <= eta * 60000000).
    { unfold Rdiv. rewrite Rabs_mult, Rabs_inv, (Rabs_pos_eq y) by lra. apply Rmult_le_compat; auto using Rabs_pos; [left; apply Rinv_0_lt_compat; lra|].
      apply Rmult_le_reg_r with y; [lra|]. rewrite Rinv_l by lra. lra. }
    eapply Rle_trans; [apply Rabs_triang|]. rewrite Rabs_mult.
    assert (Rabs (1 + d4) <= 2). { eapply Rle_trans; [apply Rabs_triang|]. rewrite Rabs_R1. lra. }
    assert (Rabs (e3 / y) * Rabs (1 + d4) <= eta * 60000000 * 2) by (apply Rmult_le_compat; auto using Rabs_pos).
    change (IZR (2 ^ 28)) with 268435456. lra.
Qed.
Lemma eta_S : IZR (2 ^ 28) * eta <= / IZR (2 ^ 80) * S.
Proof.
  apply Rle_trans with (/ IZR (2 ^ 80) * 2e-8); [|apply Rmult_le_compat_l; [left; apply Rinv_0_lt_compat, IZR_lt; lia|exact S1]].
  apply Rle_trans with (bpow radix2 (-122)).
  - change (IZR (2 ^ 28)) with (bpow radix2 28). unfold eta. rewrite <- bpow_plus. apply Rle_refl.
  - apply Rle_trans with (bpow radix2 (-80) * bpow radix2 (-42)); [rewrite <- bpow_plus; apply Rle_refl|].
    apply Rmult_le_compat; try apply bpow_ge_0; [apply Rle_refl|]. apply Rle_trans with (bpow radix2 (-30)); [apply bpow_le; lia|]. change (bpow radix2 (-30)) with (/ 1073741824). lra.
Qed.
Lemma eta_1S : eta * S <= / IZR (2 ^ 80) * S.
Proof. apply Rmult_le_compat_r; [lra|]. change (eta <= bpow radix2 (-80)). apply bpow_le. lia. Qed.
Lemma X_back : Rabs (rnd (rnd (x * Y) / y) - X) <= 4.1 * u * X + / IZR (2 ^ 70) * S.
Proof.
  pose proof u16 as U. pose proof eta16 as Et. pose proof xy_range as (Rx & Ry & Qx & Qy). pose proof s_pos as P.
  pose proof (scale_err x ltac:(apply Rabs_le; lra)) as E. rewrite (Rabs_pos_eq x) in E by lra.
  pose proof (rnd_err_abs (X / s)) as E1. fold x in E1. rewrite (Rabs_pos_eq (X / s)) in E1 by lra.
  assert (E2 : Rabs (s * x - X) <= u * X + 1.01 * (eta * S)).
  { replace (s * x - X) with (s * (x - X / s)) by (field; lra). rewrite Rabs_mult, (Rabs_pos_eq s) by lra.
    apply Rle_trans with (s * (u * (X / s) + eta)); [apply Rmult_le_compat_l; lra|].
    replace (s * (u * (X / s) + eta)) with (u * X + s * eta) by (field; lra). nra. }
  pose proof eta_S. pose proof eta_1S.
  assert (E3 : 3.001 * u * x * s <= 3.01 * u * X + 0.001 * (eta * S)).
  { apply Rabs_le_inv in E2. assert (u * (s * x) <= u * (X + u * X + 1.01 * (eta * S))) by (apply Rmult_le_compat_l; lra). assert (0 <= eta * S) by nra.
    assert (u * (u * X) <= 0.0001 * (u * X)) by (apply Rmult_le_compat_r; nra). assert (u * (eta * S) <= 0.0001 * (eta * S)) by (apply Rmult_le_compat_r; lra). nra. }
  replace (rnd (rnd (x * Y) / y) - X) with ((rnd (rnd (x * Y) / y) - s * x) + (s * x - X)) by ring.
  eapply Rle_trans; [apply Rabs_triang|].
  assert (0 <= u * X) by nra. assert (0 <= eta * S) by nra.
  assert (T : / IZR (2 ^ 80) * S <= / 1000 * (/ IZR (2 ^ 70) * S)).
  { rewrite <- Rmult_assoc. apply Rmult_le_compat_r; [lra|]. rewrite <- Rinv_mult. apply Rinv_le; [apply Rmult_lt_0_compat; [lra|apply IZR_lt; lia]|]. rewrite <- mult_IZR. apply IZR_le. lia. }
  lra.
Qed.
Lemma Z_back : Rabs (rnd (rnd (rnd (rnd (1 - x) - y) * Y) / y) - Z) <= 10 * u * S.
Proof.
  pose proof u16 as U. pose proof eta16 as Et. pose proof xy_range as (Rx & Ry & Qx & Qy). pose proof s_pos as P.
  pose proof (rnd_01 (1 - x) ltac:(lra)) as H1. pose proof (rnd_err_abs (1 - x)) as E1. rewrite (Rabs_pos_eq (1 - x)) in E1 by lra.
  set (z1 := rnd (1 - x)) in *.
  pose proof (rnd_add_err z1 (- y) (fmt_rnd _) (fmt_opp _ (fmt_rnd _))) as E2. change (z1 + - y) with (z1 - y) in E2.
  assert (H2 : Rabs (rnd (z1 - y)) <= 1) by (apply rnd_abs_le; [apply fmt_1|apply Rabs_le; lra]).
  set (z2 := rnd (z1 - y)) in *. assert (K2 : Rabs (z1 - y) <= 1) by (apply Rabs_le; lra).
  pose proof (scale_err z2 H2) as E. pose proof (rnd_err_abs (X / s)) as Ex. fold x in Ex. rewrite (Rabs_pos_eq (X / s)) in Ex by lra.
  pose proof (rnd_err_abs (Y / s)) as Ey. fold y in Ey. rewrite (Rabs_pos_eq (Y / s)) in Ey by lra.
  assert (E3 : Rabs (z2 - (1 - X / s - Y / s)) <= 4.01 * u).
  { assert (u * (X / s) <= u * 1) by (apply Rmult_le_compat_l; lra). assert (u * (Y / s) <= u * 1) by (apply Rmult_le_compat_l; lra).
    assert (u * (1 - x) <= u * 1) by (apply Rmult_le_compat_l; lra). assert (u * Rabs (z1 - y) <= u * 1) by (apply Rmult_le_compat_l; lra).
    apply Rabs_le_inv in E1, E2, Ex, Ey. apply Rabs_le. lra. }
  assert (E4 : Rabs (s * z2 - (s - X - Y)) <= 4.01 * u * s).
  { replace (s * z2 - (s - X - Y)) with (s * (z2 - (1 - X / s - Y / s))) by (field; lra). rewrite Rabs_mult, (Rabs_pos_eq s) by lra.
    rewrite (Rmult_comm _ s). apply Rmult_le_compat_l; lra. }
  pose proof s_err as E5. pose proof eta_S as E6.
  assert (0 < u * S) by (apply Rmult_lt_0_compat; lra).
  assert (E7 : u * s <= 1.01 * (u * S)) by (replace (1.01 * (u * S)) with (u * (1.01 * S)) by ring; apply Rmult_le_compat_l; lra).
  assert (E8 : 3.001 * u * Rabs z2 * s <= 3.001 * (u * s)) by (replace (3.001 * u * Rabs z2 * s) with (3.001 * (u * s) * Rabs z2) by ring; rewrite <- (Rmult_1_r (3.001 * (u * s))) at 2; apply Rmult_le_compat_l; [nra|exact H2]).
  assert (E9 : / IZR (2 ^ 80) * S <= / 1000 * (u * S)).
  { rewrite <- Rmult_assoc. apply Rmult_le_compat_r; [lra|]. rewrite U. rewrite <- Rinv_mult. apply Rinv_le; [lra|]. rewrite <- mult_IZR. apply IZR_le. lia. }
  assert (E10 : Z = S - X - Y) by (unfold S; ring).
  apply Rabs_le_inv in E, E4, E5. apply Rabs_le. split; lra.
Qed.
End Real.

Section F.
Context (lm : libm).
Notation N := (FN lm).
Lemma l1e8 : fin (@flit N 1e-8%dec) /\ 0.99e-8 <= B2R (@flit N 1e-8%dec) <= 1.01e-8.
Proof. assert (K : fin (@flit N 1e-8%dec) /\ B2R (@flit N 1e-8%dec) = 11258999 / 1125899906842624) by f32_val. destruct K as [F V]. split; [exact F|]. rewrite V. lra. Qed.
Lemma absf_ok (x : f32) : fin x -> fin (abs_f N x) /\ B2R (abs_f N x) = Rabs (B2R x).
Proof.
  intros Fx. destruct (PHsvF.l0 lm) as [F0 V0]. unfold abs_f. rewrite ltb_ok by assumption. rewrite V0. case Rlt_bool_spec; intros H.
  - destruct (opp_ok lm x Fx) as [A B]. split; [exact A|]. rewrite B, Rabs_left by lra. reflexivity.
  - split; [exact Fx|]. rewrite Rabs_pos_eq by lra. reflexivity.
Qed.
Lemma guard_ok (x : f32) : fin x -> 1.02e-8 <= B2R x -> @fltb N (abs_f N x) (@flit N 1e-8%dec) = false.
Proof.
  intros Fx H. destruct (absf_ok x Fx) as [Fa Va]. destruct l1e8 as [F1 V1]. rewrite ltb_ok by assumption. rewrite Va, Rabs_pos_eq by lra.
  apply Rlt_bool_false. lra.
Qed.
Lemma yxy_rt_F (X Y Z : f32) : fin X -> fin Y -> fin Z -> 0 <= B2R X -> 0 <= B2R Y -> 0 <= B2R Z ->
  let S := B2R X + B2R Y + B2R Z in 2e-8 <= S <= bpow radix2 100 -> 2e-8 * S <= B2R Y ->
  exists X' Z' : f32, fromYxy N (toYxy N (V3 X Y Z)) = V3 X' Y Z' /\ fin X' /\ fin Z' /\
    Rabs (B2R X' - B2R X) <= 4.1 * u * B2R X + / IZR (2 ^ 70) * S /\ Rabs (B2R Z' - B2R Z) <= 10 * u * S.
Proof.
  intros FX FY FZ HX HY HZ S HS HYS.
  assert (B27 : bpow radix2 127 = 134217728 * bpow radix2 100) by (change 127%Z with (27 + 100)%Z; rewrite (bpow_plus radix2 27 100); reflexivity).
  pose proof b127_big as BB.
  pose proof (X_back _ _ _ (fmt_B2R X) (fmt_B2R Y) (fmt_B2R Z) HX HY HZ (proj1 HS) HYS) as EX.
  pose proof (Z_back _ _ _ (fmt_B2R X) (fmt_B2R Y) (fmt_B2R Z) HX HY HZ (proj1 HS) HYS) as EZ.
  pose proof (s_pos _ _ _ (fmt_B2R X) (fmt_B2R Y) (fmt_B2R Z) HX HY HZ) as Ps. 
  pose proof (xy_range _ _ _ (fmt_B2R X) (fmt_B2R Y) (fmt_B2R Z) HX HY HZ (proj1 HS) HYS) as (Rx & Ry & Qx & Qy).
  fold S in EX, EZ, Ps.
  assert (Hs1 : B2R X + B2R Y <= bpow radix2 100) by (unfold S in HS; lra).
  destruct (add_ok lm X Y FX FY) as [Fa Va]; [apply Rabs_le; lra|].
  assert (H1 : 0 <= B2R (@fadd N X Y) <= bpow radix2 100).
  { rewrite Va. split; [apply rnd_ge_fmt; [apply fmt_0|lra]|apply rnd_le_fmt; [apply fmt_bpow; lia|lra]]. }
  destruct (add_ok lm _ Z Fa FZ) as [Fs Vs]; [apply Rabs_le; unfold S in HS; lra|]. rewrite Va in Vs. rewrite <- Vs in *.
  unfold toYxy, toYxy3, fromYxy, fromYxy3, X_from_Yxy, Y_from_Yxy, Z_from_Yxy, Y_from_XYZ, x_from_XYZ, y_from_XYZ. cbn [vref v0 v1 v2].
  assert (Pos : 1.9e-8 <= B2R (@fadd N (@fadd N X Y) Z)) by lra.
  rewrite (guard_ok _ Fs) by lra. set (s := @fadd N (@fadd N X Y) Z) in *.
  destruct (div_ok lm X s FX) as [Fx Vx]; [lra|apply Rabs_le; lra|].
  destruct (div_ok lm Y s FY) as [Fy Vy]; [lra|apply Rabs_le; lra|].
  rewrite <- Vx, <- Vy in *. set (x := @fdiv N X s) in *. set (y := @fdiv N Y s) in *.
  rewrite (guard_ok y Fy) by lra.
  (* scaling a coordinate *)
  assert (Sc : forall c : f32, fin c -> Rabs (B2R c) <= 1 -> fin (@fdiv N (@fmul N c Y) y) /\ B2R (@fdiv N (@fmul N c Y) y) = rnd (rnd (B2R c * B2R Y) / B2R y)).
  { intros c Fc Hc. assert (K : Rabs (B2R c * B2R Y) <= B2R Y).
    { rewrite Rabs_mult, (Rabs_pos_eq (B2R Y)) by lra. rewrite <- (Rmult_1_l (B2R Y)) at 2. apply Rmult_le_compat_r; lra. }
    destruct (mul_ok lm c Y Fc FY) as [Fm Vm]; [unfold S in HS; lra|].
    assert (K2 : Rabs (B2R (@fmul N c Y)) <= B2R Y) by (rewrite Vm; apply rnd_abs_le; [apply fmt_B2R|exact K]).
    destruct (div_ok lm (@fmul N c Y) y Fm) as [Fd Vd]; [lra| |rewrite Vm in Vd; auto].
    unfold Rdiv. rewrite Rabs_mult, Rabs_inv, (Rabs_pos_eq (B2R y)) by lra.
    apply Rmult_le_reg_r with (B2R y); [lra|]. rewrite Rmult_assoc, Rinv_l by lra.
    assert (B2R Y <= bpow radix2 100) by (unfold S in HS; lra). rewrite Rmult_1_r, B27. 
    apply Rle_trans with (bpow radix2 100); [lra|]. pose proof (bpow_gt_0 radix2 100). nra. }
  destruct (Sc x Fx ltac:(apply Rabs_le; lra)) as [FX' VX']. rewrite <- VX' in EX.
  unfold z_from_xy. destruct (ofZ_ok lm 1 ltac:(cbn; lia)) as [F1 V1].
  destruct (sub_ok lm _ x F1 Fx) as [Fz Vz]; [rewrite V1; apply Rabs_le; lra|]. rewrite V1 in Vz.
  pose proof (rnd_01 (1 - B2R x) ltac:(lra)) as Hz. rewrite <- Vz in Hz.
  destruct (sub_ok lm _ y Fz Fy) as [Fw Vw]; [apply Rabs_le; lra|].
  assert (Hw : Rabs (B2R (@fsub N (@fsub N (@fofZ N 1) x) y)) <= 1) by (rewrite Vw; apply rnd_abs_le; [apply fmt_1|apply Rabs_le; lra]).
  rewrite Vz in Vw. destruct (Sc _ Fw Hw) as [FZ' VZ']. rewrite Vw in VZ'. rewrite <- VZ' in EZ.
  eexists _, _. split; [reflexivity|]. split; [exact FX'|]. split; [exact FZ'|]. split; assumption.
Qed.
End F.

(** ** The other direction. *)
Section Real2.
Variables Y x y : R.
Hypotheses (fY : fmt Y) (fx : fmt x) (fy : fmt y) (Hx : 0 <= x) (Hy : 2e-8 <= y) (Hxy : x + y <= 1) (HY : 2e-8 * y <= Y).
Let T := Y / y.
Let z := rnd (rnd (1 - x) - y).
Let X := rnd (rnd (x * Y) / y).
Let Z := rnd (rnd (z * Y) / y).
Let s := rnd (rnd (X + Y) + Z).
Lemma T_lo : 2e-8 <= T.
Proof. unfold T. apply Rmult_le_reg_r with y; [lra|]. replace (Y / y * y) with Y by (field; lra). exact HY. Qed.
Lemma T_Y : Y = T * y. Proof. unfold T. field. lra. Qed.
Lemma z_ok : 0 <= z <= 1 /\ Rabs (z - (1 - x - y)) <= 2.001 * u.
Proof.
  pose proof u16 as U. pose proof eta16 as Et.
  assert (A : y <= rnd (1 - x)) by (apply rnd_ge_fmt; [exact fy|lra]). pose proof (rnd_01 (1 - x) ltac:(lra)) as B.
  pose proof (rnd_01 (rnd (1 - x) - y) ltac:(lra)) as C. fold z in C. split; [exact C|].
  pose proof (rnd_err_abs (1 - x)) as E1. pose proof (rnd_err_abs (rnd (1 - x) - y)) as E2. fold z in E2.
  rewrite (Rabs_pos_eq (1 - x)) in E1 by lra. rewrite (Rabs_pos_eq (rnd (1 - x) - y)) in E2 by lra.
  assert (u * (1 - x) <= u * 1) by (apply Rmult_le_compat_l; lra). assert (u * (rnd (1 - x) - y) <= u * 1) by (apply Rmult_le_compat_l; lra).
  apply Rabs_le_inv in E1, E2. apply Rabs_le. lra.
Qed.
Lemma tiny_T : 120000001 * eta <= / IZR (2 ^ 80) * T.
Proof.
  pose proof T_lo. pose proof eta_pos. apply Rle_trans with (IZR (2 ^ 28) * eta); [apply Rmult_le_compat_r; [lra|change (IZR (2 ^ 28)) with 268435456; lra]|].
  apply Rle_trans with (/ IZR (2 ^ 80) * 2e-8); [|apply Rmult_le_compat_l; [left; apply Rinv_0_lt_compat, IZR_lt; lia|lra]].
  apply Rle_trans with (bpow radix2 (-122)).
  - change (IZR (2 ^ 28)) with (bpow radix2 28). unfold eta. rewrite <- bpow_plus. apply Rle_refl.
  - apply Rle_trans with (bpow radix2 (-80) * bpow radix2 (-42)); [rewrite <- bpow_plus; apply Rle_refl|].
    apply Rmult_le_compat; try apply bpow_ge_0; [apply Rle_refl|]. apply Rle_trans with (bpow radix2 (-30)); [apply bpow_le; lia|]. change (bpow radix2 (-30)) with (/ 1073741824). lra.
Qed.
Lemma scale2 c : 0 <= c <= 1 -> 0 <= rnd (rnd (c * Y) / y) /\ Rabs (rnd (rnd (c * Y) / y) - T * c) <= 2.001 * u * c * T + / IZR (2 ^ 80) * T.
Proof.
  intros Hc. pose proof u16 as U. pose proof eta16 as Et. pose proof T_lo as P.
  assert (N0 : 0 <= rnd (c * Y)) by (apply rnd_ge_fmt; [apply fmt_0|]; rewrite T_Y; apply Rmult_le_pos; [lra|]; apply Rmult_le_pos; lra).
  split; [apply rnd_ge_fmt; [apply fmt_0|]; apply div_nonneg; lra|].
  destruct (rnd_err (c * Y)) as (d3 & e3 & H3 & G3 & _ & E3). destruct (rnd_err (rnd (c * Y) / y)) as (d4 & e4 & H4 & G4 & _ & E4).
  rewrite E4, E3. replace ((c * Y * (1 + d3) + e3) / y * (1 + d4) + e4 - T * c)
    with (c * T * ((1 + d3) * (1 + d4) - 1) + (e3 / y * (1 + d4) + e4)) by (unfold T; field; lra).
  pose proof (near1 d3 d4 ltac:(lra) H4) as N2. assert (K : Rabs ((1 + d3) * (1 + d4) - 1) <= 2.001 * u) by lra. set (b := (1 + d3) * (1 + d4) - 1) in *. clearbody b.
  eapply Rle_trans; [apply Rabs_triang|]. apply Rplus_le_compat.
  - assert (0 <= c * T) by (apply Rmult_le_pos; lra). rewrite Rabs_mult, (Rabs_pos_eq (c * T)) by assumption.
    replace (2.001 * u * c * T) with (c * T * (2.001 * u)) by ring. apply Rmult_le_compat_l; assumption.
  - assert (K1 : Rabs (e3 / y) <= eta * 60000000).
    { unfold Rdiv. rewrite Rabs_mult, Rabs_inv, (Rabs_pos_eq y) by lra. apply Rmult_le_compat; auto using Rabs_pos; [left; apply Rinv_0_lt_compat; lra|].
      apply Rmult_le_reg_r with y; [lra|]. rewrite Rinv_l by lra. lra. }
    eapply Rle_trans; [apply Rabs_triang|]. rewrite Rabs_mult.
    assert (Rabs (1 + d4) <= 2). { eapply Rle_trans; [apply Rabs_triang|]. rewrite Rabs_R1. lra. }
    assert (Rabs (e3 / y) * Rabs (1 + d4) <= eta * 60000000 * 2) by (apply Rmult_le_compat; auto using Rabs_pos).
    pose proof tiny_T. lra.
Qed.
Lemma p80 : / IZR (2 ^ 80) <= / 1000000 * u.
Proof. rewrite u16. rewrite <- Rinv_mult. apply Rinv_le; [lra|]. rewrite <- mult_IZR. apply IZR_le. lia. Qed.
Lemma s2_err : Rabs (s - T) <= 6.1 * u * T.
Proof.
  pose proof u16 as U. pose proof T_lo as P. destruct z_ok as [Hz Ez]. assert (Hx1 : 0 <= x <= 1) by lra.
  destruct (scale2 x Hx1) as [X0 EX]. destruct (scale2 z Hz) as [Z0 EZ]. fold X in X0, EX. fold Z in Z0, EZ.
  assert (HY0 : 0 <= Y) by (rewrite T_Y; apply Rmult_le_pos; lra).
  assert (fX : fmt X) by apply fmt_rnd. assert (fZ : fmt Z) by apply fmt_rnd.
  pose proof (rnd_add_err X Y fX fY) as E1. pose proof (rnd_add_err (rnd (X + Y)) Z (fmt_rnd _) fZ) as E2.
  rewrite (Rabs_pos_eq (X + Y)) in E1 by lra. pose proof (rnd_ge_fmt 0 (X + Y) fmt_0 ltac:(lra)) as PP. rewrite (Rabs_pos_eq (rnd (X + Y) + Z)) in E2 by lra.
  fold s in E2. set (a := rnd (X + Y)) in *. clearbody a s.
  assert (p : / IZR (2 ^ 80) * T <= / 1000000 * (u * T)) by (rewrite <- Rmult_assoc; apply Rmult_le_compat_r; [lra|apply p80]).
  set (q := / IZR (2 ^ 80) * T) in *. clearbody q.
  assert (TE : Rabs (X + Y + Z - T) <= 4.04 * (u * T)).
  { assert (K : Rabs (T * (x + y + z) - T) <= 2.001 * (u * T)).
    { replace (T * (x + y + z) - T) with (T * (z - (1 - x - y))) by ring. rewrite Rabs_mult, (Rabs_pos_eq T) by lra.
      replace (2.001 * (u * T)) with (T * (2.001 * u)) by ring. apply Rmult_le_compat_l; lra. }
    assert (W : (x + z) * (u * T) <= 1.001 * (u * T)).
    { apply Rmult_le_compat_r; [nra|]. apply Rabs_le_inv in Ez. rewrite U in Ez. lra. }
    apply Rabs_le_inv in K, EX, EZ. rewrite T_Y. apply Rabs_le. split; lra. }
  clear EX EZ. apply Rabs_le_inv in TE, E1, E2.
  assert (0 < u * T) by (apply Rmult_lt_0_compat; lra).
  assert (B1 : u * (X + Y) <= u * (1.001 * T)) by (apply Rmult_le_compat_l; [lra|rewrite U in *; lra]).
  assert (B0 : a <= 1.01 * T) by (rewrite U in *; lra).
  assert (B2 : a + Z <= T * 1.001) by (rewrite U in *; lra). 
  assert (B3 : u * (a + Z) <= u * (T * 1.001)) by (apply Rmult_le_compat_l; lra).
  apply Rabs_le. split; lra.
Qed.
Lemma s2_pos : 0.99 * T <= s <= 1.01 * T.
Proof. pose proof s2_err as E. apply Rabs_le_inv in E. pose proof u16 as U. pose proof T_lo. rewrite U in E. lra. Qed.
Lemma s2_inv : exists r, T / s = 1 + r /\ Rabs r <= 6.2 * u.
Proof.
  pose proof s2_err as E. pose proof s2_pos as P. pose proof T_lo. pose proof u16 as U. exists ((T - s) / s). split; [field; lra|].
  unfold Rdiv. rewrite Rabs_mult, Rabs_inv, (Rabs_pos_eq s), Rabs_minus_sym by lra. apply Rmult_le_reg_r with s; [lra|].
  rewrite Rmult_assoc, Rinv_l by lra. rewrite Rmult_1_r. apply Rabs_le_inv in E. eapply Rle_trans; [exact s2_err|]. rewrite U in *. lra.
Qed.
Lemma x_back : 0 <= X /\ Rabs (rnd (X / s) - x) <= 10 * u * x + / IZR (2 ^ 70).
Proof.
  pose proof u16 as U. pose proof eta16 as Et. pose proof T_lo as P. pose proof s2_pos as Ps. destruct s2_inv as (r & Er & Hr). assert (Hx1 : 0 <= x <= 1) by lra.
  destruct (scale2 x Hx1) as [X0 EX]. fold X in X0, EX. split; [exact X0|].
  pose proof (rnd_err_abs (X / s)) as E1. assert (Q0 : 0 <= X / s) by (apply div_nonneg; lra). rewrite (Rabs_pos_eq (X / s)) in E1 by exact Q0.
  pose proof p80 as p. set (q := / IZR (2 ^ 80)) in *.
  assert (E2 : Rabs (X / s - x * (T / s)) <= 2.01 * (u * x) + 1.1 * q).
  { replace (X / s - x * (T / s)) with ((X - T * x) * / s) by (field; lra). rewrite Rabs_mult, Rabs_inv, (Rabs_pos_eq s) by lra.
    apply Rle_trans with ((2.001 * u * x * T + q * T) * / s); [apply Rmult_le_compat_r; [left; apply Rinv_0_lt_compat; lra|exact EX]|].
    replace ((2.001 * u * x * T + q * T) * / s) with ((2.001 * (u * x) + q) * (T / s)) by (unfold Rdiv; ring).
    rewrite Er. assert (1 + r <= 1.0001) by (apply Rabs_le_inv in Hr; rewrite U in Hr; lra). assert (0 <= q) by (left; apply Rinv_0_lt_compat, IZR_lt; lia). assert (0 <= u * x) by (apply Rmult_le_pos; lra).
    apply Rle_trans with ((2.001 * (u * x) + q) * 1.0001); [apply Rmult_le_compat_l; lra|lra]. }
  assert (E3 : Rabs (x * (T / s) - x) <= 6.2 * (u * x)).
  { rewrite Er. replace (x * (1 + r) - x) with (x * r) by ring. rewrite Rabs_mult, (Rabs_pos_eq x) by lra. replace (6.2 * (u * x)) with (x * (6.2 * u)) by ring. apply Rmult_le_compat_l; lra. }
  assert (Q1 : X / s <= 1.001 * x + 1.1 * q).
  { apply Rabs_le_inv in E2, E3. assert (u * x <= 0.00001 * x) by (apply Rmult_le_compat_r; lra). lra. }
  assert (Q2 : u * (X / s) <= 1.001 * (u * x) + 1.1 * (u * q)) by (replace (1.001 * (u * x) + 1.1 * (u * q)) with (u * (1.001 * x + 1.1 * q)) by ring; apply Rmult_le_compat_l; lra).
  assert (0 < q) by (apply Rinv_0_lt_compat, IZR_lt; lia). assert (u * q <= 1 * q) by (apply Rmult_le_compat_r; lra).
  assert (0 <= u * x) by (apply Rmult_le_pos; lra).
  assert (K : 4 * q <= / IZR (2 ^ 70) /\ eta <= q).
  { split; [|change (eta <= bpow radix2 (-80)); apply bpow_le; lia]. unfold q. change (bpow radix2 2 * bpow radix2 (-80) <= bpow radix2 (-70)). rewrite <- bpow_plus. apply bpow_le. lia. }
  apply Rabs_le_inv in E1, E2, E3. apply Rabs_le. split; lra.
Qed.
Lemma y_back : Rabs (rnd (Y / s) - y) <= 8 * u * y.
Proof.
  pose proof u16 as U. pose proof T_lo as P. pose proof s2_pos as Ps. destruct s2_inv as (r & Er & Hr).
  assert (E : Y / s = y * (1 + r)) by (rewrite T_Y, <- Er; field; lra).
  apply Rabs_le_inv in Hr. assert (1 - 6.2 * u <= 1 + r <= 1 + 6.2 * u) by lra.
  destruct (rnd_rel (Y / s)) as (d & Hd & Ed).
  { rewrite E, Rabs_pos_eq by (apply Rmult_le_pos; rewrite ?U in *; lra).
    apply Rle_trans with (2e-8 * (1 / 2)); [|apply Rmult_le_compat; rewrite ?U in *; lra].
    apply Rle_trans with (bpow radix2 (-30)); [apply bpow_le; lia|]. change (bpow radix2 (-30)) with (/ 1073741824). lra. }
  rewrite Ed, E. replace (y * (1 + r) * (1 + d) - y) with (y * (r + d * (1 + r))) by ring. rewrite Rabs_mult, (Rabs_pos_eq y) by lra.
  rewrite (Rmult_comm (8 * u)). apply Rmult_le_compat_l; [lra|].
  assert (Rabs (d * (1 + r)) <= 1.001 * u).
  { rewrite Rabs_mult, (Rabs_pos_eq (1 + r)) by (rewrite U in *; lra). assert (1 + r <= 1.001) by (rewrite U in *; lra). rewrite (Rmult_comm 1.001). apply Rmult_le_compat; auto using Rabs_pos; rewrite U in *; lra. }
  eapply Rle_trans; [apply Rabs_triang|]. assert (Rabs r <= 6.2 * u) by (apply Rabs_le; lra). lra.
Qed.
End Real2.
Section F2.
Context (lm : libm).
Notation N := (FN lm).
Lemma yxy_rt_F2 (Y x y : f32) : fin Y -> fin x -> fin y -> 0 <= B2R x -> 2e-8 <= B2R y -> B2R x + B2R y <= 1 ->
  2e-8 * B2R y <= B2R Y <= bpow radix2 100 * B2R y ->
  exists x' y' : f32, toYxy N (fromYxy N (V3 Y x y)) = V3 Y x' y' /\ fin x' /\ fin y' /\
    Rabs (B2R x' - B2R x) <= 10 * u * B2R x + / IZR (2 ^ 70) /\ Rabs (B2R y' - B2R y) <= 8 * u * B2R y.
Proof.
  intros FY Fx Fy Hx Hy Hxy [HY HY2].
  assert (B27 : bpow radix2 127 = 134217728 * bpow radix2 100) by (change 127%Z with (27 + 100)%Z; rewrite (bpow_plus radix2 27 100); reflexivity).
  pose proof b127_big as BB. pose proof u16 as U.
  destruct (x_back _ _ _ (fmt_B2R Y) (fmt_B2R y) Hx Hy Hxy HY) as [X0 EX].
  pose proof (y_back _ _ _ (fmt_B2R Y) (fmt_B2R y) Hx Hy Hxy HY) as EY.
  pose proof (s2_pos _ _ _ (fmt_B2R Y) (fmt_B2R y) Hx Hy Hxy HY) as Ps.
  destruct (z_ok _ _ (fmt_B2R y) Hx Hy Hxy) as [Hz _].
  assert (HT : 2e-8 <= B2R Y / B2R y <= bpow radix2 100).
  { split; apply Rmult_le_reg_r with (B2R y); try lra; replace (B2R Y / B2R y * B2R y) with (B2R Y) by (field; lra); lra. }
  assert (S2 : forall c, 0 <= c <= 1 -> 0 <= rnd (rnd (c * B2R Y) / B2R y) <= 2 * bpow radix2 100).
  { intros c Hc. destruct (scale2 _ _ Hy HY c Hc) as [A B]. split; [exact A|]. apply Rabs_le_inv in B. pose proof p80 as p.
    assert (/ IZR (2 ^ 80) * (B2R Y / B2R y) <= 0.1 * (B2R Y / B2R y)) by (apply Rmult_le_compat_r; lra).
    assert (B2R Y / B2R y * c <= B2R Y / B2R y * 1) by (apply Rmult_le_compat_l; lra).
    assert (2.001 * u * c * (B2R Y / B2R y) <= 0.1 * (B2R Y / B2R y)) by (apply Rmult_le_compat_r; [lra|]; rewrite U; lra). lra. }
  assert (HYb : 0 <= B2R Y <= bpow radix2 100).
  { split; [apply Rle_trans with (2 := HY); lra|]. apply Rle_trans with (1 := HY2). rewrite <- Rmult_1_r. apply Rmult_le_compat_l; [apply bpow_ge_0|lra]. }
  assert (Sc : forall c : f32, fin c -> 0 <= B2R c <= 1 -> fin (@fdiv N (@fmul N c Y) y) /\ B2R (@fdiv N (@fmul N c Y) y) = rnd (rnd (B2R c * B2R Y) / B2R y)).
  { intros c Fc Hc. assert (K : 0 <= B2R c * B2R Y <= B2R Y) by (split; [apply Rmult_le_pos; lra|]; rewrite <- (Rmult_1_l (B2R Y)) at 2; apply Rmult_le_compat_r; lra).
    destruct (mul_ok lm c Y Fc FY) as [Fm Vm]; [apply Rabs_le; lra|].
    destruct (div_gen lm (@fmul N c Y) y Fm) as [Fd Vd]; [lra| |rewrite Vm in Vd; auto].
    rewrite Vm. pose proof (S2 _ Hc). rewrite Rabs_pos_eq by lra. apply Rle_lt_trans with (2 * bpow radix2 100); [lra|].
    pose proof (bpow_gt_0 radix2 100). pose proof big_127_lt. lra. }
  pose proof (S2 (B2R x) ltac:(lra)) as BX. pose proof (S2 _ Hz) as BZ.
  unfold toYxy, toYxy3, fromYxy, fromYxy3, X_from_Yxy, Y_from_Yxy, Z_from_Yxy, Y_from_XYZ, x_from_XYZ, y_from_XYZ. cbn [vref v0 v1 v2].
  rewrite (guard_ok lm y Fy) by lra.
  destruct (Sc x Fx ltac:(lra)) as [FX VX]. rewrite <- VX in *. set (X := @fdiv N (@fmul N x Y) y) in *.
  unfold z_from_xy. destruct (ofZ_ok lm 1 ltac:(cbn; lia)) as [F1 V1].
  destruct (sub_ok lm _ x F1 Fx) as [Fz Vz]; [rewrite V1; apply Rabs_le; lra|]. rewrite V1 in Vz.
  pose proof (rnd_01 (1 - B2R x) ltac:(lra)) as Hz1. rewrite <- Vz in Hz1.
  destruct (sub_ok lm _ y Fz Fy) as [Fw Vw]; [apply Rabs_le; lra|]. rewrite Vz in Vw. rewrite <- Vw in *.
  destruct (Sc _ Fw Hz) as [FZ VZ]. rewrite <- VZ in *. set (Z := @fdiv N (@fmul N (@fsub N (@fsub N _ _) _) Y) y) in *.
  destruct (add_ok lm X Y FX FY) as [Fa Va]; [apply Rabs_le; lra|]. pose proof (bpow_gt_0 radix2 100) as Bp.
  assert (Ha : 0 <= B2R (@fadd N X Y) <= 4 * bpow radix2 100).
  { rewrite Va. split; [apply rnd_ge_fmt; [apply fmt_0|lra]|apply rnd_le_fmt; [|lra]].
    change 4 with (bpow radix2 2). rewrite <- bpow_plus. apply fmt_bpow. lia. }
  destruct (add_ok lm _ Z Fa FZ) as [Fs Vs]; [apply Rabs_le; lra|]. rewrite Va in Vs. rewrite <- Vs in *.
  set (s := @fadd N (@fadd N X Y) Z) in *. rewrite (guard_ok lm s Fs) by lra.
  assert (pp : / IZR (2 ^ 70) <= 1) by (rewrite <- Rinv_1; apply Rinv_le; [lra|apply IZR_le; lia]).
  destruct (div_gen lm X s FX) as [Fx' Vx']; [lra| |].
  { assert (Rabs (rnd (B2R X / B2R s)) <= 100); [|pose proof big_127_lt; lra]. apply Rabs_le_inv in EX.
    assert (10 * u * B2R x <= 10) by (rewrite U; lra). apply Rabs_le. lra. }
  destruct (div_gen lm Y s FY) as [Fy' Vy']; [lra| |].
  { assert (Rabs (rnd (B2R Y / B2R s)) <= 100); [|pose proof big_127_lt; lra]. apply Rabs_le_inv in EY.
    assert (8 * u * B2R y <= 8) by (rewrite U; lra). apply Rabs_le. lra. }
  rewrite <- Vx' in EX. rewrite <- Vy' in EY. eexists _, _. split; [reflexivity|]. auto.
Qed.
End F2.
