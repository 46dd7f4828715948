(** * CIE 1960 uv coordinates when multiplications and additions are fused. *)
From Coq Require Import ZArith Reals Lra Lia List.
From Flocq Require Import Core BinarySingleNaN.
From Verif Require Import Num NumF MVec MTri MFma F32 PMatF PHsvF PYxyF PNearF POkF PYuvF PFma PFma8.
Import ListNotations.
Local Open Scope R_scope.

(** [toYxy] and [fromYxy] have no sum or difference one of whose operands is a product. *)
Definition to_yuv (lm : libm) (t r : Vector3 f32) : Prop := evV lm (YxyToYuv (EN lm) (inV lm (toYxy (FN lm) t))) r.
Definition of_yuv (lm : libm) (t r : Vector3 f32) : Prop := exists m, evV lm (YuvToYxy (EN lm) (inV lm t)) m /\ r = fromYxy (FN lm) m.

Section F.
Context (lm : libm).
Notation N := (FN lm).
Notation E := (EN lm).
Notation L d := (Val (@flit N d%dec)).
Definition denE (x y : f32) : exp := Add (Add (Mul (Neg (L 2)) (Val x)) (Mul (L 12) (Val y))) (L 3).
Definition denB (p q : f32) : exp := Add (Sub (Mul (L 2) (Val p)) (Mul (L 8) (Val q))) (L 4).
Lemma b126 : 1e6 <= bpow radix2 127.
Proof. apply Rle_trans with (bpow radix2 20); [cbn; lra|apply bpow_le; lia]. Qed.
Lemma den_fused (x y d : f32) rx ry k t : ap x rx k t -> ap y ry k t -> rx + ry <= 1.0001 -> 0 <= k <= 4 -> 0 <= t <= 1e-30 -> ev lm (denE x y) d ->
  fin d /\ 0.999 <= den rx ry <= 15.01 /\ Rabs (B2R d - den rx ry) <= (2 * k + 9.1) * u * den rx ry.
Proof.
  intros (Fx & Px & Hx) (Fy & Py & Hy) S K T H. pose proof u16 as U. pose proof eta45 as Et. pose proof b126 as BB.
  assert (D1 : 0.999 <= den rx ry <= 15.01) by (unfold den; lra).
  assert (K1 : 0 <= k * rx <= 4 * rx) by (split; [apply Rmult_le_pos; lra|apply Rmult_le_compat_r; lra]). assert (K2 : 0 <= k * ry <= 4 * ry) by (split; [apply Rmult_le_pos; lra|apply Rmult_le_compat_r; lra]).
  assert (K3 : 0 <= k * (1.0001 - rx - ry)) by (apply Rmult_le_pos; lra).
  destruct (lit2 lm) as [F2 V2]. destruct (lit12 lm) as [F12 V12]. destruct (lit3 lm) as [F3 V3].
  assert (AX : Rabs (B2R x) <= rx + (k * u * rx + t)) by (replace (B2R x) with (B2R x - rx + rx) by ring; eapply Rle_trans; [apply Rabs_triang|]; rewrite (Rabs_pos_eq rx) by exact Px; lra).
  assert (AY : Rabs (B2R y) <= ry + (k * u * ry + t)) by (replace (B2R y) with (B2R y - ry + ry) by ring; eapply Rle_trans; [apply Rabs_triang|]; rewrite (Rabs_pos_eq ry) by exact Py; lra).
  pose proof (Rabs_pos (B2R x)) as AX0. pose proof (Rabs_pos (B2R y)) as AY0.
  apply ev_error in H.
  2:{ cbn [denE safe mg er]. rewrite V2, V12, V3. rewrite (Rabs_pos_eq 2), (Rabs_pos_eq 12), (Rabs_pos_eq 3) by lra. rewrite U in *. repeat split; try assumption; lra. }
  destruct H as (Fd & Hd). split; [exact Fd|]. split; [exact D1|]. cbn [denE ex mg er] in Hd. rewrite V2, V12, V3 in Hd. rewrite (Rabs_pos_eq 2), (Rabs_pos_eq 12), (Rabs_pos_eq 3) in Hd by lra.
  apply Rabs_le_inv in Hd, Hx, Hy. apply Rabs_le. unfold den in *. rewrite U in *. lra.
Qed.
Lemma ev_quot c e x r : ev lm (Op2 (@fdiv N) (Mul (Val c) (Val x)) e) r -> exists d, ev lm e d /\ r = @fdiv N (@fmul N c x) d.
Proof. intros H. inversion H as [| | | | | |f a b x' y' E1 E2| | | |]; subst. apply evMul in E1. subst. eauto. Qed.
Lemma uv_fused (x y p q : f32) rx ry k t : ap x rx k t -> ap y ry k t -> rx + ry <= 1.0001 -> 0 <= k <= 4 -> 0 <= t <= 1e-30 ->
  ev lm (u_from_xy E (Val x) (Val y)) p -> ev lm (v_from_xy E (Val x) (Val y)) q ->
  ap p (4 * rx / den rx ry) (3 * k + 11.2) (6 * t + 3 * eta) /\ ap q (6 * ry / den rx ry) (3 * k + 11.2) (6.1 * t + 3 * eta).
Proof.
  intros Hx Hy S K T Ep Eq. apply ev_quot in Ep, Eq. destruct Ep as (d & Ed & ->). destruct Eq as (d' & Ed' & ->).
  destruct (den_fused x y d rx ry k t Hx Hy S K T Ed) as (Fd & D1 & Vd). destruct (den_fused x y d' rx ry k t Hx Hy S K T Ed') as (Fd' & _ & Vd'). pose proof eta45 as Et.
  pose proof Hx as (_ & Px & _). pose proof Hy as (_ & Py & _).
  assert (I : 0 < / den rx ry <= 1.002). { split; [apply Rinv_0_lt_compat; lra|]. apply Rle_trans with (/ 0.999); [apply Rinv_le_contravar; lra|lra]. }
  assert (X : forall a, 0 <= a -> 0 <= a / den rx ry <= 1.002 * a). { intros a A. unfold Rdiv. split; [apply Rmult_le_pos; lra|]. rewrite (Rmult_comm 1.002). apply Rmult_le_compat_l; lra. }
  split.
  - pose proof (ap_mulc lm _ 4 x rx k t (lit4 lm) Hx ltac:(lra) ltac:(lra) ltac:(lra) ltac:(lra) ltac:(lra)) as A.
    pose proof (X (4 * rx) ltac:(lra)). pose proof (X (1.001 * (4 * t) + eta) ltac:(lra)).
    eapply ap_le; [apply (ap_div lm _ _ _ _ _ (2 * k + 9.1) _ A Fd); try lra; exact Vd|lra|lra].
  - pose proof (ap_mulc lm _ 6 y ry k t (lit6 lm) Hy ltac:(lra) ltac:(lra) ltac:(lra) ltac:(lra) ltac:(lra)) as A.
    pose proof (X (6 * ry) ltac:(lra)). pose proof (X (1.001 * (6 * t) + eta) ltac:(lra)).
    eapply ap_le; [apply (ap_div lm _ _ _ _ _ (2 * k + 9.1) _ A Fd'); try lra; exact Vd'|lra|lra].
Qed.
Lemma back_fused (p q e : f32) x y EE k t : 0 <= x -> 0 <= y -> x + y <= 1.0001 -> 0.799 <= EE <= 12.02 -> 2 * (x * EE / 3) - 8 * (y * EE / 2) + 4 = EE ->
  ap p (x * EE / 3) k t -> ap q (y * EE / 2) k t -> 0 <= k <= 16 -> 0 <= t <= 1e-30 -> ev lm (denB p q) e ->
  fin e /\ Rabs (B2R e - EE) <= (4.01 * k + 17.1) * u * EE.
Proof.
  intros X Y S E1 SE (Fp & _ & Hp) (Fq & _ & Hq) K T H. pose proof u16 as U. pose proof eta45 as Et. pose proof b126 as BB.
  assert (XE : 0 <= x * EE <= 1.0001 * EE) by (split; [apply Rmult_le_pos; lra|apply Rmult_le_compat_r; lra]).
  assert (YE : 0 <= y * EE <= 1.0001 * EE) by (split; [apply Rmult_le_pos; lra|apply Rmult_le_compat_r; lra]).
  assert (XYE : x * EE + y * EE <= 1.0001 * EE) by (rewrite <- Rmult_plus_distr_r; apply Rmult_le_compat_r; lra).
  assert (KX : 0 <= k * (x * EE) <= 16 * (x * EE)) by (split; [apply Rmult_le_pos; lra|apply Rmult_le_compat_r; lra]).
  assert (KY : 0 <= k * (y * EE) <= 16 * (y * EE)) by (split; [apply Rmult_le_pos; lra|apply Rmult_le_compat_r; lra]).
  assert (KE : k * (x * EE) + k * (y * EE) <= 1.0001 * (k * EE)) by (rewrite <- Rmult_plus_distr_l; replace (1.0001 * (k * EE)) with (k * (1.0001 * EE)) by ring; apply Rmult_le_compat_l; lra).
  assert (KE0 : 0 <= k * EE) by (apply Rmult_le_pos; lra).
  destruct (lit2 lm) as [F2 V2]. destruct (lit8 lm) as [F8 V8]. destruct (lit4 lm) as [F4 V4].
  assert (AX : Rabs (B2R p) <= x * EE / 3 + (k * u * (x * EE / 3) + t)) by (replace (B2R p) with (B2R p - x * EE / 3 + x * EE / 3) by ring; eapply Rle_trans; [apply Rabs_triang|]; rewrite (Rabs_pos_eq (x * EE / 3)) by lra; lra).
  assert (AY : Rabs (B2R q) <= y * EE / 2 + (k * u * (y * EE / 2) + t)) by (replace (B2R q) with (B2R q - y * EE / 2 + y * EE / 2) by ring; eapply Rle_trans; [apply Rabs_triang|]; rewrite (Rabs_pos_eq (y * EE / 2)) by lra; lra).
  pose proof (Rabs_pos (B2R p)) as AX0. pose proof (Rabs_pos (B2R q)) as AY0.
  apply ev_error in H.
  2:{ cbn [denB safe mg er]. rewrite V2, V8, V4. rewrite (Rabs_pos_eq 2), (Rabs_pos_eq 8), (Rabs_pos_eq 4) by lra. rewrite U in *. repeat split; try assumption; lra. }
  destruct H as (Fd & Hd). split; [exact Fd|]. cbn [denB ex mg er] in Hd. rewrite V2, V8, V4 in Hd. rewrite (Rabs_pos_eq 2), (Rabs_pos_eq 8), (Rabs_pos_eq 4) in Hd by lra.
  apply Rabs_le_inv in Hd, Hp, Hq. apply Rabs_le. rewrite U in *. lra.
Qed.
Lemma xy_fused (p q x' y' : f32) x y k t : 0 <= x -> 0 <= y -> x + y <= 1.0001 -> ap p (4 * x / den x y) k t -> ap q (6 * y / den x y) k t -> 0 <= k <= 16 -> 0 <= t <= 1e-30 ->
  ev lm (x_from_uv E (Val p) (Val q)) x' -> ev lm (y_from_uv E (Val p) (Val q)) y' ->
  ap x' x (5.01 * k + 19.2) (4 * t + 3 * eta) /\ ap y' y (5.01 * k + 19.2) (4 * t + 3 * eta).
Proof.
  intros X Y S Hp Hq K T Ex Ey. apply ev_quot in Ex, Ey. destruct Ex as (e & Ee & ->). destruct Ey as (e' & Ee' & ->). pose proof u16 as U. pose proof eta45 as Et.
  assert (D : 0.999 <= den x y <= 15.01) by (unfold den; lra). set (d := den x y) in *.
  assert (D0 : d <> 0) by lra. set (EE := 12 / d). assert (E1 : 0.799 <= EE <= 12.02).
  { unfold EE. split; apply Rmult_le_reg_r with d; try lra; unfold Rdiv; rewrite Rmult_assoc, Rinv_l by exact D0; lra. }
  assert (VU : 4 * x / d = x * EE / 3) by (unfold EE; field; exact D0). assert (VV : 6 * y / d = y * EE / 2) by (unfold EE; field; exact D0).
  assert (SE : 2 * (4 * x / d) - 8 * (6 * y / d) + 4 = EE). { unfold EE. apply Rmult_eq_reg_r with d; [|exact D0]. field_simplify; [|exact D0|exact D0]. unfold d, den. field. }
  rewrite VU, VV in *. clearbody EE.
  destruct (back_fused p q e x y EE k t X Y S E1 SE Hp Hq K T Ee) as [Fe Ve]. destruct (back_fused p q e' x y EE k t X Y S E1 SE Hp Hq K T Ee') as [Fe' Ve'].
  assert (XE : 0 <= x * EE <= 1.0001 * EE) by (split; [apply Rmult_le_pos; lra|apply Rmult_le_compat_r; lra]).
  assert (YE : 0 <= y * EE <= 1.0001 * EE) by (split; [apply Rmult_le_pos; lra|apply Rmult_le_compat_r; lra]).
  pose proof (ap_mulc lm _ 3 p _ k t (lit3 lm) Hp ltac:(lra) ltac:(lra) ltac:(lra) ltac:(lra) ltac:(lra)) as P3.
  pose proof (ap_mulc lm _ 2 q _ k t (lit2 lm) Hq ltac:(lra) ltac:(lra) ltac:(lra) ltac:(lra) ltac:(lra)) as Q2.
  assert (IE : 0 < / EE <= 1.252). { split; [apply Rinv_0_lt_compat; lra|]. apply Rle_trans with (/ 0.799); [apply Rinv_le_contravar; lra|lra]. }
  assert (TE : forall a, 0 <= a -> 0 <= a / EE <= 1.252 * a). { intros a A. unfold Rdiv. split; [apply Rmult_le_pos; lra|]. rewrite (Rmult_comm 1.252). apply Rmult_le_compat_l; lra. }
  split.
  - pose proof (TE (1.001 * (3 * t) + eta) ltac:(lra)). replace x with (3 * (x * EE / 3) / EE) at 1 by (field; lra).
    eapply ap_le; [apply (ap_div lm _ _ _ _ _ (4.01 * k + 17.1) _ P3 Fe); try lra|lra|lra].
    replace (3 * (x * EE / 3) / EE) with x by (field; lra). lra.
  - pose proof (TE (1.001 * (2 * t) + eta) ltac:(lra)). replace y with (2 * (y * EE / 2) / EE) at 1 by (field; lra).
    eapply ap_le; [apply (ap_div lm _ _ _ _ _ (4.01 * k + 17.1) _ Q2 Fe'); try lra|lra|lra].
    replace (2 * (y * EE / 2) / EE) with y by (field; lra). lra.
Qed.
Lemma yxy_yuv_fused (Y x y : f32) (r r' : Vector3 f32) : fin x -> fin y -> 0 <= B2R x -> 0 <= B2R y -> B2R x + B2R y <= 1.0001 ->
  evV lm (YxyToYuv E (inV lm (V3 Y x y))) r -> evV lm (YuvToYxy E (inV lm r)) r' ->
  v0 r' = Y /\ fin (v1 r') /\ fin (v2 r') /\ Rabs (B2R (v1 r') - B2R x) <= 76 * u * B2R x + 1e-43 /\ Rabs (B2R (v2 r') - B2R y) <= 76 * u * B2R y + 1e-43.
Proof.
  intros Fx Fy Px Py S (R0 & R1 & R2) (Q0 & Q1 & Q2). pose proof eta45 as Et. destruct r as [r0 p q], r' as [r0' x' y']. cbn [v0 v1 v2] in *.
  destruct (uv_fused x y p q _ _ 0 0 (ap_self x Fx Px) (ap_self y Fy Py) S ltac:(lra) ltac:(lra) R1 R2) as [A B].
  apply (ap_le _ _ _ _ 11.2 (3 * eta)) in A; [|lra|lra]. apply (ap_le _ _ _ _ 11.2 (3 * eta)) in B; [|lra|lra].
  destruct (xy_fused p q x' y' _ _ 11.2 (3 * eta) Px Py S A B ltac:(lra) ltac:(lra) Q1 Q2) as [C D].
  apply (ap_le _ _ _ _ 76 1e-43) in C; [|lra|lra]. apply (ap_le _ _ _ _ 76 1e-43) in D; [|lra|lra].
  destruct C as (FC & _ & VC). destruct D as (FD & _ & VD). split; [|auto]. apply evVal in R0, Q0. subst. reflexivity.
Qed.
Section XYZ.
Variables X Y Z : f32.
Hypotheses (FX : fin X) (FY : fin Y) (FZ : fin Z) (PX : 0 <= B2R X) (PY : 0 <= B2R Y) (PZ : 0 <= B2R Z).
Let S := B2R X + B2R Y + B2R Z.
Lemma toYuv_fused r : 2e-8 <= S <= 1e30 -> to_yuv lm (V3 X Y Z) r -> v0 r = Y /\ fin (v1 r) /\ fin (v2 r) /\
  let D := B2R X + 15 * B2R Y + 3 * B2R Z in
  Rabs (B2R (v1 r) - 4 * B2R X / D) <= 21 * u * (4 * B2R X / D) + 1e-43 /\ Rabs (B2R (v2 r) - 6 * B2R Y / D) <= 21 * u * (6 * B2R Y / D) + 1e-43.
Proof.
  intros HS H. unfold to_yuv in H. destruct (xy_acc lm X Y Z FX FY FZ PX PY PZ HS) as (x & y & Ee & Hx & Hy & Px & Py). rewrite Ee in H.
  destruct (fr X Y Z PX PY PZ (proj1 HS)) as (f1 & f2 & f3 & f4). pose proof eta45 as Et. destruct H as (R0 & R1 & R2). destruct r as [r0 p q]. cbn [v0 v1 v2] in *.
  destruct (uv_fused x y p q _ _ _ _ Hx Hy ltac:(lra) ltac:(lra) ltac:(lra) R1 R2) as [A B].
  apply (ap_le _ _ _ _ 21 1e-43) in A; [|lra|lra]. apply (ap_le _ _ _ _ 21 1e-43) in B; [|lra|lra]. fold S in A, B.
  assert (DD : den (B2R X / S) (B2R Y / S) = (B2R X + 15 * B2R Y + 3 * B2R Z) / S).
  { unfold den. apply Rmult_eq_reg_r with S; [|lra]. field_simplify; [|lra|lra]. unfold S. ring. }
  set (D := B2R X + 15 * B2R Y + 3 * B2R Z) in *. assert (D0 : 0 < D) by (unfold D; unfold S in HS; lra).
  replace (4 * (B2R X / S) / den (B2R X / S) (B2R Y / S)) with (4 * B2R X / D) in A by (rewrite DD; field; lra).
  replace (6 * (B2R Y / S) / den (B2R X / S) (B2R Y / S)) with (6 * B2R Y / D) in B by (rewrite DD; field; lra).
  destruct A as (FA & _ & VA). destruct B as (FB & _ & VB). split; [exact (evVal lm _ _ R0)|]. auto.
Qed.
Lemma round_fused m r : 1e-6 <= S <= 1e6 -> 1e-6 * S <= B2R Y -> to_yuv lm (V3 X Y Z) m -> of_yuv lm m r -> v1 r = Y /\ fin (v0 r) /\ fin (v2 r) /\
  Rabs (B2R (v0 r) - B2R X) <= 162 * u * B2R X + 1e-30 /\ Rabs (B2R (v2 r) - B2R Z) <= 166 * u * S.
Proof.
  intros HS HY Hm (m' & Hm' & ->). destruct (xy_acc lm X Y Z FX FY FZ PX PY PZ ltac:(fold S; lra)) as (x & y & E & Hx & Hy & Px & Py). destruct (fr X Y Z PX PY PZ ltac:(fold S; lra)) as (f1 & f2 & f3 & f4). pose proof eta45 as Et. pose proof u16 as U.
  assert (YS : 1e-6 <= B2R Y / S). { apply Rmult_le_reg_r with S; [lra|]. replace (B2R Y / S * S) with (B2R Y) by (field; lra). lra. }
  pose proof Hx as (Fx & _ & Vx). pose proof Hy as (Fy & _ & Vy). apply Rabs_le_inv in Vx, Vy.
  unfold to_yuv in Hm. rewrite E in Hm. fold S in Hx, Hy, f1, f2, f3, f4.
  fold S in Vx, Vy. set (a := B2R X / S) in *. set (b := B2R Y / S) in *. set (c := B2R Z / S) in *.
  destruct (yxy_yuv_fused Y x y m m' Fx Fy Px Py) as (E' & Fx' & Fy' & Vx' & Vy'); [rewrite U in *; lra|exact Hm|exact Hm'|].
  destruct m' as [m0' x' y']. cbn [v0 v1 v2] in E', Fx', Fy', Vx', Vy'. subst m0'. clear Hm Hm'.
  assert (Ax : ap x' a 79.1 1.1e-43). { eapply ap_le; [apply (ap_trans x' x a 76 1e-43 3.03 eta); try lra; [split; [exact Fx'|split; assumption]|exact Hx]|lra|lra]. }
  assert (Ay : ap y' b 79.1 1.1e-43). { eapply ap_le; [apply (ap_trans y' y b 76 1e-43 3.03 eta); try lra; [split; [exact Fy'|split; assumption]|exact Hy]|lra|lra]. }
  clear Vx Vy Vx' Vy'. pose proof Ax as (_ & _ & Ax2). pose proof Ay as (_ & _ & Ay2).
  assert (Ay3 : Rabs (B2R y' - b) <= 79.2 * u * b) by (rewrite U in *; lra).
  assert (G : @fltb N (abs_f N y') (@flit N 1e-8%dec) = false). { apply guard_ok; [exact Fy'|]. apply Rabs_le_inv in Ay3. rewrite U in *. lra. }
  unfold fromYxy, fromYxy3, X_from_Yxy, Y_from_Yxy, Z_from_Yxy. cbn [vref v0 v1 v2]. rewrite G.
  assert (BY : 0 <= B2R Y <= 1e6) by (unfold S in HS; lra). assert (B0 : 0 < b) by lra.
  assert (TB : forall q, 0 <= q -> q / b <= q * 1e6). { intros q Q. unfold Rdiv. apply Rmult_le_compat_l; [exact Q|]. apply Rle_trans with (/ 1e-6); [apply Rinv_le_contravar; lra|lra]. }
  assert (SY : B2R Y / b = S). { unfold b. field. split; [lra|]. intros K. unfold b in B0. rewrite K in B0. unfold Rdiv in B0. lra. }
  assert (Sz : 0 < S) by lra.
  (* Z *)
  destruct (ofZ_ok lm 1 ltac:(cbn; lia)) as [F1 V1].
  assert (N1 : near (@fofZ N 1) 1 0) by (split; [exact F1|rewrite V1, Rminus_eq_0, Rabs_R0; lra]).
  assert (NX : near x' a (79.1 * u * a + 1.1e-43)) by (split; assumption). assert (NY : near y' b (79.1 * u * b + 1.1e-43)) by (split; assumption).
  pose proof (near_sub lm _ _ _ _ _ _ 1 N1 NX ltac:(apply Rabs_le; lra) ltac:(rewrite U; lra)) as N2.
  pose proof (near_sub lm _ _ _ _ _ _ 1 N2 NY ltac:(apply Rabs_le; lra) ltac:(rewrite U; lra)) as N3.
  assert (Az : ap (z_from_xy N x' y') c 0 (82 * u)).
  { destruct N3 as [Fz Vz]. split; [exact Fz|]. split; [exact f3|]. replace (1 - a - b) with c in Vz by lra. eapply Rle_trans; [exact Vz|]. rewrite U. lra. }
  assert (BS : forall q, 0 <= q <= 1 -> 0 <= q * S <= 1e6) by (intros q Q; split; [apply Rmult_le_pos; lra|apply Rle_trans with (1 * S); [apply Rmult_le_compat_r; lra|lra]]).
  assert (XS : a * S = B2R X) by (unfold a; field; lra). assert (ZS : c * S = B2R Z) by (unfold c; field; lra).
  assert (YB : B2R Y = b * S) by (unfold b; field; lra).
  split; [reflexivity|].
  pose proof (ap_mulw lm x' Y a 79.1 1.1e-43 Ax FY BY ltac:(lra) ltac:(lra) ltac:(lra)) as MX.
  pose proof (ap_mulw lm _ Y c 0 (82 * u) Az FY BY ltac:(lra) ltac:(lra) ltac:(rewrite U; lra)) as MZ.
  pose proof (ap_div lm _ y' _ b _ 79.2 _ MX Fy' B0 Ay3 ltac:(lra) ltac:(lra)) as DX.
  pose proof (ap_div lm _ y' _ b _ 79.2 _ MZ Fy' B0 Ay3 ltac:(lra) ltac:(lra)) as DZ.
  replace (a * B2R Y / b) with (B2R X) in DX by (rewrite <- XS, YB; field; lra).
  replace (c * B2R Y / b) with (B2R Z) in DZ by (rewrite <- ZS, YB; field; lra).
  assert (T1 : (1.001 * (1.1e-43 * B2R Y) + eta) / b <= 2e-31) by (eapply Rle_trans; [apply TB; lra|lra]).
  assert (T2 : (1.001 * (82 * u * B2R Y) + eta) / b <= 82.2 * u * S + 1e-39).
  { replace ((1.001 * (82 * u * B2R Y) + eta) / b) with (1.001 * 82 * u * S + eta / b) by (rewrite YB; field; lra). pose proof (TB eta ltac:(lra)). rewrite U. lra. }
  assert (UY : 0 <= u * B2R Y) by (rewrite U; lra).
  specialize (DX ltac:(lra) ltac:(unfold S in HS; lra) ltac:(lra)).
  specialize (DZ ltac:(lra) ltac:(unfold S in HS; lra) ltac:(rewrite U in *; lra)).
  destruct DX as (FX' & _ & VX'). destruct DZ as (FZ' & _ & VZ'). split; [exact FX'|]. split; [exact FZ'|]. split.
  - eapply Rle_trans; [exact VX'|]. rewrite U in *. lra.
  - eapply Rle_trans; [exact VZ'|]. assert (B2R Z <= S) by (unfold S; lra). rewrite U in *. lra.
Qed.
End XYZ.
End F.
Section G.
Context (lm : libm).
Notation N := (FN lm).
Notation E := (EN lm).
Lemma yuv_plain (t m : Vector3 f32) : to_yuv lm t (toYuv N t) /\ of_yuv lm m (fromYuv N m).
Proof.
  split.
  - unfold to_yuv, toYuv. generalize (toYxy N t). intros [a b c]. split; [|split]; [exact (plain_ev lm (Val a))|exact (plain_ev lm (u_from_xy E (Val b) (Val c)))|exact (plain_ev lm (v_from_xy E (Val b) (Val c)))].
  - exists (YuvToYxy N m). split; [|reflexivity]. destruct m as [a b c]. split; [|split]; [exact (plain_ev lm (Val a))|exact (plain_ev lm (x_from_uv E (Val b) (Val c)))|exact (plain_ev lm (y_from_uv E (Val b) (Val c)))].
Qed.
Definition xA : f32 := @flit N 0.7%dec.
Definition yA : f32 := @flit N 0.1%dec.
Definition uA (c : bool) : f32 := let m2 := @fmul N (@fopp N (@flit N 2%dec)) xA in
  @fdiv N (@fmul N (@flit N 4%dec) xA) (@fadd N (if c then fma (@flit N 12%dec) yA m2 else @fadd N m2 (@fmul N (@flit N 12%dec) yA)) (@flit N 3%dec)).
Lemma uA_ev c : ev lm (u_from_xy E (Val xA) (Val yA)) (uA c).
Proof.
  unfold uA. generalize xA yA. intros x y. apply (ev_op2 lm (@fdiv N) (Mul (Val _) (Val _)) (denE lm x y)); [repeat constructor|]. apply ev_add; [|constructor].
  destruct c; [apply ev_fma_r|apply ev_add]; repeat constructor.
Qed.
Lemma yuv_matters : exists t r r', evV lm (YxyToYuv E (inV lm t)) r /\ evV lm (YxyToYuv E (inV lm t)) r' /\ B2R (v1 r) <> B2R (v1 r').
Proof.
  exists (V3 xA xA yA), (V3 xA (uA true) (v_from_xy N xA yA)), (V3 xA (uA false) (v_from_xy N xA yA)).
  assert (V : ev lm (v_from_xy E (Val xA) (Val yA)) (v_from_xy N xA yA)) by exact (plain_ev lm (v_from_xy E (Val xA) (Val yA))).
  split; [split; [constructor|split; [exact (uA_ev true)|exact V]]|]. split; [split; [constructor|split; [exact (uA_ev false)|exact V]]|]. cbn [v1].
  assert (F1 : fin (uA true)) by (vm_compute; reflexivity). assert (F2 : fin (uA false)) by (vm_compute; reflexivity). assert (G : @feqb N (uA true) (uA false) = false) by (vm_compute; reflexivity).
  revert F1 F2 G. generalize (uA true) (uA false). clear. intros p q F1 F2 G X. rewrite (eqb_ok lm p q F1 F2) in G. rewrite X, Req_bool_true in G by reflexivity. discriminate.
Qed.
Lemma case167 : exists X Y Z m r, fin X /\ fin Y /\ fin Z /\ B2R X = 1 /\ B2R Y = 2 /\ B2R Z = 3 /\ to_yuv lm (V3 X Y Z) m /\ of_yuv lm m r.
Proof.
  destruct (ofZ_ok lm 1 ltac:(lia)) as [F1 W1]. destruct (ofZ_ok lm 2 ltac:(lia)) as [F2 W2]. destruct (ofZ_ok lm 3 ltac:(lia)) as [F3 W3].
  exists (@fofZ N 1), (@fofZ N 2), (@fofZ N 3). eexists. eexists. do 6 (split; [assumption|]). split; [exact (proj1 (yuv_plain _ (V3 xA xA xA)))|exact (proj2 (yuv_plain (V3 xA xA xA) _))].
Qed.
End G.
