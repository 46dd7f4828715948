(** * CIE 1960 uv coordinates in binary32. *)
From Coq Require Import ZArith Reals Lra Lia List Bool.
From Flocq Require Import Core IEEE754.BinarySingleNaN.
From Verif Require Import Num NumR NumF MVec MTri RTac F32 PMatF PHsvF PYxyF PNearF POkF.
Import ListNotations.
Local Open Scope R_scope.

(** [x] is finite and within [k u r + t] of the non-negative real [r]. *)
Definition ap (x : f32) (r k t : R) : Prop := fin x /\ 0 <= r /\ Rabs (B2R x - r) <= k * u * r + t.
Lemma ap_le x r k t k' t' : ap x r k t -> k <= k' -> t <= t' -> ap x r k' t'.
Proof.
  intros (F & P & H) K T. split; [exact F|]. split; [exact P|]. eapply Rle_trans; [exact H|]. apply Rplus_le_compat; [|exact T].
  apply Rmult_le_compat_r; [exact P|]. apply Rmult_le_compat_r; [apply Rlt_le, F32.u_pos|exact K].
Qed.
Lemma ap_self x : fin x -> 0 <= B2R x -> ap x (B2R x) 0 0.
Proof. intros F P. split; [exact F|]. split; [exact P|]. rewrite Rminus_eq_0, Rabs_R0. lra. Qed.
Lemma rnd_ap z r k t : 0 <= r -> 0 <= k <= 100 -> 0 <= t -> Rabs (z - r) <= k * u * r + t -> Rabs (rnd z - r) <= (k + 1.001) * u * r + (1.001 * t + eta).
Proof.
  intros R K T H. pose proof u16 as U. pose proof (rnd_err_abs z) as E.
  assert (Z : Rabs z <= r + (k * u * r + t)). { replace z with (z - r + r) by ring. eapply Rle_trans; [apply Rabs_triang|]. rewrite (Rabs_pos_eq r) by exact R. lra. }
  replace (rnd z - r) with ((rnd z - z) + (z - r)) by ring. eapply Rle_trans; [apply Rabs_triang|].
  assert (KR : 0 <= k * r <= 100 * r) by (split; [apply Rmult_le_pos; lra|apply Rmult_le_compat_r; lra]). rewrite U in *. lra.
Qed.
Lemma quot_err n r q s k l t : 0 <= r -> 0 < s -> 0 <= k <= 100 -> 0 <= l <= 100 -> 0 <= t -> Rabs (n - r) <= k * u * r + t -> Rabs (q - s) <= l * u * s ->
  0 < q /\ Rabs (n / q - r / s) <= (k + l + 0.01) * u * (r / s) + 1.001 * t / s.
Proof.
  intros R S K L T Hn Hq. pose proof u16 as U. assert (LS : 0 <= l * s <= 100 * s) by (split; [apply Rmult_le_pos; lra|apply Rmult_le_compat_r; lra]).
  assert (Q : s * 0.99999 <= q). { apply Rabs_le_inv in Hq. rewrite U in *. lra. } assert (Q0 : 0 < q) by lra. split; [exact Q0|].
  replace (n / q - r / s) with (((n - r) - r / s * (q - s)) * / q) by (field; lra). rewrite Rabs_mult, (Rabs_pos_eq (/ q)) by (apply Rlt_le, Rinv_0_lt_compat, Q0).
  assert (Rs : 0 <= r / s) by (apply Rmult_le_pos; [exact R|apply Rlt_le, Rinv_0_lt_compat, S]).
  assert (B : Rabs (n - r - r / s * (q - s)) <= (k + l) * u * r + t).
  { unfold Rminus at 1. eapply Rle_trans; [apply Rabs_triang|]. rewrite Rabs_Ropp, Rabs_mult, (Rabs_pos_eq (r / s)) by exact Rs.
    assert (r / s * Rabs (q - s) <= r / s * (l * u * s)) by (apply Rmult_le_compat_l; assumption). replace (r / s * (l * u * s)) with (l * u * r) in * by (field; lra). lra. }
  assert (I : / q <= 1.00001001 * / s). { apply Rmult_le_reg_r with q; [exact Q0|]. rewrite Rinv_l by lra. apply Rle_trans with (1.00001001 * / s * (s * 0.99999)); [|apply Rmult_le_compat_l; [|exact Q]].
    - replace (1.00001001 * / s * (s * 0.99999)) with (1.00001001 * 0.99999) by (field; lra). lra.
    - apply Rmult_le_pos; [lra|apply Rlt_le, Rinv_0_lt_compat, S]. }
  apply Rle_trans with (((k + l) * u * r + t) * (1.00001001 * / s)); [apply Rmult_le_compat; [apply Rabs_pos|apply Rlt_le, Rinv_0_lt_compat, Q0|exact B|exact I]|].
  replace (((k + l) * u * r + t) * (1.00001001 * / s)) with (1.00001001 * ((k + l) * (u * (r / s))) + 1.00001001 * (t / s)) by (field; lra).
  assert (Ts : 0 <= t / s) by (apply Rmult_le_pos; [exact T|apply Rlt_le, Rinv_0_lt_compat, S]).
  assert (UR : 0 <= u * (r / s)) by (apply Rmult_le_pos; [rewrite U; lra|exact Rs]).
  assert ((k + l) * (u * (r / s)) <= 200 * (u * (r / s))) by (apply Rmult_le_compat_r; lra). lra.
Qed.

Section F.
Context (lm : libm).
Notation N := (FN lm).
Lemma ap_mulc c v x r k t : fin c /\ B2R c = v -> ap x r k t -> 0 < v -> v * r <= 1e20 -> v <= 1000 -> 0 <= k <= 90 -> 0 <= t <= 1 ->
  ap (@fmul N c x) (v * r) (k + 1.001) (1.001 * (v * t) + eta).
Proof.
  intros [Fc Vc] (F & P & H) V B V1 K T. pose proof u16 as U. pose proof b127_big as BB.
  assert (VR : 0 <= v * r) by (apply Rmult_le_pos; lra). assert (VT : 0 <= v * t <= 1000) by (split; [apply Rmult_le_pos; lra|apply Rle_trans with (1000 * 1); [apply Rmult_le_compat; lra|lra]]).
  assert (H' : Rabs (v * B2R x - v * r) <= k * u * (v * r) + v * t).
  { rewrite <- Rmult_minus_distr_l, Rabs_mult, (Rabs_pos_eq v) by lra. replace (k * u * (v * r) + v * t) with (v * (k * u * r + t)) by ring. apply Rmult_le_compat_l; lra. }
  destruct (mul_ok lm c x Fc F) as [F1 V2].
  { rewrite Vc. replace (v * B2R x) with (v * B2R x - v * r + v * r) by ring. eapply Rle_trans; [apply Rabs_triang|]. rewrite (Rabs_pos_eq (v * r)) by exact VR.
    assert (0 <= k * (v * r) <= 90 * (v * r)) by (split; [apply Rmult_le_pos; lra|apply Rmult_le_compat_r; lra]). rewrite U in *. lra. }
  split; [exact F1|]. split; [exact VR|]. rewrite V2, Vc. apply rnd_ap; lra.
Qed.
Lemma ap_div x y r s k l t : ap x r k t -> fin y -> 0 < s -> Rabs (B2R y - s) <= l * u * s -> 0 <= k <= 90 -> 0 <= l <= 90 -> 0 <= t -> r / s <= 1e20 -> t / s <= 1e20 ->
  ap (@fdiv N x y) (r / s) (k + l + 1.02) (1.003 * (t / s) + eta).
Proof.
  intros (F & P & H) Fy S Hy K L T B BT. pose proof u16 as U. pose proof b127_big as BB. pose proof F32.eta_pos as E0.
  destruct (quot_err (B2R x) r (B2R y) s k l t P S ltac:(lra) ltac:(lra) T H Hy) as [Q E].
  assert (Rs : 0 <= r / s) by (apply Rmult_le_pos; [exact P|apply Rlt_le, Rinv_0_lt_compat, S]).
  assert (Ts : 0 <= t / s) by (apply Rmult_le_pos; [exact T|apply Rlt_le, Rinv_0_lt_compat, S]).
  replace (1.001 * t / s) with (1.001 * (t / s)) in E by (unfold Rdiv; ring).
  assert (KR : 0 <= (k + l + 0.01) * (r / s) <= 200 * (r / s)) by (split; [apply Rmult_le_pos; lra|apply Rmult_le_compat_r; lra]).
  destruct (div_ok lm x y F ltac:(lra)) as [F1 V1].
  { replace (B2R x / B2R y) with (B2R x / B2R y - r / s + r / s) by ring. eapply Rle_trans; [apply Rabs_triang|]. rewrite (Rabs_pos_eq (r / s)) by exact Rs. rewrite U in *. lra. }
  split; [exact F1|]. split; [exact Rs|]. rewrite V1.
  pose proof (rnd_err_abs (B2R x / B2R y)) as G.
  assert (Z : Rabs (B2R x / B2R y) <= r / s + ((k + l + 0.01) * u * (r / s) + 1.001 * (t / s))). { replace (B2R x / B2R y) with (B2R x / B2R y - r / s + r / s) by ring. eapply Rle_trans; [apply Rabs_triang|]. rewrite (Rabs_pos_eq (r / s)) by exact Rs. lra. }
  replace (rnd (B2R x / B2R y) - r / s) with ((rnd (B2R x / B2R y) - B2R x / B2R y) + (B2R x / B2R y - r / s)) by ring. eapply Rle_trans; [apply Rabs_triang|]. rewrite U in *. lra.
Qed.

Lemma lit2 : fin (@flit N 2%dec) /\ B2R (@flit N 2%dec) = 2. Proof. f32_val. Qed.
Lemma lit3 : fin (@flit N 3%dec) /\ B2R (@flit N 3%dec) = 3. Proof. f32_val. Qed.
Lemma lit4 : fin (@flit N 4%dec) /\ B2R (@flit N 4%dec) = 4. Proof. f32_val. Qed.
Lemma lit6 : fin (@flit N 6%dec) /\ B2R (@flit N 6%dec) = 6. Proof. f32_val. Qed.
Lemma lit8 : fin (@flit N 8%dec) /\ B2R (@flit N 8%dec) = 8. Proof. f32_val. Qed.
Lemma lit12 : fin (@flit N 12%dec) /\ B2R (@flit N 12%dec) = 12. Proof. f32_val. Qed.

(** A sum [c - a + b] as the code computes it: [(c' * x + y) + z]. *)
Lemma sum3 (p q c : f32) (P Q C ep eq G : R) : fin p -> fin q -> fin c /\ B2R c = C -> Rabs (B2R p - P) <= ep -> Rabs (B2R q - Q) <= eq ->
  Rabs (P + Q) <= G -> Rabs (P + Q + C) <= 1000 -> G <= 1000 -> 0 <= ep <= 1 -> 0 <= eq <= 1 -> 
  let s := @fadd N (@fadd N p q) c in fin s /\ Rabs (B2R s - (P + Q + C)) <= 1.001 * (ep + eq) + 1.001 * u * G + u * Rabs (P + Q + C).
Proof.
  intros Fp Fq [Fc Vc] Hp Hq HG HC HG2 Hep Heq s. pose proof u16 as U. pose proof b127_big as BB.
  assert (A : Rabs (B2R p + B2R q - (P + Q)) <= ep + eq). { replace (B2R p + B2R q - (P + Q)) with ((B2R p - P) + (B2R q - Q)) by ring. eapply Rle_trans; [apply Rabs_triang|]. lra. }
  assert (A2 : Rabs (B2R p + B2R q) <= G + (ep + eq)). { replace (B2R p + B2R q) with (B2R p + B2R q - (P + Q) + (P + Q)) by ring. eapply Rle_trans; [apply Rabs_triang|]. lra. }
  destruct (add_ok lm p q Fp Fq ltac:(lra)) as [F1 V1]. pose proof (rnd_add_err _ _ (fmt_B2R p) (fmt_B2R q)) as E1. rewrite <- V1 in E1.
  set (w := @fadd N p q) in *.
  assert (B : Rabs (B2R w + B2R c - (P + Q + C)) <= u * (G + (ep + eq)) + (ep + eq)).
  { rewrite Vc. replace (B2R w + C - (P + Q + C)) with ((B2R w - (B2R p + B2R q)) + (B2R p + B2R q - (P + Q))) by ring. eapply Rle_trans; [apply Rabs_triang|]. rewrite U in *. lra. }
  assert (B2 : Rabs (B2R w + B2R c) <= Rabs (P + Q + C) + (u * (G + (ep + eq)) + (ep + eq))). { replace (B2R w + B2R c) with (B2R w + B2R c - (P + Q + C) + (P + Q + C)) by ring. eapply Rle_trans; [apply Rabs_triang|]. lra. }
  destruct (add_ok lm w c F1 Fc) as [F2 V2]; [rewrite U in *; lra|]. pose proof (rnd_add_err _ _ (fmt_B2R w) (fmt_B2R c)) as E2. rewrite <- V2 in E2.
  split; [exact F2|]. fold s in E2. replace (B2R s - (P + Q + C)) with ((B2R s - (B2R w + B2R c)) + (B2R w + B2R c - (P + Q + C))) by ring. eapply Rle_trans; [apply Rabs_triang|].
  pose proof (Rabs_pos (P + Q)). rewrite U in *. lra.
Qed.
Lemma sum3s (p q c : f32) (P Q C ep eq G : R) : fin p -> fin q -> fin c /\ B2R c = C -> Rabs (B2R p - P) <= ep -> Rabs (B2R q - Q) <= eq ->
  Rabs (P - Q) <= G -> Rabs (P - Q + C) <= 1000 -> G <= 1000 -> 0 <= ep <= 1 -> 0 <= eq <= 1 -> 
  let s := @fadd N (@fsub N p q) c in fin s /\ Rabs (B2R s - (P - Q + C)) <= 1.001 * (ep + eq) + 1.001 * u * G + u * Rabs (P - Q + C).
Proof.
  intros Fp Fq [Fc Vc] Hp Hq HG HC HG2 Hep Heq s. pose proof u16 as U. pose proof b127_big as BB.
  assert (A : Rabs (B2R p - B2R q - (P - Q)) <= ep + eq). { replace (B2R p - B2R q - (P - Q)) with ((B2R p - P) + - (B2R q - Q)) by ring. eapply Rle_trans; [apply Rabs_triang|]. rewrite Rabs_Ropp. lra. }
  assert (A2 : Rabs (B2R p - B2R q) <= G + (ep + eq)). { replace (B2R p - B2R q) with (B2R p - B2R q - (P - Q) + (P - Q)) by ring. eapply Rle_trans; [apply Rabs_triang|]. lra. }
  destruct (sub_ok lm p q Fp Fq ltac:(lra)) as [F1 V1]. pose proof (rnd_add_err _ _ (fmt_B2R p) (fmt_opp _ (fmt_B2R q))) as E1. change (B2R p + - B2R q) with (B2R p - B2R q) in E1. rewrite <- V1 in E1.
  set (w := @fsub N p q) in *.
  assert (B : Rabs (B2R w + B2R c - (P - Q + C)) <= u * (G + (ep + eq)) + (ep + eq)).
  { rewrite Vc. replace (B2R w + C - (P - Q + C)) with ((B2R w - (B2R p - B2R q)) + (B2R p - B2R q - (P - Q))) by ring. eapply Rle_trans; [apply Rabs_triang|]. rewrite U in *. lra. }
  assert (B2 : Rabs (B2R w + B2R c) <= Rabs (P - Q + C) + (u * (G + (ep + eq)) + (ep + eq))). { replace (B2R w + B2R c) with (B2R w + B2R c - (P - Q + C) + (P - Q + C)) by ring. eapply Rle_trans; [apply Rabs_triang|]. lra. }
  destruct (add_ok lm w c F1 Fc) as [F2 V2]; [rewrite U in *; lra|]. pose proof (rnd_add_err _ _ (fmt_B2R w) (fmt_B2R c)) as E2. rewrite <- V2 in E2.
  split; [exact F2|]. fold s in E2. replace (B2R s - (P - Q + C)) with ((B2R s - (B2R w + B2R c)) + (B2R w + B2R c - (P - Q + C))) by ring. eapply Rle_trans; [apply Rabs_triang|].
  pose proof (Rabs_pos (P - Q)). rewrite U in *. lra.
Qed.
Definition den (x y : R) : R := 3 - 2 * x + 12 * y.
Lemma den_ok (x y : f32) rx ry k t : ap x rx k t -> ap y ry k t -> rx + ry <= 1.0001 -> 0 <= k <= 4 -> 0 <= t <= 1e-30 ->
  let d := @fadd N (@fadd N (@fmul N (@fopp N (@flit N 2%dec)) x) (@fmul N (@flit N 12%dec) y)) (@flit N 3%dec) in
  fin d /\ 0.999 <= den rx ry <= 15.01 /\ Rabs (B2R d - den rx ry) <= (2 * k + 5.1) * u * den rx ry.
Proof.
  intros (Fx & Px & Hx) (Fy & Py & Hy) S K T d. pose proof u16 as U. pose proof eta45 as E. pose proof b127_big as BB.
  assert (D1 : 0.999 <= den rx ry <= 15.01) by (unfold den; lra).
  assert (K1 : 0 <= k * rx) by (apply Rmult_le_pos; lra). assert (K2 : 0 <= k * ry) by (apply Rmult_le_pos; lra). assert (K3 : 0 <= k * (1.0001 - rx - ry)) by (apply Rmult_le_pos; lra).
  destruct lit2 as [F2 V2]. destruct (opp_ok lm _ F2) as [F2' V2']. rewrite V2 in V2'.
  assert (Hx2 : Rabs (2 * B2R x - 2 * rx) <= k * u * (2 * rx) + 2 * t).
  { rewrite <- Rmult_minus_distr_l, Rabs_mult, (Rabs_pos_eq 2) by lra. lra. }
  destruct (mul_ok lm _ x F2' Fx) as [Fp Vp].
  { rewrite V2'. replace (Ropp 2 * B2R x) with (- (2 * B2R x - 2 * rx + 2 * rx)) by ring. rewrite Rabs_Ropp. eapply Rle_trans; [apply Rabs_triang|]. rewrite (Rabs_pos_eq (2 * rx)) by lra. rewrite U in *. lra. }
  set (p := @fmul N (@fopp N (@flit N 2%dec)) x) in *. rewrite V2' in Vp. replace (Ropp 2 * B2R x) with (- (2 * B2R x)) in Vp by ring. rewrite rnd_opp in Vp.
  pose proof (rnd_ap (2 * B2R x) (2 * rx) k (2 * t) ltac:(lra) ltac:(lra) ltac:(lra) Hx2) as Ep.
  assert (Ep' : Rabs (B2R p - - (2 * rx)) <= (k + 1.001) * u * (2 * rx) + (1.001 * (2 * t) + eta)). { rewrite Vp. replace (- rnd (2 * B2R x) - - (2 * rx)) with (- (rnd (2 * B2R x) - 2 * rx)) by ring. rewrite Rabs_Ropp. exact Ep. }
  destruct (ap_mulc _ 12 y ry k t lit12 (conj Fy (conj Py Hy)) ltac:(lra) ltac:(lra) ltac:(lra) ltac:(lra) ltac:(lra)) as (Fq & _ & Eq).
  assert (G : Rabs (- (2 * rx) + 12 * ry) <= 2 * rx + 12 * ry) by (apply Rabs_le; lra).
  assert (EP : 0 <= (k + 1.001) * u * (2 * rx) + (1.001 * (2 * t) + eta) <= 1) by (rewrite U in *; lra).
  assert (EQ : 0 <= (k + 1.001) * u * (12 * ry) + (1.001 * (12 * t) + eta) <= 1) by (rewrite U in *; lra).
  destruct (sum3 p _ _ _ _ 3 _ _ _ Fp Fq lit3 Ep' Eq G ltac:(apply Rabs_le; lra) ltac:(lra) EP EQ) as [Fd Ed].
  split; [exact Fd|]. split; [exact D1|]. fold d in Ed. replace (- (2 * rx) + 12 * ry + 3) with (den rx ry) in Ed by (unfold den; ring). rewrite (Rabs_pos_eq (den rx ry)) in Ed by lra.
  unfold den in *. rewrite U in *. lra.
Qed.
Lemma uv_ok (x y : f32) rx ry k t : ap x rx k t -> ap y ry k t -> rx + ry <= 1.0001 -> 0 <= k <= 4 -> 0 <= t <= 1e-30 ->
  ap (u_from_xy N x y) (4 * rx / den rx ry) (3 * k + 7.2) (6 * t + 3 * eta) /\ ap (v_from_xy N x y) (6 * ry / den rx ry) (3 * k + 7.2) (6.1 * t + 3 * eta).
Proof.
  intros Hx Hy S K T. destruct (den_ok x y rx ry k t Hx Hy S K T) as (Fd & D1 & Ed). pose proof eta45 as E.
  pose proof Hx as (_ & Px & _). pose proof Hy as (_ & Py & _).
  assert (I : 0 < / den rx ry <= 1.002). { split; [apply Rinv_0_lt_compat; lra|]. apply Rle_trans with (/ 0.999); [apply Rinv_le_contravar; lra|lra]. }
  assert (X : forall a, 0 <= a -> 0 <= a / den rx ry <= 1.002 * a). { intros a A. unfold Rdiv. split; [apply Rmult_le_pos; lra|]. rewrite (Rmult_comm 1.002). apply Rmult_le_compat_l; lra. }
  unfold u_from_xy, v_from_xy. split.
  - pose proof (ap_mulc _ 4 x rx k t lit4 Hx ltac:(lra) ltac:(lra) ltac:(lra) ltac:(lra) ltac:(lra)) as A.
    pose proof (X (4 * rx) ltac:(lra)). pose proof (X (1.001 * (4 * t) + eta) ltac:(lra)).
    eapply ap_le; [apply (ap_div _ _ _ _ _ (2 * k + 5.1) _ A Fd); try lra; exact Ed|lra|lra].
  - pose proof (ap_mulc _ 6 y ry k t lit6 Hy ltac:(lra) ltac:(lra) ltac:(lra) ltac:(lra) ltac:(lra)) as A.
    pose proof (X (6 * ry) ltac:(lra)). pose proof (X (1.001 * (6 * t) + eta) ltac:(lra)).
    eapply ap_le; [apply (ap_div _ _ _ _ _ (2 * k + 5.1) _ A Fd); try lra; exact Ed|lra|lra].
Qed.

Lemma xy_back (p q : f32) x y k t : 0 <= x -> 0 <= y -> x + y <= 1.0001 -> ap p (4 * x / den x y) k t -> ap q (6 * y / den x y) k t -> 0 <= k <= 16 -> 0 <= t <= 1e-30 ->
  ap (x_from_uv N p q) x (5.01 * k + 11.2) (4 * t + 3 * eta) /\ ap (y_from_uv N p q) y (5.01 * k + 11.2) (4 * t + 3 * eta).
Proof.
  intros X Y S Hp Hq K T. pose proof u16 as U. pose proof eta45 as E.
  assert (D : 0.999 <= den x y <= 15.01) by (unfold den; lra). set (d := den x y) in *.
  assert (D0 : d <> 0) by lra. set (EE := 12 / d). assert (E1 : 0.799 <= EE <= 12.02).
  { unfold EE. split; apply Rmult_le_reg_r with d; try lra; unfold Rdiv; rewrite Rmult_assoc, Rinv_l by exact D0; lra. }
  assert (VU : 4 * x / d = x * EE / 3) by (unfold EE; field; exact D0). assert (VV : 6 * y / d = y * EE / 2) by (unfold EE; field; exact D0).
  assert (SE : 2 * (4 * x / d) - 8 * (6 * y / d) + 4 = EE). { unfold EE. apply Rmult_eq_reg_r with d; [|exact D0]. field_simplify; [|exact D0|exact D0]. unfold d, den. field. }
  rewrite VU, VV in *. clearbody EE.
  assert (XE : 0 <= x * EE <= 1.0001 * EE) by (split; [apply Rmult_le_pos; lra|apply Rmult_le_compat_r; lra]).
  assert (YE : 0 <= y * EE <= 1.0001 * EE) by (split; [apply Rmult_le_pos; lra|apply Rmult_le_compat_r; lra]).
  assert (XYE : x * EE + y * EE <= 1.0001 * EE) by (rewrite <- Rmult_plus_distr_r; apply Rmult_le_compat_r; lra).
  pose proof (ap_mulc _ 2 p _ k t lit2 Hp ltac:(lra) ltac:(lra) ltac:(lra) ltac:(lra) ltac:(lra)) as P2.
  pose proof (ap_mulc _ 8 q _ k t lit8 Hq ltac:(lra) ltac:(lra) ltac:(lra) ltac:(lra) ltac:(lra)) as Q8.
  pose proof (ap_mulc _ 3 p _ k t lit3 Hp ltac:(lra) ltac:(lra) ltac:(lra) ltac:(lra) ltac:(lra)) as P3.
  pose proof (ap_mulc _ 2 q _ k t lit2 Hq ltac:(lra) ltac:(lra) ltac:(lra) ltac:(lra) ltac:(lra)) as Q2.
  destruct P2 as (Fp & _ & Ep). destruct Q8 as (Fq & _ & Eq).
  assert (KX : 0 <= k * (x * EE) <= 16 * (x * EE)) by (split; [apply Rmult_le_pos; lra|apply Rmult_le_compat_r; lra]).
  assert (KY : 0 <= k * (y * EE) <= 16 * (y * EE)) by (split; [apply Rmult_le_pos; lra|apply Rmult_le_compat_r; lra]).
  assert (KE : k * (x * EE) + k * (y * EE) <= 1.0001 * (k * EE)) by (rewrite <- Rmult_plus_distr_l; replace (1.0001 * (k * EE)) with (k * (1.0001 * EE)) by ring; apply Rmult_le_compat_l; lra).
  assert (KE0 : 0 <= k * EE) by (apply Rmult_le_pos; lra).
  destruct (sum3s _ _ _ _ _ 4 _ _ (2 * (x * EE / 3) + 8 * (y * EE / 2)) Fp Fq lit4 Ep Eq ltac:(apply Rabs_le; lra)) as [Fd Ed]; try (rewrite ?SE, U in *; try apply Rabs_le; lra).
  rewrite SE in Ed. rewrite (Rabs_pos_eq EE) in Ed by lra.
  set (e := @fadd N (@fsub N (@fmul N (@flit N 2%dec) p) (@fmul N (@flit N 8%dec) q)) (@flit N 4%dec)) in *.
  assert (Ed' : Rabs (B2R e - EE) <= (4.01 * k + 9.1) * u * EE). { eapply Rle_trans; [exact Ed|]. rewrite U in *. lra. }
  assert (IE : 0 < / EE <= 1.252). { split; [apply Rinv_0_lt_compat; lra|]. apply Rle_trans with (/ 0.799); [apply Rinv_le_contravar; lra|lra]. }
  assert (TE : forall a, 0 <= a -> 0 <= a / EE <= 1.252 * a). { intros a A. unfold Rdiv. split; [apply Rmult_le_pos; lra|]. rewrite (Rmult_comm 1.252). apply Rmult_le_compat_l; lra. }
  unfold x_from_uv, y_from_uv. fold e. split.
  - pose proof (TE (1.001 * (3 * t) + eta) ltac:(lra)). replace x with (3 * (x * EE / 3) / EE) at 1 by (field; lra).
    eapply ap_le; [apply (ap_div _ _ _ _ _ (4.01 * k + 9.1) _ P3 Fd); try lra|lra|lra].
    replace (3 * (x * EE / 3) / EE) with x by (field; lra). lra.
  - pose proof (TE (1.001 * (2 * t) + eta) ltac:(lra)). replace y with (2 * (y * EE / 2) / EE) at 1 by (field; lra).
    eapply ap_le; [apply (ap_div _ _ _ _ _ (4.01 * k + 9.1) _ Q2 Fd); try lra|lra|lra].
    replace (2 * (y * EE / 2) / EE) with y by (field; lra). lra.
Qed.
Lemma yxy_yuv (Y x y : f32) : fin x -> fin y -> 0 <= B2R x -> 0 <= B2R y -> B2R x + B2R y <= 1.0001 ->
  exists x' y' : f32, YuvToYxy N (YxyToYuv N (V3 Y x y)) = V3 Y x' y' /\ fin x' /\ fin y' /\
    Rabs (B2R x' - B2R x) <= 48 * u * B2R x + 1e-43 /\ Rabs (B2R y' - B2R y) <= 48 * u * B2R y + 1e-43.
Proof.
  intros Fx Fy Px Py S. destruct (uv_ok x y _ _ 0 0 (ap_self x Fx Px) (ap_self y Fy Py) S ltac:(lra) ltac:(lra)) as [A B]. pose proof eta45 as E.
  apply (ap_le _ _ _ _ 7.2 (3 * eta)) in A; [|lra|lra]. apply (ap_le _ _ _ _ 7.2 (3 * eta)) in B; [|lra|lra].
  destruct (xy_back _ _ _ _ 7.2 (3 * eta) Px Py S A B ltac:(lra) ltac:(lra)) as [C D].
  apply (ap_le _ _ _ _ 48 1e-43) in C; [|lra|lra]. apply (ap_le _ _ _ _ 48 1e-43) in D; [|lra|lra].
  destruct C as (FC & _ & VC). destruct D as (FD & _ & VD). eexists _, _. split; [reflexivity|]. auto.
Qed.

Lemma ap_mulw x w r k t : ap x r k t -> fin w -> 0 <= B2R w <= 1e6 -> r <= 1e6 -> 0 <= k <= 90 -> 0 <= t <= 1 ->
  ap (@fmul N x w) (r * B2R w) (k + 1.001) (1.001 * (t * B2R w) + eta).
Proof.
  intros (F & P & H) Fw V B K T. pose proof u16 as U. pose proof b127_big as BB. set (v := B2R w) in *.
  assert (VR : 0 <= r * v <= 1e12) by (split; [apply Rmult_le_pos; lra|replace 1e12 with (1e6 * 1e6) by lra; apply Rmult_le_compat; lra]).
  assert (VT : 0 <= t * v <= 1e6) by (split; [apply Rmult_le_pos; lra|rewrite <- (Rmult_1_l 1e6); apply Rmult_le_compat; lra]).
  assert (H' : Rabs (B2R x * v - r * v) <= k * u * (r * v) + t * v).
  { rewrite <- Rmult_minus_distr_r, Rabs_mult, (Rabs_pos_eq v) by lra. replace (k * u * (r * v) + t * v) with ((k * u * r + t) * v) by ring. apply Rmult_le_compat_r; lra. }
  destruct (mul_ok lm x w F Fw) as [F1 V2]; fold v.
  { replace (B2R x * v) with (B2R x * v - r * v + r * v) by ring. eapply Rle_trans; [apply Rabs_triang|]. rewrite (Rabs_pos_eq (r * v)) by lra.
    assert (0 <= k * (r * v) <= 90 * (r * v)) by (split; [apply Rmult_le_pos; lra|apply Rmult_le_compat_r; lra]). rewrite U in *. lra. }
  split; [exact F1|]. split; [lra|]. rewrite V2. fold v. apply rnd_ap; [lra|lra|lra|exact H'].
Qed.
Lemma ap_trans x y r k t l s : ap x (B2R y) k t -> ap y r l s -> 0 <= k <= 90 -> 0 <= l <= 90 -> 0 <= s -> ap x r (k + l + 0.01) (t + 1.001 * s).
Proof.
  intros (F & P & H) (_ & R & G) K L S. pose proof u16 as U. split; [exact F|]. split; [exact R|].
  replace (B2R x - r) with ((B2R x - B2R y) + (B2R y - r)) by ring. eapply Rle_trans; [apply Rabs_triang|].
  apply Rabs_le_inv in G. assert (LR : 0 <= l * r <= 90 * r) by (split; [apply Rmult_le_pos; lra|apply Rmult_le_compat_r; lra]).
  assert (A : k * u * B2R y <= k * u * (r + (l * u * r + s))). { apply Rmult_le_compat_l; [rewrite U; lra|lra]. }
  assert (KS : k * s <= 90 * s) by (apply Rmult_le_compat_r; lra).
  assert (KL : k * (l * r) <= 90 * (90 * r)) by (apply Rmult_le_compat; lra).
  assert (Q : Rabs (B2R y - r) <= l * u * r + s) by (apply Rabs_le; lra). rewrite U in *. lra.
Qed.
Section XYZ.
Variables X Y Z : f32.
Hypotheses (FX : fin X) (FY : fin Y) (FZ : fin Z) (PX : 0 <= B2R X) (PY : 0 <= B2R Y) (PZ : 0 <= B2R Z).
Let S := B2R X + B2R Y + B2R Z.
Lemma xy_acc : 2e-8 <= S <= 1e30 -> exists x y, toYxy N (V3 X Y Z) = V3 Y x y /\ ap x (B2R X / S) 3.03 eta /\ ap y (B2R Y / S) 3.03 eta /\ 0 <= B2R x /\ 0 <= B2R y.
Proof.
  intros HS. pose proof b127_big as BB. pose proof u16 as U. pose proof (s_err _ _ _ (fmt_B2R X) (fmt_B2R Y) (fmt_B2R Z) PX PY PZ) as E. fold S in E.
  destruct (add_ok lm X Y FX FY) as [Fa Va]; [apply Rabs_le; unfold S in HS; lra|].
  pose proof (rnd_add_err _ _ (fmt_B2R X) (fmt_B2R Y)) as E1. rewrite <- Va in E1. rewrite (Rabs_pos_eq (B2R X + B2R Y)) in E1 by lra. apply Rabs_le_inv in E1.
  destruct (add_ok lm _ Z Fa FZ) as [Fs Vs]; [apply Rabs_le; unfold S in HS; rewrite U in *; lra|]. rewrite Va in Vs. rewrite <- Vs in E.
  unfold toYxy, toYxy3, Y_from_XYZ, x_from_XYZ, y_from_XYZ. cbn [vref v0 v1 v2]. set (s := @fadd N (@fadd N X Y) Z) in *.
  assert (Pos : 1.9e-8 <= B2R s) by (apply Rabs_le_inv in E; rewrite U in *; lra). rewrite (guard_ok lm _ Fs) by lra.
  assert (Q : forall a, 0 <= a <= S -> a / S <= 1). { intros a A. apply Rmult_le_reg_r with S; [lra|]. unfold Rdiv. rewrite Rmult_assoc, Rinv_l by lra. lra. }
  assert (Z0 : 0 / S = 0) by (unfold Rdiv; ring).
  assert (NN : forall a : f32, fin a -> 0 <= B2R a <= S -> 0 <= B2R (@fdiv N a s)).
  { intros a Fa' [A1 A2]. assert (I : 0 < / B2R s <= 5.3e7) by (split; [apply Rinv_0_lt_compat; lra|]; apply Rle_trans with (/ 1.9e-8); [apply Rinv_le_contravar; lra|lra]).
    assert (K : 0 <= B2R a / B2R s <= 1e30 * 5.3e7) by (unfold Rdiv; split; [apply Rmult_le_pos; lra|apply Rmult_le_compat; lra]).
    destruct (div_ok lm a s Fa' ltac:(lra)) as [_ V]; [apply Rabs_le; lra|]. rewrite V. apply rnd_ge_fmt; [apply fmt_0|lra]. }
  eexists _, _. split; [reflexivity|]. split; [|split; [|split; apply NN; auto; unfold S; lra]].
  - eapply ap_le; [apply (ap_div X s (B2R X) S 0 2.0001 0 (ap_self X FX PX) Fs); try lra; try exact E|lra|rewrite Z0; lra].
    pose proof (Q (B2R X) ltac:(unfold S; lra)). lra.
  - eapply ap_le; [apply (ap_div Y s (B2R Y) S 0 2.0001 0 (ap_self Y FY PY) Fs); try lra; try exact E|lra|rewrite Z0; lra].
    pose proof (Q (B2R Y) ltac:(unfold S; lra)). lra.
Qed.
Lemma fr : 2e-8 <= S -> 0 <= B2R X / S /\ 0 <= B2R Y / S /\ 0 <= B2R Z / S /\ B2R X / S + B2R Y / S + B2R Z / S = 1.
Proof.
  intros H. assert (I : 0 < / S) by (apply Rinv_0_lt_compat; lra). unfold Rdiv. repeat split; try (apply Rmult_le_pos; lra).
  rewrite <- !Rmult_plus_distr_r. fold S. apply Rinv_r. lra.
Qed.
Lemma toYuv_acc : 2e-8 <= S <= 1e30 -> exists p q, toYuv N (V3 X Y Z) = V3 Y p q /\ fin p /\ fin q /\
  let D := B2R X + 15 * B2R Y + 3 * B2R Z in
  Rabs (B2R p - 4 * B2R X / D) <= 17 * u * (4 * B2R X / D) + 1e-43 /\ Rabs (B2R q - 6 * B2R Y / D) <= 17 * u * (6 * B2R Y / D) + 1e-43.
Proof.
  intros HS. destruct (xy_acc HS) as (x & y & E & Hx & Hy & Px & Py). unfold toYuv. rewrite E. destruct (fr (proj1 HS)) as (f1 & f2 & f3 & f4). pose proof eta45 as Et.
  destruct (uv_ok x y _ _ _ _ Hx Hy ltac:(lra) ltac:(lra) ltac:(lra)) as [A B].
  apply (ap_le _ _ _ _ 17 1e-43) in A; [|lra|lra]. apply (ap_le _ _ _ _ 17 1e-43) in B; [|lra|lra].
  assert (DD : den (B2R X / S) (B2R Y / S) = (B2R X + 15 * B2R Y + 3 * B2R Z) / S).
  { unfold den. apply Rmult_eq_reg_r with S; [|lra]. field_simplify; [|lra|lra]. unfold S. ring. }
  set (D := B2R X + 15 * B2R Y + 3 * B2R Z) in *. assert (D0 : 0 < D) by (unfold D; unfold S in HS; lra).
  replace (4 * (B2R X / S) / den (B2R X / S) (B2R Y / S)) with (4 * B2R X / D) in A by (rewrite DD; field; lra).
  replace (6 * (B2R Y / S) / den (B2R X / S) (B2R Y / S)) with (6 * B2R Y / D) in B by (rewrite DD; field; lra).
  destruct A as (FA & _ & VA). destruct B as (FB & _ & VB). eexists _, _. split; [reflexivity|]. auto.
Qed.
Lemma yuv_round : 1e-6 <= S <= 1e6 -> 1e-6 * S <= B2R Y -> exists X' Z', fromYuv N (toYuv N (V3 X Y Z)) = V3 X' Y Z' /\ fin X' /\ fin Z' /\
  Rabs (B2R X' - B2R X) <= 106 * u * B2R X + 1e-30 /\ Rabs (B2R Z' - B2R Z) <= 110 * u * S.
Proof.
  intros HS HY. destruct (xy_acc ltac:(lra)) as (x & y & E & Hx & Hy & Px & Py). destruct (fr ltac:(lra)) as (f1 & f2 & f3 & f4). pose proof eta45 as Et. pose proof u16 as U.
  assert (YS : 1e-6 <= B2R Y / S). { apply Rmult_le_reg_r with S; [lra|]. replace (B2R Y / S * S) with (B2R Y) by (field; lra). lra. }
  pose proof Hx as (Fx & _ & Vx). pose proof Hy as (Fy & _ & Vy). apply Rabs_le_inv in Vx, Vy.
  unfold fromYuv, toYuv. rewrite E.
  set (a := B2R X / S) in *. set (b := B2R Y / S) in *. set (c := B2R Z / S) in *.
  destruct (yxy_yuv Y x y Fx Fy Px Py) as (x' & y' & E' & Fx' & Fy' & Vx' & Vy'); [rewrite U in *; lra|]. rewrite E'.
  assert (Ax : ap x' a 51.1 1.1e-43). { eapply ap_le; [apply (ap_trans x' x a 48 1e-43 3.03 eta); try lra; [split; [exact Fx'|split; assumption]|exact Hx]|lra|lra]. }
  assert (Ay : ap y' b 51.1 1.1e-43). { eapply ap_le; [apply (ap_trans y' y b 48 1e-43 3.03 eta); try lra; [split; [exact Fy'|split; assumption]|exact Hy]|lra|lra]. }
  clear Vx Vy Vx' Vy'. pose proof Ax as (_ & _ & Ax2). pose proof Ay as (_ & _ & Ay2).
  assert (Ay3 : Rabs (B2R y' - b) <= 51.2 * u * b) by (rewrite U in *; lra).
  assert (G : @fltb N (abs_f N y') (@flit N 1e-8%dec) = false). { apply guard_ok; [exact Fy'|]. apply Rabs_le_inv in Ay3. rewrite U in *. lra. }
  unfold fromYxy, fromYxy3, X_from_Yxy, Y_from_Yxy, Z_from_Yxy. cbn [vref v0 v1 v2]. rewrite G.
  assert (BY : 0 <= B2R Y <= 1e6) by (unfold S in HS; lra). assert (B0 : 0 < b) by lra.
  assert (TB : forall q, 0 <= q -> q / b <= q * 1e6). { intros q Q. unfold Rdiv. apply Rmult_le_compat_l; [exact Q|]. apply Rle_trans with (/ 1e-6); [apply Rinv_le_contravar; lra|lra]. }
  assert (SY : B2R Y / b = S). { unfold b. field. split; [lra|]. intros K. unfold b in B0. rewrite K in B0. unfold Rdiv in B0. lra. }
  assert (Sz : 0 < S) by lra.
  (* Z *)
  destruct (ofZ_ok lm 1 ltac:(cbn; lia)) as [F1 V1].
  assert (N1 : near (@fofZ N 1) 1 0) by (split; [exact F1|rewrite V1, Rminus_eq_0, Rabs_R0; lra]).
  assert (NX : near x' a (51.1 * u * a + 1.1e-43)) by (split; assumption). assert (NY : near y' b (51.1 * u * b + 1.1e-43)) by (split; assumption).
  pose proof (near_sub lm _ _ _ _ _ _ 1 N1 NX ltac:(apply Rabs_le; lra) ltac:(rewrite U; lra)) as N2.
  pose proof (near_sub lm _ _ _ _ _ _ 1 N2 NY ltac:(apply Rabs_le; lra) ltac:(rewrite U; lra)) as N3.
  assert (Az : ap (z_from_xy N x' y') c 0 (54 * u)).
  { destruct N3 as [Fz Vz]. split; [exact Fz|]. split; [exact f3|]. replace (1 - a - b) with c in Vz by lra. eapply Rle_trans; [exact Vz|]. rewrite U. lra. }
  assert (BS : forall q, 0 <= q <= 1 -> 0 <= q * S <= 1e6) by (intros q Q; split; [apply Rmult_le_pos; lra|apply Rle_trans with (1 * S); [apply Rmult_le_compat_r; lra|lra]]).
  assert (XS : a * S = B2R X) by (unfold a; field; lra). assert (ZS : c * S = B2R Z) by (unfold c; field; lra).
  assert (YB : B2R Y = b * S) by (unfold b; field; lra).
  eexists _, _. split; [reflexivity|].
  pose proof (ap_mulw x' Y a 51.1 1.1e-43 Ax FY BY ltac:(lra) ltac:(lra) ltac:(lra)) as MX.
  pose proof (ap_mulw _ Y c 0 (54 * u) Az FY BY ltac:(lra) ltac:(lra) ltac:(rewrite U; lra)) as MZ.
  pose proof (ap_div _ y' _ b _ 51.2 _ MX Fy' B0 Ay3 ltac:(lra) ltac:(lra)) as DX.
  pose proof (ap_div _ y' _ b _ 51.2 _ MZ Fy' B0 Ay3 ltac:(lra) ltac:(lra)) as DZ.
  replace (a * B2R Y / b) with (B2R X) in DX by (rewrite <- XS, YB; field; lra).
  replace (c * B2R Y / b) with (B2R Z) in DZ by (rewrite <- ZS, YB; field; lra).
  assert (T1 : (1.001 * (1.1e-43 * B2R Y) + eta) / b <= 2e-31) by (eapply Rle_trans; [apply TB; lra|lra]).
  assert (T2 : (1.001 * (54 * u * B2R Y) + eta) / b <= 54.1 * u * S + 1e-39).
  { replace ((1.001 * (54 * u * B2R Y) + eta) / b) with (1.001 * 54 * u * S + eta / b) by (rewrite YB; field; lra). pose proof (TB eta ltac:(lra)). rewrite U. lra. }
  assert (UY : 0 <= u * B2R Y) by (rewrite U; lra).
  specialize (DX ltac:(lra) ltac:(unfold S in HS; lra) ltac:(lra)).
  specialize (DZ ltac:(lra) ltac:(unfold S in HS; lra) ltac:(rewrite U in *; lra)).
  destruct DX as (FX' & _ & VX'). destruct DZ as (FZ' & _ & VZ'). split; [exact FX'|]. split; [exact FZ'|]. split.
  - eapply Rle_trans; [exact VX'|]. rewrite U in *. lra.
  - eapply Rle_trans; [exact VZ'|]. assert (B2R Z <= S) by (unfold S; lra). rewrite U in *. lra.
Qed.
End XYZ.
End F.
