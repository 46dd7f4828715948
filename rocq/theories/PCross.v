(** * Crosstalk matrices in binary32. *)
From Coq Require Import ZArith Reals Lra Lia List Bool Psatz.
From Flocq Require Import Core IEEE754.BinarySingleNaN.
From Verif Require Import Num NumR NumF MVec MTri F32 PHsvF PMatF PNearF PGamF PE00acc.
Local Open Scope R_scope.

Section F.
Context (lm : libm).
Notation N := (FN lm).
Notation l_ := (@flit (FN lm)).
Ltac un := rewrite u16 in *; pose proof eta16 as Et; rewrite u16 in Et.

(** two symmetric mixing matrices, one nearly the inverse of the other. *)
Lemma mix_back (p q s w : f32) (t : Vector3 f32) : fin p -> fin q -> fin s -> fin w ->
  Rabs (B2R s * B2R p + 2 * B2R w * B2R q - 1) + 2 * Rabs (B2R s * B2R q + B2R w * B2R p + B2R w * B2R q) +
    9 * u * ((Rabs (B2R s) + 2 * Rabs (B2R w)) * (Rabs (B2R p) + 2 * Rabs (B2R q))) <= 50 * u ->
  Rabs (B2R s) + 2 * Rabs (B2R w) <= 24 -> Rabs (B2R p) + 2 * Rabs (B2R q) <= 24 -> allV fin t -> norm3 t <= bpow radix2 110 ->
  back t (M_apply N (M3 s w w w s w w w s) (M_apply N (M3 p q q q p q q q p) t)).
Proof.
  intros Fp Fq Fs Fw HC HB HA Ft HM. unfold back. rewrite !apply_rows. cbn [m0 m1 m2 m3 m4 m5 m6 m7 m8]. destruct t as [t0 t1 t2].
  destruct (norm3_ge (V3 t0 t1 t2)) as (N0 & N1 & N2). set (M := norm3 _) in *. clearbody M. cbn [v0 v1 v2] in *.
  assert (L : bpow radix2 110 * 1024 = bpow radix2 120) by (change 120%Z with (110 + 10)%Z; rewrite (bpow_plus radix2 110 10); reflexivity).
  pose proof (bpow_gt_0 radix2 110) as P110. pose proof u16 as U. pose proof eta16 as Et.
  assert (PM : 0 <= M) by (pose proof (Rabs_pos (B2R t0)); lra).
  assert (E110 : eta <= bpow radix2 110) by (apply bpow_le; lia).
  assert (AV : allV (fun x : f32 => Rabs (B2R x) <= M) (V3 t0 t1 t2)) by (repeat split; assumption).
  assert (W : forall p q r : f32, fin p -> fin q -> fin r -> Rabs (B2R p) + Rabs (B2R q) + Rabs (B2R r) <= 24 ->
     let y := V_dot N (V3 p q r) (V3 t0 t1 t2) in fin y /\
     Rabs (B2R y - (B2R p * B2R t0 + B2R q * B2R t1 + B2R r * B2R t2)) <= 4 * u * ((Rabs (B2R p) + Rabs (B2R q) + Rabs (B2R r)) * M) + 4 * eta /\
     Rabs (B2R y) <= (1 + 4 * u) * ((Rabs (B2R p) + Rabs (B2R q) + Rabs (B2R r)) * M) + 4 * eta /\ Rabs (B2R y) <= bpow radix2 120).
  { intros x y r Fp' Fq' Fr Hs. destruct (row_dot lm (V3 x y r) (V3 t0 t1 t2) M) as (Fy & Ey & By); try assumption; [repeat split; assumption|lra|].
    cbv zeta. cbn [v0 v1 v2] in *. split; [exact Fy|]. pose proof (Rabs_pos (B2R x)). pose proof (Rabs_pos (B2R y)). pose proof (Rabs_pos (B2R r)).
    split; [|split; [exact By|]].
    - unfold dotR in Ey. cbn [v0 v1 v2] in Ey. eapply Rle_trans; [exact Ey|]. apply Rplus_le_compat_r. apply Rmult_le_compat_l; [lra|].
      assert (Rabs (B2R x) * Rabs (B2R t0) <= Rabs (B2R x) * M) by (apply Rmult_le_compat_l; assumption).
      assert (Rabs (B2R y) * Rabs (B2R t1) <= Rabs (B2R y) * M) by (apply Rmult_le_compat_l; assumption).
      assert (Rabs (B2R r) * Rabs (B2R t2) <= Rabs (B2R r) * M) by (apply Rmult_le_compat_l; assumption). lra.
    - eapply Rle_trans; [exact By|].
      assert ((Rabs (B2R x) + Rabs (B2R y) + Rabs (B2R r)) * M <= 24 * bpow radix2 110) by (apply Rmult_le_compat; lra).
      rewrite U. lra. }
  destruct (W p q q) as (Fy0 & Ey0 & By0 & Cy0); try assumption; [lra|]. destruct (W q p q) as (Fy1 & Ey1 & By1 & Cy1); try assumption; [lra|]. destruct (W q q p) as (Fy2 & Ey2 & By2 & Cy2); try assumption; [lra|].
  set (y0 := V_dot N (V3 p q q) _) in *. set (y1 := V_dot N (V3 q p q) _) in *. set (y2 := V_dot N (V3 q q p) _) in *. clearbody y0 y1 y2. clear W.
  assert (W : forall p q r : f32, fin p -> fin q -> fin r -> Rabs (B2R p) + Rabs (B2R q) + Rabs (B2R r) <= 24 ->
     let y := V_dot N (V3 p q r) (V3 y0 y1 y2) in fin y /\
     Rabs (B2R y - (B2R p * B2R y0 + B2R q * B2R y1 + B2R r * B2R y2)) <= 4 * u * (Rabs (B2R p) * Rabs (B2R y0) + Rabs (B2R q) * Rabs (B2R y1) + Rabs (B2R r) * Rabs (B2R y2)) + 4 * eta).
  { intros x y r Fp' Fq' Fr Hs. destruct (row_dot lm (V3 x y r) (V3 y0 y1 y2) (bpow radix2 120)) as (Fy & Ey & _); try assumption; [repeat split; assumption..|lra|].
    split; [exact Fy|exact Ey]. }
  destruct (W s w w) as (Fz0 & Ez0); try assumption; [lra|]. destruct (W w s w) as (Fz1 & Ez1); try assumption; [lra|]. destruct (W w w s) as (Fz2 & Ez2); try assumption; [lra|].
  split; [repeat split; assumption|].
  set (D := B2R s * B2R p + 2 * B2R w * B2R q - 1) in HC. set (O := B2R s * B2R q + B2R w * B2R p + B2R w * B2R q) in HC.
  assert (K0 : Rabs (B2R s * B2R p + B2R w * B2R q + B2R w * B2R q - 1) + Rabs (B2R s * B2R q + B2R w * B2R p + B2R w * B2R q - 0) + Rabs (B2R s * B2R q + B2R w * B2R q + B2R w * B2R p - 0)
    + 9 * u * (Rabs (B2R s) * (Rabs (B2R p) + Rabs (B2R q) + Rabs (B2R q)) + Rabs (B2R w) * (Rabs (B2R q) + Rabs (B2R p) + Rabs (B2R q)) + Rabs (B2R w) * (Rabs (B2R q) + Rabs (B2R q) + Rabs (B2R p))) <= 50 * u).
  { replace (B2R s * B2R p + B2R w * B2R q + B2R w * B2R q - 1) with D by (unfold D; ring). replace (B2R s * B2R q + B2R w * B2R p + B2R w * B2R q - 0) with O by (unfold O; ring). replace (B2R s * B2R q + B2R w * B2R q + B2R w * B2R p - 0) with O by (unfold O; ring). lra. }
  assert (K1 : Rabs (B2R w * B2R p + B2R s * B2R q + B2R w * B2R q - 0) + Rabs (B2R w * B2R q + B2R s * B2R p + B2R w * B2R q - 1) + Rabs (B2R w * B2R q + B2R s * B2R q + B2R w * B2R p - 0)
    + 9 * u * (Rabs (B2R w) * (Rabs (B2R p) + Rabs (B2R q) + Rabs (B2R q)) + Rabs (B2R s) * (Rabs (B2R q) + Rabs (B2R p) + Rabs (B2R q)) + Rabs (B2R w) * (Rabs (B2R q) + Rabs (B2R q) + Rabs (B2R p))) <= 50 * u).
  { replace (B2R w * B2R q + B2R s * B2R p + B2R w * B2R q - 1) with D by (unfold D; ring). replace (B2R w * B2R p + B2R s * B2R q + B2R w * B2R q - 0) with O by (unfold O; ring). replace (B2R w * B2R q + B2R s * B2R q + B2R w * B2R p - 0) with O by (unfold O; ring). lra. }
  assert (K2 : Rabs (B2R w * B2R p + B2R w * B2R q + B2R s * B2R q - 0) + Rabs (B2R w * B2R q + B2R w * B2R p + B2R s * B2R q - 0) + Rabs (B2R w * B2R q + B2R w * B2R q + B2R s * B2R p - 1)
    + 9 * u * (Rabs (B2R w) * (Rabs (B2R p) + Rabs (B2R q) + Rabs (B2R q)) + Rabs (B2R w) * (Rabs (B2R q) + Rabs (B2R p) + Rabs (B2R q)) + Rabs (B2R s) * (Rabs (B2R q) + Rabs (B2R q) + Rabs (B2R p))) <= 50 * u).
  { replace (B2R w * B2R q + B2R w * B2R q + B2R s * B2R p - 1) with D by (unfold D; ring). replace (B2R w * B2R p + B2R w * B2R q + B2R s * B2R q - 0) with O by (unfold O; ring). replace (B2R w * B2R q + B2R w * B2R p + B2R s * B2R q - 0) with O by (unfold O; ring). lra. }
  pose proof (rt_real _ _ _ _ _ _ _ _ _ _ _ _ _ _ _ _ _ _ _ _ _ _ M K0 ltac:(lra) N0 N1 N2 Ey0 By0 Ey1 By1 Ey2 By2 Ez0) as X0.
  pose proof (rt_real _ _ _ _ _ _ _ _ _ _ _ _ _ _ _ _ _ _ _ _ _ _ M K1 ltac:(lra) N0 N1 N2 Ey0 By0 Ey1 By1 Ey2 By2 Ez1) as X1.
  pose proof (rt_real _ _ _ _ _ _ _ _ _ _ _ _ _ _ _ _ _ _ _ _ _ _ M K2 ltac:(lra) N0 N1 N2 Ey0 By0 Ey1 By1 Ey2 By2 Ez2) as X2.
  replace (1 * B2R t0 + 0 * B2R t1 + 0 * B2R t2) with (B2R t0) in X0 by ring.
  replace (0 * B2R t0 + 1 * B2R t1 + 0 * B2R t2) with (B2R t1) in X1 by ring.
  replace (0 * B2R t0 + 0 * B2R t1 + 1 * B2R t2) with (B2R t2) in X2 by ring. auto.
Qed.

Lemma l3 : fin (l_ 3%dec) /\ B2R (l_ 3%dec) = 3. Proof. f32_val. Qed.
Notation fa r := (@fsub N (l_ 1%dec) (@fmul N (l_ 2%dec) r)).
Notation fi r := (@fdiv N (l_ 1%dec) (@fsub N (@fmul N (l_ 3%dec) r) (l_ 1%dec))).
Notation fs r := (@fmul N (@fsub N r (l_ 1%dec)) (fi r)).
Notation fw r := (@fmul N r (fi r)).

Lemma near_a (r : f32) (Fr : fin r) : 0 <= B2R r <= 0.2001 -> near (fa r) (1 - 2 * B2R r) (1.01 * u).
Proof.
  intros Hr. pose proof eta16 as Et. pose proof u16 as U.
  assert (M := near_mul lm _ _ _ _ _ _ 2 (B2R r) (near_v _ _ (l2 lm)) (near_self _ Fr) ltac:(rewrite Rabs_pos_eq; lra) ltac:(rewrite Rabs_pos_eq; lra) ltac:(lra)).
  assert (A := near_sub lm _ _ _ _ _ _ (1 - 2 * B2R r) (near_v _ _ (l1 lm)) M ltac:(rewrite Rabs_pos_eq; lra) ltac:(rewrite U; lra)).
  eapply near_le; [exact A|]. rewrite U in *. lra.
Qed.
Lemma inv_l x u : 0.3997 <= x <= 1 -> u = / 16777216 -> (0 + / x * (1.001 * u)) / (x - 1.001 * u) <= 6.28 * u.
Proof.
  intros H ->. assert (/ x <= 2.502). { replace 2.502 with (/ (/ 2.502)) by (field; lra). apply Rinv_le; lra. }
  apply (Rmult_le_reg_r (x - 1.001 * / 16777216)); [lra|]. unfold Rdiv at 1. rewrite Rmult_assoc, Rinv_l, Rmult_1_r by lra. assert (0.39969 <= x - 1.001 * / 16777216) by lra. 
  assert (/ x * x = 1) by (field; lra). nra.
Qed.
Lemma near_i (r : f32) (Fr : fin r) : 0 <= B2R r <= 0.2001 -> near (fi r) (1 / (3 * B2R r - 1)) (8.79 * u) /\ Rabs (1 / (3 * B2R r - 1)) <= 2.502.
Proof.
  intros Hr. pose proof eta16 as Et. pose proof u16 as U.
  assert (M := near_mul lm _ _ _ _ _ _ 3 (B2R r) (near_v _ _ l3) (near_self _ Fr) ltac:(rewrite Rabs_pos_eq; lra) ltac:(rewrite Rabs_pos_eq; lra) ltac:(lra)).
  assert (A := near_sub lm _ _ _ _ _ _ (1 - 3 * B2R r) M (near_v _ _ (l1 lm)) ltac:(rewrite Rabs_left1; lra) ltac:(rewrite U; lra)).
  apply (near_le _ _ _ (1.001 * u)) in A; [|rewrite U in *; lra].
  assert (Q : Rabs (1 / (3 * B2R r - 1)) = / (1 - 3 * B2R r)). { rewrite Rabs_left1; [field; lra|]. unfold Rdiv. rewrite Rmult_1_l. apply Rlt_le, Rinv_lt_0_compat. lra. }
  assert (B : / (1 - 3 * B2R r) <= 2.502). { replace 2.502 with (/ (/ 2.502)) by (field; lra). apply Rinv_le; lra. }
  pose proof (inv_l (1 - 3 * B2R r) u ltac:(lra) U) as I.
  assert (D := near_div lm _ _ _ _ _ _ (/ (1 - 3 * B2R r)) (1 - 3 * B2R r) (near_v _ _ (l1 lm)) A ltac:(rewrite Rabs_left1; lra) ltac:(rewrite U; lra) ltac:(rewrite Q; lra) ltac:(cbv zeta; rewrite U in *; lra)).
  split; [|rewrite Q; exact B]. eapply near_le; [exact D|]. rewrite U in *. lra.
Qed.
Lemma near_s (r : f32) (Fr : fin r) : 0 <= B2R r <= 0.2001 -> near (fs r) ((B2R r - 1) * (1 / (3 * B2R r - 1))) (13.9 * u).
Proof.
  intros Hr. pose proof eta16 as Et. pose proof u16 as U. destruct (near_i r Fr Hr) as [I Q].
  assert (A := near_sub lm _ _ _ _ _ _ (1 - B2R r) (near_self _ Fr) (near_v _ _ (l1 lm)) ltac:(rewrite Rabs_left1; lra) ltac:(rewrite ?U; lra)).
  apply (near_le _ _ _ u) in A; [|rewrite U in *; lra].
  assert (D := near_mul lm _ _ _ _ _ _ 1 2.502 A I ltac:(rewrite Rabs_left1; lra) Q ltac:(rewrite U; lra)).
  eapply near_le; [exact D|]. rewrite U in *. lra.
Qed.
Lemma near_w (r : f32) (Fr : fin r) : 0 <= B2R r <= 0.2001 -> near (fw r) (B2R r * (1 / (3 * B2R r - 1))) (2.3 * u).
Proof.
  intros Hr. pose proof eta16 as Et. pose proof u16 as U. destruct (near_i r Fr Hr) as [I Q].
  assert (D := near_mul lm _ _ _ _ _ _ 0.2001 2.502 (near_self _ Fr) I ltac:(rewrite Rabs_pos_eq; lra) Q ltac:(rewrite U; lra)).
  eapply near_le; [exact D|]. rewrite U in *. lra.
Qed.
Lemma mixR (r a s w s0 w0 u : R) : 0 <= r <= 0.2001 -> u = / 16777216 -> s0 = (r - 1) * (1 / (3 * r - 1)) -> w0 = r * (1 / (3 * r - 1)) -> 
  Rabs (a - (1 - 2 * r)) <= 1.01 * u -> Rabs (s - s0) <= 13.9 * u -> Rabs (w - w0) <= 2.3 * u ->
  Rabs s + 2 * Rabs w <= 3.004 /\ Rabs a + 2 * Rabs r <= 1.0001 /\ Rabs (s * a + 2 * w * r - 1) + 2 * Rabs (s * r + w * a + w * r) <= 22 * u.
Proof.
  intros Hr U S0 W0 Ha Hs Hw.
  assert (I : 1 <= - (1 / (3 * r - 1)) <= 2.502). { replace (- (1 / (3 * r - 1))) with (/ (1 - 3 * r)) by (field; lra). split.
    - rewrite <- Rinv_1 at 1. apply Rinv_le; lra.
    - replace 2.502 with (/ (/ 2.502)) by (field; lra). apply Rinv_le; lra. }
  assert (S1 : Rabs s0 + 2 * Rabs w0 <= 3.00301). 
  { rewrite S0, W0. rewrite (Rabs_pos_eq ((r - 1) * _)), (Rabs_left1 (r * _)) by nra. nra. }
  assert (E1 : s0 * (1 - 2 * r) + 2 * w0 * r - 1 = 0) by (rewrite S0, W0; field; lra).
  assert (E2 : s0 * r + w0 * (1 - 2 * r) + w0 * r = 0) by (rewrite S0, W0; field; lra).
  clear S0 W0 I. set (da := a - (1 - 2 * r)) in *. set (ds := s - s0) in *. set (dw := w - w0) in *.
  replace a with (1 - 2 * r + da) by (unfold da; ring). replace s with (s0 + ds) by (unfold ds; ring). replace w with (w0 + dw) by (unfold dw; ring). clearbody da ds dw.
  rewrite U in *. pose proof (Rabs_triang s0 ds). pose proof (Rabs_triang w0 dw). pose proof (Rabs_triang (1 - 2 * r) da).
  rewrite (Rabs_pos_eq (1 - 2 * r)) in * by lra. rewrite (Rabs_pos_eq r) by lra.
  split; [lra|]. split; [lra|].
  assert (T : forall x y, Rabs (x * y) = Rabs x * Rabs y) by (intros; apply Rabs_mult).
  replace ((s0 + ds) * (1 - 2 * r + da) + 2 * (w0 + dw) * r - 1) with (ds * (1 - 2 * r) + (s0 + ds) * da + 2 * (dw * r)) by (ring_simplify; ring_simplify in E1; lra).
  replace ((s0 + ds) * r + (w0 + dw) * (1 - 2 * r + da) + (w0 + dw) * r) with (ds * r + (w0 + dw) * da + dw * (1 - r)) by (ring_simplify; ring_simplify in E2; lra).
  assert (A1 : Rabs (ds * (1 - 2 * r) + (s0 + ds) * da + 2 * (dw * r)) <= Rabs ds * (1 - 2 * r) + Rabs (s0 + ds) * Rabs da + 2 * (Rabs dw * r)).
  { eapply Rle_trans; [apply Rabs_triang|]. apply Rplus_le_compat; [eapply Rle_trans; [apply Rabs_triang|]; rewrite !T, (Rabs_pos_eq (1 - 2 * r)) by lra; lra|].
    rewrite !T, (Rabs_pos_eq 2), (Rabs_pos_eq r) by lra. lra. }
  assert (A2 : Rabs (ds * r + (w0 + dw) * da + dw * (1 - r)) <= Rabs ds * r + Rabs (w0 + dw) * Rabs da + Rabs dw * (1 - r)).
  { eapply Rle_trans; [apply Rabs_triang|]. apply Rplus_le_compat; [eapply Rle_trans; [apply Rabs_triang|]; rewrite !T, (Rabs_pos_eq r) by lra; lra|].
    rewrite !T, (Rabs_pos_eq (1 - r)) by lra. lra. }
  assert (P : (Rabs (s0 + ds) + 2 * Rabs (w0 + dw)) * Rabs da <= 3.004 * (1.01 * / 16777216)).
  { pose proof (Rabs_pos (s0 + ds)). pose proof (Rabs_pos (w0 + dw)). apply Rmult_le_compat; [lra|apply Rabs_pos|lra|lra]. }
  assert (P2 : Rabs dw * (2 * r + 2 * (1 - r)) <= 4.6 * / 16777216) by lra. lra.
Qed.
Lemma cross_cond (r : f32) (Fr : fin r) : 0 <= B2R r <= 0.2001 -> let a := B2R (fa r) in let s := B2R (fs r) in let w := B2R (fw r) in
  Rabs s + 2 * Rabs w <= 3.004 /\ Rabs a + 2 * Rabs (B2R r) <= 1.0001 /\
  Rabs (s * a + 2 * w * B2R r - 1) + 2 * Rabs (s * B2R r + w * a + w * B2R r) + 9 * u * ((Rabs s + 2 * Rabs w) * (Rabs a + 2 * Rabs (B2R r))) <= 50 * u.
Proof.
  intros Hr a s w. destruct (near_a r Fr Hr) as [_ A]. destruct (near_s r Fr Hr) as [_ S]. destruct (near_w r Fr Hr) as [_ W].
  destruct (mixR (B2R r) a s w _ _ u Hr u16 eq_refl eq_refl A S W) as (X & Y & Z). split; [exact X|]. split; [exact Y|].
  assert ((Rabs s + 2 * Rabs w) * (Rabs a + 2 * Rabs (B2R r)) <= 3.004 * 1.0001).
  { pose proof (Rabs_pos s). pose proof (Rabs_pos w). pose proof (Rabs_pos a). pose proof (Rabs_pos (B2R r)). apply Rmult_le_compat; lra. }
  rewrite u16 in *. lra.
Qed.

Theorem crosstalk_back (r : f32) (t : Vector3 f32) : fin r -> 0 <= B2R r <= 0.2001 -> allV fin t -> norm3 t <= bpow radix2 110 ->
  back t (M_apply N (M_crosstalkInvert N r) (M_apply N (M_crosstalk N r) t)) /\
  back t (M_apply N (M_crosstalk N r) (M_apply N (M_crosstalkInvert N r) t)).
Proof.
  intros Fr Hr Ft HM. destruct (near_a r Fr Hr) as [Fa _]. destruct (near_s r Fr Hr) as [Fs _]. destruct (near_w r Fr Hr) as [Fw _].
  destruct (cross_cond r Fr Hr) as (X & Y & Z). unfold M_crosstalk, M_crosstalkInvert. cbv zeta in *.
  set (a := fa r) in *. set (s := fs r) in *. set (w := fw r) in *. clearbody a s w. split.
  - apply mix_back; try assumption; lra.
  - apply mix_back; try assumption; try lra.
    replace (B2R a * B2R s + 2 * B2R r * B2R w - 1) with (B2R s * B2R a + 2 * B2R w * B2R r - 1) by ring.
    replace (B2R a * B2R w + B2R r * B2R s + B2R r * B2R w) with (B2R s * B2R r + B2R w * B2R a + B2R w * B2R r) by ring.
    rewrite (Rmult_comm (Rabs (B2R a) + _)). exact Z.
Qed.

Theorem crosstalk_grey (r g : f32) : fin r -> 0 <= B2R r <= 0.2001 -> fin g -> Rabs (B2R g) <= bpow radix2 110 ->
  allV (fun x => near x (B2R g) (6 * u * Rabs (B2R g) + 4 * eta)) (M_apply N (M_crosstalk N r) (V3 g g g)).
Proof.
  intros Fr Hr Fg Hg. destruct (near_a r Fr Hr) as [Fa A]. destruct (cross_cond r Fr Hr) as (_ & Y & _). rewrite apply_rows.
  unfold M_crosstalk. cbv zeta in *. cbn [m0 m1 m2 m3 m4 m5 m6 m7 m8]. set (a := fa r) in *. clearbody a.
  assert (L : bpow radix2 110 * 1024 = bpow radix2 120) by (change 120%Z with (110 + 10)%Z; rewrite (bpow_plus radix2 110 10); reflexivity).
  pose proof (bpow_gt_0 radix2 110) as P110. pose proof (Rabs_pos (B2R g)) as PG.
  assert (W : forall x y z : f32, fin x -> fin y -> fin z -> Rabs (B2R x) + Rabs (B2R y) + Rabs (B2R z) <= 1.0001 -> Rabs (B2R x + B2R y + B2R z - 1) <= 1.01 * u ->
    near (V_dot N (V3 x y z) (V3 g g g)) (B2R g) (6 * u * Rabs (B2R g) + 4 * eta)).
  { intros x y z Fx Fy Fz Hs H1. destruct (row_dot lm (V3 x y z) (V3 g g g) (Rabs (B2R g))) as (F & E & _); cbn [v0 v1 v2]; try (repeat split; cbn; auto; lra); try lra.
    split; [exact F|]. unfold dotR in E. cbn [v0 v1 v2] in E.
    replace (B2R (V_dot N (V3 x y z) (V3 g g g)) - B2R g) with ((B2R (V_dot N (V3 x y z) (V3 g g g)) - (B2R x * B2R g + B2R y * B2R g + B2R z * B2R g)) + (B2R x + B2R y + B2R z - 1) * B2R g) by ring.
    eapply Rle_trans; [apply Rabs_triang|]. rewrite Rabs_mult.
    assert (Rabs (B2R x + B2R y + B2R z - 1) * Rabs (B2R g) <= 1.01 * u * Rabs (B2R g)) by (apply Rmult_le_compat_r; lra).
    assert ((Rabs (B2R x) + Rabs (B2R y) + Rabs (B2R z)) * Rabs (B2R g) <= 1.0001 * Rabs (B2R g)) by (apply Rmult_le_compat_r; lra).
    rewrite u16 in *. lra. }
  repeat split; cbn [v0 v1 v2]; apply W; auto; try lra;
    match goal with |- Rabs ?e <= _ => replace e with (B2R a - (1 - 2 * B2R r)) by ring end; exact A.
Qed.
End F.

Lemma crosstalk_white_split (lm : libm) : exists r g : f32, fin r /\ 0 <= B2R r <= 0.2001 /\ fin g /\ B2R g = 1 /\
  let t := M_apply (FN lm) (M_crosstalk (FN lm) r) (V3 g g g) in B2R (v0 t) < B2R (v2 t).
Proof.
  exists (lit 24 128 p24 p24e 0.02%dec), (lit 24 128 p24 p24e 1%dec).
  assert (F1 : fin (lit 24 128 p24 p24e 0.02%dec) /\ B2R (lit 24 128 p24 p24e 0.02%dec) = 10737418 * / 536870912) by f32_val.
  assert (F2 : fin (lit 24 128 p24 p24e 1%dec) /\ B2R (lit 24 128 p24 p24e 1%dec) = 1) by f32_val.
  destruct F1 as [F1 V1], F2 as [F2 V2]. split; [exact F1|]. split; [rewrite V1; lra|]. split; [exact F2|]. split; [exact V2|].
  intros t. assert (A : @fltb (FN lm) (v0 t) (v2 t) = true) by (vm_compute; reflexivity).
  assert (f0 : fin (v0 t)) by (vm_compute; reflexivity). assert (f2 : fin (v2 t)) by (vm_compute; reflexivity).
  rewrite (ltb_ok lm _ _ f0 f2) in A. revert A. case Rlt_bool_spec; [auto|discriminate].
Qed.
Lemma cross_case : let r := lit 24 128 p24 p24e 0.1%dec in let t := V3 (lit 24 128 p24 p24e 0.18%dec) (lit 24 128 p24 p24e (-2.5)%dec) (lit 24 128 p24 p24e 1000%dec) in
  fin r /\ 0 <= B2R r <= 0.2001 /\ allV fin t /\ norm3 t <= bpow radix2 110.
Proof.
  intros r t.
  assert (F1 : fin r /\ B2R r = 13421773 * / 134217728) by f32_val.
  assert (F2 : fin (v0 t) /\ B2R (v0 t) = 12079596 * / 67108864) by f32_val.
  assert (F3 : fin (v1 t) /\ B2R (v1 t) = -2.5) by f32_val.
  assert (F4 : fin (v2 t) /\ B2R (v2 t) = 1000) by f32_val.
  destruct F1 as [F1 V1], F2 as [F2 V2], F3 as [F3 V3'], F4 as [F4 V4].
  split; [exact F1|]. split; [rewrite V1; lra|]. split; [repeat split; assumption|].
  unfold norm3. assert (1024 <= bpow radix2 110) by (change 1024 with (bpow radix2 10); apply bpow_le; lia).
  apply Rmax_lub; [apply Rmax_lub|]; (eapply Rle_trans; [apply Req_le, f_equal; first [exact V2|exact V3'|exact V4]|]); apply Rabs_le; lra.
Qed.
