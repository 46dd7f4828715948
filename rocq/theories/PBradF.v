(** * Bradford adaptation in binary32. *)
From Coq Require Import ZArith Reals Lra Lia List Bool.
From Flocq Require Import Core IEEE754.BinarySingleNaN.
From Verif Require Import Num NumR NumF MVec MTri RTac SpecMat PMat PTri PGamut F32 PMatF PHsvF PNearF PSlogF PBlackF PGamF PGamF2.
Import ListNotations.
Local Open Scope R_scope.

(** ** Rows of matrices with a bound on the sum of the errors. *)
Definition row (x : Vector3 f32) (a : Vector3 R) (e r : R) : Prop :=
  allV fin x /\ Rabs (B2R (v0 x) - v0 a) + Rabs (B2R (v1 x) - v1 a) + Rabs (B2R (v2 x) - v2 a) <= e /\
  Rabs (v0 a) + Rabs (v1 a) + Rabs (v2 a) <= r.
Lemma row_le x a e r e' r' : row x a e r -> e <= e' -> r <= r' -> row x a e' r'.
Proof. intros (A & B & C) H1 H2. split; [exact A|]. split; lra. Qed.
Lemma row_abs x a e r : row x a e r -> Rabs (B2R (v0 x)) + Rabs (B2R (v1 x)) + Rabs (B2R (v2 x)) <= r + e.
Proof.
  intros (_ & A & B). assert (T : forall p q : R, Rabs p <= Rabs (p - q) + Rabs q).
  { intros p q. replace p with (p - q + q) at 1 by ring. apply Rabs_triang. }
  pose proof (T (B2R (v0 x)) (v0 a)). pose proof (T (B2R (v1 x)) (v1 a)). pose proof (T (B2R (v2 x)) (v2 a)). lra.
Qed.
(** one entry of the product: [p . c] against [a . b]. *)
Lemma entry_real p0 p1 p2 a0 a1 a2 c0 c1 c2 b0 b1 b2 q d : Rabs (q - (p0 * c0 + p1 * c1 + p2 * c2)) <= d ->
  Rabs (q - (a0 * b0 + a1 * b1 + a2 * b2)) <= d + (Rabs (p0 - a0) * Rabs b0 + Rabs (p1 - a1) * Rabs b1 + Rabs (p2 - a2) * Rabs b2)
    + (Rabs p0 * Rabs (c0 - b0) + Rabs p1 * Rabs (c1 - b1) + Rabs p2 * Rabs (c2 - b2)).
Proof.
  intros H. replace (q - (a0 * b0 + a1 * b1 + a2 * b2)) with
    ((q - (p0 * c0 + p1 * c1 + p2 * c2)) + ((p0 - a0) * b0 + (p1 - a1) * b1 + (p2 - a2) * b2) + (p0 * (c0 - b0) + p1 * (c1 - b1) + p2 * (c2 - b2))) by ring.
  eapply Rle_trans; [apply Rabs_triang|]. apply Rplus_le_compat; [eapply Rle_trans; [apply Rabs_triang|]; apply Rplus_le_compat; [exact H|]|]; rewrite <- !Rabs_mult; apply abs3.
Qed.
Section F.
Context (lm : libm).
Notation N := (FN lm).
Definition rows3 (B : Matrix3 f32) (b : Matrix3 R) (e r : R) : Prop :=
  row (V3 (m0 B) (m1 B) (m2 B)) (V3 (m0 b) (m1 b) (m2 b)) e r /\ row (V3 (m3 B) (m4 B) (m5 B)) (V3 (m3 b) (m4 b) (m5 b)) e r /\
  row (V3 (m6 B) (m7 B) (m8 B)) (V3 (m6 b) (m7 b) (m8 b)) e r.
Lemma row_mul x a ex rx B b eb rb : row x a ex rx -> rows3 B b eb rb -> rx + ex <= 1000 -> rb + eb <= 1000 ->
  row (V3 (V_dot N x (V3 (m0 B) (m3 B) (m6 B))) (V_dot N x (V3 (m1 B) (m4 B) (m7 B))) (V_dot N x (V3 (m2 B) (m5 B) (m8 B))))
      (V3 (v0 a * m0 b + v1 a * m3 b + v2 a * m6 b) (v0 a * m1 b + v1 a * m4 b + v2 a * m7 b) (v0 a * m2 b + v1 a * m5 b + v2 a * m8 b))
      (ex * rb + (rx + ex) * eb + 4 * u * ((rx + ex) * (rb + eb)) + 12 * eta) (rx * rb).
Proof.
  intros Rx (R0 & R1 & R2) Bx Bb. pose proof (row_abs _ _ _ _ Rx) as Ax. pose proof (row_abs _ _ _ _ R0) as A0. pose proof (row_abs _ _ _ _ R1) as A1. pose proof (row_abs _ _ _ _ R2) as A2.
  destruct Rx as (Fx & Ex & Sx), R0 as (F0 & E0 & S0), R1 as (F1 & E1 & S1), R2 as (F2 & E2 & S2).
  destruct x as [x0 x1 x2], a as [a0 a1 a2], B as [B0 B1 B2 B3 B4 B5 B6 B7 B8], b as [b0 b1 b2 b3 b4 b5 b6 b7 b8].
  unfold allV in *. cbn [v0 v1 v2 m0 m1 m2 m3 m4 m5 m6 m7 m8] in *. destruct Fx as (X0 & X1 & X2), F0 as (Y0 & Y1 & Y2), F1 as (Y3 & Y4 & Y5), F2 as (Y6 & Y7 & Y8).
  pose proof u16 as U. pose proof F32.eta_pos as E. 
  assert (P : forall z, 0 <= Rabs z) by apply Rabs_pos.
  assert (P0 := P (B2R x0)). assert (P1 := P (B2R x1)). assert (P2 := P (B2R x2)).
  assert (D : forall c0 c1 c2 : f32, fin c0 -> fin c1 -> fin c2 -> Rabs (B2R c0) <= 1000 -> Rabs (B2R c1) <= 1000 -> Rabs (B2R c2) <= 1000 ->
    let y := V_dot N (V3 x0 x1 x2) (V3 c0 c1 c2) in fin y /\
    Rabs (B2R y - (B2R x0 * B2R c0 + B2R x1 * B2R c1 + B2R x2 * B2R c2)) <= 4 * u * (Rabs (B2R x0) * Rabs (B2R c0) + Rabs (B2R x1) * Rabs (B2R c1) + Rabs (B2R x2) * Rabs (B2R c2)) + 4 * eta).
  { intros c0 c1 c2 G0 G1 G2 L0 L1 L2 y. destruct (V_dot_error lm (V3 x0 x1 x2) (V3 c0 c1 c2)) as [Fy Ey]; [repeat split; assumption..| |].
    - unfold absdot. cbn [v0 v1 v2]. rewrite !Rabs_mult. apply Rle_trans with 3000000; [|apply Rle_trans with (bpow radix2 40); [cbn; lra|apply bpow_le; lia]].
      pose proof (P (B2R c0)). pose proof (P (B2R c1)). pose proof (P (B2R c2)).
      assert (forall a b, 0 <= a <= 1000 -> 0 <= b <= 1000 -> a * b <= 1000000) by (intros; nra).
      pose proof (H2 (Rabs (B2R x0)) (Rabs (B2R c0))). pose proof (H2 (Rabs (B2R x1)) (Rabs (B2R c1))). pose proof (H2 (Rabs (B2R x2)) (Rabs (B2R c2))). lra.
    - split; [exact Fy|]. unfold absdot, dotR in Ey. cbn [v0 v1 v2] in Ey. rewrite !Rabs_mult in Ey. exact Ey. }
  assert (Q0 := P (B2R B0)). assert (Q1 := P (B2R B1)). assert (Q2 := P (B2R B2)). assert (Q3 := P (B2R B3)). assert (Q4 := P (B2R B4)). assert (Q5 := P (B2R B5)).
  assert (Q6 := P (B2R B6)). assert (Q7 := P (B2R B7)). assert (Q8 := P (B2R B8)).
  destruct (D B0 B3 B6) as [G0 H0]; try assumption; try lra. destruct (D B1 B4 B7) as [G1 H1]; try assumption; try lra. destruct (D B2 B5 B8) as [G2 H2]; try assumption; try lra.
  split; [repeat split; assumption|]. cbn [v0 v1 v2].
  apply (entry_real _ _ _ a0 a1 a2 _ _ _ b0 b3 b6) in H0. apply (entry_real _ _ _ a0 a1 a2 _ _ _ b1 b4 b7) in H1. apply (entry_real _ _ _ a0 a1 a2 _ _ _ b2 b5 b8) in H2.
  assert (K : forall w x y z, 0 <= w -> x + y + z <= rb + eb -> w * x + w * y + w * z <= w * (rb + eb)) by (intros; rewrite <- !Rmult_plus_distr_l; apply Rmult_le_compat_l; assumption).
  assert (K1 : forall w x y z, 0 <= w -> x + y + z <= rb -> w * x + w * y + w * z <= w * rb) by (intros; rewrite <- !Rmult_plus_distr_l; apply Rmult_le_compat_l; assumption).
  assert (K2 : forall w x y z, 0 <= w -> x + y + z <= eb -> w * x + w * y + w * z <= w * eb) by (intros; rewrite <- !Rmult_plus_distr_l; apply Rmult_le_compat_l; assumption).
  pose proof (K _ _ _ _ P0 A0) as T0. pose proof (K _ _ _ _ P1 A1) as T1. pose proof (K _ _ _ _ P2 A2) as T2.
  pose proof (K1 _ _ _ _ (P (B2R x0 - a0)) S0) as T3. pose proof (K1 _ _ _ _ (P (B2R x1 - a1)) S1) as T4. pose proof (K1 _ _ _ _ (P (B2R x2 - a2)) S2) as T5.
  pose proof (K2 _ _ _ _ P0 E0) as T6. pose proof (K2 _ _ _ _ P1 E1) as T7. pose proof (K2 _ _ _ _ P2 E2) as T8.
  pose proof (K1 _ _ _ _ (P a0) S0) as T9. pose proof (K1 _ _ _ _ (P a1) S1) as T10. pose proof (K1 _ _ _ _ (P a2) S2) as T11.
  assert (B0' : 0 <= rb) by (pose proof (P b0); pose proof (P b1); pose proof (P b2); lra).
  assert (E0' : 0 <= eb) by (pose proof (P (B2R B0 - b0)); pose proof (P (B2R B1 - b1)); pose proof (P (B2R B2 - b2)); lra).
  split.
  - assert (Z1 : (Rabs (B2R x0) + Rabs (B2R x1) + Rabs (B2R x2)) * (rb + eb) <= (rx + ex) * (rb + eb)) by (apply Rmult_le_compat_r; lra).
    assert (Z2 : (Rabs (B2R x0 - a0) + Rabs (B2R x1 - a1) + Rabs (B2R x2 - a2)) * rb <= ex * rb) by (apply Rmult_le_compat_r; lra).
    assert (Z3 : (Rabs (B2R x0) + Rabs (B2R x1) + Rabs (B2R x2)) * eb <= (rx + ex) * eb) by (apply Rmult_le_compat_r; lra).
    apply (Rmult_le_compat_l (4 * u)) in Z1; [|lra].
    apply (Rmult_le_compat_l (4 * u)) in T0, T1, T2; [|lra..]. lra.
  - assert (Z1 : (Rabs a0 + Rabs a1 + Rabs a2) * rb <= rx * rb) by (apply Rmult_le_compat_r; lra).
    pose proof (abs3 (a0 * b0) (a1 * b3) (a2 * b6)) as W0. pose proof (abs3 (a0 * b1) (a1 * b4) (a2 * b7)) as W1. pose proof (abs3 (a0 * b2) (a1 * b5) (a2 * b8)) as W2.
    rewrite !Rabs_mult in W0, W1, W2. lra.
Qed.
Lemma rows_mul A a ea ra B b eb rb : rows3 A a ea ra -> rows3 B b eb rb -> ra + ea <= 1000 -> rb + eb <= 1000 ->
  rows3 (M_mul N A B) (mulR a b) (ea * rb + (ra + ea) * eb + 4 * u * ((ra + ea) * (rb + eb)) + 12 * eta) (ra * rb).
Proof.
  intros (R0 & R1 & R2) RB Ba Bb.
  pose proof (row_mul _ _ _ _ _ _ _ _ R0 RB Ba Bb) as S0. pose proof (row_mul _ _ _ _ _ _ _ _ R1 RB Ba Bb) as S1. pose proof (row_mul _ _ _ _ _ _ _ _ R2 RB Ba Bb) as S2.
  destruct A, B, a, b. exact (conj S0 (conj S1 S2)).
Qed.
Lemma row_apply x a e r K (t : Vector3 f32) : row x a e r -> r + e <= 1000 -> e + 4 * u * (r + e) <= K * u -> allV fin t -> norm3 t <= bpow radix2 110 ->
  fin (V_dot N x t) /\ Rabs (B2R (V_dot N x t) - (v0 a * B2R (v0 t) + v1 a * B2R (v1 t) + v2 a * B2R (v2 t))) <= K * u * norm3 t + 4 * eta.
Proof.
  intros R B HK Ft HM. pose proof (row_abs _ _ _ _ R) as Ax. destruct R as (Fx & Ex & Sx). destruct (norm3_ge t) as (N0 & N1 & N2). set (M := norm3 t) in *. clearbody M.
  pose proof u16 as U. destruct (V_dot_error lm x t Fx Ft) as [Fy Ey].
  - unfold absdot. rewrite !Rabs_mult. apply Rle_trans with (1000 * bpow radix2 110).
    + pose proof (Rabs_pos (B2R (v0 t))). pose proof (Rabs_pos (B2R (v1 t))). pose proof (Rabs_pos (B2R (v2 t))).
      pose proof (Rabs_pos (B2R (v0 x))). pose proof (Rabs_pos (B2R (v1 x))). pose proof (Rabs_pos (B2R (v2 x))).
      apply Rle_trans with ((Rabs (B2R (v0 x)) + Rabs (B2R (v1 x)) + Rabs (B2R (v2 x))) * bpow radix2 110).
      * rewrite !Rmult_plus_distr_r. repeat apply Rplus_le_compat; apply Rmult_le_compat_l; first [apply Rabs_pos | eapply Rle_trans; eassumption].
      * apply Rmult_le_compat_r; [apply bpow_ge_0|lra].
    + change 126%Z with (16 + 110)%Z. rewrite bpow_plus. apply Rmult_le_compat_r; [apply bpow_ge_0|cbn; lra].
  - split; [exact Fy|]. unfold absdot, dotR in Ey. rewrite !Rabs_mult in Ey.
    apply (qrow_real (B2R (v0 x)) (B2R (v1 x)) (B2R (v2 x)) _ _ _ _ _ _ K M); [|assumption..].
    assert (4 * u * (Rabs (B2R (v0 x)) + Rabs (B2R (v1 x)) + Rabs (B2R (v2 x))) <= 4 * u * (r + e)) by (apply Rmult_le_compat_l; lra). lra.
Qed.
Lemma rows_apply A a e r K (t : Vector3 f32) : rows3 A a e r -> r + e <= 1000 -> e + 4 * u * (r + e) <= K * u -> allV fin t -> norm3 t <= bpow radix2 110 ->
  near_app K (M_apply N A t) (applyR a (vR t)) (norm3 t).
Proof.
  intros (R0 & R1 & R2) B HK Ft HM.
  destruct (row_apply _ _ _ _ K t R0 B HK Ft HM) as [F0 E0]. destruct (row_apply _ _ _ _ K t R1 B HK Ft HM) as [F1 E1]. destruct (row_apply _ _ _ _ K t R2 B HK Ft HM) as [F2 E2].
  rewrite apply_rows. split; [repeat split; assumption|]. destruct a, t. exact (conj E0 (conj E1 E2)).
Qed.

(** ** The cone matrix and its inverse. *)
Lemma near_e (x : f32) r k : near x r (k * u) -> fin x /\ Rabs (B2R x - r) <= k * u.
Proof. intros [A B]. now split. Qed.
Lemma row3 (x y z : f32) a b c i j k e r : near x a (i * u) -> near y b (j * u) -> near z c (k * u) -> (i + j + k) * u <= e ->
  Rabs a + Rabs b + Rabs c <= r -> row (V3 x y z) (V3 a b c) e r.
Proof. intros [A A'] [B B'] [C C'] H R. split; [repeat split; assumption|]. cbn [v0 v1 v2]. split; [lra|exact R]. Qed.
Ltac abs_num := repeat match goal with |- context [Rabs ?x] => first [rewrite (Rabs_pos_eq x) by lra | rewrite (Rabs_left1 x) by lra] end.
Lemma LMS_from : rows3 (g_fromXYZ (LMS N)) bradR (0.86 * u) 2.501.
Proof.
  pose proof u16 as U. unfold rows3, bradR. cbn [m0 m1 m2 m3 m4 m5 m6 m7 m8]. split; [|split].
  - eapply (row3 _ _ _ _ _ _ 0.05 0.16 0.09); [flit_near..|rewrite U; lra|abs_num; lra].
  - eapply (row3 _ _ _ _ _ _ 0.45 0.39 0.02); [flit_near..|rewrite U; lra|abs_num; lra].
  - eapply (row3 _ _ _ _ _ _ 0.02 0.05 0.41); [flit_near..|rewrite U; lra|abs_num; lra].
Qed.
Lemma LMS_to : rows3 (g_toXYZ (LMS N)) (invR bradR) (1.13 * u) 1.295.
Proof.
  pose proof u16 as U. rewrite brad_inv_qR. unfold rows3, qR. let q := eval vm_compute in brad_inv_q in change brad_inv_q with q. cbn [qn qd0 qd1 qd2 m0 m1 m2 m3 m4 m5 m6 m7 m8]. split; [|split].
  - eapply (row3 _ _ _ _ _ _ 0.84 0.23 0.05); [flit_near..|rewrite U; lra|abs_num; lra].
  - eapply (row3 _ _ _ _ _ _ 0.12 0.25 0.03); [flit_near..|rewrite U; lra|abs_num; lra].
  - eapply (row3 _ _ _ _ _ _ 0.05 0.01 0.52); [flit_near..|rewrite U; lra|abs_num; lra].
Qed.
Lemma cone_near (s : Vector3 f32) : allV fin s -> norm3 s <= 1.25 ->
  let l := G_fromXYZ_t N (LMS N) s in let c := cone (vR s) in
  near (v0 l) (v0 c) (13.7 * u) /\ near (v1 l) (v1 c) (13.7 * u) /\ near (v2 l) (v2 c) (13.7 * u) /\
  Rabs (v0 c) <= 3.13 /\ Rabs (v1 c) <= 3.13 /\ Rabs (v2 c) <= 3.13.
Proof.
  intros F H. pose proof u16 as U. pose proof eta_sharp as E. unfold G_fromXYZ_t, cone.
  destruct (rows_apply _ _ _ _ 10.87 s LMS_from) as ((F0 & F1 & F2) & A0 & A1 & A2).
  - rewrite U; lra.
  - rewrite U; lra.
  - exact F.
  - eapply Rle_trans; [exact H|]. apply Rle_trans with (bpow radix2 1); [cbn; lra|apply bpow_le; lia].
  - assert (L : 10.87 * u * norm3 s + 4 * eta <= 13.7 * u) by (rewrite U in *; nra).
    assert (NN : forall x : f32, forall r, fin x -> Rabs (B2R x - r) <= 10.87 * u * norm3 s + 4 * eta -> near x r (13.7 * u)) by (intros x r G K; split; [exact G|lra]).
    destruct (norm3_ge s) as (N0 & N1 & N2).
    assert (S : forall a b c, Rabs a + Rabs b + Rabs c <= 2.501 -> Rabs (a * v0 (vR s) + b * v1 (vR s) + c * v2 (vR s)) <= 3.13).
    { intros a b c K. eapply Rle_trans; [apply abs3|]. rewrite !Rabs_mult. unfold vR; cbn [v0 v1 v2].
      assert (J : forall p q, Rabs q <= norm3 s -> Rabs p * Rabs q <= Rabs p * 1.25) by (intros p q J; apply Rmult_le_compat_l; [apply Rabs_pos|lra]).
      eapply Rle_trans; [apply Rplus_le_compat; [apply Rplus_le_compat; [exact (J a _ N0)|exact (J b _ N1)]|exact (J c _ N2)]|lra]. }
    destruct LMS_from as ((_ & _ & R0) & (_ & _ & R1) & (_ & _ & R2)).
    split; [apply NN; assumption|]. split; [apply NN; assumption|]. split; [apply NN; assumption|].
    split; [apply S; exact R0|]. split; [apply S; exact R1|apply S; exact R2].
Qed.

(** ** The scale factors; [k] is the reciprocal of the smallest cone response of the source white. *)
Lemma ratio_near (x y : f32) rx ry k : near x rx (13.7 * u) -> near y ry (13.7 * u) -> Rabs rx <= 3.13 -> 1 <= k <= 4 -> / k <= ry ->
  near (@fdiv N x y) (rx / ry) (60 * u * (k * k)) /\ Rabs (rx / ry) <= 3.13 * k.
Proof.
  intros Hx Hy R K M. pose proof u16 as U. pose proof eta_sharp as E. pose proof F32.eta_pos as E0.
  assert (IK : / k * k = 1) by (apply Rinv_l; lra). assert (MK : / 4 <= / k) by (apply Rinv_le; lra). set (m := / k) in *.
  assert (Q : Rabs (rx / ry) <= 3.13 * k).
  { unfold Rdiv. rewrite Rabs_mult, Rabs_inv, (Rabs_pos_eq ry) by lra. apply Rmult_le_compat; [apply Rabs_pos|apply Rlt_le, Rinv_0_lt_compat; lra|exact R|].
    replace k with (/ m) by (unfold m; apply Rinv_inv). apply Rinv_le; lra. }
  split; [|exact Q].
  assert (D : (13.7 * u + 3.13 * k * (13.7 * u)) / (m - 13.7 * u) <= 56.7 * u * (k * k)).
  { apply Rmult_le_reg_r with (m - 13.7 * u); [rewrite U; lra|]. unfold Rdiv. rewrite Rmult_assoc, Rinv_l by (rewrite U; lra).
    replace (56.7 * u * (k * k) * (m - 13.7 * u)) with (56.7 * u * (k * (m * k)) - 56.7 * u * (13.7 * u) * (k * k)) by ring. rewrite IK, U. nra. }
  assert (KK : 1 <= k * k <= 16) by nra. assert (KK' : k <= k * k) by nra.
  eapply near_le; [apply (near_div lm _ _ rx ry (13.7 * u) (13.7 * u) (3.13 * k) m Hx Hy)|].
  - rewrite Rabs_pos_eq; lra.
  - rewrite U; lra.
  - exact Q.
  - cbv zeta. set (e := (13.7 * u + 3.13 * k * (13.7 * u)) / (m - 13.7 * u)) in *. rewrite U in *; lra.
  - cbv zeta. set (e := (13.7 * u + 3.13 * k * (13.7 * u)) / (m - 13.7 * u)) in *. rewrite U in *; lra.
Qed.
Lemma zero_ok : fin (@fofZ N 0) /\ B2R (@fofZ N 0) = 0. Proof. now split. Qed.
Lemma diag_rows (x y z : f32) a b c e r : near x a e -> near y b e -> near z c e -> Rabs a <= r -> Rabs b <= r -> Rabs c <= r ->
  rows3 (M_diag N (V3 x y z)) (diagR (V3 a b c)) e r.
Proof.
  intros [A A'] [B B'] [C C'] Ra Rb Rc. destruct zero_ok as [F0 V0]. unfold rows3, row, diagR. spec. cbn.
  change (B2R (@fofZ N 0)) with (B2R (@fofZ N 0)) in *.
  repeat split; try assumption; try exact F0; rewrite ?Rminus_0_r, ?Rabs_R0; try lra.
Qed.
Lemma Bradford_rows (s d : Vector3 f32) k : allV fin s -> allV fin d -> norm3 s <= 1.25 -> norm3 d <= 1.25 -> 1 <= k <= 4 ->
  / k <= v0 (cone (vR s)) -> / k <= v1 (cone (vR s)) -> / k <= v2 (cone (vR s)) ->
  rows3 (Bradford N s d) (bradford (vR s) (vR d)) (290 * u * (k * k)) (10.14 * k).
Proof.
  intros Fs Fd Hs Hd K C0 C1 C2. pose proof u16 as U. pose proof eta_sharp as E.
  destruct (cone_near s Fs Hs) as (S0 & S1 & S2 & _). destruct (cone_near d Fd Hd) as (D0 & D1 & D2 & B0 & B1 & B2).
  destruct (ratio_near _ _ _ _ k D0 S0 B0 K C0) as [N0 Q0]. destruct (ratio_near _ _ _ _ k D1 S1 B1 K C1) as [N1 Q1]. destruct (ratio_near _ _ _ _ k D2 S2 B2 K C2) as [N2 Q2].
  pose proof (diag_rows _ _ _ _ _ _ _ _ N0 N1 N2 Q0 Q1 Q2) as D.
  assert (KK : 1 <= k * k <= 16) by nra. assert (KK' : k <= k * k) by nra.
  pose proof (rows_mul _ _ _ _ _ _ _ _ LMS_to D) as P. assert (P' : rows3 (M_mul N (g_toXYZ (LMS N)) (M_diag N (V3 (@fdiv N (v0 (G_fromXYZ_t N (LMS N) d)) (v0 (G_fromXYZ_t N (LMS N) s)))
     (@fdiv N (v1 (G_fromXYZ_t N (LMS N) d)) (v1 (G_fromXYZ_t N (LMS N) s))) (@fdiv N (v2 (G_fromXYZ_t N (LMS N) d)) (v2 (G_fromXYZ_t N (LMS N) s))))))
     (mulR (invR bradR) (diagR (V3 (v0 (cone (vR d)) / v0 (cone (vR s))) (v1 (cone (vR d)) / v1 (cone (vR s))) (v2 (cone (vR d)) / v2 (cone (vR s)))))) (98 * u * (k * k)) (4.054 * k)).
  { destruct P as (P0 & P1 & P2); [rewrite U; lra..|].
    assert (L : 1.13 * u * (3.13 * k) + (1.295 + 1.13 * u) * (60 * u * (k * k)) + 4 * u * ((1.295 + 1.13 * u) * (3.13 * k + 60 * u * (k * k))) + 12 * eta <= 98 * u * (k * k)) by (rewrite U in *; nra).
    split; [|split]; (eapply row_le; [eassumption|exact L|lra]). }
  clear P D. pose proof (rows_mul _ _ _ _ _ _ _ _ P' LMS_from) as R.
  assert (L : 98 * u * (k * k) * 2.501 + (4.054 * k + 98 * u * (k * k)) * (0.86 * u) + 4 * u * ((4.054 * k + 98 * u * (k * k)) * (2.501 + 0.86 * u)) + 12 * eta <= 290 * u * (k * k)) by (rewrite U in *; nra).
  destruct R as (R0 & R1 & R2); [rewrite U; lra..|].
  split; [|split]; (eapply row_le; [eassumption|exact L|lra]).
Qed.
Lemma Bradford_near (s d t : Vector3 f32) k : allV fin s -> allV fin d -> norm3 s <= 1.25 -> norm3 d <= 1.25 -> 1 <= k <= 4 ->
  / k <= v0 (cone (vR s)) -> / k <= v1 (cone (vR s)) -> / k <= v2 (cone (vR s)) -> allV fin t -> norm3 t <= bpow radix2 110 ->
  exists e, M_apply RN (Bradford RN (finV (vR s)) (finV (vR d))) (finV (vR t)) = finV e /\
    near_app (332 * (k * k)) (M_apply N (Bradford N s d) t) e (norm3 t).
Proof.
  intros Fs Fd Hs Hd K C0 C1 C2 Ft HM. pose proof u16 as U.
  assert (P : 0 < / k) by (apply Rinv_0_lt_compat; lra). assert (KK : 1 <= k * k <= 16) by nra. assert (KK' : k <= k * k) by nra.
  exists (applyR (bradford (vR s) (vR d)) (vR t)). split.
  - rewrite Bradford_fin by (unfold nzV; repeat split; apply Rgt_not_eq; lra). apply M_apply_fin.
  - apply (rows_apply _ _ (290 * u * (k * k)) (10.14 * k)); auto using Bradford_rows.
    + rewrite U; lra.
    + rewrite U; nra.
Qed.
End F.

Lemma Bradford_binary32 (lm : libm) (s d : Vector3 f32) (m : R) : 0.25 <= m <= 1 ->
  allV fin s -> allV fin d -> norm3 s <= 1.25 -> norm3 d <= 1.25 ->
  m <= v0 (cone (vR s)) -> m <= v1 (cone (vR s)) -> m <= v2 (cone (vR s)) ->
  (forall t, allV fin t -> norm3 t <= bpow radix2 110 ->
    exists e, M_apply RN (Bradford RN (finV (vR s)) (finV (vR d))) (finV (vR t)) = finV e /\
      near_app (332 / (m * m)) (M_apply (FN lm) (Bradford (FN lm) s d) t) e (norm3 t)) /\
  near_app (332 / (m * m)) (M_apply (FN lm) (Bradford (FN lm) s d) s) (vR d) (norm3 s).
Proof.
  intros M Fs Fd Hs Hd C0 C1 C2.
  assert (A : forall t, allV fin t -> norm3 t <= bpow radix2 110 ->
    exists e, M_apply RN (Bradford RN (finV (vR s)) (finV (vR d))) (finV (vR t)) = finV e /\
      near_app (332 / (m * m)) (M_apply (FN lm) (Bradford (FN lm) s d) t) e (norm3 t)).
  { intros t Ft HM. replace (332 / (m * m)) with (332 * (/ m * / m)) by (field; lra). apply Bradford_near; try assumption.
    - split; [rewrite <- Rinv_1; apply Rinv_le; lra|]. replace 4 with (/ 0.25) by lra. apply Rinv_le; lra.
    - rewrite Rinv_inv; assumption.
    - rewrite Rinv_inv; assumption.
    - rewrite Rinv_inv; assumption. }
  split; [exact A|]. destruct (A s Fs) as (e & E & R).
  - eapply Rle_trans; [exact Hs|]. apply Rle_trans with (bpow radix2 1); [cbn; lra|apply bpow_le; lia].
  - assert (X : finV e = finV (vR d)).
    { rewrite <- E. rewrite Bradford_fin by (unfold nzV; repeat split; apply Rgt_not_eq; lra). rewrite M_apply_fin. f_equal. apply brad_maps. unfold nzV; repeat split; apply Rgt_not_eq; lra. }
    assert (e = vR d) as <-; [|exact R]. destruct e, (vR d). unfold finV in X. cbn in X. now injection X as -> -> ->.
Qed.
Lemma Bradford_case (lm : libm) : let s : Vector3 f32 := Illuminant_A (FN lm) in let d : Vector3 f32 := Illuminant_D65 (FN lm) in
  allV fin s /\ allV fin d /\ norm3 s <= 1.25 /\ norm3 d <= 1.25 /\
  0.3 <= v0 (cone (vR s)) /\ 0.3 <= v1 (cone (vR s)) /\ 0.3 <= v2 (cone (vR s)).
Proof.
  intros s d. pose proof u16 as U.
  assert (A0 : PNearF.near (v0 s) 1.0985 (1 * u)) by flit_near. assert (A1 : PNearF.near (v1 s) 1 (1 * u)) by flit_near. assert (A2 : PNearF.near (v2 s) 0.35585 (1 * u)) by flit_near.
  assert (B0 : PNearF.near (v0 d) 0.95047 (1 * u)) by flit_near. assert (B1 : PNearF.near (v1 d) 1 (1 * u)) by flit_near. assert (B2 : PNearF.near (v2 d) 1.08883 (1 * u)) by flit_near.
  destruct A0 as [F0 V0], A1 as [F1 V1], A2 as [F2 V2], B0 as [G0 W0], B1 as [G1 W1], B2 as [G2 W2].
  apply Rabs_le_inv in V0, V1, V2, W0, W1, W2. clearbody s d. rewrite U in *.
  split; [repeat split; assumption|]. split; [repeat split; assumption|]. split; [|split].
  - unfold norm3. rewrite !Rabs_pos_eq by lra. repeat apply Rmax_lub; lra.
  - unfold norm3. rewrite !Rabs_pos_eq by lra. repeat apply Rmax_lub; lra.
  - destruct s as [s0 s1 s2]. cbn [v0 v1 v2] in *. unfold cone, applyR, bradR, vR. spec. cbn [v0 v1 v2]. repeat split; lra.
Qed.
