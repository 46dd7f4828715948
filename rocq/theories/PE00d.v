(** * The CIE 2000 difference jumps where the hues are opposite. *)
From Coq Require Import ZArith Reals Lra Lia List Bool.
From Flocq Require Import Core.Raux.
From Verif Require Import Num NumR MVec MDelta RTac SpecDelta PE00 PE00b PE00c PHsvA.
Local Open Scope R_scope.

Lemma cos_lip x y : Rabs (cos x - cos y) <= Rabs (x - y).
Proof.
  rewrite form2. rewrite !Rabs_mult. assert (A : Rabs (-2) = 2) by (rewrite Rabs_left; lra). rewrite A.
  assert (S : forall z, Rabs (sin z) <= Rabs z).
  { intros z. destruct (Rle_dec 0 z) as [P|P].
    - rewrite (Rabs_pos_eq z) by exact P. apply Rabs_le. pose proof (SIN_bound z). destruct (Rle_dec z 1).
      + pose proof (sin_le_x z P). assert (0 <= sin z) by (apply sin_ge_0; [lra|]; pose proof PI2_1; lra). lra.
      + lra.
    - rewrite (Rabs_left z) by lra. apply Rabs_le. pose proof (SIN_bound z). destruct (Rle_dec (-1) z).
      + pose proof (sin_le_x (- z) ltac:(lra)) as H1. rewrite sin_neg in H1. assert (0 <= sin (- z)) by (apply sin_ge_0; [lra|]; pose proof PI2_1; lra). rewrite sin_neg in *. lra.
      + lra. }
  pose proof (S ((x - y) / 2)) as H. pose proof (SIN_bound ((x + y) / 2)) as B. assert (B' : Rabs (sin ((x + y) / 2)) <= 1) by (apply Rabs_le; lra).
  assert (E : Rabs (x - y) = 2 * Rabs ((x - y) / 2)). { unfold Rdiv. rewrite Rabs_mult, (Rabs_pos_eq (/ 2)) by lra. lra. }
  rewrite E. pose proof (Rabs_pos (sin ((x - y) / 2))). pose proof (Rabs_pos (sin ((x + y) / 2))). nra.
Qed.
Lemma cosd_lip x y e : Rabs (x - y) <= e -> Rabs (cosd x - cosd y) <= 0.0175 * e.
Proof.
  intros H. unfold cosd. apply Rle_trans with (1 := cos_lip _ _). pose proof PI_bounds as (P0 & P1). replace (x * PI / 180 - y * PI / 180) with ((x - y) * (PI / 180)) by field.
  rewrite Rabs_mult, (Rabs_pos_eq (PI / 180)) by lra. pose proof (Rabs_pos (x - y)). nra.
Qed.
Lemma cosd_60 : cosd 60 = 1 / 2. Proof. unfold cosd. replace (60 * PI / 180) with (PI / 3) by field. apply cos_PI3. Qed.
Lemma cosd_180 x : cosd (x + 180) = - cosd x.
Proof. unfold cosd. replace ((x + 180) * PI / 180) with (x * PI / 180 + PI) by field. apply neg_cos. Qed.
Lemma cosd_0 : cosd 0 = 1. Proof. unfold cosd. replace (0 * PI / 180) with 0 by field. apply cos_0. Qed.
Lemma cosd_neg x : cosd (- x) = cosd x.
Proof. unfold cosd. replace (- x * PI / 180) with (- (x * PI / 180)) by field. apply cos_neg. Qed.
Lemma cosd_96 : - 0.105 <= cosd 96 <= 0.
Proof.
  unfold cosd. replace (96 * PI / 180) with (PI / 2 + PI / 30) by field. rewrite cos_plus, cos_PI2, sin_PI2, Rmult_0_l, Rmult_1_l. pose proof PI_bounds as (P0 & P1).
  pose proof (sin_le_x (PI / 30) ltac:(lra)). assert (0 <= sin (PI / 30)) by (apply sin_ge_0; lra). lra.
Qed.
Lemma cosd_63 : 0.39 <= cosd 63.
Proof.
  unfold cosd. pose proof PI_bounds as (P0 & P1). replace (63 * PI / 180) with (2 * (63 * PI / 360)) by field. rewrite cos_2a_sin.
  assert (0 <= 63 * PI / 360 <= 0.55) by lra. pose proof (sin_le_x (63 * PI / 360) ltac:(lra)). assert (0 <= sin (63 * PI / 360)) by (apply sin_ge_0; lra). nra.
Qed.
Lemma TR_90 e : 0 <= e <= 0.001 -> TR (90 - e) <= 0.632 /\ TR (270 + e) <= 0.768 /\ 0.1025 <= TR (270 + e) - TR (90 - e).
Proof.
  intros E. unfold TR.
  pose proof (cosd_lip (90 - e - 30) 60 e ltac:(apply Rabs_le; lra)) as A1. pose proof (cosd_lip (2 * (90 - e)) (0 + 180) (2 * e) ltac:(apply Rabs_le; lra)) as A2.
  pose proof (cosd_lip (3 * (90 - e) + 6) (96 + 180) (3 * e) ltac:(apply Rabs_le; lra)) as A3. pose proof (cosd_lip (4 * (90 - e) - 63) (- 63 + 360) (4 * e) ltac:(apply Rabs_le; lra)) as A4.
  pose proof (cosd_lip (270 + e - 30) (60 + 180) e ltac:(apply Rabs_le; lra)) as B1. pose proof (cosd_lip (2 * (270 + e)) (0 + 180 + 360) (2 * e) ltac:(apply Rabs_le; lra)) as B2.
  pose proof (cosd_lip (3 * (270 + e) + 6) (96 + 360 + 360) (3 * e) ltac:(apply Rabs_le; lra)) as B3. pose proof (cosd_lip (4 * (270 + e) - 63) (- 63 + 360 + 360 + 360) (4 * e) ltac:(apply Rabs_le; lra)) as B4.
  assert (M : cosd (-63) = cosd 63) by (rewrite <- cosd_neg; f_equal; lra). rewrite ?cosd_360, ?cosd_180, ?cosd_360, ?cosd_60, ?cosd_0, ?M in *. pose proof cosd_96. pose proof cosd_63.
  apply Rabs_le_inv in A1, A2, A3, A4, B1, B2, B3, B4. lra.
Qed.
(** the hues of two colours opposite to the positive axis. *)
Lemma opp_hues A y : 0 < A -> 0 < y -> let d := atan (y / A) * 180 / PI in 0 < d /\ d <= 58 * (y / A) /\
  cie_hue A 0 = 0 /\ (d < 90 -> cie_hue (- A) y = 180 - d /\ cie_hue (- A) (- y) = 180 + d).
Proof.
  intros HA HY d. pose proof PI_bounds as (P0 & P1). assert (Q : 0 < y / A) by (now apply Rdiv_lt_0_compat).
  assert (T : 0 < atan (y / A)) by (rewrite <- atan_0; now apply atan_increasing).
  assert (U : atan (y / A) <= y / A).
  { destruct (MVT_cor2 atan (fun x => / (1 + x ^ 2)) 0 (y / A) Q) as (c & E & _); [intros; apply derivable_pt_lim_atan|]. rewrite atan_0 in E.
    assert (I : / (1 + c ^ 2) <= 1). { rewrite <- Rinv_1 at 2. apply Rinv_le_contravar; [lra|]. pose proof (pow2_ge_0 c). lra. }
    assert (/ (1 + c ^ 2) * (y / A - 0) <= 1 * (y / A - 0)) by (apply Rmult_le_compat_r; lra). lra. }
  split; [unfold d; apply Rdiv_lt_0_compat; lra|]. split.
  { unfold d. apply Rmult_le_reg_r with PI; [lra|]. unfold Rdiv at 1. rewrite Rmult_assoc, Rinv_l by lra. nra. }
  split.
  { unfold cie_hue, R_atan2. rewrite Rlt_bool_true by lra. replace (0 / A) with 0 by (field; lra). rewrite atan_0. replace (0 * 180 / PI) with 0 by (field; lra). destruct (Rlt_dec 0 0); lra. }
  intros D. unfold cie_hue, R_atan2. rewrite (Rlt_bool_false 0 (- A)), (Rlt_bool_true (- A) 0), (Rle_bool_true 0 y), (Rle_bool_false 0 (- y)) by lra.
  replace (y / - A) with (- (y / A)) by (field; lra). replace (- y / - A) with (y / A) by (field; lra). rewrite atan_opp.
  replace ((- atan (y / A) + PI) * 180 / PI) with (180 - d) by (unfold d; field; lra). replace ((atan (y / A) - PI) * 180 / PI) with (d - 180) by (unfold d; field; lra).
  split; [destruct (Rlt_dec (180 - d) 0); lra|destruct (Rlt_dec (d - 180) 0); lra].
Qed.

(** the value for equal lightness as a function of the mean hue and of the sign of the hue difference. *)
Definition e00h (C1 C2 h dH : R) : R :=
  let Cm := (C1 + C2) / 2 in let y := (C2 - C1) / (1 + 0.045 * Cm) in let z := dH / (1 + 0.015 * Cm * TR h) in
  y ^ 2 + z ^ 2 + rtR h Cm * y * z.
Lemma sqrt_ge x y : 0 <= x -> x ^ 2 <= y -> x <= sqrt y.
Proof. intros X H. rewrite <- (sqrt_pow2 x X). now apply sqrt_le_1_alt. Qed.
Lemma sqrt_le' x y : 0 <= x -> y <= x ^ 2 -> sqrt y <= x.
Proof. intros X H. rewrite <- (sqrt_pow2 x X). now apply sqrt_le_1_alt. Qed.
Lemma jump_val C1 C2 e s : 50 <= C1 <= 75 -> C1 <= C2 <= C1 + 0.00001 -> 0 <= e <= 0.001 -> 0.999 <= s <= 1 ->
  let dH := 2 * sqrt (C1 * C2) * s in
  3 < sqrt (e00h C1 C2 (90 - e) dH) - sqrt (e00h C1 C2 (270 + e) (- dH)).
Proof.
  intros HC1 HC2 HE HS dH. destruct (TR_90 e HE) as (T1 & T2 & TD). pose proof (TR_range (90 - e)) as (T3 & _). pose proof (TR_range (270 + e)) as (T4 & _).
  unfold e00h. cbv zeta. set (Cm := (C1 + C2) / 2). assert (HCm : C1 <= Cm <= C1 + 0.00001) by (unfold Cm; lra).
  pose proof (rtR_range (90 - e) Cm ltac:(lra)) as R1. pose proof (rtR_range (270 + e) Cm ltac:(lra)) as R2.
  set (y := (C2 - C1) / (1 + 0.045 * Cm)). assert (Y : 0 <= y <= 0.00001).
  { unfold y. split; [apply Rmult_le_pos; [lra|]; apply Rlt_le, Rinv_0_lt_compat; lra|]. apply Rmult_le_reg_r with (1 + 0.045 * Cm); [lra|]. unfold Rdiv. rewrite Rmult_assoc, Rinv_l by lra. nra. }
  assert (SQ : C1 <= sqrt (C1 * C2)) by (apply sqrt_ge; [lra|nra]).
  assert (DH : 1.997 * Cm <= dH). { unfold dH. assert (C1 * 0.999 <= sqrt (C1 * C2) * s) by (apply Rmult_le_compat; lra). lra. }
  set (T := TR (90 - e)) in *. set (T' := TR (270 + e)) in *. set (r := rtR (90 - e) Cm) in *. set (r' := rtR (270 + e) Cm) in *. clearbody T T' r r' y dH.
  assert (D1 : 0 < 1 + 0.015 * Cm * T) by nra. assert (D2 : 0 < 1 + 0.015 * Cm * T') by nra.
  set (z := dH / (1 + 0.015 * Cm * T)). set (z' := dH / (1 + 0.015 * Cm * T')). replace (- dH / (1 + 0.015 * Cm * T')) with (- z') by (unfold z'; field; lra).
  assert (Z' : 0 < z') by (apply Rdiv_lt_0_compat; lra).
  assert (ZZ : 3.1 <= z - z').
  { set (K := 0.015 * Cm) in *. assert (HK : 0.75 <= K) by (unfold K; lra). assert (DK : 133 * K <= dH) by (unfold K; lra).
    assert (P1 : 1 + K * T <= 1.967 * K) by nra. assert (P2 : 1 + K * T' <= 2.103 * K) by nra.
    assert (E : z - z' = dH * (K * (T' - T)) / ((1 + K * T) * (1 + K * T'))) by (unfold z, z'; field; lra). rewrite E.
    assert (PP : 0 < (1 + K * T) * (1 + K * T')) by (apply Rmult_lt_0_compat; lra).
    apply Rmult_le_reg_r with ((1 + K * T) * (1 + K * T')); [exact PP|]. unfold Rdiv. rewrite Rmult_assoc, Rinv_l, Rmult_1_r by lra.
    apply Rle_trans with (3.1 * (1.967 * K * (2.103 * K))); [apply Rmult_le_compat_l; [lra|]; apply Rmult_le_compat; lra|].
    apply Rle_trans with (133 * K * (K * 0.1025)); [nra|]. assert (G1 : K * 0.1025 <= K * (T' - T)) by (apply Rmult_le_compat_l; lra). apply Rmult_le_compat; lra. }
  assert (A : z - y <= sqrt (y ^ 2 + z ^ 2 + r * y * z)). { apply sqrt_ge; [lra|]. assert (0 <= (r + 2) * (y * z)) by (apply Rmult_le_pos; [lra|apply Rmult_le_pos; lra]). nra. }
  assert (B : sqrt (y ^ 2 + (- z') ^ 2 + r' * y * - z') <= z' + y). { apply sqrt_le'; [lra|]. assert (0 <= (r' + 2) * (y * z')) by (apply Rmult_le_pos; [lra|apply Rmult_le_pos; lra]). nra. }
  lra.
Qed.
Lemma sind_lo e : 0 <= e <= 0.001 -> 0.999 <= sind (90 - e) <= 1.
Proof.
  intros E. assert (S : sind (90 - e) = cosd e). { unfold sind, cosd. replace ((90 - e) * PI / 180) with (PI / 2 - e * PI / 180) by field. apply sin_shift. }
  rewrite S. pose proof (cosd_lip e 0 e ltac:(apply Rabs_le; lra)) as H. rewrite cosd_0 in H. apply Rabs_le_inv in H. unfold cosd in *. pose proof (COS_bound (e * PI / 180)). lra.
Qed.
Lemma E00_jump : exists p : Vector3 R, forall eps, 0 < eps -> exists q q' d d',
  Rabs (v0 q - v0 q') < eps /\ Rabs (v1 q - v1 q') < eps /\ Rabs (v2 q - v2 q') < eps /\
  Delta_E00 RN (finV p) (finV q) (Some 1) (Some 1) (Some 1) = Some d /\ Delta_E00 RN (finV p) (finV q') (Some 1) (Some 1) (Some 1) = Some d' /\ 3 < d - d'.
Proof.
  exists (V3 50 50 0). intros eps HE. set (y := Rmin (eps / 3) 0.001).
  assert (Y : 0 < y <= 0.001) by (unfold y; split; [apply Rmin_glb_lt; lra|apply Rmin_r]). assert (Y2 : y <= eps / 3) by apply Rmin_l. clearbody y.
  exists (V3 50 (-50) y), (V3 50 (-50) (- y)). eexists. eexists. cbn [v0 v1 v2].
  split; [replace (50 - 50) with 0 by ring; rewrite Rabs_R0; exact HE|]. split; [replace (-50 - -50) with 0 by ring; rewrite Rabs_R0; exact HE|].
  split; [replace (y - - y) with (2 * y) by ring; rewrite Rabs_pos_eq; lra|].
  split; [apply E00_fin; lra|]. split; [apply E00_fin; lra|].
  unfold core, code_hm, code_dh. cbn [v0 v1 v2]. replace ((- y) ^ 2) with (y ^ 2) by ring.
  set (c1 := sqrt (50 ^ 2 + 0 ^ 2)). set (c2 := sqrt ((-50) ^ 2 + y ^ 2)). pose proof (gR_range ((c1 + c2) / 2) (mean_nonneg _ _)) as G. set (g := gR ((c1 + c2) / 2)) in *. clearbody g. clear c1 c2.
  replace ((1 + g) * -50) with (- ((1 + g) * 50)) by ring. set (A := (1 + g) * 50). assert (HA : 50 <= A <= 75) by (unfold A; lra). clearbody A.
  replace (A ^ 2 + 0 ^ 2) with (A ^ 2) by ring. replace ((- A) ^ 2) with (A ^ 2) by ring. rewrite (sqrt_pow2 A) by lra.
  set (C2 := sqrt (A ^ 2 + y ^ 2)). assert (HC2 : A <= C2 <= A + 0.00001).
  { unfold C2. split; [apply sqrt_ge; [lra|pose proof (pow2_ge_0 y); lra]|apply sqrt_le'; [lra|nra]]. }
  destruct (opp_hues A y ltac:(lra) ltac:(lra)) as (D0 & D1 & H0 & HH). set (d := atan (y / A) * 180 / PI) in *. clearbody d.
  assert (YA : y / A <= 0.00002). { apply Rmult_le_reg_r with A; [lra|]. unfold Rdiv. rewrite Rmult_assoc, Rinv_l by lra. lra. }
  assert (DD : 0 < d <= 0.002) by lra. destruct (HH ltac:(lra)) as (H1 & H2). rewrite H0, H1, H2. clear H0 H1 H2 HH.
  assert (B1 : hbar 0 (180 - d) = 90 - d / 2). { unfold hbar. destruct (Rlt_dec _ _) as [L|L]; [rewrite Rabs_left in L by lra; lra|lra]. }
  assert (B2 : hbar 0 (180 + d) = 270 + d / 2). { unfold hbar. destruct (Rlt_dec _ _) as [L|L]; [lra|rewrite Rabs_left in L by lra; lra]. }
  assert (B3 : dhue 0 (180 - d) / 2 = 90 - d / 2). { unfold dhue. destruct (Rle_dec _ _) as [L|L]; [lra|rewrite Rabs_pos_eq in L by lra; lra]. }
  assert (B4 : dhue 0 (180 + d) / 2 = - (90 - d / 2)). { unfold dhue. destruct (Rle_dec _ _) as [L|L]; [rewrite Rabs_pos_eq in L by lra; lra|]. destruct (Rle_dec (180 + d) 0); lra. }
  rewrite B1, B2, B3, B4, sind_opp. pose proof (jump_val A C2 (d / 2) (sind (90 - d / 2)) HA HC2 ltac:(lra) (sind_lo (d / 2) ltac:(lra))) as J. cbv zeta in J. unfold e00h in J. cbv zeta in J.
  replace (50 - 50) with 0 by ring. unfold Rdiv at 1 in J. unfold Rdiv at 1.
  rewrite !Rmult_1_l. replace (2 * sqrt (A * C2) * - sind (90 - d / 2)) with (- (2 * sqrt (A * C2) * sind (90 - d / 2))) by ring.
  assert (X0 : forall k, (0 * / k) ^ 2 = 0) by (intros; ring). assert (X1 : forall k, (0 / k) ^ 2 = 0) by (intros; unfold Rdiv; ring). rewrite ?X0, ?X1, !Rplus_0_l. exact J.
Qed.
