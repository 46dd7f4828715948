(** * Accuracy of the CIE 2000 difference in binary32: where the hues are safe. *)
From Coq Require Import ZArith Reals Lra Lia List Bool Psatz.
From Flocq Require Import Core IEEE754.BinarySingleNaN.
From Verif Require Import Num NumR NumF MVec MDelta F32 RPow PHsvF PLibm PNearF PRelF SpecDelta PE00 PE00b PHsvA PE00d PIvF PE00F PE00acc PE00acc2 PE00acc3.
Local Open Scope R_scope.

Lemma rt_sq h c : 0 <= c -> rtR h c * rtR h c <= 3.
Proof.
  intros H. pose proof (rho_range c H) as R. pose proof PI_RGT_0 as P. unfold rtR, sind.
  assert (X : 0 <= exp (- ((h - 275) / 25) ^ 2) <= 1).
  { split; [left; apply exp_pos|]. rewrite <- exp_0. pose proof (pow2_ge_0 ((h - 275) / 25)) as Q. destruct Q as [Q|Q]; [left; apply exp_increasing; lra|rewrite <- Q, Ropp_0; lra]. }
  set (t := exp _) in *. clearbody t. replace (2 * (30 * t) * PI / 180) with (t * (PI / 3)) by field.
  assert (S1 : 0 <= sin (t * (PI / 3))). { apply sin_ge_0; nra. }
  assert (S2 : sin (t * (PI / 3)) <= sin (PI / 3)). { apply sin_incr_1; nra. }
  rewrite sin_PI3 in S2. pose proof (sqrt_pos 3). assert (sqrt 3 * sqrt 3 = 3) by (apply sqrt_def; lra). set (s := sin _) in *. set (q := sqrt 3) in *.
  assert (SS : s * s <= 3 / 4) by nra. assert (RR : rho c * rho c <= 1) by nra. replace (- s * (2 * rho c) * (- s * (2 * rho c))) with (4 * (s * s) * (rho c * rho c)) by ring.
  assert (0 <= s * s) by nra. assert (0 <= rho c * rho c) by nra. nra.
Qed.
Lemma rho_small c : 0 <= c <= 17 -> rho c <= 1 / 3.
Proof.
  intros H. unfold rho. assert (P : 0 <= c ^ 7 <= 17 ^ 7) by (split; [apply pow_le; lra|apply pow_incr; lra]).
  rewrite <- (sqrt_square (1 / 3)) by lra. apply sqrt_le_1_alt. apply Rmult_le_reg_r with (c ^ 7 + 25 ^ 7); [lra|]. unfold Rdiv at 1. rewrite Rmult_assoc, Rinv_l by lra. lra.
Qed.
Lemma rt_small h c : 0 <= c <= 17 -> Rabs (rtR h c) <= 2 / 3.
Proof.
  intros H. pose proof (rho_small c H). pose proof (rho_range c (proj1 H)). unfold rtR, sind. match goal with |- context [sin ?a] => pose proof (SIN_bound a) as S; set (s := sin a) in * end.
  apply Rabs_le. split; nra.
Qed.

Section G.
Context (r s : R).
Let C := sqrt (r * r + s * s).
Let th := R_atan2 s r.
Lemma C_pos : s <> 0 -> 0 < C. Proof. intros H. apply sqrt_lt_R0. nra. Qed.
Lemma th_sign_pos : 0 < s -> 0 < th <= PI.
Proof.
  intros H. pose proof (atan2_range s r) as A. pose proof (polar r s) as [_ E]. fold th in A, E. fold C in E. split; [|lra]. destruct (Rlt_or_le 0 th) as [L|L]; [exact L|exfalso].
  assert (sin th <= 0). { replace th with (- - th) by ring. rewrite sin_neg. assert (0 <= sin (- th)) by (apply sin_ge_0; lra). lra. }
  pose proof (C_pos ltac:(lra)). nra.
Qed.
Lemma th_sign_neg : s < 0 -> - PI < th < 0.
Proof.
  intros H. pose proof (atan2_range s r) as A. pose proof (polar r s) as [_ E]. fold th in A, E. fold C in E. split; [lra|]. destruct (Rlt_or_le th 0) as [L|L]; [exact L|exfalso].
  assert (0 <= sin th) by (apply sin_ge_0; lra). pose proof (C_pos ltac:(lra)). nra.
Qed.
Lemma deg_big : s <> 0 -> C <= 231 -> r < 0 \/ / 8 <= Rabs s -> / 1000 <= Rabs (deg s r).
Proof.
  intros S0 B H. pose proof (polar r s) as [Ec Es]. fold th in Ec, Es. fold C in Ec, Es. pose proof (C_pos S0) as CP. pose proof PI_tight as P.
  assert (T : 0.0005 <= Rabs th).
  { destruct H as [H|H].
    - destruct (Rle_or_lt 0.0005 (Rabs th)) as [L|L]; [exact L|exfalso]. apply Rabs_def2 in L. assert (0 <= cos th) by (apply cos_ge_0; lra). nra.
    - assert (A : Rabs (sin th) <= Rabs th). { pose proof (sin_lip th 0) as K. now rewrite sin_0, !Rminus_0_r in K. }
      assert (E : Rabs s = C * Rabs (sin th)). { rewrite <- Es at 1. rewrite Rabs_mult, (Rabs_pos_eq C) by lra. reflexivity. }
      pose proof (Rabs_pos (sin th)). nra. }
  unfold deg. fold th. unfold Rdiv. rewrite !Rabs_mult, (Rabs_pos_eq 180), (Rabs_pos_eq (/ PI)) by (try left; try apply Rinv_0_lt_compat; lra).
  apply Rmult_le_reg_r with PI; [lra|]. rewrite (Rmult_assoc _ (/ PI)), Rinv_l by lra. nra.
Qed.
End G.
Lemma deg_pos s r : 0 < s -> 0 < deg s r.
Proof. intros H. pose proof (th_sign_pos r s H). pose proof PI_RGT_0. unfold deg. apply Rmult_lt_0_compat; [nra|now apply Rinv_0_lt_compat]. Qed.
Lemma deg_neg s r : s < 0 -> deg s r < 0.
Proof. intros H. pose proof (th_sign_neg r s H). pose proof PI_RGT_0. unfold deg, Rdiv. pose proof (Rinv_0_lt_compat PI ltac:(lra)). nra. Qed.
Lemma far_same r1 s1 r2 s2 : 0 < s1 * s2 -> / 1000 <= Rabs (deg s1 r1) -> / 1000 <= Rabs (deg s2 r2) -> far (cie_hue r1 s1) (cie_hue r2 s2).
Proof.
  intros H D1 D2. unfold far, cie_hue. change (R_atan2 s1 r1 * 180 / PI) with (deg s1 r1). change (R_atan2 s2 r2 * 180 / PI) with (deg s2 r2).
  pose proof (deg_range s1 r1) as R1. pose proof (deg_range s2 r2) as R2. change (R_atan2 s1 r1 * 180 / PI) with (deg s1 r1) in R1. change (R_atan2 s2 r2 * 180 / PI) with (deg s2 r2) in R2.
  assert (K : forall a b, - (180 - / 1000) <= a - b <= 180 - / 1000 -> / 1000 <= Rabs (Rabs (a - b) - 180)).
  { intros a b I. apply Rabs_le in I. rewrite (Rabs_left1 (Rabs (a - b) - 180)) by lra. lra. }
  destruct (Rlt_or_le 0 s1) as [S|S].
  - assert (S' : 0 < s2) by nra. pose proof (deg_pos _ r1 S). pose proof (deg_pos _ r2 S'). rewrite Rabs_pos_eq in D1, D2 by lra. destruct (Rlt_dec (deg s1 r1) 0); [lra|]. destruct (Rlt_dec (deg s2 r2) 0); [lra|]. apply K. lra.
  - assert (S1 : s1 < 0) by (destruct S as [S|S]; [exact S|rewrite S in H; lra]). assert (S' : s2 < 0) by nra. pose proof (deg_neg _ r1 S1). pose proof (deg_neg _ r2 S'). rewrite Rabs_left1 in D1, D2 by lra. destruct (Rlt_dec (deg s1 r1) 0); [|lra]. destruct (Rlt_dec (deg s2 r2) 0); [|lra]. apply K. lra.
Qed.
Lemma far_cross r1 s1 r2 s2 : sqrt (r1 * r1 + s1 * s1) * sqrt (r2 * r2 + s2 * s2) <= 54000 -> 1 <= Rabs (r1 * s2 - r2 * s1) -> far (cie_hue r1 s1) (cie_hue r2 s2).
Proof.
  intros B H. unfold far. destruct (hue_cos r1 s1) as [c1 n1]. destruct (hue_cos r2 s2) as [c2 n2]. destruct (polar r1 s1) as [p1 q1]. destruct (polar r2 s2) as [p2 q2].
  rewrite <- c1 in p1. rewrite <- n1 in q1. rewrite <- c2 in p2. rewrite <- n2 in q2. clear c1 n1 c2 n2. set (h1 := cie_hue r1 s1) in *. set (h2 := cie_hue r2 s2) in *. clearbody h1 h2.
  pose proof (sqrt_pos (r1 * r1 + s1 * s1)) as K1. pose proof (sqrt_pos (r2 * r2 + s2 * s2)) as K2. set (A := sqrt (r1 * r1 + s1 * s1)) in *. set (D := sqrt (r2 * r2 + s2 * s2)) in *. clearbody A D.
  assert (E : r1 * s2 - r2 * s1 = A * D * - sind (h1 - h2)).
  { unfold sind. replace ((h1 - h2) * PI / 180) with (h1 * PI / 180 - h2 * PI / 180) by (unfold Rdiv; ring). rewrite sin_minus. fold (sind h1) (sind h2) (cosd h1) (cosd h2). rewrite <- p1, <- p2, <- q1, <- q2. ring. }
  assert (AD : 0 <= A * D) by nra. rewrite E, Rabs_mult, Rabs_Ropp, (Rabs_pos_eq (A * D)) in H by exact AD.
  destruct (Rle_or_lt (/ 1000) (Rabs (Rabs (h1 - h2) - 180))) as [L|L]; [exact L|exfalso]. pose proof PI_tight as P.
  assert (S : Rabs (sind (h1 - h2)) = Rabs (sin ((Rabs (h1 - h2) - 180) * PI / 180))).
  { replace ((Rabs (h1 - h2) - 180) * PI / 180) with (Rabs (h1 - h2) * PI / 180 - PI) by field. rewrite sin_minus, sin_PI, cos_PI. 
    replace (sin (Rabs (h1 - h2) * PI / 180) * -1 - cos (Rabs (h1 - h2) * PI / 180) * 0) with (- sin (Rabs (h1 - h2) * PI / 180)) by ring. rewrite Rabs_Ropp. unfold sind.
    unfold Rabs at 3. destruct (Rcase_abs (h1 - h2)); [|reflexivity]. replace (- (h1 - h2) * PI / 180) with (- ((h1 - h2) * PI / 180)) by (unfold Rdiv; ring). now rewrite sin_neg, Rabs_Ropp. }
  assert (T : Rabs (sind (h1 - h2)) <= / 1000 * 3.1415926537 / 180).
  { rewrite S. pose proof (sin_lip ((Rabs (h1 - h2) - 180) * PI / 180) 0) as Q. rewrite sin_0, !Rminus_0_r in Q. eapply Rle_trans; [exact Q|]. unfold Rdiv. rewrite !Rabs_mult, (Rabs_pos_eq PI), (Rabs_pos_eq (/ 180)) by lra.
    apply Rmult_le_compat_r; [lra|]. apply Rmult_le_compat; try apply Rabs_pos; lra. }
  pose proof (Rabs_pos (sind (h1 - h2))). nra.
Qed.
