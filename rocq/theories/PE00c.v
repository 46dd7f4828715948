(** * CIEDE2000 against the Euclidean difference, and on greys. *)
From Coq Require Import ZArith Reals Lra Lia Psatz.
From Flocq Require Import Core.Raux.
From Verif Require Import Num NumR MVec MTri MOtf MDelta RTac RPow POtf SpecDelta PE00 LPins.
Local Open Scope R_scope.

Lemma cosd_dhue h1 h2 : cosd (dhue h1 h2) = cosd h2 * cosd h1 + sind h2 * sind h1.
Proof.
  assert (E : cosd (h2 - h1) = cosd h2 * cosd h1 + sind h2 * sind h1).
  { unfold cosd, sind. rewrite <- cos_minus. f_equal. field. }
  rewrite <- E. unfold dhue. destruct (Rle_dec (Rabs (h2 - h1)) 180); [reflexivity|]. destruct (Rle_dec h2 h1); [apply cosd_360|].
  rewrite <- (cosd_360 (h2 - h1 - 360)). f_equal. ring.
Qed.
Lemma sind_half_sq x : 2 * sind (x / 2) ^ 2 = 1 - cosd x.
Proof.
  unfold sind, cosd. replace (x * PI / 180) with (2 * (x / 2 * PI / 180)) by field. rewrite cos_2a_sin. ring.
Qed.
(** the hue difference of the formula completes the chroma difference to the distance in the (a', b) plane *)
Lemma chroma_hue A1 b1 A2 b2 :
  let C1 := sqrt (A1 ^ 2 + b1 ^ 2) in let C2 := sqrt (A2 ^ 2 + b2 ^ 2) in
  (C2 - C1) ^ 2 + (2 * sqrt (C1 * C2) * sind (dhue (cie_hue A1 b1) (cie_hue A2 b2) / 2)) ^ 2 = (A2 - A1) ^ 2 + (b2 - b1) ^ 2.
Proof.
  intros C1 C2. pose proof (polar A1 b1) as (X1 & Y1). pose proof (polar A2 b2) as (X2 & Y2).
  replace (A1 * A1 + b1 * b1) with (A1 ^ 2 + b1 ^ 2) in * by ring. replace (A2 * A2 + b2 * b2) with (A2 ^ 2 + b2 ^ 2) in * by ring.
  fold C1 in X1, Y1. fold C2 in X2, Y2.
  rewrite <- (proj1 (hue_cos A1 b1)) in X1. rewrite <- (proj1 (hue_cos A2 b2)) in X2.
  rewrite <- (proj2 (hue_cos A1 b1)) in Y1. rewrite <- (proj2 (hue_cos A2 b2)) in Y2.
  assert (P1 : 0 <= C1) by apply sqrt_pos. assert (P2 : 0 <= C2) by apply sqrt_pos.
  assert (S1 : C1 * C1 = A1 ^ 2 + b1 ^ 2) by (apply sqrt_sqrt, sqrt2_nonneg). assert (S2 : C2 * C2 = A2 ^ 2 + b2 ^ 2) by (apply sqrt_sqrt, sqrt2_nonneg).
  set (d := dhue _ _) in *. 
  replace ((2 * sqrt (C1 * C2) * sind (d / 2)) ^ 2) with (2 * (sqrt (C1 * C2) * sqrt (C1 * C2)) * (2 * sind (d / 2) ^ 2)) by ring.
  rewrite sqrt_sqrt by (apply Rmult_le_pos; assumption). rewrite sind_half_sq. unfold d. rewrite cosd_dhue.
  set (k1 := cosd (cie_hue A1 b1)) in *. set (k2 := cosd (cie_hue A2 b2)) in *. set (s1 := sind (cie_hue A1 b1)) in *. set (s2 := sind (cie_hue A2 b2)) in *.
  transitivity (C1 * C1 + C2 * C2 - 2 * ((C2 * k2) * (C1 * k1) + (C2 * s2) * (C1 * s1))); [ring|].
  rewrite X1, X2, Y1, Y2, S1, S2. ring.
Qed.
Lemma div_sq_le a b : 1 <= b -> (a / b) ^ 2 <= a ^ 2.
Proof.
  intros H. assert (0 < / b <= 1). { split; [apply Rinv_0_lt_compat; lra|]. rewrite <- Rinv_1. apply Rinv_le_contravar; lra. }
  replace ((a / b) ^ 2) with (a ^ 2 * (/ b * / b)) by (unfold Rdiv; ring). pose proof (pow2_ge_0 a) as P. assert (0 <= / b * / b <= 1) by nra. set (t := / b * / b) in *. set (w := a ^ 2) in *. nra.
Qed.
Lemma core_upper p q kl kc kh : 1 <= kl -> 1 <= kc -> 1 <= kh ->
  core p q kl kc kh code_hm code_dh <= (v0 q - v0 p) ^ 2 + 4.5 * (v1 q - v1 p) ^ 2 + 2 * (v2 q - v2 p) ^ 2.
Proof.
  intros Hl Hc Hh. unfold core, code_hm, code_dh. cbv zeta.
  pose proof (gR_range _ (mean_nonneg (v1 p ^ 2 + v2 p ^ 2) (v1 q ^ 2 + v2 q ^ 2))) as G.
  set (g := gR _) in *. set (A1 := (1 + g) * v1 p). set (A2 := (1 + g) * v1 q).
  pose proof (chroma_hue A1 (v2 p) A2 (v2 q)) as CH. cbv zeta in CH.
  assert (P1 : 0 <= sqrt (A1 ^ 2 + v2 p ^ 2)) by apply sqrt_pos. assert (P2 : 0 <= sqrt (A2 ^ 2 + v2 q ^ 2)) by apply sqrt_pos.
  set (C1 := sqrt (A1 ^ 2 + _)) in *. set (C2 := sqrt (A2 ^ 2 + _)) in *. set (h1 := cie_hue A1 _) in *. set (h2 := cie_hue A2 _) in *.
  set (Cm := (C1 + C2) / 2). assert (P3 : 0 <= Cm) by (unfold Cm; lra).
  pose proof (slR_ge ((v0 p + v0 q) / 2)) as S1. pose proof (TR_range (hbar h1 h2)) as S2.
  set (sl := slR _) in *. set (T := TR _) in *.
  assert (1 <= 1 + 0.045 * Cm) by lra. assert (1 <= 1 + 0.015 * Cm * T) by nra.
  pose proof (rtR_range (hbar h1 h2) Cm P3) as RR. set (rt := rtR _ _) in *. set (dH := 2 * _ * _) in *.
  pose proof (div_sq_le (v0 q - v0 p) (kl * sl) ltac:(nra)).
  pose proof (div_sq_le (C2 - C1) (kc * (1 + 0.045 * Cm)) ltac:(nra)).
  pose proof (div_sq_le dH (kh * (1 + 0.015 * Cm * T)) ltac:(nra)).
  set (x := (v0 q - v0 p) / _) in *. set (y := (C2 - C1) / _) in *. set (z := dH / _) in *.
  assert (rt * y * z <= y ^ 2 + z ^ 2). { pose proof (quad_nonneg 0 y z (- rt) ltac:(lra)). lra. }
  replace (A2 - A1) with ((1 + g) * (v1 q - v1 p)) in CH by (unfold A1, A2; ring).
  assert (((1 + g) * (v1 q - v1 p)) ^ 2 <= 2.25 * (v1 q - v1 p) ^ 2).
  { replace (((1 + g) * (v1 q - v1 p)) ^ 2) with ((1 + g) * (1 + g) * (v1 q - v1 p) ^ 2) by ring. pose proof (pow2_ge_0 (v1 q - v1 p)). apply Rmult_le_compat_r; nra. }
  lra.
Qed.
Lemma E00_upper p q kl kc kh : 1 <= kl -> 1 <= kc -> 1 <= kh -> exists d,
  Delta_E00 RN (finV p) (finV q) (Some kl) (Some kc) (Some kh) = Some d /\
  d <= sqrt ((v0 q - v0 p) ^ 2 + 4.5 * (v1 q - v1 p) ^ 2 + 2 * (v2 q - v2 p) ^ 2).
Proof. intros. eexists. split; [apply E00_fin; lra|]. apply sqrt_le_1_alt, core_upper; assumption. Qed.
Lemma E00_E76 p q kl kc kh : 1 <= kl -> 1 <= kc -> 1 <= kh -> exists d e,
  Delta_E00 RN (finV p) (finV q) (Some kl) (Some kc) (Some kh) = Some d /\ Delta_E76 RN (finV p) (finV q) = Some e /\ d <= 2.1214 * e.
Proof.
  intros. destruct (E00_upper p q kl kc kh) as (d & E & L); try assumption. exists d. eexists. split; [exact E|]. split.
  - apply E76_formula.
  - eapply Rle_trans; [exact L|]. rewrite <- (sqrt_square 2.1214) by lra. rewrite <- sqrt_mult_alt by lra. apply sqrt_le_1_alt.
    pose proof (pow2_ge_0 (v0 p - v0 q)). pose proof (pow2_ge_0 (v1 p - v1 q)). pose proof (pow2_ge_0 (v2 p - v2 q)). nra.
Qed.
(** a difference of at least the lightness term, the rest being non-negative *)
Lemma quad_drop x y z r : -2 < r < 2 -> x ^ 2 <= x ^ 2 + y ^ 2 + z ^ 2 + r * y * z.
Proof. intros H. pose proof (quad_nonneg 0 y z r H). lra. Qed.
Lemma core_lower p q kl kc kh : ((v0 q - v0 p) / (kl * slR ((v0 p + v0 q) / 2))) ^ 2 <= core p q kl kc kh code_hm code_dh.
Proof. unfold core. cbv zeta. apply quad_drop, rtR_range, mean_nonneg. Qed.
Lemma slR_le l : 0 <= l <= 100 -> slR l <= 1.75.
Proof.
  intros H. unfold slR. set (t := (l - 50) ^ 2). assert (0 <= t <= 2500) by (unfold t; split; [apply pow2_ge_0|replace ((l - 50) ^ 2) with (2500 - l * (100 - l)) by ring; nra]).
  pose proof (sqrt_pos (20 + t)). pose proof (sqrt_sqrt (20 + t) ltac:(lra)). set (s := sqrt _) in *.
  assert (0 < s) by nra. assert (s <= 50.2) by nra.
  assert (0.015 * t / s <= 0.75). { apply Rmult_le_reg_r with s; [assumption|]. unfold Rdiv. rewrite Rmult_assoc, Rinv_l by lra. nra. }
  lra.
Qed.
Lemma abs_div a b : 0 < b -> Rabs (a / b) = Rabs a / b.
Proof. intros. unfold Rdiv. rewrite Rabs_mult, (Rabs_right (/ b)); [reflexivity|]. left. apply Rinv_0_lt_compat. assumption. Qed.
Lemma E00_lower p q kl kc kh : 0 < kl -> 0 < kc -> 0 < kh -> exists d,
  Delta_E00 RN (finV p) (finV q) (Some kl) (Some kc) (Some kh) = Some d /\
  Rabs (v0 q - v0 p) / (kl * slR ((v0 p + v0 q) / 2)) <= d.
Proof.
  intros. eexists. split; [apply E00_fin; lra|]. pose proof (slR_ge ((v0 p + v0 q) / 2)).
  rewrite <- abs_div by nra. rewrite <- sqrt_Rsqr_abs. apply sqrt_le_1_alt. rewrite Rsqr_pow2. apply core_lower.
Qed.
Lemma E00_lightness p q kl kc kh : 0 < kl -> 0 < kc -> 0 < kh -> 0 <= v0 p <= 100 -> 0 <= v0 q <= 100 -> exists d,
  Delta_E00 RN (finV p) (finV q) (Some kl) (Some kc) (Some kh) = Some d /\ Rabs (v0 q - v0 p) <= 1.75 * kl * d.
Proof.
  intros. destruct (E00_lower p q kl kc kh) as (d & E & L); try assumption. exists d. split; [exact E|].
  pose proof (slR_ge ((v0 p + v0 q) / 2)). pose proof (slR_le ((v0 p + v0 q) / 2) ltac:(lra)). set (s := slR _) in *.
  assert (0 < kl * s) by nra. apply (Rmult_le_compat_r (kl * s)) in L; [|lra]. unfold Rdiv in L. rewrite Rmult_assoc, Rinv_l in L by lra.
  pose proof (Rabs_pos (v0 q - v0 p)). nra.
Qed.
(** greys *)
Lemma grey_core L1 L2 kl kc kh : 
  core (V3 L1 0 0) (V3 L2 0 0) kl kc kh code_hm code_dh = ((L2 - L1) / (kl * slR ((L1 + L2) / 2))) ^ 2.
Proof.
  unfold core, code_hm, code_dh. cbv zeta. cbn [v0 v1 v2]. set (g := gR _). rewrite !Rmult_0_r.
  replace (0 ^ 2 + 0 ^ 2) with 0 by ring. rewrite sqrt_0. rewrite Rmult_0_r, sqrt_0. unfold Rdiv. ring.
Qed.
Lemma E00_grey L1 L2 kl kc kh : 0 < kl -> 0 < kc -> 0 < kh ->
  Delta_E00 RN (finV (V3 L1 0 0)) (finV (V3 L2 0 0)) (Some kl) (Some kc) (Some kh) =
  Some (Rabs (L2 - L1) / (kl * (1 + 0.015 * ((L1 + L2) / 2 - 50) ^ 2 / sqrt (20 + ((L1 + L2) / 2 - 50) ^ 2)))).
Proof.
  intros. rewrite E00_fin by assumption. rewrite grey_core. rewrite <- Rsqr_pow2, sqrt_Rsqr_abs. f_equal.
  pose proof (slR_ge ((L1 + L2) / 2)). apply abs_div. apply Rmult_lt_0_compat; [assumption|]. fold (slR ((L1 + L2) / 2)). lra.
Qed.
Lemma triangle_refuted : exists p q r dpq dqr dpr,
  Delta_E00 RN (finV p) (finV q) (Some 1) (Some 1) (Some 1) = Some dpq /\
  Delta_E00 RN (finV q) (finV r) (Some 1) (Some 1) (Some 1) = Some dqr /\
  Delta_E00 RN (finV p) (finV r) (Some 1) (Some 1) (Some 1) = Some dpr /\ dpq + dqr < dpr - 26.
Proof.
  exists (V3 0 0 0), (V3 50 0 0), (V3 100 0 0). do 3 eexists. repeat (split; [apply E00_grey; lra|]).
  replace ((0 + 50) / 2 - 50) with (-25) by lra. replace ((50 + 100) / 2 - 50) with 25 by lra. replace ((0 + 100) / 2 - 50) with 0 by lra.
  replace ((-25) ^ 2) with 625 by ring. replace (25 ^ 2) with 625 by ring. replace (0 ^ 2) with 0 by ring.
  replace (Rabs (50 - 0)) with 50 by (rewrite Rabs_right; lra). replace (Rabs (100 - 50)) with 50 by (rewrite Rabs_right; lra).
  replace (Rabs (100 - 0)) with 100 by (rewrite Rabs_right; lra).
  replace (100 / (1 * (1 + 0.015 * 0 / sqrt (20 + 0)))) with 100 by (unfold Rdiv; rewrite Rmult_0_r, Rmult_0_l, Rplus_0_r, Rmult_1_r, Rinv_1; ring).
  pose proof (sqrt_pos (20 + 625)). pose proof (sqrt_sqrt (20 + 625) ltac:(lra)). set (s := sqrt _) in *. assert (25.3 < s < 25.4) by nra.
  assert (0.369 < 0.015 * 625 / s). { apply Rmult_lt_reg_r with s; [lra|]. unfold Rdiv. rewrite Rmult_assoc, Rinv_l by lra. lra. }
  set (w := 0.015 * 625 / s) in *. assert (50 / (1 * (1 + w)) < 36.6).
  { apply Rmult_lt_reg_r with (1 + w); [lra|]. unfold Rdiv. rewrite Rmult_1_l, Rmult_assoc, Rinv_l by lra. lra. }
  lra.
Qed.
Lemma E00_grey_case : Delta_E00 RN (finV (V3 40 0 0)) (finV (V3 60 0 0)) (Some 2) (Some 1) (Some 1) = Some 10.
Proof.
  rewrite E00_grey by lra. replace ((40 + 60) / 2 - 50) with 0 by lra. replace (60 - 40) with 20 by lra. rewrite Rabs_right by lra.
  unfold Rdiv. rewrite pow_i by apply Nat.lt_0_succ. rewrite Rmult_0_r, Rmult_0_l. f_equal. lra.
Qed.
