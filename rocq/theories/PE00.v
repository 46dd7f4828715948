(** * CIEDE2000: lemmas. *)
From Coq Require Import ZArith Reals Lra Lia Psatz.
From Flocq Require Import Core.Raux.
From Verif Require Import Num NumR MVec MTri MOtf MDelta RTac RPow POtf SpecDelta.
Local Open Scope R_scope.

(** ** Polar angle *)
Lemma atan_cos t : 0 < cos (atan t).
Proof. destruct (atan_bound t). apply cos_gt_0; lra. Qed.
Lemma atan_sin t : sin (atan t) = t * cos (atan t).
Proof.
  pose proof (atan_cos t). rewrite <- (tan_atan t) at 2. unfold tan. field. lra.
Qed.
Lemma sqrt_mul_self x y : sqrt (x * x + y * y) * sqrt (x * x + y * y) = x * x + y * y.
Proof. apply sqrt_def. pose proof (Rle_0_sqr x). pose proof (Rle_0_sqr y). unfold Rsqr in *. lra. Qed.
Lemma cos2_atan t : cos (atan t) * cos (atan t) * (1 + t * t) = 1.
Proof.
  pose proof (sin2_cos2 (atan t)) as H. rewrite atan_sin in H. unfold Rsqr in H. lra.
Qed.
Lemma polar_pos x y : 0 < x -> sqrt (x * x + y * y) * cos (atan (y / x)) = x.
Proof.
  intros H. pose proof (atan_cos (y / x)) as C. pose proof (sqrt_pos (x * x + y * y)) as S.
  apply Rsqr_inj; [apply Rmult_le_pos; lra|lra|]. unfold Rsqr.
  transitivity ((sqrt (x * x + y * y) * sqrt (x * x + y * y)) * (cos (atan (y / x)) * cos (atan (y / x)))); [ring|].
  rewrite sqrt_mul_self. pose proof (cos2_atan (y / x)) as E.
  transitivity (x * x * (cos (atan (y / x)) * cos (atan (y / x)) * (1 + y / x * (y / x)))); [field; lra|]. rewrite E. ring.
Qed.
Lemma polar x y : sqrt (x * x + y * y) * cos (R_atan2 y x) = x /\ sqrt (x * x + y * y) * sin (R_atan2 y x) = y.
Proof.
  unfold R_atan2. destruct (Rtotal_order 0 x) as [H|[H|H]].
  - rewrite Rlt_bool_true by lra. split; [now apply polar_pos|].
    rewrite atan_sin. pose proof (polar_pos x y H) as E.
    transitivity (y / x * (sqrt (x * x + y * y) * cos (atan (y / x)))); [ring|]. rewrite E. field. lra.
  - subst x. rewrite Rlt_bool_false by lra.
    replace (0 * 0 + y * y) with (y * y) by ring.
    destruct (Rtotal_order 0 y) as [K|[K|K]].
    + rewrite Rlt_bool_true by lra. rewrite cos_PI2, sin_PI2. rewrite (sqrt_square y) by lra. lra.
    + subst y. rewrite Rlt_bool_false by lra. rewrite cos_0, sin_0. replace (0 * 0) with 0 by ring. rewrite sqrt_0. lra.
    + rewrite Rlt_bool_false by lra. rewrite Rlt_bool_true by lra. rewrite cos_neg, sin_neg, cos_PI2, sin_PI2.
      replace (y * y) with (- y * - y) by ring. rewrite (sqrt_square (- y)) by lra. lra.
  - rewrite Rlt_bool_false by lra. rewrite Rlt_bool_true by lra.
    assert (A : cos (if Rle_bool 0 y then atan (y / x) + PI else atan (y / x) - PI) = - cos (atan (y / x)) /\
                sin (if Rle_bool 0 y then atan (y / x) + PI else atan (y / x) - PI) = - sin (atan (y / x))).
    { destruct (Rle_bool 0 y).
      - rewrite neg_cos, neg_sin. auto.
      - rewrite cos_minus, sin_minus, cos_PI, sin_PI. split; ring. }
    destruct A as [-> ->]. pose proof (polar_pos (- x) (- y) ltac:(lra)) as E.
    replace (- y / - x) with (y / x) in E by (field; lra).
    replace (- x * - x + - y * - y) with (x * x + y * y) in E by ring.
    split; [lra|]. rewrite atan_sin.
    transitivity (- (y / x) * (sqrt (x * x + y * y) * cos (atan (y / x)))); [ring|]. rewrite E. field. lra.
Qed.
Lemma atan2_range y x : - PI < R_atan2 y x <= PI.
Proof.
  pose proof PI_RGT_0. pose proof (atan_bound (y / x)) as [A B]. unfold R_atan2.
  destruct (Rlt_bool_spec 0 x); [lra|]. destruct (Rlt_bool_spec x 0).
  - destruct (Rle_bool_spec 0 y).
    + assert (y / x <= 0). { unfold Rdiv. pose proof (Rinv_lt_0_compat x ltac:(lra)). nra. }
      assert (atan (y / x) <= 0). { destruct (Req_dec (y / x) 0) as [E|E]; [rewrite E, atan_0; lra|].
        left. rewrite <- atan_0. apply atan_increasing. lra. }
      lra.
    + assert (0 < y / x). { unfold Rdiv. pose proof (Rinv_lt_0_compat x ltac:(lra)). nra. }
      assert (0 < atan (y / x)). { rewrite <- atan_0. apply atan_increasing. lra. }
      lra.
  - destruct (Rlt_bool_spec 0 y); [lra|]. destruct (Rlt_bool_spec y 0); lra.
Qed.
Lemma deg_range y x : -180 < R_atan2 y x * 180 / PI <= 180.
Proof.
  pose proof PI_RGT_0. pose proof (atan2_range y x). split.
  - apply Rmult_lt_reg_r with PI; [assumption|]. unfold Rdiv. rewrite Rmult_assoc, Rinv_l by lra. lra.
  - apply Rmult_le_reg_r with PI; [assumption|]. unfold Rdiv. rewrite (Rmult_assoc _ (/ PI)), Rinv_l by lra. lra.
Qed.
Lemma cie_hue_range a b : 0 <= cie_hue a b < 360.
Proof. unfold cie_hue. pose proof (deg_range b a). destruct (Rlt_dec _ 0); lra. Qed.
Lemma hue_cos a b : cosd (cie_hue a b) = cos (R_atan2 b a) /\ sind (cie_hue a b) = sin (R_atan2 b a).
Proof.
  unfold cie_hue, cosd, sind. pose proof PI_RGT_0. destruct (Rlt_dec _ 0).
  - replace ((R_atan2 b a * 180 / PI + 360) * PI / 180) with (R_atan2 b a + 2 * PI) by (field; lra).
    split; [rewrite cos_plus, cos_2PI, sin_2PI|rewrite sin_plus, cos_2PI, sin_2PI]; ring.
  - replace (R_atan2 b a * 180 / PI * PI / 180) with (R_atan2 b a) by (field; lra). auto.
Qed.

(** ** The pieces of the formula *)
Lemma pow7_fin c : 0 <= c -> rx_pow c (Rdec 7) = Some (c ^ 7).
Proof.
  intros H. replace (Rdec 7) with 7 by (qn; reflexivity). destruct (Req_dec c 0) as [->|N].
  - rewrite rpow_0 by lra. f_equal. ring.
  - rewrite rpow_pos by lra. f_equal. replace 7 with (INR 7) by (cbn; lra). apply Rpower_nat; lra.
Qed.
Lemma pow25_fin : pow25_7 RN = Some (25 ^ 7).
Proof. unfold pow25_7. rl. fin_eq. qn. lra. Qed.
Definition rho (c : R) : R := sqrt (c ^ 7 / (c ^ 7 + 25 ^ 7)).
Lemma pow7_nonneg c : 0 <= c -> 0 <= c ^ 7.
Proof. apply pow_le. Qed.
Lemma rho_range c : 0 <= c -> 0 <= rho c < 1.
Proof.
  intros H. split; [apply sqrt_pos|]. pose proof (pow7_nonneg c H). unfold rho. rewrite <- sqrt_1.
  assert (L : c ^ 7 / (c ^ 7 + 25 ^ 7) < 1).
  { apply Rmult_lt_reg_r with (c ^ 7 + 25 ^ 7); [lra|]. unfold Rdiv. rewrite Rmult_assoc, Rinv_l by lra. lra. }
  apply sqrt_lt_1_alt. split; [|exact L]. apply Rmult_le_pos; [assumption|]. left. apply Rinv_0_lt_compat. lra.
Qed.
Lemma rho_fin c : 0 <= c -> rx1 rx_sqrt (rx_div (c ^ 7) (c ^ 7 + 25 ^ 7)) = Some (rho c).
Proof.
  intros H. pose proof (pow7_nonneg c H). rewrite rdiv_ok by lra. cbn [rx1]. apply rsqrt_ok.
  apply Rmult_le_pos; [assumption|]. left. apply Rinv_0_lt_compat. lra.
Qed.
Definition gR (c : R) : R := (1 - rho c) / 2.
Lemma gR_range c : 0 <= c -> 0 < gR c <= 1 / 2.
Proof. intros H. pose proof (rho_range c H). unfold gR. lra. Qed.
Lemma G_fin c : 0 <= c -> e00_G RN (Some c) = Some (gR c).
Proof.
  intros H. unfold e00_G. rl. rewrite pow7_fin by assumption. rewrite pow25_fin. cbn [rx2].
  pose proof (rho_fin c H) as E. cbn [rx1] in E. rewrite E. cbn [rx2]. rewrite rdiv_ok by (qn; lra). fin_eq. unfold gR. qn. lra.
Qed.
Lemma hue_fin b a : e00_hue RN (Some b) (Some a) = Some (cie_hue a b).
Proof.
  unfold e00_hue. rl. pose proof PI_RGT_0. rewrite rdiv_ok by lra. cbn [rx2]. unfold rx_fmod.
  replace (Rdec 360) with 360 by (qn; reflexivity). rewrite Req_bool_false by lra.
  replace (Rdec 1800e-1) with 180 by (qn; lra). pose proof (deg_range b a) as R. unfold cie_hue.
  set (t := R_atan2 b a * 180 / PI) in *. fin_eq. destruct (Rlt_dec t 0).
  - assert (E : Ztrunc ((360 + t) / 360) = 0%Z).
    { rewrite Ztrunc_floor by lra. apply Zfloor_imp. split; cbn; lra. }
    rewrite E. ring.
  - assert (E : Ztrunc ((360 + t) / 360) = 1%Z).
    { rewrite Ztrunc_floor by lra. apply Zfloor_imp. split; cbn; lra. }
    rewrite E. ring.
Qed.
Definition hbar (h1 h2 : R) : R := if Rlt_dec 180 (Rabs (h1 - h2)) then (h1 + h2 + 360) / 2 else (h1 + h2) / 2.
Lemma hbar_fin h1 h2 : e00_HdBar RN (Some h1) (Some h2) = Some (hbar h1 h2).
Proof.
  unfold e00_HdBar, hbar. rl. replace (Rdec 180) with 180 by (qn; reflexivity).
  replace (Rdec 2) with 2 by (qn; reflexivity). replace (Rdec 360) with 360 by (qn; reflexivity).
  destruct (Rlt_dec 180 (Rabs (h1 - h2))).
  - rewrite Rlt_bool_true by lra. rl. apply rdiv_ok. lra.
  - rewrite Rlt_bool_false by lra. rl. apply rdiv_ok. lra.
Qed.
Definition TR (h : R) : R :=
  1 - 0.17 * cosd (h - 30) + 0.24 * cosd (2 * h) + 0.32 * cosd (3 * h + 6) - 0.20 * cosd (4 * h - 63).
Lemma T_fin h : e00_T RN (Some h) = Some (TR h).
Proof.
  unfold e00_T, TR, cosd. rl. rewrite !rdiv_ok by (qn; lra). cbn [rx2 rx1]. fin_eq.
  replace (Rdec 1) with 1 by (qn; lra). replace (Rdec 2) with 2 by (qn; lra). replace (Rdec 3) with 3 by (qn; lra).
  replace (Rdec 4) with 4 by (qn; lra). replace (Rdec 6) with 6 by (qn; lra). replace (Rdec 30) with 30 by (qn; lra).
  replace (Rdec 63) with 63 by (qn; lra). replace (Rdec 180) with 180 by (qn; lra).
  replace (PI * (1 * h - 30) / 180) with ((h - 30) * PI / 180) by lra.
  replace (PI * (2 * h) / 180) with (2 * h * PI / 180) by lra.
  replace (PI * (3 * h + 6) / 180) with ((3 * h + 6) * PI / 180) by lra.
  replace (PI * (4 * h - 63) / 180) with ((4 * h - 63) * PI / 180) by lra. qn. lra.
Qed.
Lemma TR_range h : 0.07 <= TR h <= 1.93.
Proof.
  unfold TR, cosd. pose proof (COS_bound ((h - 30) * PI / 180)). pose proof (COS_bound (2 * h * PI / 180)).
  pose proof (COS_bound ((3 * h + 6) * PI / 180)). pose proof (COS_bound ((4 * h - 63) * PI / 180)). lra.
Qed.
Lemma cosd_360 x : cosd (x + 360) = cosd x.
Proof. unfold cosd. replace ((x + 360) * PI / 180) with (x * PI / 180 + 2 * PI) by lra. rewrite cos_plus, cos_2PI, sin_2PI. ring. Qed.
Lemma TR_360 h : TR (h + 360) = TR h.
Proof.
  unfold TR. replace (h + 360 - 30) with (h - 30 + 360) by ring.
  replace (2 * (h + 360)) with (2 * h + 360 + 360) by ring. replace (3 * (h + 360) + 6) with (3 * h + 6 + 360 + 360 + 360) by ring.
  replace (4 * (h + 360) - 63) with (4 * h - 63 + 360 + 360 + 360 + 360) by ring. now rewrite !cosd_360.
Qed.
Definition dhue (h1 h2 : R) : R :=
  if Rle_dec (Rabs (h2 - h1)) 180 then h2 - h1 else if Rle_dec h2 h1 then h2 - h1 + 360 else h2 - h1 - 360.
Lemma dhue_fin h1 h2 : e00_deltah RN (Some h1) (Some h2) = Some (dhue h1 h2).
Proof.
  unfold e00_deltah, dhue. rl. replace (Rdec 180) with 180 by (qn; reflexivity). replace (Rdec 360) with 360 by (qn; reflexivity).
  destruct (Rle_dec (Rabs (h2 - h1)) 180).
  - rewrite Rle_bool_true by lra. reflexivity.
  - rewrite Rle_bool_false by lra. destruct (Rle_dec h2 h1).
    + rewrite Rle_bool_true by lra. reflexivity.
    + rewrite Rle_bool_false by lra. reflexivity.
Qed.
Lemma dhue_swap h1 h2 : dhue h2 h1 = - dhue h1 h2.
Proof.
  unfold dhue. rewrite (Rabs_minus_sym h1 h2). destruct (Rle_dec (Rabs (h2 - h1)) 180); [lra|].
  destruct (Rle_dec h2 h1), (Rle_dec h1 h2); try lra. exfalso. apply n. replace (h2 - h1) with 0 by lra. rewrite Rabs_R0. lra.
Qed.
Lemma dhue_range h1 h2 : 0 <= h1 < 360 -> 0 <= h2 < 360 -> -180 <= dhue h1 h2 <= 180.
Proof.
  intros A B. unfold dhue. destruct (Rle_dec (Rabs (h2 - h1)) 180) as [L|L].
  - apply Rabs_le_inv in L. lra.
  - destruct (Rle_dec h2 h1).
    + rewrite Rabs_left1 in L by lra. lra.
    + rewrite Rabs_pos_eq in L by lra. lra.
Qed.
Lemma dhue_0 h1 h2 : 0 <= h1 < 360 -> 0 <= h2 < 360 -> dhue h1 h2 = 0 -> h1 = h2.
Proof.
  intros A B. unfold dhue. destruct (Rle_dec (Rabs (h2 - h1)) 180) as [L|L]; [lra|]. destruct (Rle_dec h2 h1); lra.
Qed.
Definition slR (l : R) : R := 1 + 0.015 * (l - 50) ^ 2 / sqrt (20 + (l - 50) ^ 2).
Lemma slR_ge l : 1 <= slR l.
Proof.
  unfold slR. pose proof (pow2_ge_0 (l - 50)). assert (0 < sqrt (20 + (l - 50) ^ 2)) by (apply sqrt_lt_R0; lra).
  assert (0 <= 0.015 * (l - 50) ^ 2 / sqrt (20 + (l - 50) ^ 2)); [|lra].
  apply Rmult_le_pos; [lra|]. left. now apply Rinv_0_lt_compat.
Qed.
Lemma Sl_fin l : e00_Sl RN (Some l) = Some (slR l).
Proof.
  unfold e00_Sl, slR. rl. replace (Rdec 50) with 50 by (qn; reflexivity). replace (Rdec 20) with 20 by (qn; reflexivity).
  replace ((l - 50) * (l - 50)) with ((l - 50) ^ 2) by ring. pose proof (pow2_ge_0 (l - 50)).
  rewrite rsqrt_ok by lra. cbn [rx2]. assert (0 < sqrt (20 + (l - 50) ^ 2)) by (apply sqrt_lt_R0; lra).
  rewrite rdiv_ok by lra. cbn [rx2]. fin_eq. replace (Rdec 15e-3) with 0.015 by (qn; lra). replace (Rdec 1) with 1 by (qn; lra). reflexivity.
Qed.
Definition rtR (h c : R) : R := - sind (2 * (30 * exp (- ((h - 275) / 25) ^ 2))) * (2 * rho c).
Lemma Rt_fin h c : 0 <= c -> e00_Rt RN (Some h) (Some c) = Some (rtR h c).
Proof.
  intros H. unfold e00_Rt. rl. rewrite rdiv_ok by (qn; lra). rewrite pow7_fin by assumption. rewrite pow25_fin. cbn [rx1 rx2].
  pose proof (rho_fin c H) as E. cbn [rx1] in E. rewrite E. cbn [rx1 rx2]. rewrite rdiv_ok by (qn; lra). cbn [rx1 rx2]. fin_eq.
  unfold rtR, sind. replace (Rdec 2) with 2 by (qn; lra). replace (Rdec 30) with 30 by (qn; lra). replace (Rdec 180) with 180 by (qn; lra).
  replace (- ((h - Rdec 275) * (h - Rdec 275) / (Rdec 25 * Rdec 25))) with (- ((h - 275) / 25) ^ 2) by (qn; field). ring.
Qed.
Lemma rtR_range h c : 0 <= c -> -2 < rtR h c < 2.
Proof.
  intros H. pose proof (rho_range c H). unfold rtR, sind.
  match goal with |- context [sin ?a] => pose proof (SIN_bound a); generalize dependent (sin a) end. intros s S. nra.
Qed.

(** The whole formula with the mean hue [hm] and the hue difference [dh] as parameters. *)
Definition core (p q : Vector3 R) (kl kc kh : R) (hm dh : R -> R -> R -> R -> R) : R :=
  let c1 := sqrt (v1 p ^ 2 + v2 p ^ 2) in
  let c2 := sqrt (v1 q ^ 2 + v2 q ^ 2) in
  let g := gR ((c1 + c2) / 2) in
  let a1 := (1 + g) * v1 p in
  let a2 := (1 + g) * v1 q in
  let C1 := sqrt (a1 ^ 2 + v2 p ^ 2) in
  let C2 := sqrt (a2 ^ 2 + v2 q ^ 2) in
  let h1 := cie_hue a1 (v2 p) in
  let h2 := cie_hue a2 (v2 q) in
  let dH := 2 * sqrt (C1 * C2) * sind (dh C1 C2 h1 h2 / 2) in
  let Cm := (C1 + C2) / 2 in
  let h := hm C1 C2 h1 h2 in
  let x := (v0 q - v0 p) / (kl * slR ((v0 p + v0 q) / 2)) in
  let y := (C2 - C1) / (kc * (1 + 0.045 * Cm)) in
  let z := dH / (kh * (1 + 0.015 * Cm * TR h)) in
  x ^ 2 + y ^ 2 + z ^ 2 + rtR h Cm * y * z.
Lemma cie_core p q kl kc kh : CIEDE2000 p q kl kc kh = sqrt (core p q kl kc kh cie_mean_hue cie_hue_diff).
Proof. reflexivity. Qed.
Definition code_hm (c1 c2 h1 h2 : R) := hbar h1 h2.
Definition code_dh (c1 c2 h1 h2 : R) := dhue h1 h2.
Lemma quad_nonneg x y z r : -2 < r < 2 -> 0 <= x ^ 2 + y ^ 2 + z ^ 2 + r * y * z.
Proof.
  intros H. replace (x ^ 2 + y ^ 2 + z ^ 2 + r * y * z) with (x ^ 2 + (y + r / 2 * z) ^ 2 + (1 - r * r / 4) * z ^ 2) by field.
  pose proof (pow2_ge_0 x). pose proof (pow2_ge_0 (y + r / 2 * z)). pose proof (pow2_ge_0 z).
  assert (0 <= 1 - r * r / 4) by nra. nra.
Qed.
Lemma quad_zero x y z r : -2 < r < 2 -> x ^ 2 + y ^ 2 + z ^ 2 + r * y * z = 0 -> x = 0 /\ y = 0 /\ z = 0.
Proof.
  intros H. replace (x ^ 2 + y ^ 2 + z ^ 2 + r * y * z) with (x ^ 2 + (y + r / 2 * z) ^ 2 + (1 - r * r / 4) * z ^ 2) by field.
  pose proof (pow2_ge_0 x). pose proof (pow2_ge_0 (y + r / 2 * z)). pose proof (pow2_ge_0 z).
  assert (P : 0 < 1 - r * r / 4) by nra. intros E. assert (Z2 : z ^ 2 = 0) by nra.
  assert (z = 0) by (apply Rsqr_0_uniq; unfold Rsqr; lra). subst z.
  assert (x = 0) by (apply Rsqr_0_uniq; unfold Rsqr; nra). assert (y ^ 2 = 0) by nra.
  assert (y = 0) by (apply Rsqr_0_uniq; unfold Rsqr; nra). auto.
Qed.
Lemma sqrt2_nonneg a b : 0 <= a ^ 2 + b ^ 2.
Proof. pose proof (pow2_ge_0 a). pose proof (pow2_ge_0 b). lra. Qed.
Lemma mean_nonneg a b : 0 <= (sqrt a + sqrt b) / 2.
Proof. pose proof (sqrt_pos a). pose proof (sqrt_pos b). lra. Qed.
Lemma core_nonneg p q kl kc kh hm dh : 0 <= core p q kl kc kh hm dh.
Proof. unfold core. cbv zeta. apply quad_nonneg, rtR_range, mean_nonneg. Qed.
Lemma sqrt2_fin a b : rx_sqrt (a * a + b * b) = Some (sqrt (a ^ 2 + b ^ 2)).
Proof. replace (a * a + b * b) with (a ^ 2 + b ^ 2) by ring. apply rsqrt_ok, sqrt2_nonneg. Qed.
Lemma E00_fin p q kl kc kh : 0 < kl -> 0 < kc -> 0 < kh ->
  Delta_E00 RN (finV p) (finV q) (Some kl) (Some kc) (Some kh) = Some (sqrt (core p q kl kc kh code_hm code_dh)).
Proof.
  intros Hl Hc Hh. unfold Delta_E00. cbv zeta. destruct p as [L1 a1 b1], q as [L2 a2 b2]. unfold finV. cbn [v0 v1 v2 vref].
  cbn [fadd fsub fmul fsqrt RN rx1 rx2]. rewrite !sqrt2_fin.
  cbn [fadd fsub fmul fsqrt fdiv flit RN rx1 rx2]. replace (Rdec 2) with 2 by (qn; lra). rewrite !rdiv_ok by lra.
  rewrite G_fin by apply mean_nonneg. 
  unfold core, code_hm, code_dh. cbn [v0 v1 v2].
  set (g := gR _). cbn [fadd fsub fmul fsqrt fdiv flit RN rx1 rx2]. replace (Rdec 1) with 1 by (qn; lra).
  replace (a1 * (1 + g)) with ((1 + g) * a1) by ring. replace (a2 * (1 + g)) with ((1 + g) * a2) by ring.
  rewrite !sqrt2_fin. set (A1 := (1 + g) * a1). set (A2 := (1 + g) * a2).
  set (C1 := sqrt (A1 ^ 2 + b1 ^ 2)). set (C2 := sqrt (A2 ^ 2 + b2 ^ 2)).
  assert (P1 : 0 <= C1) by apply sqrt_pos. assert (P2 : 0 <= C2) by apply sqrt_pos.
  rewrite !hue_fin, !hbar_fin, dhue_fin, T_fin, Sl_fin. cbn [rx2]. rewrite ?(rdiv_ok (C1 + C2) 2) by (qn; lra). cbn [rx2 rx1 fsin fpi RN].
  rewrite Rt_fin by (unfold C1, C2; apply mean_nonneg). rewrite (rsqrt_ok (C1 * C2)) by (apply Rmult_le_pos; assumption).
  cbn [rx2 rx1]. set (h1 := cie_hue A1 b1). set (h2 := cie_hue A2 b2).
  pose proof (slR_ge ((L1 + L2) / 2)) as S1. pose proof (TR_range (hbar h1 h2)) as S2.
  replace (Rdec 45e-3) with 0.045 by (qn; lra). replace (Rdec 15e-3) with 0.015 by (qn; lra).
  set (Cm := (C1 + C2) / 2). assert (P3 : 0 <= Cm) by (unfold Cm; lra).
  assert (0 < 1 + 0.045 * Cm) by lra. assert (0 < 1 + 0.015 * Cm * TR (hbar h1 h2)) by nra.
  assert (0 < kl * slR ((L1 + L2) / 2)) by (apply Rmult_lt_0_compat; lra).
  assert (0 < kc * (1 + 0.045 * Cm)) by (apply Rmult_lt_0_compat; lra).
  assert (0 < kh * (1 + 0.015 * Cm * TR (hbar h1 h2))) by (apply Rmult_lt_0_compat; lra).
  rewrite (rdiv_ok (PI * dhue h1 h2) (Rdec 180 * 2)) by (qn; lra). cbn [rx1 rx2]. rewrite !rdiv_ok by lra. cbn [rx1 rx2].
  replace (PI * dhue h1 h2 / (Rdec 180 * 2)) with (dhue h1 h2 / 2 * PI / 180) by (qn; field).
  change (sin (dhue h1 h2 / 2 * PI / 180)) with (sind (dhue h1 h2 / 2)).
  set (x := (L2 - L1) / _). set (y := (C2 - C1) / _). set (z := _ / (kh * _)).
  replace (x * x + y * y + z * z) with (x ^ 2 + y ^ 2 + z ^ 2) by ring. apply rsqrt_ok, quad_nonneg, rtR_range, P3.
Qed.
Lemma hbar_sym h1 h2 : hbar h1 h2 = hbar h2 h1.
Proof. unfold hbar. rewrite (Rabs_minus_sym h1 h2), (Rplus_comm h1 h2). reflexivity. Qed.
Lemma sind_opp x : sind (- x) = - sind x.
Proof. unfold sind. replace (- x * PI / 180) with (- (x * PI / 180)) by lra. apply sin_neg. Qed.
Lemma core_sym p q kl kc kh : core p q kl kc kh code_hm code_dh = core q p kl kc kh code_hm code_dh.
Proof.
  unfold core, code_hm, code_dh. cbv zeta. rewrite (Rplus_comm (sqrt (v1 q ^ 2 + v2 q ^ 2)) (sqrt (v1 p ^ 2 + v2 p ^ 2))).
  set (g := gR _). set (A1 := (1 + g) * v1 p). set (A2 := (1 + g) * v1 q).
  set (C1 := sqrt (A1 ^ 2 + _)). set (C2 := sqrt (A2 ^ 2 + _)). set (h1 := cie_hue A1 _). set (h2 := cie_hue A2 _).
  rewrite (hbar_sym h2 h1), (dhue_swap h1 h2), (Rplus_comm C2 C1), (Rmult_comm C2 C1), (Rplus_comm (v0 q) (v0 p)).
  replace (- dhue h1 h2 / 2) with (- (dhue h1 h2 / 2)) by lra. rewrite sind_opp. unfold Rdiv. ring.
Qed.
Lemma sqrt_eq_0' x : 0 <= x -> sqrt x = 0 -> x = 0. Proof. apply sqrt_eq_0. Qed.
Lemma sind_0 x : -90 <= x <= 90 -> sind x = 0 -> x = 0.
Proof.
  intros H E. unfold sind in E. pose proof PI_RGT_0.
  assert (A : -90 * PI <= x * PI) by (apply Rmult_le_compat_r; lra). assert (B : x * PI <= 90 * PI) by (apply Rmult_le_compat_r; lra).
  destruct (Rtotal_order x 0) as [L|[L|L]]; [|assumption|].
  - assert (0 < sin (- (x * PI / 180))) by (assert (x * PI < 0 * PI) by (apply Rmult_lt_compat_r; lra); apply sin_gt_0; lra). rewrite sin_neg in *. lra.
  - assert (0 < sin (x * PI / 180)) by (assert (0 * PI < x * PI) by (apply Rmult_lt_compat_r; lra); apply sin_gt_0; lra). lra.
Qed.
Lemma div_eq_0 a b : b <> 0 -> a / b = 0 -> a = 0.
Proof. intros B H. apply (Rmult_eq_reg_r (/ b)); [|now apply Rinv_neq_0_compat]. rewrite Rmult_0_l. exact H. Qed.
Lemma core_zero p q kl kc kh : 0 < kl -> 0 < kc -> 0 < kh -> core p q kl kc kh code_hm code_dh = 0 -> p = q.
Proof.
  intros Hl Hc Hh. unfold core, code_hm, code_dh. cbv zeta.
  pose proof (gR_range _ (mean_nonneg (v1 p ^ 2 + v2 p ^ 2) (v1 q ^ 2 + v2 q ^ 2))) as G.
  set (g := gR _) in *. set (A1 := (1 + g) * v1 p). set (A2 := (1 + g) * v1 q).
  pose proof (polar A1 (v2 p)) as (X1 & Y1). pose proof (polar A2 (v2 q)) as (X2 & Y2).
  replace (A1 * A1 + v2 p * v2 p) with (A1 ^ 2 + v2 p ^ 2) in * by ring. replace (A2 * A2 + v2 q * v2 q) with (A2 ^ 2 + v2 q ^ 2) in * by ring.
  rewrite <- (proj1 (hue_cos A1 (v2 p))) in X1. rewrite <- (proj1 (hue_cos A2 (v2 q))) in X2.
  rewrite <- (proj2 (hue_cos A1 (v2 p))) in Y1. rewrite <- (proj2 (hue_cos A2 (v2 q))) in Y2.
  pose proof (cie_hue_range A1 (v2 p)) as R1. pose proof (cie_hue_range A2 (v2 q)) as R2.
  assert (P1 : 0 <= sqrt (A1 ^ 2 + v2 p ^ 2)) by apply sqrt_pos. assert (P2 : 0 <= sqrt (A2 ^ 2 + v2 q ^ 2)) by apply sqrt_pos.
  set (C1 := sqrt (A1 ^ 2 + _)) in *. set (C2 := sqrt (A2 ^ 2 + _)) in *. set (h1 := cie_hue A1 _) in *. set (h2 := cie_hue A2 _) in *.
  set (Cm := (C1 + C2) / 2). assert (P3 : 0 <= Cm) by (unfold Cm; lra).
  pose proof (slR_ge ((v0 p + v0 q) / 2)) as S1. pose proof (TR_range (hbar h1 h2)) as S2.
  assert (0 < 1 + 0.045 * Cm) by lra. assert (0 < 1 + 0.015 * Cm * TR (hbar h1 h2)) by nra.
  assert (N1 : 0 < kl * slR ((v0 p + v0 q) / 2)) by (apply Rmult_lt_0_compat; lra).
  assert (N2 : 0 < kc * (1 + 0.045 * Cm)) by (apply Rmult_lt_0_compat; lra).
  assert (N3 : 0 < kh * (1 + 0.015 * Cm * TR (hbar h1 h2))) by (apply Rmult_lt_0_compat; lra).
  intros E. apply quad_zero in E; [|apply rtR_range, P3]. destruct E as (E1 & E2 & E3).
  apply div_eq_0 in E1; [|lra]. apply div_eq_0 in E2; [|lra]. apply div_eq_0 in E3; [|lra].
  assert (EC : C2 = C1) by lra. rewrite EC in *. rewrite sqrt_square in E3 by assumption.
  assert (K : A1 = A2 /\ v2 p = v2 q).
  { destruct (Req_dec C1 0) as [Z|NZ].
    - rewrite Z in *. lra.
    - assert (sind (dhue h1 h2 / 2) = 0). { apply Rmult_integral in E3. destruct E3; [lra|assumption]. }
      pose proof (dhue_range h1 h2 R1 R2). assert (D : dhue h1 h2 / 2 = 0) by (apply sind_0; [lra|assumption]).
      assert (HH : h1 = h2) by (apply dhue_0; try assumption; lra). rewrite HH in *. split; congruence. }
  destruct K as [K1 K2]. destruct p as [L1 a1 b1], q as [L2 a2 b2]. unfold A1, A2 in K1. cbn [v0 v1 v2] in *.
  apply V3_eq; [lra| |exact K2]. apply (Rmult_eq_reg_l (1 + g)); lra.
Qed.
Lemma core_self p kl kc kh : core p p kl kc kh code_hm code_dh = 0.
Proof.
  unfold core, code_hm, code_dh. cbv zeta. set (g := gR _). set (A1 := (1 + g) * v1 p). set (C1 := sqrt (A1 ^ 2 + _)).
  set (h1 := cie_hue A1 _). assert (D : dhue h1 h1 = 0). { unfold dhue. replace (h1 - h1) with 0 by ring. rewrite Rabs_R0. destruct (Rle_dec 0 180); lra. }
  rewrite D. replace (sind (0 / 2)) with 0. 2:{ unfold sind. replace (0 / 2 * PI / 180) with 0 by lra. now rewrite sin_0. }
  unfold Rdiv. ring.
Qed.
Lemma C40_l (p q : Vector3 R) (kl kc kh : R) : 0 < kl -> 0 < kc -> 0 < kh -> exists d,
  Delta_E00 RN (finV p) (finV q) (Some kl) (Some kc) (Some kh) = Some d /\ 0 <= d /\
  Delta_E00 RN (finV q) (finV p) (Some kl) (Some kc) (Some kh) = Some d /\ (d = 0 <-> p = q).
Proof.
  intros Hl Hc Hh. exists (sqrt (core p q kl kc kh code_hm code_dh)). rewrite !E00_fin by assumption.
  rewrite (core_sym q p). repeat split; try apply sqrt_pos.
  - intros E. apply sqrt_eq_0 in E; [|apply core_nonneg]. revert E. now apply core_zero.
  - intros ->. rewrite core_self. apply sqrt_0.
Qed.
