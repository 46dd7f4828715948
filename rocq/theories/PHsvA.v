(** * Hue by arctangent. *)
From Coq Require Import ZArith Reals Lra Lia List Bool Machin.
From Flocq Require Import Core.Raux Core.Generic_fmt Core.Defs.
From Verif Require Import Num NumR NumF MVec MTri SpecMat SpecDelta RTac PMat PMod360 PHsv PE00.
Local Open Scope R_scope.

Lemma PI_bounds : 3.1415 <= PI <= 3.1416.
Proof.
  assert (A := PI_2_3_7_ineq 3). unfold tg_alt, PI_2_3_7_tg, Ratan_seq in A. cbn in A. lra.
Qed.
Lemma atan_lower y : 0 <= y -> y - y * y * y / 3 <= atan y.
Proof.
  intros H. destruct (Req_dec y 0) as [->|N]; [rewrite atan_0; lra|].
  destruct (MVT_cor2 (fun x => atan x - (x - x * x * x / 3)) (fun x => / (1 + x ^ 2) - (1 - x * x)) 0 y ltac:(lra)) as (c & E & C).
  - intros c _. apply derivable_pt_lim_minus; [apply derivable_pt_lim_atan|].
    apply derivable_pt_lim_minus; [apply derivable_pt_lim_id|].
    replace (c * c) with ((3 * c * c) * / 3 + c * c * c * 0) by field.
    apply (derivable_pt_lim_mult (fun x => x * x * x) (fun _ => / 3)); [|apply derivable_pt_lim_const].
    replace (3 * c * c) with ((1 * c + c * 1) * c + c * c * 1) by ring.
    apply (derivable_pt_lim_mult (fun x => x * x) (fun x => x)); [|apply derivable_pt_lim_id].
    apply (derivable_pt_lim_mult (fun x => x) (fun x => x)); apply derivable_pt_lim_id.
  - cbv beta in E. rewrite atan_0 in E. assert (P : 0 <= / (1 + c ^ 2) - (1 - c * c)).
    { replace (/ (1 + c ^ 2) - (1 - c * c)) with ((c * c) * (c * c) * / (1 + c ^ 2)) by (field; nra).
      apply Rmult_le_pos; [nra|]. left. apply Rinv_0_lt_compat. nra. }
    nra.
Qed.
Definition sig (s : R) : R := atan (sqrt 3 * s / (2 - s)).
Lemma sqrt3 : 1.732 <= sqrt 3 <= 1.7321 /\ sqrt 3 * sqrt 3 = 3.
Proof.
  assert (E : sqrt 3 * sqrt 3 = 3) by (apply sqrt_sqrt; lra). pose proof (sqrt_pos 3). split; [|exact E]. nra.
Qed.
Lemma sig_der c : 0 <= c <= 1 -> derivable_pt_lim sig c (sqrt 3 / 2 / (1 - c + c * c)).
Proof.
  intros H. pose proof sqrt3 as [B E]. unfold sig.
  assert (D : derivable_pt_lim (fun s => sqrt 3 * s / (2 - s)) c (2 * sqrt 3 / ((2 - c) * (2 - c)))).
  { replace (2 * sqrt 3 / ((2 - c) * (2 - c))) with (((0 * c + sqrt 3 * 1) * (2 - c) - (0 - 1) * (sqrt 3 * c)) / Rsqr (2 - c)) by (unfold Rsqr; field; lra).
    apply (derivable_pt_lim_div (fun s => sqrt 3 * s) (fun s => 2 - s)); [| |lra].
    - apply (derivable_pt_lim_mult (fun _ => sqrt 3) (fun s => s)); [apply derivable_pt_lim_const|apply derivable_pt_lim_id].
    - apply (derivable_pt_lim_minus (fun _ => 2) (fun s => s)); [apply derivable_pt_lim_const|apply derivable_pt_lim_id]. }
  replace (sqrt 3 / 2 / (1 - c + c * c)) with (/ (1 + (sqrt 3 * c / (2 - c)) ^ 2) * (2 * sqrt 3 / ((2 - c) * (2 - c)))).
  - apply (derivable_pt_lim_comp (fun s => sqrt 3 * s / (2 - s)) atan); [exact D|apply derivable_pt_lim_atan].
  - replace (1 + (sqrt 3 * c / (2 - c)) ^ 2) with (4 * (1 - c + c * c) / ((2 - c) * (2 - c))).
    + field. repeat split; nra.
    + apply (Rmult_eq_reg_r ((2 - c) * (2 - c))); [|nra]. field_simplify; try lra. replace (sqrt 3 ^ 2) with 3 by (cbn; lra). ring.
Qed.
Lemma sig_0 : sig 0 = 0.
Proof. unfold sig. replace (sqrt 3 * 0 / (2 - 0)) with 0 by field. apply atan_0. Qed.
Lemma sig_1 : sig 1 = PI / 3.
Proof.
  unfold sig. replace (sqrt 3 * 1 / (2 - 1)) with (sqrt 3) by field. rewrite <- tan_PI3. apply atan_tan. pose proof PI_RGT_0. lra.
Qed.
Lemma sig_sum s : 0 <= s <= 1 -> sig s + sig (1 - s) = PI / 3.
Proof.
  intros H. destruct (Req_dec s 0) as [->|N]; [rewrite sig_0; replace (1 - 0) with 1 by ring; rewrite sig_1; ring|].
  destruct (MVT_cor2 (fun x => sig x + sig (1 - x)) (fun _ => 0) 0 s ltac:(lra)) as (c & E & C).
  - intros c C. replace 0 with (sqrt 3 / 2 / (1 - c + c * c) + sqrt 3 / 2 / (1 - (1 - c) + (1 - c) * (1 - c)) * (0 - 1)).
    + apply derivable_pt_lim_plus; [apply sig_der; lra|]. apply (derivable_pt_lim_comp (fun x => 1 - x) sig); [|apply sig_der; lra].
      apply (derivable_pt_lim_minus (fun _ => 1) (fun x => x)); [apply derivable_pt_lim_const|apply derivable_pt_lim_id].
    + replace (1 - (1 - c) + (1 - c) * (1 - c)) with (1 - c + c * c) by ring. ring.
  - cbv beta in E. rewrite sig_0 in E. replace (1 - 0) with 1 in E by ring. rewrite sig_1 in E. lra.
Qed.
Lemma sig_half : sig (1 / 2) = PI / 6.
Proof. pose proof (sig_sum (1 / 2) ltac:(lra)) as E. replace (1 - 1 / 2) with (1 / 2) in E by lra. lra. Qed.
Lemma sig_mvt a b : 0 <= a -> a < b -> b <= 1 -> exists c, sig b - sig a = sqrt 3 / 2 / (1 - c + c * c) * (b - a) /\ a < c < b.
Proof. intros A L B. apply (MVT_cor2 sig (fun c => sqrt 3 / 2 / (1 - c + c * c)) a b L). intros c C. apply sig_der. lra. Qed.
Lemma quot_le a b d : 0 < d -> a <= b * d -> a / d <= b.
Proof. intros D H. apply Rmult_le_reg_r with d; [exact D|]. unfold Rdiv. rewrite Rmult_assoc, Rinv_l by lra. lra. Qed.
Lemma quot_ge a b d : 0 < d -> b * d <= a -> b <= a / d.
Proof. intros D H. apply Rmult_le_reg_r with d; [exact D|]. unfold Rdiv. rewrite Rmult_assoc, Rinv_l by lra. lra. Qed.
(** on the first half *)
Lemma sig_half_hi s : 0 <= s <= 1 / 2 -> 60 * s - 180 / PI * sig s <= 6 / 5.
Proof.
  intros H. pose proof sqrt3 as [B E]. pose proof PI_bounds as P. set (y := sqrt 3 * s / (2 - s)).
  assert (Y : 0 <= y) by (unfold y; apply div_nonneg; [lra|nra]).
  pose proof (atan_lower y Y) as A. change (atan y) with (sig s) in A.
  assert (Z : y - y * y * y / 3 = sqrt 3 * 4 * (s * (1 - s)) / ((2 - s) * (2 - s) * (2 - s))).
  { apply Rminus_diag_uniq. unfold y, Rdiv. 
    assert (Q : (2 - s) * / (2 - s) = 1) by (apply Rinv_r; lra).
    rewrite !Rinv_mult. set (q := / (2 - s)) in *. 
    replace (sqrt 3 * s * q - sqrt 3 * s * q * (sqrt 3 * s * q) * (sqrt 3 * s * q) * / 3 - sqrt 3 * 4 * (s * (1 - s)) * (q * q * q))
      with (sqrt 3 * s * q - (sqrt 3 * sqrt 3) * / 3 * (sqrt 3 * (s * s * s) * (q * q * q)) - sqrt 3 * 4 * (s * (1 - s)) * (q * q * q)) by ring.
    rewrite E. replace (3 * / 3) with 1 by lra.
    replace (sqrt 3 * s * q) with (sqrt 3 * s * q * (((2 - s) * q) * ((2 - s) * q))) by (rewrite Q; ring). ring. }
  rewrite Z in A.
  assert (K : 57.295 <= 180 / PI) by (apply quot_ge; lra).
  assert (C3 : 0 < (2 - s) * (2 - s) * (2 - s)) by (repeat apply Rmult_lt_0_compat; lra).
  assert (L : 396.9 * (s * (1 - s)) / ((2 - s) * (2 - s) * (2 - s)) <= 180 / PI * sig s).
  { apply Rle_trans with (57.295 * (sqrt 3 * 4 * (s * (1 - s)) / ((2 - s) * (2 - s) * (2 - s)))).
    - replace (57.295 * (sqrt 3 * 4 * (s * (1 - s)) / ((2 - s) * (2 - s) * (2 - s)))) with (57.295 * sqrt 3 * 4 * (s * (1 - s)) / ((2 - s) * (2 - s) * (2 - s))) by (field; lra).
      unfold Rdiv. apply Rmult_le_compat_r; [left; now apply Rinv_0_lt_compat|]. apply Rmult_le_compat_r; [nra|lra].
    - apply Rmult_le_compat; [lra| |exact K|exact A]. apply div_nonneg; [exact C3|]. apply Rmult_le_pos; nra. }
  assert (M : 60 * s - 6 / 5 <= 396.9 * (s * (1 - s)) / ((2 - s) * (2 - s) * (2 - s))); [|lra].
  apply quot_ge; [exact C3|].
  assert (Q : 0 <= 396.9 * (s * (1 - s)) - (60 * s - 6 / 5) * ((2 - s) * (2 - s) * (2 - s))); [|lra].
  replace (396.9 * (s * (1 - s)) - (60 * s - 6 / 5) * ((2 - s) * (2 - s) * (2 - s))) with (9.6 - 97.5 * s + 330.3 * (s * s) - 361.2 * (s * s * s) + 60 * (s * s * s * s)) by lra.
  pose proof (Rle_0_sqr (s - 23 / 100)) as S0. unfold Rsqr in S0.
  pose proof (Rmult_le_pos _ _ (proj1 H) S0) as S1. pose proof (Rmult_le_pos _ _ (proj1 H) S1) as S2.
  assert (S3 : 0 <= (1 / 2 - s) * ((s - 23 / 100) * (s - 23 / 100))) by (apply Rmult_le_pos; lra).
  lra.
Qed.
Lemma sig_half_lo s : 0 <= s <= 1 / 2 -> 180 / PI * sig s - 60 * s <= 6 / 5.
Proof.
  intros H. pose proof sqrt3 as [B E]. pose proof PI_bounds as P.
  assert (K : 180 / PI <= 573 / 10) by (apply quot_le; lra). assert (K' : 57 <= 180 / PI) by (apply quot_ge; lra).
  destruct (Rle_dec s (22 / 100)) as [L|L].
  - destruct (Req_dec s 0) as [->|N]; [rewrite sig_0; lra|].
    destruct (sig_mvt 0 s ltac:(lra) ltac:(lra) ltac:(lra)) as (c & Q & C). rewrite sig_0 in Q.
    assert (D : sqrt 3 / 2 / (1 - c + c * c) <= 21 / 20) by (apply quot_le; nra).
    assert (sig s <= 21 / 20 * s) by nra. assert (0 <= sig s).
    { assert (0 <= sqrt 3 / 2 / (1 - c + c * c)) by (apply div_nonneg; nra). nra. }
    assert (180 / PI * sig s <= 573 / 10 * (21 / 20 * s)) by (apply Rmult_le_compat; lra). lra.
  - destruct (Req_dec s (1 / 2)) as [->|N].
    { rewrite sig_half. replace (180 / PI * (PI / 6)) with 30 by (field; lra). lra. }
    destruct (sig_mvt s (1 / 2) ltac:(lra) ltac:(lra) ltac:(lra)) as (c & Q & C). rewrite sig_half in Q.
    assert (D : 1 <= sqrt 3 / 2 / (1 - c + c * c)) by (apply quot_ge; nra).
    assert (sig s <= PI / 6 - (1 / 2 - s)) by nra.
    assert (180 / PI * sig s <= 180 / PI * (PI / 6 - (1 / 2 - s))) by (apply Rmult_le_compat_l; lra).
    replace (180 / PI * (PI / 6 - (1 / 2 - s))) with (30 - 180 / PI * (1 / 2 - s)) in H1 by (field; lra). nra.
Qed.
Lemma sig_range s : 0 <= s <= 1 -> 0 <= sig s <= PI / 3.
Proof.
  intros H. assert (G : forall x, 0 <= x <= 1 -> 0 <= sig x).
  { intros x X. unfold sig. rewrite <- atan_0. destruct (Req_dec x 0) as [->|N]; [replace (sqrt 3 * 0 / (2 - 0)) with 0 by field; lra|].
    left. apply atan_increasing. apply Rdiv_lt_0_compat; [pose proof sqrt3 as [B E]; nra|lra]. }
  pose proof (G s H). pose proof (G (1 - s) ltac:(lra)). pose proof (sig_sum s H). lra.
Qed.
Lemma sig_bound s : 0 <= s <= 1 -> Rabs (60 * s - 180 / PI * sig s) <= 6 / 5.
Proof.
  intros H. pose proof PI_bounds as P. destruct (Rle_dec s (1 / 2)) as [L|L].
  - pose proof (sig_half_hi s ltac:(lra)). pose proof (sig_half_lo s ltac:(lra)). apply Rabs_le. lra.
  - pose proof (sig_half_hi (1 - s) ltac:(lra)) as A. pose proof (sig_half_lo (1 - s) ltac:(lra)) as B. pose proof (sig_sum s H) as S.
    assert (E : 180 / PI * sig (1 - s) = 60 - 180 / PI * sig s).
    { replace (sig (1 - s)) with (PI / 3 - sig s) by lra. field. lra. }
    apply Rabs_le. lra.
Qed.

(** ** The angle is determined by its direction *)
Lemma cos_one z : - (2 * PI) < z < 2 * PI -> cos z = 1 -> z = 0.
Proof.
  intros H E. assert (S : sin (z / 2) = 0).
  { assert (X : cos z = 1 - 2 * sin (z / 2) * sin (z / 2)) by (rewrite <- cos_2a_sin; f_equal; lra). rewrite E in X. nra. }
  destruct (Rtotal_order z 0) as [L|[L|L]]; [|exact L|].
  - pose proof (sin_gt_0 (- (z / 2)) ltac:(lra) ltac:(lra)) as G. rewrite sin_neg in G. lra.
  - pose proof (sin_gt_0 (z / 2) ltac:(lra) ltac:(lra)). lra.
Qed.
Lemma cie_hue_unique rho a b th : 0 < rho -> 0 <= th < 2 * PI -> a = rho * cos th -> b = rho * sin th -> cie_hue a b = 180 / PI * th.
Proof.
  intros R T EA EB. pose proof PI_RGT_0 as P. destruct (polar a b) as [PA PB]. destruct (hue_cos a b) as [HC HS].
  assert (Q : sqrt (a * a + b * b) = rho).
  { rewrite EA, EB. replace (rho * cos th * (rho * cos th) + rho * sin th * (rho * sin th)) with (rho * rho * (Rsqr (sin th) + Rsqr (cos th))) by (unfold Rsqr; ring).
    rewrite sin2_cos2, Rmult_1_r. apply sqrt_square. lra. }
  rewrite Q in PA, PB. pose proof (cie_hue_range a b) as HR. set (h := cie_hue a b) in *. unfold cosd in HC. unfold sind in HS.
  assert (C : cos (h * PI / 180) = cos th) by (rewrite HC; apply (Rmult_eq_reg_l rho); lra).
  assert (S : sin (h * PI / 180) = sin th) by (rewrite HS; apply (Rmult_eq_reg_l rho); lra).
  assert (Z : h * PI / 180 - th = 0).
  { apply cos_one; [nra|]. rewrite cos_minus, C, S. pose proof (sin2_cos2 th) as X. unfold Rsqr in X. lra. }
  replace th with (h * PI / 180) by lra. field. lra.
Qed.
Lemma sig_polar s : 0 <= s <= 1 -> exists rho, 0 < rho /\ rho * cos (sig s) = 2 - s /\ rho * sin (sig s) = sqrt 3 * s.
Proof.
  intros H. exists (sqrt ((2 - s) * (2 - s) + sqrt 3 * s * (sqrt 3 * s))).
  assert (0 < sqrt ((2 - s) * (2 - s) + sqrt 3 * s * (sqrt 3 * s))).
  { apply sqrt_lt_R0. pose proof (Rle_0_sqr (sqrt 3 * s)) as X. unfold Rsqr in X. nra. }
  split; [assumption|]. unfold sig. pose proof (polar_pos (2 - s) (sqrt 3 * s) ltac:(lra)) as E. split; [exact E|].
  rewrite atan_sin. transitivity (sqrt 3 * s / (2 - s) * (sqrt ((2 - s) * (2 - s) + sqrt 3 * s * (sqrt 3 * s)) * cos (atan (sqrt 3 * s / (2 - s))))); [ring|].
  rewrite E. field. lra.
Qed.
(** the direction [phi + e * sig s], seen from the three primaries *)
Lemma sext phi c d e s A B : 0 < d -> 0 <= s <= 1 -> 0 <= phi + e * sig s < 2 * PI -> (e = 1 \/ e = -1) -> cos phi = c ->
  A = d * (c * (2 - s) - e * sin phi * (sqrt 3 * s)) -> B = d * (sin phi * (2 - s) + e * c * (sqrt 3 * s)) ->
  cie_hue A B = 180 / PI * (phi + e * sig s).
Proof.
  intros D S T E C EA EB. destruct (sig_polar s S) as (rho & R & PC & PS). apply (cie_hue_unique (d * rho)).
  - now apply Rmult_lt_0_compat.
  - exact T.
  - rewrite cos_plus, C, EA, <- PC, <- PS. destruct E as [->| ->].
    + rewrite !Rmult_1_l. ring.
    + replace (-1 * sig s) with (- sig s) by ring. rewrite cos_neg, sin_neg. ring.
  - rewrite sin_plus, C, EB, <- PC, <- PS. destruct E as [->| ->].
    + rewrite !Rmult_1_l. ring.
    + replace (-1 * sig s) with (- sig s) by ring. rewrite cos_neg, sin_neg. ring.
Qed.
Definition hueA (t : Vector3 R) : R := cie_hue (2 * v0 t - v1 t - v2 t) (sqrt 3 * (v1 t - v2 t)).
Lemma cos4 : cos (4 * PI / 3) = - (1 / 2) /\ sin (4 * PI / 3) = - (sqrt 3 / 2).
Proof. replace (4 * PI / 3) with (PI / 3 + PI) by field. rewrite neg_cos, neg_sin, cos_PI3, sin_PI3. lra. Qed.
Lemma cos2 : cos (2 * PI / 3) = - (1 / 2) /\ sin (2 * PI / 3) = sqrt 3 / 2.
Proof. replace (2 * PI / 3) with (2 * (PI / 3)) by field. rewrite cos_2PI3, sin_2PI3. lra. Qed.
Lemma sextants t : max3 t <> min3 t -> exists k e s, 0 <= s <= 1 /\ (e = 1 \/ e = -1) /\
  hue t = 60 * (k + e * s) /\ hueA t = 180 / PI * (k * PI / 3 + e * sig s).
Proof.
  intros N. pose proof (max3_ge t) as (A0 & A1 & A2). pose proof (min3_le t) as (B0 & B1 & B2).
  pose proof (max3_in t) as CM. pose proof (min3_in t) as Cm. pose proof PI_RGT_0 as P. pose proof sqrt3 as [Q3 E3].
  assert (D : 0 < max3 t - min3 t) by lra. unfold hue, hue60, hueA. cbv zeta. destruct t as [r g b]. cbn [v0 v1 v2] in *.
  set (M := max3 (V3 r g b)) in *. set (m := min3 (V3 r g b)) in *.
  destruct (Req_EM_T M m) as [X|_]; [contradiction|].
  destruct (Req_EM_T M r) as [E0|E0].
  { destruct (Rle_dec b g) as [L|L].
    - assert (Em : m = b) by lra. exists 0, 1, ((g - b) / (M - m)).
      pose proof (div_nonneg (g - b) (M - m) D ltac:(lra)) as S0. assert (S1 : (g - b) / (M - m) <= 1) by (apply quot_le; lra).
      assert (SS : 0 <= (g - b) / (M - m) <= 1) by lra. pose proof (sig_range _ SS) as SR.
      split; [exact SS|]. split; [now left|]. split; [destruct (Rlt_dec _ 0); lra|].
      rewrite (sext 0 1 (M - m) 1 ((g - b) / (M - m))); try (now left); try lra; [apply cos_0| |]; rewrite ?sin_0.
      + rewrite E0, Em. field. lra. 
      + rewrite E0, Em. field. lra.
    - assert (Em : m = g) by lra. exists 6, (-1), ((b - g) / (M - m)).
      assert (S0 : 0 < (b - g) / (M - m)) by (apply Rdiv_lt_0_compat; lra). assert (S1 : (b - g) / (M - m) <= 1) by (apply quot_le; lra).
      assert (SS : 0 <= (b - g) / (M - m) <= 1) by lra. pose proof (sig_range _ SS) as SR.
      assert (SP : 0 < sig ((b - g) / (M - m))).
      { unfold sig. rewrite <- atan_0. apply atan_increasing. apply Rdiv_lt_0_compat; [|lra]. apply Rmult_lt_0_compat; lra. }
      assert (EQ : (g - b) / (M - m) = - ((b - g) / (M - m))) by (field; lra). rewrite EQ.
      split; [exact SS|]. split; [now right|]. split; [destruct (Rlt_dec _ 0); lra|].
      rewrite (sext (2 * PI) 1 (M - m) (-1) ((b - g) / (M - m))); try (now right); try lra; [apply cos_2PI| |]; rewrite ?sin_2PI.
      + rewrite E0, Em. field. lra.
      + rewrite E0, Em. field. lra. }
  destruct cos2 as [c2 s2]. destruct cos4 as [c4 s4].
  destruct (Req_EM_T M g) as [E1|E1].
  { destruct (Rle_dec b r) as [L|L].
    - assert (Em : m = b) by lra. exists 2, (-1), ((r - b) / (M - m)).
      pose proof (div_nonneg (r - b) (M - m) D ltac:(lra)) as S0. assert (S1 : (r - b) / (M - m) <= 1) by (apply quot_le; lra).
      assert (SS : 0 <= (r - b) / (M - m) <= 1) by lra. pose proof (sig_range _ SS) as SR.
      assert (EQ : (b - r) / (M - m) = - ((r - b) / (M - m))) by (field; lra). rewrite EQ.
      split; [exact SS|]. split; [now right|]. split; [destruct (Rlt_dec _ 0); lra|].
      rewrite (sext (2 * PI / 3) (- (1 / 2)) (M - m) (-1) ((r - b) / (M - m))); try (now right); try lra; rewrite ?s2.
      + transitivity ((M - m) * (- (1 / 2) * (2 - (r - b) / (M - m)) + (sqrt 3 * sqrt 3) / 2 * ((r - b) / (M - m)))); [|field; lra]. rewrite E3, E1, Em. field. lra.
      + rewrite E1, Em. field. lra.
    - assert (Em : m = r) by lra. exists 2, 1, ((b - r) / (M - m)).
      pose proof (div_nonneg (b - r) (M - m) D ltac:(lra)) as S0. assert (S1 : (b - r) / (M - m) <= 1) by (apply quot_le; lra).
      assert (SS : 0 <= (b - r) / (M - m) <= 1) by lra. pose proof (sig_range _ SS) as SR.
      split; [exact SS|]. split; [now left|]. split; [destruct (Rlt_dec _ 0); lra|].
      rewrite (sext (2 * PI / 3) (- (1 / 2)) (M - m) 1 ((b - r) / (M - m))); try (now left); try lra; rewrite ?s2.
      + transitivity ((M - m) * (- (1 / 2) * (2 - (b - r) / (M - m)) - (sqrt 3 * sqrt 3) / 2 * ((b - r) / (M - m)))); [|field; lra]. rewrite E3, E1, Em. field. lra.
      + rewrite E1, Em. field. lra. }
  assert (E2 : M = b) by lra.
  destruct (Rle_dec r g) as [L|L].
  - assert (Em : m = r) by lra. exists 4, (-1), ((g - r) / (M - m)).
    pose proof (div_nonneg (g - r) (M - m) D ltac:(lra)) as S0. assert (S1 : (g - r) / (M - m) <= 1) by (apply quot_le; lra).
    assert (SS : 0 <= (g - r) / (M - m) <= 1) by lra. pose proof (sig_range _ SS) as SR.
    assert (EQ : (r - g) / (M - m) = - ((g - r) / (M - m))) by (field; lra). rewrite EQ.
    split; [exact SS|]. split; [now right|]. split; [destruct (Rlt_dec _ 0); lra|].
    rewrite (sext (4 * PI / 3) (- (1 / 2)) (M - m) (-1) ((g - r) / (M - m))); try (now right); try lra; rewrite ?s4.
    + transitivity ((M - m) * (- (1 / 2) * (2 - (g - r) / (M - m)) - (sqrt 3 * sqrt 3) / 2 * ((g - r) / (M - m)))); [|field; lra]. rewrite E3, E2, Em. field. lra.
    + rewrite E2, Em. field. lra.
  - assert (Em : m = g) by lra. exists 4, 1, ((r - g) / (M - m)).
    pose proof (div_nonneg (r - g) (M - m) D ltac:(lra)) as S0. assert (S1 : (r - g) / (M - m) <= 1) by (apply quot_le; lra).
    assert (SS : 0 <= (r - g) / (M - m) <= 1) by lra. pose proof (sig_range _ SS) as SR.
    split; [exact SS|]. split; [now left|]. split; [destruct (Rlt_dec _ 0); lra|].
    rewrite (sext (4 * PI / 3) (- (1 / 2)) (M - m) 1 ((r - g) / (M - m))); try (now left); try lra; rewrite ?s4.
    + transitivity ((M - m) * (- (1 / 2) * (2 - (r - g) / (M - m)) + (sqrt 3 * sqrt 3) / 2 * ((r - g) / (M - m)))); [|field; lra]. rewrite E3, E2, Em. field. lra.
    + rewrite E2, Em. field. lra.
Qed.
Lemma hueA_near t : Rabs (hueA t - hue t) <= 6 / 5.
Proof.
  destruct (Req_dec (max3 t) (min3 t)) as [E|E].
  - pose proof (max3_ge t) as (A0 & A1 & A2). pose proof (min3_le t) as (B0 & B1 & B2).
    assert (H0 : hue t = 0). { unfold hue, hue60. destruct (Req_EM_T (max3 t) (min3 t)); [|contradiction]. destruct (Rlt_dec 0 0); lra. }
    assert (HA : hueA t = 0).
    { unfold hueA. replace (2 * v0 t - v1 t - v2 t) with 0 by lra. replace (v1 t - v2 t) with 0 by lra. rewrite Rmult_0_r.
      unfold cie_hue, R_atan2. rewrite !Rlt_bool_false by lra. cbv zeta. replace (0 * 180 / PI) with 0 by (field; apply PI_neq0). destruct (Rlt_dec 0 0); lra. }
    rewrite H0, HA. rewrite Rminus_0_r, Rabs_R0. lra.
  - destruct (sextants t E) as (k & e & s & S & EE & H & HA). rewrite H, HA. pose proof (sig_bound s S) as B. pose proof PI_RGT_0.
    replace (180 / PI * (k * PI / 3 + e * sig s) - 60 * (k + e * s)) with (- e * (60 * s - 180 / PI * sig s)) by (field; lra).
    rewrite Rabs_mult. replace (Rabs (- e)) with 1; [lra|]. destruct EE as [->| ->]; [rewrite Rabs_left|rewrite Rabs_right]; lra.
Qed.
Lemma toHSV_atan_fin n t : toHSV_atan RN (S (S n)) (finV t) = Ret (finV (V3 (hueA t) (sat t) (max3 t))).
Proof.
  pose proof PI_RGT_0 as P. unfold toHSV_atan. cbv zeta. rewrite max3_fin, min3_fin.
  match goal with |- context[mod360 RN _ ?x] => set (raw := x) end.
  assert (E : raw = Some (R_atan2 (sqrt 3 * (v1 t - v2 t)) (2 * v0 t - v1 t - v2 t) * 180 / PI)).
  { unfold raw. destruct t as [r g b]. rn. rewrite rdiv_ok by lra. rn. unfold rx_sqrt. rewrite Rlt_bool_false by lra. rn. fin_eq. field. lra. }
  rewrite E. clear raw E.
  assert (M : mod360 RN (S (S n)) (Some (R_atan2 (sqrt 3 * (v1 t - v2 t)) (2 * v0 t - v1 t - v2 t) * 180 / PI)) = Ret (Some (hueA t))).
  { unfold hueA, cie_hue. cbv zeta. pose proof (deg_range (sqrt 3 * (v1 t - v2 t)) (2 * v0 t - v1 t - v2 t)) as R. destruct (Rlt_dec _ 0) as [L|L].
    - rewrite mod360_R_neg by lra. rewrite mod360_R_id by lra. reflexivity.
    - rewrite mod360_R_id by lra. reflexivity. }
  rewrite M. cbn [bind]. f_equal. unfold finV, sat. rn.
  destruct (Req_EM_T (max3 t) 0) as [E|E].
  - rewrite Req_bool_true by exact E. reflexivity.
  - rewrite Req_bool_false by exact E. rewrite rdiv_ok by exact E. reflexivity.
Qed.
Lemma toHSV_atan_l t : terminates_with (fun n => toHSV_atan RN n (finV t))
  (Ret (finV (V3 (cie_hue (2 * v0 t - v1 t - v2 t) (sqrt 3 * (v1 t - v2 t))) (sat t) (max3 t)))).
Proof.
  exists 2%nat. intros m M. destruct m as [|[|m]]; try lia. split; [|discriminate]. rewrite toHSV_atan_fin. reflexivity.
Qed.
Lemma C75_l t : exists h h' s v,
  terminates_with (fun n => toHSV RN n (finV t)) (Ret (finV (V3 h s v))) /\
  terminates_with (fun n => toHSV_atan RN n (finV t)) (Ret (finV (V3 h' s v))) /\
  0 <= h < 360 /\ 0 <= h' < 360 /\ Rabs (h' - h) <= 6 / 5.
Proof.
  exists (hue t), (hueA t), (sat t), (max3 t). split; [|split; [apply toHSV_atan_l|]].
  - exists 2%nat. intros m M. destruct m as [|[|m]]; try lia. split; [|discriminate]. apply toHSV_fin.
  - split; [|split; [apply cie_hue_range|apply hueA_near]]. unfold hue. pose proof (hue60_range t). destruct (Rlt_dec _ _); lra.
Qed.
Lemma hue_example : Rabs (hueA (V3 1 0.3 0.2) - hue (V3 1 0.3 0.2)) <= 6 / 5 /\ hue (V3 1 0.3 0.2) = 7.5.
Proof.
  split; [apply hueA_near|]. set (t := V3 1 0.3 0.2).
  pose proof (max3_ge t) as (A0 & A1 & A2). pose proof (min3_le t) as (B0 & B1 & B2). pose proof (max3_in t) as CM. pose proof (min3_in t) as Cm.
  unfold t in *. cbn [v0 v1 v2] in *. assert (M : max3 (V3 1 0.3 0.2) = 1) by lra. assert (m : min3 (V3 1 0.3 0.2) = 0.2) by lra.
  unfold hue, hue60. cbv zeta. rewrite M, m. cbn [v0 v1 v2]. destruct (Req_EM_T 1 0.2); [lra|]. destruct (Req_EM_T 1 1); [|lra]. destruct (Rlt_dec _ _); lra.
Qed.
