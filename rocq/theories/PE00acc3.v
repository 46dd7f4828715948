(** * Accuracy of the CIE 2000 difference in binary32: the hue-dependent weights. *)
From Coq Require Import ZArith Reals Lra Lia List Bool Psatz.
From Flocq Require Import Core IEEE754.BinarySingleNaN.
From Verif Require Import Num NumR NumF MVec MDelta F32 RPow PHsvF PYxyF PLibm PPowF PNearF PNearF2 PRelF SpecDelta PE00 PE00b PHsvA PE00d PSlogF PFma4 PE00acc PE00acc2.
Local Open Scope R_scope.

Lemma sin_lip x y : Rabs (sin x - sin y) <= Rabs (x - y).
Proof.
  rewrite <- !cos_shift. eapply Rle_trans; [apply cos_lip|]. rewrite Rabs_minus_sym. right. f_equal. ring.
Qed.
Lemma exp_lip x y : x <= 0 -> y <= 0 -> Rabs (exp x - exp y) <= Rabs (x - y).
Proof.
  assert (W : forall x y, x < y -> y <= 0 -> Rabs (exp y - exp x) <= Rabs (y - x)).
  { intros a b L M. destruct (MVT_cor2 exp exp a b L) as (c & E & C); [intros; apply derivable_pt_lim_exp|].
    rewrite E, Rabs_mult, (Rabs_pos_eq (exp c)) by (left; apply exp_pos). rewrite <- (Rmult_1_l (Rabs (b - a))) at 2. apply Rmult_le_compat_r; [apply Rabs_pos|].
    rewrite <- exp_0. left. apply exp_increasing. lra. }
  intros X Y. destruct (Rtotal_order x y) as [L|[->|L]].
  - rewrite Rabs_minus_sym, (Rabs_minus_sym x). apply W; lra.
  - rewrite !Rminus_diag_eq, Rabs_R0 by reflexivity. lra.
  - apply W; lra.
Qed.

Section F.
Context (lm : libm) (Acc : accurate lm) (Tr : accurate_trig lm).
Notation N := (FN lm).
Notation l_ := (@flit (FN lm)).
Ltac un := rewrite u16 in *; pose proof eta16 as Et; rewrite u16 in Et.
Ltac pos := rewrite Rabs_pos_eq by lra; lra.
(** hues whose difference is away from 180 degrees. *)
Definition far (h1 h2 : R) : Prop := / 1000 <= Rabs (Rabs (h1 - h2) - 180).
Lemma far_sym h1 h2 : far h1 h2 -> far h2 h1. Proof. unfold far. now rewrite (Rabs_minus_sym h2 h1). Qed.
Lemma near_diff f1 f2 h1 h2 : near f1 h1 (2800 * u) -> near f2 h2 (2800 * u) -> 0 <= h1 < 360 -> 0 <= h2 < 360 -> near (@fsub N f1 f2) (h1 - h2) (5970 * u).
Proof.
  intros A B H1 H2. eapply near_le; [apply (near_sub lm _ _ _ _ _ _ 360 A B)|]; [apply Rabs_le; lra|un; lra|un; lra].
Qed.
Lemma abs_near x r e : near x r e -> near (@ffabs N x) (Rabs r) e.
Proof.
  intros [F H]. destruct (abs_ok lm x F) as [F' V]. split; [exact F'|]. rewrite V. eapply Rle_trans; [apply Rabs_triang_inv2|exact H].
Qed.
Lemma near_hbar f1 f2 h1 h2 : near f1 h1 (2800 * u) -> near f2 h2 (2800 * u) -> 0 <= h1 < 360 -> 0 <= h2 < 360 -> far h1 h2 ->
  near (e00_HdBar N f1 f2) (hbar h1 h2) (4300 * u).
Proof.
  intros A B H1 H2 Fr. unfold e00_HdBar, hbar. destruct (abs_near _ _ _ (near_diff _ _ _ _ A B H1 H2)) as [Fd Hd]. destruct (l180 lm) as [F V].
  rewrite (ltb_ok lm _ _ F Fd), V. apply Rabs_le_inv in Hd. unfold far in Fr.
  assert (S : near (@fadd N f1 f2) (h1 + h2) (6330 * u)) by (eapply near_le; [apply (near_add lm _ _ _ _ _ _ 720 A B)|]; [apply Rabs_le; lra|un; lra|un; lra]).
  assert (D : 180 < Rabs (h1 - h2) /\ 180 < B2R (@ffabs N (@fsub N f1 f2)) \/ Rabs (h1 - h2) <= 180 /\ B2R (@ffabs N (@fsub N f1 f2)) <= 180).
  { un. revert Fr. unfold Rabs at 1. destruct (Rcase_abs (Rabs (h1 - h2) - 180)); intros; [right|left]; lra. }
  destruct D as [[D1 D2]|[D1 D2]].
  - rewrite Rlt_bool_true by exact D2. destruct (Rlt_dec 180 (Rabs (h1 - h2))); [|lra].
    assert (S3 : near (@fadd N (@fadd N f1 f2) (l_ 360%dec)) (h1 + h2 + 360) (7420 * u)) by (eapply near_le; [apply (near_add lm _ _ _ _ _ _ 1080 S (near_v _ _ (l360 lm)))|]; [apply Rabs_le; lra|un; lra|un; lra]).
    eapply near_le; [apply (near_half lm _ _ _ 1080 S3)|]; [apply Rabs_le; lra|un; lra|un; lra].
  - rewrite Rlt_bool_false by exact D2. destruct (Rlt_dec 180 (Rabs (h1 - h2))); [lra|].
    eapply near_le; [apply (near_half lm _ _ _ 720 S)|]; [apply Rabs_le; lra|un; lra|un; lra].
Qed.
Lemma near_dhue f1 f2 h1 h2 : near f1 h1 (2800 * u) -> near f2 h2 (2800 * u) -> 0 <= h1 < 360 -> 0 <= h2 < 360 -> far h1 h2 ->
  near (e00_deltah N f1 f2) (dhue h1 h2) (6200 * u).
Proof.
  intros A B H1 H2 Fr. apply far_sym in Fr. unfold e00_deltah, dhue. pose proof (near_diff _ _ _ _ B A H2 H1) as D0. destruct (abs_near _ _ _ D0) as [Fd Hd]. destruct (l180 lm) as [F V].
  rewrite (leb_ok lm _ _ Fd F), V. apply Rabs_le_inv in Hd. unfold far in Fr.
  assert (D : 180 + / 1000 <= Rabs (h2 - h1) /\ 180 < B2R (@ffabs N (@fsub N f2 f1)) \/ Rabs (h2 - h1) <= 180 /\ B2R (@ffabs N (@fsub N f2 f1)) <= 180).
  { un. revert Fr. unfold Rabs at 1. destruct (Rcase_abs (Rabs (h2 - h1) - 180)); intros; [right|left]; lra. }
  destruct D as [[D1 D2]|[D1 D2]].
  - rewrite Rle_bool_false by exact D2. destruct (Rle_dec (Rabs (h2 - h1)) 180); [lra|].
    destruct A as [FA HA], B as [FB HB]. rewrite (leb_ok lm _ _ FB FA). apply Rabs_le_inv in HA, HB.
    destruct (Rle_dec h2 h1) as [L|L].
    + rewrite Rabs_left1 in D1 by lra. rewrite Rle_bool_true by (un; lra).
      eapply near_le; [apply (near_add lm _ _ _ _ _ _ 180 D0 (near_v _ _ (l360 lm)))|]; [apply Rabs_le; lra|un; lra|un; lra].
    + rewrite Rabs_pos_eq in D1 by lra. rewrite Rle_bool_false by (un; lra).
      eapply near_le; [apply (near_sub lm _ _ _ _ _ _ 180 D0 (near_v _ _ (l360 lm)))|]; [apply Rabs_le; lra|un; lra|un; lra].
  - rewrite Rle_bool_true by exact D2. destruct (Rle_dec (Rabs (h2 - h1)) 180); [|lra]. eapply near_le; [exact D0|un; lra].
Qed.
Lemma hbar_range h1 h2 : 0 <= h1 < 360 -> 0 <= h2 < 360 -> 0 <= hbar h1 h2 <= 540.
Proof. intros. unfold hbar. destruct (Rlt_dec _ _); lra. Qed.
Lemma near_cosd y r e A : near y r e -> Rabs r <= A -> A <= 2300 -> e <= 1 ->
  near (@fcos N (@fdiv N (@fmul N (@fpi N) y) (l_ 180%dec))) (cos (r * PI / 180)) (0.0176 * e + 0.045 * u * A + 4.1 * u).
Proof.
  intros Ny HA LA E. pose proof (near_nonneg _ _ _ Ny) as e0. pose proof (Rabs_pos r) as r0. pose proof PI_tight as P.
  assert (M := near_mul lm _ _ _ _ _ _ 3.1416 A (near_pi lm) Ny ltac:(pos) HA ltac:(un; nra)).
  assert (Q : Rabs (PI * r / 180) <= 0.01746 * A).
  { unfold Rdiv. rewrite !Rabs_mult, (Rabs_pos_eq PI), (Rabs_pos_eq (/ 180)) by lra. nra. }
  assert (D := near_div lm _ _ _ _ _ _ (0.01746 * A) 180 M (near_v _ _ (l180 lm)) ltac:(pos) ltac:(lra) Q).
  cbv zeta in D. assert (D' : near (@fdiv N (@fmul N (@fpi N) y) (l_ 180%dec)) (r * PI / 180) (0.0176 * e + 0.045 * u * A + 2 * eta)).
  { eapply near_eq; [eapply near_le; [apply D|]|field]; un; unfold Rdiv; rewrite Rminus_0_r, Rmult_0_r, Rplus_0_r; lra. }
  destruct D' as [F H]. assert (Z : Rabs (B2R (@fdiv N (@fmul N (@fpi N) y) (l_ 180%dec))) <= 64).
  { apply Rabs_le_inv in H. apply Rabs_le_inv in Q. apply Rabs_le. un. split; nra. }
  destruct (tr_cos lm Tr _ F Z) as [Fc Hc]. split; [exact Fc|]. change (@fcos N) with (lm_cosf lm). set (X := @fdiv N _ _) in *.
  replace (B2R (lm_cosf lm X) - cos (r * PI / 180)) with ((B2R (lm_cosf lm X) - cos (B2R X)) + (cos (B2R X) - cos (r * PI / 180))) by ring.
  eapply Rle_trans; [apply Rabs_triang|]. pose proof (cos_lip (B2R X) (r * PI / 180)). un. lra.
Qed.
Lemma near_T h r : near h r (4300 * u) -> 0 <= r <= 540 -> near (e00_T N h) (TR r) (310 * u).
Proof.
  intros H R. unfold e00_T, TR, cosd. cbv zeta.
  assert (L1 : near (l_ 1%dec) 1 0) by (apply near_v; f32_val). assert (L2 : near (l_ 2%dec) 2 0) by (apply near_v; f32_val). assert (L3 : near (l_ 3%dec) 3 0) by (apply near_v; f32_val). assert (L4 : near (l_ 4%dec) 4 0) by (apply near_v; f32_val).
  assert (L6 : near (l_ 6%dec) 6 0) by (apply near_v; f32_val). assert (L30 : near (l_ 30%dec) 30 0) by (apply near_v; f32_val). assert (L63 : near (l_ 63%dec) 63 0) by (apply near_v; f32_val).
  assert (K1 : near (l_ 0.17%dec) 0.17 u) by flit_near. assert (K2 : near (l_ 0.24%dec) 0.24 u) by flit_near. assert (K3 : near (l_ 0.32%dec) 0.32 u) by flit_near. assert (K4 : near (l_ 0.20%dec) 0.20 u) by flit_near.
  assert (M1 : near (@fmul N (l_ 1%dec) h) (1 * r) (4850 * u)) by (eapply near_le; [apply (near_mul lm _ _ _ _ _ _ 1 540 L1 H)|]; [pos|pos|un; lra|un; lra]).
  assert (M2 : near (@fmul N (l_ 2%dec) h) (2 * r) (9690 * u)) by (eapply near_le; [apply (near_mul lm _ _ _ _ _ _ 2 540 L2 H)|]; [pos|pos|un; lra|un; lra]).
  assert (M3 : near (@fmul N (l_ 3%dec) h) (3 * r) (14530 * u)) by (eapply near_le; [apply (near_mul lm _ _ _ _ _ _ 3 540 L3 H)|]; [pos|pos|un; lra|un; lra]).
  assert (M4 : near (@fmul N (l_ 4%dec) h) (4 * r) (19370 * u)) by (eapply near_le; [apply (near_mul lm _ _ _ _ _ _ 4 540 L4 H)|]; [pos|pos|un; lra|un; lra]).
  assert (A1 : near (@fsub N (@fmul N (l_ 1%dec) h) (l_ 30%dec)) (r - 30) (5370 * u)) by (eapply near_eq; [eapply near_le; [apply (near_sub lm _ _ _ _ _ _ 510 M1 L30)|]; [apply Rabs_le; lra|un; lra|un; lra]|ring]).
  assert (A3 : near (@fadd N (@fmul N (l_ 3%dec) h) (l_ 6%dec)) (3 * r + 6) (16170 * u)) by (eapply near_le; [apply (near_add lm _ _ _ _ _ _ 1626 M3 L6)|]; [apply Rabs_le; lra|un; lra|un; lra]).
  assert (A4 : near (@fsub N (@fmul N (l_ 4%dec) h) (l_ 63%dec)) (4 * r - 63) (21540 * u)) by (eapply near_le; [apply (near_sub lm _ _ _ _ _ _ 2160 M4 L63)|]; [apply Rabs_le; lra|un; lra|un; lra]).
  assert (C1 := near_cosd _ _ _ 510 A1 ltac:(apply Rabs_le; lra) ltac:(lra) ltac:(un; lra)). assert (C2 := near_cosd _ _ _ 1080 M2 ltac:(apply Rabs_le; lra) ltac:(lra) ltac:(un; lra)).
  assert (C3 := near_cosd _ _ _ 1626 A3 ltac:(apply Rabs_le; lra) ltac:(lra) ltac:(un; lra)). assert (C4 := near_cosd _ _ _ 2160 A4 ltac:(apply Rabs_le; lra) ltac:(lra) ltac:(un; lra)).
  apply near_le with (e' := 125 * u) in C1; [|un; lra]. apply near_le with (e' := 225 * u) in C2; [|un; lra]. apply near_le with (e' := 363 * u) in C3; [|un; lra]. apply near_le with (e' := 482 * u) in C4; [|un; lra].
  set (f1 := @fcos N (@fdiv N (@fmul N (@fpi N) (@fsub N (@fmul N (l_ 1%dec) h) (l_ 30%dec))) (l_ 180%dec))) in *.
  set (f2 := @fcos N (@fdiv N (@fmul N (@fpi N) (@fmul N (l_ 2%dec) h)) (l_ 180%dec))) in *.
  set (f3 := @fcos N (@fdiv N (@fmul N (@fpi N) (@fadd N (@fmul N (l_ 3%dec) h) (l_ 6%dec))) (l_ 180%dec))) in *.
  set (f4 := @fcos N (@fdiv N (@fmul N (@fpi N) (@fsub N (@fmul N (l_ 4%dec) h) (l_ 63%dec))) (l_ 180%dec))) in *.
  pose proof (COS_bound ((r - 30) * PI / 180)) as B1. pose proof (COS_bound (2 * r * PI / 180)) as B2. pose proof (COS_bound ((3 * r + 6) * PI / 180)) as B3. pose proof (COS_bound ((4 * r - 63) * PI / 180)) as B4.
  set (c1 := cos ((r - 30) * PI / 180)) in *. set (c2 := cos (2 * r * PI / 180)) in *. set (c3 := cos ((3 * r + 6) * PI / 180)) in *. set (c4 := cos ((4 * r - 63) * PI / 180)) in *.
  clearbody f1 f2 f3 f4 c1 c2 c3 c4.
  assert (P1 : near (@fmul N (l_ 0.17%dec) f1) (0.17 * c1) (23 * u)) by (eapply near_le; [apply (near_mul lm _ _ _ _ _ _ 0.17 1 K1 C1)|]; [pos|apply Rabs_le; lra|un; lra|un; lra]).
  assert (P2 : near (@fmul N (l_ 0.24%dec) f2) (0.24 * c2) (56 * u)) by (eapply near_le; [apply (near_mul lm _ _ _ _ _ _ 0.24 1 K2 C2)|]; [pos|apply Rabs_le; lra|un; lra|un; lra]).
  assert (P3 : near (@fmul N (l_ 0.32%dec) f3) (0.32 * c3) (118 * u)) by (eapply near_le; [apply (near_mul lm _ _ _ _ _ _ 0.32 1 K3 C3)|]; [pos|apply Rabs_le; lra|un; lra|un; lra]).
  assert (P4 : near (@fmul N (l_ 0.20%dec) f4) (0.20 * c4) (98 * u)) by (eapply near_le; [apply (near_mul lm _ _ _ _ _ _ 0.20 1 K4 C4)|]; [pos|apply Rabs_le; lra|un; lra|un; lra]).
  assert (Q1 : near (@fsub N (l_ 1%dec) (@fmul N (l_ 0.17%dec) f1)) (1 - 0.17 * c1) (25 * u)) by (eapply near_le; [apply (near_sub lm _ _ _ _ _ _ 1.17 L1 P1)|]; [apply Rabs_le; lra|un; lra|un; lra]).
  assert (Q2 : near (@fadd N (@fmul N (l_ 0.24%dec) f2) (@fmul N (l_ 0.32%dec) f3)) (0.24 * c2 + 0.32 * c3) (176 * u)) by (eapply near_le; [apply (near_add lm _ _ _ _ _ _ 1 P2 P3)|]; [apply Rabs_le; lra|un; lra|un; lra]).
  assert (Q3 : near (@fadd N (@fsub N (l_ 1%dec) (@fmul N (l_ 0.17%dec) f1)) (@fadd N (@fmul N (l_ 0.24%dec) f2) (@fmul N (l_ 0.32%dec) f3))) ((1 - 0.17 * c1) + (0.24 * c2 + 0.32 * c3)) (204 * u)) by (eapply near_le; [apply (near_add lm _ _ _ _ _ _ 1.8 Q1 Q2)|]; [apply Rabs_le; lra|un; lra|un; lra]).
  eapply near_eq; [eapply near_le; [apply (near_sub lm _ _ _ _ _ _ 2 Q3 P4)|]; [apply Rabs_le; lra|un; lra|un; lra]|ring].
Qed.
Lemma rel_Sl l r : near l r (210 * u) -> 0 <= r <= 100 -> rel (e00_Sl N l) (slR r) (1200 * u).
Proof.
  intros H R. unfold e00_Sl, slR. cbv zeta.
  assert (L1 : near (l_ 1%dec) 1 0) by (apply near_v; f32_val). assert (L50 : near (l_ 50%dec) 50 0) by (apply near_v; f32_val). assert (L20 : near (l_ 20%dec) 20 0) by (apply near_v; f32_val).
  assert (K : near (l_ 0.015%dec) 0.015 (0.015 * u)) by flit_near.
  assert (D : near (@fsub N l (l_ 50%dec)) (r - 50) (261 * u)) by (eapply near_le; [apply (near_sub lm _ _ _ _ _ _ 50 H L50)|]; [apply Rabs_le; lra|un; lra|un; lra]).
  assert (Q : near (@fmul N (@fsub N l (l_ 50%dec)) (@fsub N l (l_ 50%dec))) ((r - 50) * (r - 50)) (28700 * u)) by (eapply near_le; [apply (near_mul lm _ _ _ _ _ _ 50 50 D D)|]; [apply Rabs_le; lra|apply Rabs_le; lra|un; lra|un; lra]).
  set (q := @fmul N (@fsub N l _) _) in *. replace ((r - 50) ^ 2) with ((r - 50) * (r - 50)) by ring. assert (B : 0 <= (r - 50) * (r - 50) <= 2500) by (clear - R; split; [apply Rle_0_sqr|nra]). set (d := (r - 50) * (r - 50)) in *. clearbody q d.
  assert (M : near (@fmul N (l_ 0.015%dec) q) (0.015 * d) (510 * u)) by (eapply near_le; [apply (near_mul lm _ _ _ _ _ _ 0.015 2500 K Q)|]; [pos|pos|un; lra|un; lra]).
  assert (S : near (@fadd N (l_ 20%dec) q) (20 + d) (31300 * u)) by (eapply near_le; [apply (near_add lm _ _ _ _ _ _ 2520 L20 Q)|]; [pos|un; lra|un; lra]).
  assert (S' : rel (@fadd N (l_ 20%dec) q) (20 + d) (1565 * u)). { destruct S as [F S]. split; [exact F|]. split; [lra|]. eapply Rle_trans; [exact S|]. un. lra. }
  assert (R1 : 4 <= sqrt (20 + d) <= 100). { split; [apply Rle_trans with (sqrt (4 * 4)); [rewrite sqrt_square; lra|apply sqrt_le_1; lra]|apply Rle_trans with (sqrt (100 * 100)); [apply sqrt_le_1; lra|rewrite sqrt_square; lra]]. }
  assert (T := rel_sqrt lm _ _ _ S' ltac:(apply mid_ok; lra) ltac:(un; lra)).
  assert (V := near_div_rel lm _ _ _ _ _ _ M T ltac:(lra) ltac:(un; lra) ltac:(pos) ltac:(un; lra)).
  assert (W : 0 <= 0.015 * d / sqrt (20 + d) <= 0.75).
  { assert (E : sqrt (20 + d) * sqrt (20 + d) = 20 + d) by (apply sqrt_def; lra). set (w := sqrt (20 + d)) in *. assert (w <= 51) by nra.
    split; [apply Rmult_le_pos; [lra|left; apply Rinv_0_lt_compat; lra]|]. apply Rmult_le_reg_r with w; [lra|]. unfold Rdiv. rewrite Rmult_assoc, Rinv_l by lra.
    assert (d <= 50 * w); [|lra]. assert (d <= 50 * 50) by lra. destruct (Rle_or_lt 50 w) as [?|?]; [lra|]. nra. }
  rewrite (Rabs_pos_eq (0.015 * d / _)) in V by lra.
  assert (V' : near (@fdiv N (@fmul N (l_ 0.015%dec) q) (@fsqrt N (@fadd N (l_ 20%dec) q))) (0.015 * d / sqrt (20 + d)) (1150 * u)). { eapply near_le; [exact V|]. un. nra. }
  set (w := 0.015 * d / sqrt (20 + d)) in *. assert (Z := near_add lm _ _ _ _ _ _ 1.75 L1 V' ltac:(pos) ltac:(un; lra)). destruct Z as [FZ HZ].
  split; [exact FZ|]. split; [lra|]. eapply Rle_trans; [exact HZ|]. un. lra.
Qed.
Lemma near_sin y r e : near y r e -> Rabs r <= 7 -> e <= / 2 -> near (@fsin N y) (sin r) (e + 4 * u).
Proof.
  intros [F H] R E. assert (Z : Rabs (B2R y) <= 8). { apply Rabs_le_inv in H. apply Rabs_le_inv in R. apply Rabs_le. lra. }
  destruct (tr_sin lm Tr y F Z) as [Fs Hs]. split; [exact Fs|]. change (@fsin N) with (lm_sinf lm).
  replace (B2R (lm_sinf lm y) - sin r) with ((B2R (lm_sinf lm y) - sin (B2R y)) + (sin (B2R y) - sin r)) by ring.
  eapply Rle_trans; [apply Rabs_triang|]. pose proof (sin_lip (B2R y) r). lra.
Qed.
End F.
