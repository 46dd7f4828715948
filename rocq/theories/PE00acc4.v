(** * Accuracy of the CIE 2000 difference in binary32: rotation term, hue difference and the three weights. *)
From Coq Require Import ZArith Reals Lra Lia List Bool Psatz.
From Flocq Require Import Core IEEE754.BinarySingleNaN.
From Verif Require Import Num NumR NumF MVec MDelta F32 RPow PHsvF PYxyF PLibm PPowF PNearF PNearF2 PRelF SpecDelta PE00 PE00b PHsvA PE00d PSlogF PFma4 PE00acc PE00acc2 PE00acc3.
Local Open Scope R_scope.

Section F.
Context (lm : libm) (Acc : accurate lm) (Tr : accurate_trig lm).
Notation N := (FN lm).
Notation l_ := (@flit (FN lm)).
Ltac un := rewrite u16 in *; pose proof eta16 as Et; rewrite u16 in Et.
Ltac pos := rewrite Rabs_pos_eq by lra; lra.
Ltac abs := apply Rabs_le; lra.
Lemma exp_01 x : x <= 0 -> 0 <= exp x <= 1.
Proof. intros H. split; [left; apply exp_pos|]. rewrite <- exp_0. destruct H as [H| ->]; [left; now apply exp_increasing|right; reflexivity]. Qed.
Lemma sq_nonneg x : fin (@fmul N x x) -> fin x -> Rabs (B2R x * B2R x) <= bpow radix2 127 -> 0 <= B2R (@fmul N x x).
Proof. intros _ F H. destruct (mul_ok lm x x F F H) as [_ ->]. apply rnd_ge_fmt; [apply fmt_0|apply Rle_0_sqr]. Qed.
Lemma near_theta h r : near h r (4300 * u) -> 0 <= r <= 540 ->
  near (@fexp N (@fopp N (@fdiv N (@fmul N (@fsub N h (l_ 275%dec)) (@fsub N h (l_ 275%dec))) (@fmul N (l_ 25%dec) (l_ 25%dec))))) (exp (- ((r - 275) / 25) ^ 2)) (4300 * u).
Proof.
  intros H R. assert (L : near (l_ 275%dec) 275 0) by (apply near_v; f32_val). assert (L6 : near (@fmul N (l_ 25%dec) (l_ 25%dec)) 625 0) by (apply near_v; f32_val).
  assert (D : near (@fsub N h (l_ 275%dec)) (r - 275) (4580 * u)) by (eapply near_le; [apply (near_sub lm _ _ _ _ _ _ 275 H L)|]; [abs|un; lra|un; lra]).
  set (x := @fsub N h _) in *.
  assert (Q : near (@fmul N x x) ((r - 275) * (r - 275)) (2595000 * u)) by (eapply near_le; [apply (near_mul lm _ _ _ _ _ _ 275 275 D D)|]; [abs|abs|un; lra|un; lra]).
  assert (B : 0 <= (r - 275) * (r - 275) <= 75625) by (clear - R; split; [apply Rle_0_sqr|nra]).
  assert (P : 0 <= B2R (@fmul N x x)).
  { apply sq_nonneg; [apply Q|apply D|]. destruct D as [_ D]. apply Rabs_le_inv in D. un. rewrite Rabs_mult. assert (A : Rabs (B2R x) <= 276) by abs. pose proof (Rabs_pos (B2R x)). pose proof b40. apply Rle_trans with (276 * 276); [apply Rmult_le_compat; lra|lra]. }
  set (y := @fmul N x x) in *. set (d := (r - 275) * (r - 275)) in *.
  assert (V : near (@fdiv N y (@fmul N (l_ 25%dec) (l_ 25%dec))) (d / 625) (4280 * u)).
  { eapply near_le; [apply (near_div lm _ _ _ _ _ _ 121 625 Q L6)|]; [pos|lra|rewrite Rabs_pos_eq; lra|cbv zeta; un; lra|cbv zeta; un; lra]. }
  assert (W : 0 <= B2R (@fdiv N y (@fmul N (l_ 25%dec) (l_ 25%dec)))).
  { destruct Q as [Fy Qy]. destruct L6 as [_ L6]. rewrite Rabs_minus_sym in L6. apply Rabs_le_inv in L6. assert (E : B2R (@fmul N (l_ 25%dec) (l_ 25%dec)) = 625) by lra.
    apply Rabs_le_inv in Qy. destruct (div_ok lm y (@fmul N (l_ 25%dec) (l_ 25%dec)) Fy ltac:(rewrite E; lra)) as [_ E2].
    - rewrite E. pose proof b40. un. rewrite Rabs_pos_eq by (apply Rmult_le_pos; lra). lra.
    - rewrite E2. apply rnd_ge_fmt; [apply fmt_0|]. rewrite E. apply Rmult_le_pos; lra. }
  set (z := @fdiv N y _) in *. pose proof (near_opp lm _ _ _ V) as O. destruct (opp_ok lm z (proj1 V)) as [FO VO]. set (w := @fopp N z) in *.
  destruct (tr_exp lm Tr w FO ltac:(rewrite VO; lra)) as [Fe He]. split; [exact Fe|]. change (@fexp N) with (lm_expf lm).
  replace (((r - 275) / 25) ^ 2) with (d / 625) by (unfold d; field).
  replace (B2R (lm_expf lm w) - exp (- (d / 625))) with ((B2R (lm_expf lm w) - exp (B2R w)) + (exp (B2R w) - exp (- (d / 625)))) by ring.
  eapply Rle_trans; [apply Rabs_triang|]. pose proof (exp_lip (B2R w) (- (d / 625)) ltac:(rewrite VO; lra) ltac:(lra)) as X. destruct O as [_ O]. un. lra.
Qed.
Lemma near_Rt h r c s : near h r (4300 * u) -> 0 <= r <= 540 -> rel c s (29 * u) -> / 8 <= s <= 256 -> near (e00_Rt N h c) (rtR r s) (9600 * u).
Proof.
  intros H R C S. unfold e00_Rt, rtR, sind. cbv zeta. assert (E := near_theta h r H R). set (x := @fexp N _) in *.
  pose proof (exp_01 (- ((r - 275) / 25) ^ 2) ltac:(pose proof (pow2_ge_0 ((r - 275) / 25)); lra)) as B. set (t := exp _) in *. clearbody x t.
  assert (L30 : near (l_ 30%dec) 30 0) by (apply near_v; f32_val). pose proof (near_v _ _ (l2 lm)) as L2. pose proof (near_v _ _ (l180 lm)) as L180. pose proof PI_tight as P.
  assert (T : near (@fmul N (l_ 30%dec) x) (30 * t) (129100 * u)) by (eapply near_le; [apply (near_mul lm _ _ _ _ _ _ 30 1 L30 E)|]; [pos|pos|un; lra|un; lra]).
  assert (T2 : near (@fmul N (l_ 2%dec) (@fmul N (l_ 30%dec) x)) (2 * (30 * t)) (258300 * u)) by (eapply near_le; [apply (near_mul lm _ _ _ _ _ _ 2 30 L2 T)|]; [pos|pos|un; lra|un; lra]).
  set (y := @fmul N (l_ 2%dec) _) in *. 
  assert (T3 : near (@fmul N y (@fpi N)) (2 * (30 * t) * PI) (812000 * u)) by (eapply near_le; [apply (near_mul lm _ _ _ _ _ _ 60 3.1416 T2 (near_pi lm))|]; [pos|pos|un; lra|un; lra]).
  assert (T4 : near (@fdiv N (@fmul N y (@fpi N)) (l_ 180%dec)) (2 * (30 * t) * PI / 180) (4520 * u)).
  { eapply near_le; [apply (near_div lm _ _ _ _ _ _ 1.1 180 T3 L180)|]; [pos|lra|rewrite Rabs_pos_eq; nra|cbv zeta; un; lra|cbv zeta; un; lra]. }
  assert (Sn := near_sin lm Tr _ _ _ T4 ltac:(rewrite Rabs_pos_eq; nra) ltac:(un; lra)).
  assert (Rr := rel_near _ _ _ (rel_rho lm Acc c s _ C S ltac:(un; lra))). pose proof (rho_range s ltac:(lra)) as Q.
  set (g := @fsqrt N _) in *. set (f := @fsin N _) in *. pose proof (SIN_bound (2 * (30 * t) * PI / 180)) as SB. set (q := rho s) in *. set (a := sin _) in *. clearbody g f q a.
  assert (Rr' : near g q (220 * u)). { eapply near_le; [exact Rr|]. un. nra. }
  assert (M : near (@fmul N (l_ 2%dec) g) (2 * q) (443 * u)) by (eapply near_le; [apply (near_mul lm _ _ _ _ _ _ 2 1 L2 Rr')|]; [pos|pos|un; lra|un; lra]).
  apply (near_opp lm) in M. eapply near_eq; [eapply near_le; [apply (near_mul lm _ _ _ _ _ _ 2 1 M Sn)|]|ring]; [rewrite Rabs_Ropp; pos|abs|un; lra|un; lra].
Qed.
(** [2 sqrt (C1 C2) sin (dh / 2)] *)
Lemma near_dH c1 c2 C1 C2 d D : rel c1 C1 (27 * u) -> rel c2 C2 (27 * u) -> / 8 <= C1 <= 231 -> / 8 <= C2 <= 231 -> near d D (6200 * u) -> -180 <= D <= 180 ->
  near (@fmul N (@fmul N (l_ 2%dec) (@fsqrt N (@fmul N c1 c2))) (@fsin N (@fdiv N (@fmul N (@fpi N) d) (@fmul N (l_ 180%dec) (l_ 2%dec))))) (2 * sqrt (C1 * C2) * sind (D / 2)) (44000 * u).
Proof.
  intros R1 R2 B1 B2 H HD. pose proof PI_tight as P. assert (L6 : near (@fmul N (l_ 180%dec) (l_ 2%dec)) 360 0) by (apply near_v; f32_val).
  assert (M := rel_mul lm _ _ _ _ _ _ R1 R2 ltac:(apply mid_ok; split; nra) ltac:(un; lra) ltac:(un; lra)).
  assert (SB : / 8 <= sqrt (C1 * C2) <= 231). { split; [apply Rle_trans with (sqrt (/ 8 * / 8)); [rewrite sqrt_square; lra|apply sqrt_le_1; nra]|apply Rle_trans with (sqrt (231 * 231)); [apply sqrt_le_1; nra|rewrite sqrt_square; lra]]. }
  assert (S := rel_sqrt lm _ _ _ M ltac:(apply mid_ok; lra) ltac:(un; lra)). apply rel_le with (k' := 29.3 * u) in S; [|un; lra].
  set (x := @fsqrt N _) in *. set (w := sqrt _) in *. clearbody x w. 
  assert (S' : near x w (6769 * u)). { eapply near_le; [exact (rel_near _ _ _ S)|]. un. lra. }
  assert (S2 : near (@fmul N (l_ 2%dec) x) (2 * w) (14010 * u)) by (eapply near_le; [apply (near_mul lm _ _ _ _ _ _ 2 231 (near_v _ _ (l2 lm)) S')|]; [pos|pos|un; lra|un; lra]).
  assert (T : near (@fmul N (@fpi N) d) (PI * D) (20330 * u)) by (eapply near_le; [apply (near_mul lm _ _ _ _ _ _ 3.1416 180 (near_pi lm) H)|]; [pos|abs|un; lra|un; lra]).
  assert (T2 : near (@fdiv N (@fmul N (@fpi N) d) (@fmul N (l_ 180%dec) (l_ 2%dec))) (PI * D / 360) (58.2 * u)).
  { eapply near_le; [apply (near_div lm _ _ _ _ _ _ 1.571 360 T L6)|]; [pos|lra|apply Rabs_le; split; nra|cbv zeta; un; lra|cbv zeta; un; lra]. }
  assert (Sn := near_sin lm Tr _ _ _ T2 ltac:(apply Rabs_le; split; nra) ltac:(un; lra)).
  replace (sind (D / 2)) with (sin (PI * D / 360)) by (unfold sind; f_equal; field). pose proof (SIN_bound (PI * D / 360)) as Q. set (s := sin _) in *. set (f := @fsin N _) in *. clearbody s f.
  eapply near_le; [apply (near_mul lm _ _ _ _ _ _ 462 1 S2 Sn)|]; [pos|abs|un; lra|un; lra].
Qed.
Lemma rel_Sc c s : rel c s (29 * u) -> / 8 <= s <= 256 -> rel (@fadd N (l_ 1%dec) (@fmul N (l_ 0.045%dec) c)) (1 + 0.045 * s) (34 * u).
Proof.
  intros C S. assert (K : rel (l_ 0.045%dec) 0.045 u). { assert (K : near (l_ 0.045%dec) 0.045 (0.045 * u)) by flit_near. destruct K as [F K]. split; [exact F|]. split; [lra|]. eapply Rle_trans; [exact K|]. lra. }
  assert (M := rel_mul lm _ _ _ _ _ _ K C ltac:(apply mid_ok; lra) ltac:(un; lra) ltac:(un; lra)). apply rel_le with (k' := 31.1 * u) in M; [|un; lra].
  assert (L1 : rel (l_ 1%dec) 1 (31.1 * u)). { destruct (l1 lm) as [F V]. split; [exact F|]. split; [lra|]. rewrite V, Rminus_diag_eq, Rabs_R0 by reflexivity. un. lra. }
  eapply rel_le; [apply (rel_add lm _ _ _ _ _ L1 M)|]; [apply mid_ok; lra|un; lra|un; lra].
Qed.
Lemma rel_Sh c s t T : rel c s (29 * u) -> / 8 <= s <= 231 -> near t T (310 * u) -> 0.07 <= T <= 1.93 ->
  rel (@fadd N (l_ 1%dec) (@fmul N (@fmul N (l_ 0.015%dec) c) t)) (1 + 0.015 * s * T) (1310 * u).
Proof.
  intros C S H B. assert (K : rel (l_ 0.015%dec) 0.015 u). { assert (K : near (l_ 0.015%dec) 0.015 (0.015 * u)) by flit_near. destruct K as [F K]. split; [exact F|]. split; [lra|]. eapply Rle_trans; [exact K|]. lra. }
  assert (M := rel_mul lm _ _ _ _ _ _ K C ltac:(apply mid_ok; lra) ltac:(un; lra) ltac:(un; lra)). apply rel_le with (k' := 31.1 * u) in M; [|un; lra].
  apply rel_near in M. apply near_le with (e' := 108 * u) in M; [|un; lra].
  assert (M2 : near (@fmul N (@fmul N (l_ 0.015%dec) c) t) (0.015 * s * T) (1292 * u)) by (eapply near_le; [apply (near_mul lm _ _ _ _ _ _ 3.465 1.93 M H)|]; [pos|pos|un; lra|un; lra]).
  assert (Q : 0 <= 0.015 * s * T <= 6.7) by (split; nra).
  assert (A := near_add lm _ _ _ _ _ _ 7.7 (near_v _ _ (l1 lm)) M2 ltac:(pos) ltac:(un; lra)). destruct A as [F A]. split; [exact F|]. split; [lra|]. eapply Rle_trans; [exact A|]. un. lra.
Qed.
Lemma rel_one x s k : rel x s k -> / 1000 <= s <= 1000 -> k <= / 1000 -> rel (@fmul N (l_ 1%dec) x) (1 * s) (k + 1.01 * u).
Proof.
  intros X S K. pose proof (rel_k _ _ _ X) as k0. assert (L1 : rel (l_ 1%dec) 1 0). { destruct (l1 lm) as [F V]. split; [exact F|]. split; [lra|]. rewrite V, Rminus_diag_eq, Rabs_R0 by reflexivity. lra. }
  eapply rel_le; [apply (rel_mul lm _ _ _ _ _ _ L1 X)|]; [apply mid_ok; lra|lra|lra|un; nra].
Qed.
End F.
