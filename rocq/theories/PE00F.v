(** * CIEDE2000 in binary32: finite, non-negative, symmetric, zero on equal colours. *)
From Coq Require Import ZArith Reals Lra Lia Psatz.
From Flocq Require Import Core BinarySingleNaN.
From Verif Require Import Num NumF MVec MTri MDelta F32 PLibm PNearF PHsvF PHsvA PSlogF PIvF.
Local Open Scope R_scope.

(** What is needed of the C library: far weaker than what any implementation offers. *)
Record elementary (lm : libm) : Prop := {
  el_pow : forall x y, fin x -> fin y -> 0 <= B2R x -> 0 < B2R y -> forall b, (0 < B2R x -> Rpower (B2R x) (B2R y) <= b) ->
    bpow radix2 (-126) <= b <= bpow radix2 100 -> fin (lm_powf lm x y) /\ 0 <= B2R (lm_powf lm x y) <= 2 * b;
  el_exp : forall x, fin x -> B2R x <= 0 -> fin (lm_expf lm x) /\ 0 <= B2R (lm_expf lm x) <= 1 + 1 / 1048576;
  el_sin : forall x, fin x -> Rabs (B2R x) <= 8 -> fin (lm_sinf lm x) /\ Rabs (B2R (lm_sinf lm x) - sin (B2R x)) <= / 1048576;
  el_sin_odd : forall x y, fin x -> fin y -> Rabs (B2R x) <= 8 -> B2R y = - B2R x -> B2R (lm_sinf lm y) = - B2R (lm_sinf lm x);
  el_cos : forall x, fin x -> Rabs (B2R x) <= 64 -> fin (lm_cosf lm x) /\ Rabs (B2R (lm_cosf lm x) - cos (B2R x)) <= / 1048576;
  el_atan2 : forall y x, fin y -> fin x -> fin (lm_atan2f lm y x) /\ Rabs (B2R (lm_atan2f lm y x)) <= 3.1416;
  el_fmod : forall x y, fin x -> fin y -> 0 <= B2R x -> 0 < B2R y -> fin (lm_fmodf lm x y) /\ 0 <= B2R (lm_fmodf lm x y) < B2R y }.

Section E.
Variable lm : libm.
Hypothesis El : elementary lm.
Notation N := (FN lm).
Notation l_ := (@flit (FN lm)).

Ltac prod := intros r s [? ?] [? ?]; split; nra.
Ltac slv := first [safe_tac | lra].

Lemma iv_pow7 x k : iv x 0 (bpow radix2 k) -> (0 <= k <= 14)%Z -> iv (@fpow N x (l_ 7%dec)) 0 (bpow radix2 (7 * k + 1)).
Proof.
  intros [Fx [H0 H1]] Hk. assert (L7 : fin (l_ 7%dec) /\ B2R (l_ 7%dec) = 7) by f32_val. destruct L7 as [F7 V7].
  destruct (el_pow lm El x (l_ 7%dec) Fx F7 H0 ltac:(lra) (bpow radix2 (7 * k))) as [F [A B]].
  - intros P. rewrite V7. replace 7 with (INR 7) at 1 by (cbn; lra). rewrite Rpower_pow by exact P.
    apply Rle_trans with (bpow radix2 k ^ 7); [apply pow_incr; lra|]. right. cbn [pow]. rewrite Rmult_1_r, <- !bpow_plus. f_equal. lia.
  - split; apply bpow_le; lia.
  - split; [exact F|]. replace (bpow radix2 (7 * k + 1)) with (2 * bpow radix2 (7 * k)); [split; assumption|].
    rewrite bpow_plus. change (bpow radix2 1) with 2. ring.
Qed.
Lemma iv_p25 : iv (pow25_7 N) 6000000000 6200000000.
Proof. unfold pow25_7; litv. Qed.
(** the ratio under the two square roots, at most [q] when the power is at most [q * 2^32] *)
Lemma iv_ratio x b q : iv x 0 (bpow radix2 b) -> (0 <= b <= 99)%Z -> safe q -> 0 <= q -> (q >= 1 \/ bpow radix2 b <= q * 4294967296) ->
  iv (@fdiv N x (@fadd N x (pow25_7 N))) 0 q.
Proof.
  intros [Fx [X0 X1]] Hb Sq Q HQ. pose proof iv_p25 as [Fp [P0 P1]].
  assert (BB : bpow radix2 b <= bpow radix2 99) by (apply bpow_le; lia).
  assert (S : iv (@fadd N x (pow25_7 N)) (bpow radix2 32) (bpow radix2 100)).
  { apply (iv_add lm x (pow25_7 N) 0 (bpow radix2 b) 6000000000 6200000000); [split; [exact Fx|lra]|split; [exact Fp|lra]|slv|slv| |].
    - change (bpow radix2 32) with 4294967296. lra.
    - replace (bpow radix2 100) with (bpow radix2 99 + bpow radix2 99). 
      + assert (bpow radix2 33 <= bpow radix2 99) by (apply bpow_le; lia). change (bpow radix2 33) with 8589934592 in *. lra.
      + change 100%Z with (99 + 1)%Z. rewrite bpow_plus. change (bpow radix2 1) with 2. ring. }
  assert (M : B2R x <= B2R (@fadd N x (pow25_7 N))).
  { assert (G : Rabs (rnd (B2R x + B2R (pow25_7 N))) < bpow radix2 128).
    { apply rnd_lt_128. rewrite Rabs_right by lra. apply Rle_trans with (bpow radix2 100); [|apply bpow_le; lia].
      replace (bpow radix2 100) with (bpow radix2 99 + bpow radix2 99). 
      - assert (bpow radix2 33 <= bpow radix2 99) by (apply bpow_le; lia). change (bpow radix2 33) with 8589934592 in *. lra.
      - change 100%Z with (99 + 1)%Z. rewrite bpow_plus. change (bpow radix2 1) with 2. ring. }
    destruct (add_gen lm x (pow25_7 N) Fx Fp G) as [_ E]. rewrite E. apply rnd_ge_fmt; [apply fmt_B2R|lra]. }
  destruct S as [Fs [S0 S1]]. change (bpow radix2 32) with 4294967296 in S0. set (y := @fadd N x _) in *.
  assert (Y : 0 < B2R y) by lra.
  assert (D : 0 <= B2R x / B2R y <= q).
  { apply div_between; [exact Y|lra|]. destruct HQ; nra. }
  destruct (rnd_iv (B2R x / B2R y) 0 q ltac:(slv) Sq D) as [A B].
  destruct (div_gen lm x y Fx (Rgt_not_eq _ _ Y) A) as [F E]. split; [exact F|]. now rewrite E.
Qed.
Lemma iv_G c : iv c 0 (bpow radix2 12) -> iv (e00_G N c) 0 1.
Proof.
  intros H. unfold e00_G. cbv zeta.
  assert (P := iv_pow7 c 12 H ltac:(lia)). change (7 * 12 + 1)%Z with 85%Z in P.
  assert (R := iv_ratio _ 85 1 P ltac:(lia) ltac:(slv) ltac:(lra) ltac:(left; lra)).
  assert (S := iv_sqrt lm _ 0 1 0 1 R ltac:(slv) ltac:(slv) ltac:(lra) ltac:(lra) ltac:(lra) ltac:(lra)).
  assert (L1 : iv (l_ 1%dec) 1 1) by litv. assert (L2 : iv (l_ 2%dec) 2 2) by litv.
  assert (D : iv (@fsub N (l_ 1%dec) (@fsqrt N (@fdiv N (@fpow N c (l_ 7%dec)) (@fadd N (@fpow N c (l_ 7%dec)) (pow25_7 N))))) 0 1) by (eapply (iv_sub lm _ _ 1 1 0 1); try slv; assumption).
  eapply (iv_div lm _ _ 0 1 2 2); try slv; try assumption. intros r s [? ?] [? ?]; split; nra.
Qed.
Lemma iv_pi : iv (@fpi N) 3.14159 3.1416.
Proof. litv. Qed.
Lemma iv_hue b a : fin b -> fin a -> iv (e00_hue N b a) 0 360.
Proof.
  intros Fb Fa. unfold e00_hue. destruct (el_atan2 lm El b a Fb Fa) as [F A]. apply Rabs_le_inv in A.
  assert (I : iv (@fatan2 N b a) (-3.1416) 3.1416) by (split; [exact F|change (@fatan2 N) with (lm_atan2f lm); lra]).
  assert (L1 : iv (l_ 360%dec) 360 360) by litv. assert (L2 : iv (l_ 180.0%dec) 180 180) by litv.
  assert (M : iv (@fmul N (@fatan2 N b a) (l_ 180.0%dec)) (-566) 566) by (eapply (iv_mul lm _ _ (-3.1416) 3.1416 180 180); try slv; try assumption; prod).
  assert (D : iv (@fdiv N (@fmul N (@fatan2 N b a) (l_ 180.0%dec)) (@fpi N)) (-181) 181).
  { eapply (iv_div lm _ _ (-566) 566 3.14159 3.1416); try slv; try assumption; [exact iv_pi|]. intros r s [? ?] [? ?]; split; nra. }
  assert (S : iv (@fadd N (l_ 360%dec) (@fdiv N (@fmul N (@fatan2 N b a) (l_ 180.0%dec)) (@fpi N))) 179 541).
  { eapply (iv_add lm _ _ 360 360 (-181) 181); try slv; assumption. }
  destruct S as [Fs Vs]. destruct L1 as [F3 V3]. destruct (el_fmod lm El _ _ Fs F3 ltac:(lra) ltac:(lra)) as [F' H]. split; [exact F'|].
  change (@ffmod N) with (lm_fmodf lm). lra.
Qed.
Lemma iv_hbar h1 h2 : iv h1 0 360 -> iv h2 0 360 -> iv (e00_HdBar N h1 h2) 0 540.
Proof.
  intros H1 H2. unfold e00_HdBar. assert (L1 : iv (l_ 360%dec) 360 360) by litv. assert (L2 : iv (l_ 2%dec) 2 2) by litv.
  assert (S : iv (@fadd N h1 h2) 0 720) by (eapply (iv_add lm _ _ 0 360 0 360); try slv; assumption).
  assert (I : iv (if @fltb N (l_ 180%dec) (@ffabs N (@fsub N h1 h2)) then @fadd N (@fadd N h1 h2) (l_ 360%dec) else @fadd N h1 h2) 0 1080).
  { destruct (@fltb N _ _); [|eapply iv_le; [exact S|lra|lra]]. eapply (iv_add lm _ _ 0 720 360 360); try slv; assumption. }
  eapply (iv_div lm _ _ 0 1080 2 2); try slv; try assumption. intros r s [? ?] [? ?]; split; nra.
Qed.
Lemma iv_cos x : fin x -> -64 <= B2R x <= 64 -> iv (@fcos N x) (-1 - / 1048576) (1 + / 1048576).
Proof.
  intros F H. destruct (el_cos lm El x F ltac:(apply Rabs_le; lra)) as [Fc A]. split; [exact Fc|]. apply Rabs_le_inv in A. pose proof (COS_bound (B2R x)).
  change (@fcos N x) with (lm_cosf lm x). lra.
Qed.
Lemma iv_T h : iv h 0 540 -> iv (e00_T N h) 0 2.
Proof.
  intros H. unfold e00_T. cbv zeta. 
  assert (L1 : iv (l_ 1%dec) 1 1) by litv. assert (L2 : iv (l_ 2%dec) 2 2) by litv. assert (L3 : iv (l_ 3%dec) 3 3) by litv. assert (L4 : iv (l_ 4%dec) 4 4) by litv.
  assert (L6 : iv (l_ 6%dec) 6 6) by litv. assert (L30 : iv (l_ 30%dec) 30 30) by litv. assert (L63 : iv (l_ 63%dec) 63 63) by litv. assert (L180 : iv (l_ 180%dec) 180 180) by litv.
  assert (K : forall y, iv y (-100) 2500 -> iv (@fcos N (@fdiv N (@fmul N (@fpi N) y) (l_ 180%dec))) (-1 - / 1048576) (1 + / 1048576)).
  { intros y Hy. assert (M : iv (@fmul N (@fpi N) y) (-400) 8000) by (eapply (iv_mul lm _ _ 3.14159 3.1416 (-100) 2500); try slv; try assumption; [exact iv_pi|prod]).
    assert (D : iv (@fdiv N (@fmul N (@fpi N) y) (l_ 180%dec)) (-64) 64) by (eapply (iv_div lm _ _ (-400) 8000 180 180); try slv; try assumption; intros r s [? ?] [? ?]; split; nra).
    destruct D as [F D]. apply iv_cos; assumption. }
  assert (M1 : iv (@fmul N (l_ 1%dec) h) 0 540) by (eapply (iv_mul lm _ _ 1 1 0 540); try slv; try assumption; prod).
  assert (M2 : iv (@fmul N (l_ 2%dec) h) 0 1080) by (eapply (iv_mul lm _ _ 2 2 0 540); try slv; try assumption; prod).
  assert (M3 : iv (@fmul N (l_ 3%dec) h) 0 1620) by (eapply (iv_mul lm _ _ 3 3 0 540); try slv; try assumption; prod).
  assert (M4 : iv (@fmul N (l_ 4%dec) h) 0 2160) by (eapply (iv_mul lm _ _ 4 4 0 540); try slv; try assumption; prod).
  assert (A1 : iv (@fsub N (@fmul N (l_ 1%dec) h) (l_ 30%dec)) (-30) 540) by (eapply (iv_sub lm _ _ 0 540 30 30); try slv; assumption).
  assert (A3 : iv (@fadd N (@fmul N (l_ 3%dec) h) (l_ 6%dec)) 0 1626) by (eapply (iv_add lm _ _ 0 1620 6 6); try slv; assumption).
  assert (A4 : iv (@fsub N (@fmul N (l_ 4%dec) h) (l_ 63%dec)) (-63) 2160) by (eapply (iv_sub lm _ _ 0 2160 63 63); try slv; assumption).
  assert (C1 := K _ ltac:(eapply iv_le; [exact A1|lra|lra])). assert (C2 := K _ ltac:(eapply iv_le; [exact M2|lra|lra])).
  assert (C3 := K _ ltac:(eapply iv_le; [exact A3|lra|lra])). assert (C4 := K _ ltac:(eapply iv_le; [exact A4|lra|lra])).
  set (c1 := @fcos N (@fdiv N (@fmul N (@fpi N) (@fsub N (@fmul N (l_ 1%dec) h) (l_ 30%dec))) (l_ 180%dec))) in *.
  set (c2 := @fcos N (@fdiv N (@fmul N (@fpi N) (@fmul N (l_ 2%dec) h)) (l_ 180%dec))) in *.
  set (c3 := @fcos N (@fdiv N (@fmul N (@fpi N) (@fadd N (@fmul N (l_ 3%dec) h) (l_ 6%dec))) (l_ 180%dec))) in *.
  set (c4 := @fcos N (@fdiv N (@fmul N (@fpi N) (@fsub N (@fmul N (l_ 4%dec) h) (l_ 63%dec))) (l_ 180%dec))) in *.
  assert (K1 : iv (l_ 0.17%dec) 0.169 0.1701) by litv. assert (K2 : iv (l_ 0.24%dec) 0.239 0.2401) by litv. assert (K3 : iv (l_ 0.32%dec) 0.319 0.3201) by litv. assert (K4 : iv (l_ 0.20%dec) 0.199 0.2001) by litv.
  assert (P1 : iv (@fmul N (l_ 0.17%dec) c1) (-11 / 64) (11 / 64)) by (eapply (iv_mul lm _ _ _ _ _ _ _ _ K1 C1); try slv; prod).
  assert (P2 : iv (@fmul N (l_ 0.24%dec) c2) (-31 / 128) (31 / 128)) by (eapply (iv_mul lm _ _ _ _ _ _ _ _ K2 C2); try slv; prod).
  assert (P3 : iv (@fmul N (l_ 0.32%dec) c3) (-41 / 128) (41 / 128)) by (eapply (iv_mul lm _ _ _ _ _ _ _ _ K3 C3); try slv; prod).
  assert (P4 : iv (@fmul N (l_ 0.20%dec) c4) (-13 / 64) (13 / 64)) by (eapply (iv_mul lm _ _ _ _ _ _ _ _ K4 C4); try slv; prod).
  assert (Q1 : iv (@fsub N (l_ 1%dec) (@fmul N (l_ 0.17%dec) c1)) (53 / 64) (75 / 64)) by (eapply (iv_sub lm _ _ _ _ _ _ _ _ L1 P1); slv).
  assert (Q2 : iv (@fadd N (@fmul N (l_ 0.24%dec) c2) (@fmul N (l_ 0.32%dec) c3)) (-36 / 64) (36 / 64)) by (eapply (iv_add lm _ _ _ _ _ _ _ _ P2 P3); slv).
  assert (Q3 : iv (@fadd N (@fsub N (l_ 1%dec) (@fmul N (l_ 0.17%dec) c1)) (@fadd N (@fmul N (l_ 0.24%dec) c2) (@fmul N (l_ 0.32%dec) c3))) (17 / 64) (111 / 64)) by (eapply (iv_add lm _ _ _ _ _ _ _ _ Q1 Q2); slv).
  eapply (iv_sub lm _ _ _ _ _ _ _ _ Q3 P4); slv.
Qed.
Lemma iv_Sl l : iv l (-1024) 1024 -> iv (e00_Sl N l) 1 65536.
Proof.
  intros H. unfold e00_Sl. cbv zeta. assert (L1 : iv (l_ 1%dec) 1 1) by litv. assert (L50 : iv (l_ 50%dec) 50 50) by litv. assert (L20 : iv (l_ 20%dec) 20 20) by litv.
  assert (K : iv (l_ 0.015%dec) 0.0149 0.0151) by litv.
  assert (D : iv (@fsub N l (l_ 50%dec)) (-1074) 974) by (eapply (iv_sub lm _ _ _ _ _ _ _ _ H L50); slv). set (d := @fsub N l _) in *.
  assert (M : iv (@fmul N d d) 0 4194304).
  { destruct D as [Fd Vd]. assert (I : iv d (B2R d) (B2R d)) by (split; [exact Fd|lra]). eapply (iv_mul lm _ _ _ _ _ _ _ _ I I); try slv.
    intros r s ? ?. replace s with r by lra. nra. }
  set (m := @fmul N d d) in *.
  assert (A : iv (@fmul N (l_ 0.015%dec) m) 0 65535) by (eapply (iv_mul lm _ _ _ _ _ _ _ _ K M); try slv; prod).
  assert (B : iv (@fadd N (l_ 20%dec) m) 20 4194326) by (eapply (iv_add lm _ _ _ _ _ _ _ _ L20 M); slv).
  assert (S : iv (@fsqrt N (@fadd N (l_ 20%dec) m)) 4 2049) by (eapply (iv_sqrt lm _ _ _ _ _ B); slv).
  assert (Q : iv (@fdiv N (@fmul N (l_ 0.015%dec) m) (@fsqrt N (@fadd N (l_ 20%dec) m))) 0 65535) by (eapply (iv_div lm _ _ _ _ _ _ _ _ A S); try slv; intros r s [? ?] [? ?]; split; nra).
  eapply (iv_add lm _ _ _ _ _ _ _ _ L1 Q); slv.
Qed.
Lemma sin_hi x : 0 <= x <= 1.0474 -> 0 <= sin x <= 0.87.
Proof.
  intros H. pose proof PI_bounds as P. split; [apply sin_ge_0; lra|].
  assert (sin x <= sin (PI / 3 + (1.0474 - PI / 3))). { apply sin_incr_1; lra. }
  rewrite sin_plus, sin_PI3 in H0. set (t := 1.0474 - PI / 3) in *. assert (0 <= t <= 0.0003) by (unfold t; lra).
  assert (sin t <= 0.0003). { destruct (Req_dec t 0) as [->|]; [rewrite sin_0; lra|]. pose proof (sin_lt_x t ltac:(lra)). lra. }
  pose proof (COS_bound t). pose proof (COS_bound (PI / 3)). assert (0 <= sin t) by (apply sin_ge_0; lra).
  assert (sqrt 3 <= 1.7321) by (rewrite <- (sqrt_square 1.7321) by lra; apply sqrt_le_1_alt; lra). pose proof (sqrt_pos 3). nra.
Qed.
Lemma iv_Rt h c b q w : iv h 0 540 -> iv c 0 (bpow radix2 b) -> (0 <= b <= 14)%Z -> safe q -> safe w -> 0 <= q -> 0 <= w <= 1 -> q <= w * w ->
  (q >= 1 \/ bpow radix2 (7 * b + 1) <= q * 4294967296) -> safe (7 / 4 * w) -> safe (- (7 / 4 * w)) -> safe (2 * w) -> iv (e00_Rt N h c) (- (7 / 4 * w)) (7 / 4 * w).
Proof.
  intros H C Hb Sq Sw Q W QW HQ S7 S7' S2. unfold e00_Rt. cbv zeta.
  assert (L275 : iv (l_ 275%dec) 275 275) by litv. assert (L25 : iv (l_ 25%dec) 25 25) by litv. assert (L30 : iv (l_ 30%dec) 30 30) by litv. assert (L2 : iv (l_ 2%dec) 2 2) by litv. assert (L180 : iv (l_ 180%dec) 180 180) by litv.
  assert (D : iv (@fsub N h (l_ 275%dec)) (-275) 265) by (eapply (iv_sub lm _ _ _ _ _ _ _ _ H L275); slv). set (d := @fsub N h _) in *.
  assert (M : iv (@fmul N d d) 0 75625).
  { destruct D as [Fd Vd]. assert (I : iv d (B2R d) (B2R d)) by (split; [exact Fd|lra]). eapply (iv_mul lm _ _ _ _ _ _ _ _ I I); try slv.
    intros r s ? ?. replace s with r by lra. nra. }
  assert (M5 : iv (@fmul N (l_ 25%dec) (l_ 25%dec)) 625 625) by (eapply (iv_mul lm _ _ _ _ _ _ _ _ L25 L25); try slv; prod).
  assert (V : iv (@fdiv N (@fmul N d d) (@fmul N (l_ 25%dec) (l_ 25%dec))) 0 121) by (eapply (iv_div lm _ _ _ _ _ _ _ _ M M5); try slv; intros r s [? ?] [? ?]; split; nra).
  apply (iv_opp lm) in V. set (v := @fopp N _) in *. destruct V as [Fv Vv].
  assert (X : iv (@fexp N v) 0 (1 + 1 / 1048576)). { destruct (el_exp lm El v Fv ltac:(lra)) as [F E]. split; assumption. }
  assert (T1 : iv (@fmul N (l_ 30%dec) (@fexp N v)) 0 (61441 / 2048)) by (eapply (iv_mul lm _ _ _ _ _ _ _ _ L30 X); try slv; prod).
  assert (T2 : iv (@fmul N (l_ 2%dec) (@fmul N (l_ 30%dec) (@fexp N v))) 0 (61441 / 1024)) by (eapply (iv_mul lm _ _ _ _ _ _ _ _ L2 T1); try slv; prod).
  assert (T3 : iv (@fmul N (@fmul N (l_ 2%dec) (@fmul N (l_ 30%dec) (@fexp N v))) (@fpi N)) 0 (188500 / 1000)).
  { replace (188500 / 1000) with (377 / 2) by lra. eapply (iv_mul lm _ _ _ _ _ _ _ _ T2 iv_pi); try slv; prod. }
  assert (T4 : iv (@fdiv N (@fmul N (@fmul N (l_ 2%dec) (@fmul N (l_ 30%dec) (@fexp N v))) (@fpi N)) (l_ 180%dec)) 0 (8580 / 8192)) by (eapply (iv_div lm _ _ _ _ _ _ _ _ T3 L180); try slv; intros r s [? ?] [? ?]; split; nra).
  set (t := @fdiv N (@fmul N (@fmul N (l_ 2%dec) _) _) _) in *. destruct T4 as [Ft Vt].
  assert (S : iv (@fsin N t) (- / 1048576) (7 / 8)).
  { destruct (el_sin lm El t Ft ltac:(apply Rabs_le; lra)) as [F A]. split; [exact F|]. apply Rabs_le_inv in A. pose proof (sin_hi (B2R t) ltac:(lra)).
    change (@fsin N t) with (lm_sinf lm t). lra. }
  assert (P := iv_pow7 c b C Hb). assert (R := iv_ratio _ _ q P ltac:(lia) Sq Q HQ). 
  assert (R' := iv_sqrt lm _ _ _ 0 w R ltac:(slv) Sw ltac:(lra) ltac:(lra) ltac:(lra) QW).
  set (g := @fsqrt N _) in *. 
  assert (RC : iv (@fmul N (l_ 2%dec) g) 0 (2 * w)) by (eapply (iv_mul lm _ _ _ _ _ _ _ _ L2 R'); try slv; try assumption; prod).
  apply (iv_opp lm) in RC. replace (- 0) with 0 in RC by lra. eapply (iv_mul lm _ _ _ _ _ _ _ _ RC S); try assumption. intros r s ? ?. nra.
Qed.

(** ** The form under the final square root *)
Lemma sq_val (x : f32) (k : Z) : fin x -> (0 <= k <= 60)%Z -> Rabs (B2R x) <= bpow radix2 k ->
  fin (@fmul N x x) /\ B2R (@fmul N x x) = rnd (B2R x * B2R x) /\ 0 <= B2R (@fmul N x x) <= bpow radix2 (2 * k).
Proof.
  intros Fx Hk H. assert (D : 0 <= B2R x * B2R x <= bpow radix2 (2 * k)).
  { replace (2 * k)%Z with (k + k)%Z by lia. rewrite bpow_plus. split; [nra|]. rewrite <- (Rabs_pos_eq (B2R x * B2R x)) by nra. rewrite Rabs_mult.
    apply Rmult_le_compat; try apply Rabs_pos; assumption. }
  destruct (rnd_iv _ 0 (bpow radix2 (2 * k)) ltac:(slv) ltac:(apply safe_b; lia) D) as [A B].
  destruct (mul_gen lm x x Fx Fx A) as [F E]. rewrite E. auto.
Qed.
Lemma mul_val (x y : f32) (i j : Z) : fin x -> fin y -> (0 <= i <= 60)%Z -> (0 <= j <= 60)%Z -> Rabs (B2R x) <= bpow radix2 i -> Rabs (B2R y) <= bpow radix2 j ->
  fin (@fmul N x y) /\ B2R (@fmul N x y) = rnd (B2R x * B2R y) /\ Rabs (B2R (@fmul N x y)) <= bpow radix2 (i + j).
Proof.
  intros Fx Fy Hi Hj X Y. assert (D : Rabs (B2R x * B2R y) <= bpow radix2 (i + j)).
  { rewrite Rabs_mult, bpow_plus. apply Rmult_le_compat; try apply Rabs_pos; assumption. }
  destruct (mul_ok lm x y Fx Fy) as [F E]. { eapply Rle_trans; [exact D|]. apply bpow_le; lia. }
  rewrite E. split; [exact F|]. split; [reflexivity|]. apply rnd_abs_le; [apply fmt_bpow; lia|exact D].
Qed.
Lemma add_val (x y : f32) (k : Z) : fin x -> fin y -> (0 <= k <= 100)%Z -> Rabs (B2R x) <= bpow radix2 k -> Rabs (B2R y) <= bpow radix2 k ->
  fin (@fadd N x y) /\ B2R (@fadd N x y) = rnd (B2R x + B2R y) /\ Rabs (B2R (@fadd N x y)) <= bpow radix2 (k + 1).
Proof.
  intros Fx Fy Hk X Y. assert (D : Rabs (B2R x + B2R y) <= bpow radix2 (k + 1)).
  { rewrite bpow_plus. change (bpow radix2 1) with 2. eapply Rle_trans; [apply Rabs_triang|]. lra. }
  destruct (add_ok lm x y Fx Fy) as [F E]. { eapply Rle_trans; [exact D|]. apply bpow_le; lia. }
  rewrite E. split; [exact F|]. split; [reflexivity|]. apply rnd_abs_le; [apply fmt_bpow; lia|exact D].
Qed.
Definition rad (x a b r : f32) : f32 := @fadd N (@fadd N (@fadd N (@fmul N x x) (@fmul N a a)) (@fmul N b b)) (@fmul N (@fmul N r a) b).
Definition radv (x a b r : R) : R := rnd (rnd (rnd (rnd (x * x) + rnd (a * a)) + rnd (b * b)) + rnd (rnd (r * a) * b)).
Lemma rad_val (x a b r : f32) : fin x -> fin a -> fin b -> fin r -> Rabs (B2R x) <= bpow radix2 30 -> Rabs (B2R a) <= bpow radix2 30 ->
  Rabs (B2R b) <= bpow radix2 30 -> Rabs (B2R r) <= bpow radix2 1 ->
  fin (rad x a b r) /\ B2R (rad x a b r) = radv (B2R x) (B2R a) (B2R b) (B2R r).
Proof.
  intros Fx Fa Fb Fr X A B R. unfold rad, radv.
  destruct (sq_val x 30 Fx ltac:(lia) X) as (F1 & E1 & B1). destruct (sq_val a 30 Fa ltac:(lia) A) as (F2 & E2 & B2). destruct (sq_val b 30 Fb ltac:(lia) B) as (F3 & E3 & B3).
  destruct (add_val _ _ 60 F1 F2 ltac:(lia)) as (F4 & E4 & B4); [rewrite Rabs_pos_eq; apply B1|rewrite Rabs_pos_eq; apply B2|].
  destruct (add_val _ _ 61 F4 F3 ltac:(lia)) as (F5 & E5 & B5); [exact B4|rewrite Rabs_pos_eq by apply B3; eapply Rle_trans; [apply B3|apply bpow_le; lia]|].
  destruct (mul_val r a 1 30 Fr Fa ltac:(lia) ltac:(lia) R A) as (F6 & E6 & B6).
  destruct (mul_val _ b 31 30 F6 Fb ltac:(lia) ltac:(lia) B6 B) as (F7 & E7 & B7).
  destruct (add_val _ _ 62 F5 F7 ltac:(lia)) as (F8 & E8 & B8); [exact B5|eapply Rle_trans; [exact B7|apply bpow_le; lia]|].
  split; [exact F8|]. rewrite E8, E5, E4, E1, E2, E3, E7, E6. reflexivity.
Qed.
Lemma radv_nonneg x a b r : fmt a -> fmt b -> Rabs r <= 7 / 4 -> (Rabs r <= 1 \/ a = 0 \/ bpow radix2 (-39) <= Rabs a) -> 0 <= radv x a b r.
Proof.
  intros Fa Fb R H. unfold radv. set (x2 := rnd (x * x)). set (a2 := rnd (a * a)). set (b2 := rnd (b * b)). set (t1 := rnd (r * a)).
  assert (X0 : 0 <= x2) by (apply rnd_ge_fmt; [apply fmt_0|nra]). assert (A0 : 0 <= a2) by (apply rnd_ge_fmt; [apply fmt_0|nra]). assert (B0 : 0 <= b2) by (apply rnd_ge_fmt; [apply fmt_0|nra]).
  assert (GA : fmt a2) by (apply generic_format_round; typeclasses eauto). assert (GB : fmt b2) by (apply generic_format_round; typeclasses eauto).
  set (s1 := rnd (x2 + a2)). assert (S1 : a2 <= s1) by (apply rnd_ge_fmt; [exact GA|lra]).
  assert (G1 : fmt s1) by (apply generic_format_round; typeclasses eauto).
  assert (S2 : rnd (a2 + b2) <= rnd (s1 + b2)) by (apply rnd_le; lra).
  assert (S3 : a2 <= rnd (s1 + b2)). { apply Rle_trans with s1; [exact S1|]. apply rnd_ge_fmt; [exact G1|lra]. }
  assert (S4 : b2 <= rnd (s1 + b2)) by (apply rnd_ge_fmt; [exact GB|lra]).
  apply rnd_ge_fmt; [apply fmt_0|]. set (s2 := rnd (s1 + b2)) in *.
  assert (GabsA : fmt (Rabs a)) by now apply generic_format_abs.
  assert (K : Rabs (rnd (t1 * b)) <= s2); [|apply Rabs_le_inv in K; lra].
  destruct H as [H|[H|H]].
  - assert (T1 : Rabs t1 <= Rabs a). { apply rnd_abs_le; [exact GabsA|]. rewrite Rabs_mult. pose proof (Rabs_pos a). nra. }
    rewrite <- round_NE_abs by typeclasses eauto. pose proof (Rabs_pos a). pose proof (Rabs_pos b). destruct (Rle_dec (Rabs a) (Rabs b)) as [L|L].
    + apply Rle_trans with b2; [|exact S4]. apply rnd_le. rewrite <- (Rabs_pos_eq (b * b)) by nra. rewrite !Rabs_mult.
      apply Rmult_le_compat_r; [assumption|lra].
    + apply Rle_trans with a2; [|exact S3]. apply rnd_le. rewrite <- (Rabs_pos_eq (a * a)) by nra. rewrite !Rabs_mult.
      apply Rmult_le_compat; try apply Rabs_pos; lra.
  - unfold t1. rewrite H, Rmult_0_r, rnd_0, Rmult_0_l, rnd_0, Rabs_R0. lra.
  - pose proof u16 as U. pose proof (rnd_err_abs (r * a)) as E1. fold t1 in E1. pose proof (rnd_err_abs (t1 * b)) as E2.
    pose proof (rnd_err_abs (a * a)) as E3. fold a2 in E3. pose proof (rnd_err_abs (b * b)) as E4. fold b2 in E4. pose proof (rnd_add_err a2 b2 GA GB) as E5.
    rewrite (Rabs_pos_eq (a * a)) in E3 by nra. rewrite (Rabs_pos_eq (b * b)) in E4 by nra. rewrite (Rabs_pos_eq (a2 + b2)) in E5 by lra.
    apply Rabs_le_inv in E3. apply Rabs_le_inv in E4. apply Rabs_le_inv in E5.
    assert (T1 : Rabs t1 <= Rabs (r * a) + (u * Rabs (r * a) + eta)). { replace t1 with (r * a + (t1 - r * a)) by ring. eapply Rle_trans; [apply Rabs_triang|]. lra. }
    assert (T2 : Rabs (rnd (t1 * b)) <= Rabs (t1 * b) + (u * Rabs (t1 * b) + eta)). { replace (rnd (t1 * b)) with (t1 * b + (rnd (t1 * b) - t1 * b)) at 1 by ring. eapply Rle_trans; [apply Rabs_triang|]. lra. }
    rewrite Rabs_mult in T1, T2.
    replace (a * a) with (Rabs a * Rabs a) in * by (rewrite <- Rabs_mult; apply Rabs_pos_eq; nra).
    replace (b * b) with (Rabs b * Rabs b) in * by (rewrite <- Rabs_mult; apply Rabs_pos_eq; nra).
    pose proof (Rabs_pos b) as PB. pose proof (Rabs_pos r) as PR. set (A := Rabs a) in *. set (B := Rabs b) in *. set (t := Rabs t1) in *. set (rr := Rabs r) in *.
    assert (Z : eta <= / 1000 * (A * A) /\ eta <= / 1000 * A).
    { assert (bpow radix2 (-39) * bpow radix2 (-39) <= A * A) by (pose proof (bpow_ge_0 radix2 (-39)); apply Rmult_le_compat; lra).
      assert (W1 : eta <= bpow radix2 (-10) * (bpow radix2 (-39) * bpow radix2 (-39))) by (rewrite <- !bpow_plus; apply bpow_le; lia).
      assert (W2 : eta <= bpow radix2 (-10) * bpow radix2 (-39)) by (rewrite <- !bpow_plus; apply bpow_le; lia).
      change (bpow radix2 (-10)) with (/ 1024) in W1, W2. assert (0 < bpow radix2 (-39)) by apply bpow_gt_0. set (g := bpow radix2 (-39)) in *. assert (0 <= g * g) by nra. split; lra. }
    destruct Z as [Z1 Z2]. pose proof eta_pos as EP. assert (PA : 0 < A) by (pose proof (bpow_gt_0 radix2 (-39)); lra).
    assert (T3 : t <= 1.76 * A). { assert (rr * A <= 7 / 4 * A) by (apply Rmult_le_compat_r; lra). rewrite U in *. lra. }
    assert (T4 : t * B <= 1.76 * (A * B)). { rewrite <- Rmult_assoc. apply Rmult_le_compat_r; assumption. }
    assert (AB : 2 * (A * B) <= A * A + B * B) by (pose proof (Rle_0_sqr (A - B)) as SQ; unfold Rsqr in SQ; lra). rewrite U in *. assert (0 <= A * A) by (apply Rmult_le_pos; lra). assert (0 <= B * B) by (apply Rmult_le_pos; lra). destruct E3, E4, E5. lra.
Qed.
End E.
