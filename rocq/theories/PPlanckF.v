(** * Black bodies in binary32 and binary64. *)
From Coq Require Import ZArith Reals Lra Lia List Bool.
From Flocq Require Import Core BinarySingleNaN.
From Verif Require Import Num NumR NumF MVec MTri MSpectrum RTac F32 F64 PHsvF PSpec PSpecF PPlanck RExp PResamp PTables PObsF Tables PLibm.
Import ListNotations.
Local Open Scope R_scope.

(** [accurate64 lm]: the double functions [pow] and [exp] are within [4 u64] (two units in the last place). *)
Definition approx64 (x : f64) (r : R) : Prop :=
  bpow radix2 (-1000) <= Rabs r <= bpow radix2 1000 -> fin64 x /\ Rabs (B2R x - r) <= 4 * u64 * Rabs r.
Record accurate64 (lm : libm) : Prop := {
  acc64_pow : forall x y, fin64 x -> fin64 y -> 0 < B2R x -> approx64 (lm_pow lm x y) (Rpower (B2R x) (B2R y));
  acc64_exp : forall x, fin64 x -> approx64 (lm_exp lm x) (exp (B2R x)) }.

Lemma u64_le : 0 < u64 <= 1.12e-16. Proof. rewrite u64_val. lra. Qed.
Lemma bp_small k : (k <= -900)%Z -> bpow radix2 k <= 1e-30.
Proof.
  intros K. apply Rle_trans with (bpow radix2 (-120)); [apply bpow_le; lia|]. change (bpow radix2 (-120)) with (/ IZR (2 ^ 120)). change (2 ^ 120)%Z with 1329227995784915872903807060280344576%Z. lra.
Qed.
Lemma bp_large k : (900 <= k)%Z -> 1e40 <= bpow radix2 k.
Proof.
  intros K. apply Rle_trans with (bpow radix2 140); [|apply bpow_le; lia]. change (bpow radix2 140) with (IZR (2 ^ 140)). change (2 ^ 140)%Z with 1393796574908163946345982392040522594123776%Z. lra.
Qed.
Lemma rnd64_rel z : bpow radix2 (-1000) <= z -> Rabs (rnd64 z - z) <= 1.2e-16 * z.
Proof.
  intros H. pose proof (bpow_gt_0 radix2 (-1000)) as P. pose proof (rnd64_err z) as E. rewrite (Rabs_pos_eq z) in E by lra.
  assert (Q : eta64 <= bpow radix2 (-75) * z).
  { unfold eta64. replace (-1075)%Z with (-75 + -1000)%Z by lia. rewrite bpow_plus. apply Rmult_le_compat_l; [apply bpow_ge_0|exact H]. }
  assert (S : bpow radix2 (-75) <= 1e-20). { change (bpow radix2 (-75)) with (/ IZR (2 ^ 75)). change (2 ^ 75)%Z with 37778931862957161709568%Z. lra. }
  pose proof u64_le. nra.
Qed.
Definition rel (x : f64) (r e : R) : Prop := fin64 x /\ Rabs (B2R x - r) <= e * r.
Lemma rel_le x r e e' : rel x r e -> 0 < r -> e <= e' -> rel x r e'.
Proof. intros [F H] R0 L. split; [exact F|]. nra. Qed.
Section F.
Context (lm : libm).
Notation N := (FN lm).
Lemma rel_mul x y r s e f g : rel x r e -> rel y s f -> 0 < r -> 0 < s -> 1e-29 <= r * s <= 1e39 -> 0 <= e <= 1e-6 -> 0 <= f <= 1e-6 -> 1.000001 * (e + f) + 1.3e-16 <= g ->
  rel (@dmul N x y) (r * s) g.
Proof.
  intros [Fx Hx] [Fy Hy] R0 S0 B E F G. pose proof (bp_small (-1000) ltac:(lia)). pose proof (bp_large 1000 ltac:(lia)).
  assert (P : Rabs (B2R x * B2R y - r * s) <= 1.000001 * (e + f) * (r * s)).
  { replace (B2R x * B2R y - r * s) with ((B2R x - r) * s + r * (B2R y - s) + (B2R x - r) * (B2R y - s)) by ring.
    assert (Q1 : Rabs ((B2R x - r) * s) <= e * (r * s)) by (rewrite Rabs_mult, (Rabs_pos_eq s) by lra; nra).
    assert (Q2 : Rabs (r * (B2R y - s)) <= f * (r * s)) by (rewrite Rabs_mult, (Rabs_pos_eq r) by lra; nra).
    assert (Q3 : Rabs ((B2R x - r) * (B2R y - s)) <= 1e-6 * f * (r * s)).
    { rewrite Rabs_mult. apply Rle_trans with ((e * r) * (f * s)); [apply Rmult_le_compat; (apply Rabs_pos || assumption)|]. replace (e * r * (f * s)) with (e * f * (r * s)) by ring.
      apply Rmult_le_compat_r; nra. }
    eapply Rle_trans; [apply Rabs_triang|]. eapply Rle_trans; [apply Rplus_le_compat_r, Rabs_triang|]. assert (0 <= e * (r * s)) by (apply Rmult_le_pos; lra). assert (0 <= f * (r * s)) by (apply Rmult_le_pos; lra). nra. }
  set (z := B2R x * B2R y) in *. set (t := r * s) in *. apply Rabs_le_inv in P. assert (Z : 0.99 * t <= z <= 1.01 * t) by nra.
  destruct (dmul_ok lm x y Fx Fy) as [Fz Vz]; [fold z; rewrite Rabs_pos_eq; nra|]. split; [exact Fz|]. fold z in Vz. pose proof (rnd64_rel z ltac:(nra)) as W. rewrite <- Vz in W. apply Rabs_le_inv in W. apply Rabs_le. nra.
Qed.
Lemma rel_div x y r s e f g : rel x r e -> rel y s f -> 0 < r -> 0 < s -> bpow radix2 (-900) <= r / s <= 1e39 -> 0 <= e <= 1e-6 -> 0 <= f <= 1e-6 -> 1.00001 * (e + f) + 1.3e-16 <= g ->
  rel (@ddiv N x y) (r / s) g.
Proof.
  intros [Fx Hx] [Fy Hy] R0 S0 B E F G. pose proof (bp_large 1000 ltac:(lia)).
  assert (Y : 0 < B2R y /\ (1 - f) * s <= B2R y) by (apply Rabs_le_inv in Hy; split; nra). destruct Y as [Y0 Y1].
  set (t := r / s) in *. assert (T : r = t * s) by (unfold t; field; lra). assert (T0 : 0 < t) by (apply Rlt_le_trans with (2 := proj1 B), bpow_gt_0). clearbody t.
  assert (P : Rabs (B2R x / B2R y - t) <= 1.00001 * (e + f) * t).
  { replace (B2R x / B2R y - t) with ((B2R x - r - t * (B2R y - s)) / B2R y) by (rewrite T; field; apply Rgt_not_eq, Y0). unfold Rdiv. rewrite Rabs_mult, (Rabs_pos_eq (/ _)) by (left; apply Rinv_0_lt_compat; lra).
    apply Rmult_le_reg_r with (B2R y); [lra|]. rewrite Rmult_assoc, Rinv_l, Rmult_1_r by lra.
    apply Rle_trans with (e * r + t * (f * s)).
    { eapply Rle_trans; [apply Rabs_triang|]. rewrite Rabs_Ropp, Rabs_mult, (Rabs_pos_eq t) by lra. apply Rplus_le_compat; [exact Hx|]. apply Rmult_le_compat_l; lra. }
    rewrite T. replace (e * (t * s) + t * (f * s)) with ((e + f) * t * s) by ring. apply Rle_trans with (1.00001 * (e + f) * t * ((1 - f) * s)).
    - assert (0 <= (e + f) * t * s) by (repeat apply Rmult_le_pos; lra). replace (1.00001 * (e + f) * t * ((1 - f) * s)) with (1.00001 * (1 - f) * ((e + f) * t * s)) by ring. nra.
    - apply Rmult_le_compat_l; [|exact Y1]. apply Rmult_le_pos; lra. }
  set (z := B2R x / B2R y) in *. apply Rabs_le_inv in P. assert (Z : 0.99 * t <= z <= 1.01 * t) by nra.
  destruct (ddiv_ok lm x y Fx) as [Fz Vz]; [apply Rgt_not_eq, Y0|fold z; rewrite Rabs_pos_eq; lra|]. split; [exact Fz|]. fold z in Vz.
  assert (Zb : bpow radix2 (-1000) <= z). { apply Rle_trans with (/ 2 * bpow radix2 (-900)); [|lra]. change (/ 2) with (bpow radix2 (-1)). rewrite <- bpow_plus. apply bpow_le. lia. }
  pose proof (rnd64_rel z Zb) as W. rewrite <- Vz in W. apply Rabs_le_inv in W. apply Rabs_le. nra.
Qed.

Lemma hcc_lit : rel (@dlit N 5.950379064e-17%dec) 5.950379064e-17 1.2e-16.
Proof. assert (H : dnear (@dlit N 5.950379064e-17%dec) 5.950379064e-17 7e-33) by dlit_near. destruct H as [A B]. split; [exact A|lra]. Qed.
Lemma hck_lit : rel (@dlit N 1.438776827e-2%dec) 1.438776827e-2 1.2e-16.
Proof. assert (H : dnear (@dlit N 1.438776827e-2%dec) 1.438776827e-2 1.7e-18) by dlit_near. destruct H as [A B]. split; [exact A|lra]. Qed.
Lemma nm_lit : rel (@dlit N 1e-9%dec) 1e-9 1.2e-16.
Proof. assert (H : dnear (@dlit N 1e-9%dec) 1e-9 1.2e-25) by dlit_near. destruct H as [A B]. split; [exact A|lra]. Qed.
Lemma two_lit : rel (@dofZ N 2) 2 0.
Proof. assert (H : dnear (@dofZ N 2) 2 0) by dlit_near. destruct H as [A B]. split; [exact A|lra]. Qed.
Lemma one_lit : fin64 (@dlit N 1.0%dec) /\ B2R (@dlit N 1.0%dec) = 1.
Proof. assert (H : dnear (@dlit N 1.0%dec) 1 0) by dlit_near. destruct H as [A B]. split; [exact A|]. apply Rabs_le_inv in B. lra. Qed.
Lemma m5_lit : fin64 (@dofZ N (-5)) /\ B2R (@dofZ N (-5)) = -5.
Proof. assert (H : dnear (@dofZ N (-5)) (-5) 0) by dlit_near. destruct H as [A B]. split; [exact A|]. apply Rabs_le_inv in B. lra. Qed.
Lemma pow5_near L l : 0 < l -> Rabs (L - l) <= 4e-16 * l -> Rabs (/ L ^ 5 - / l ^ 5) <= 2.1e-15 * / l ^ 5.
Proof.
  intros H E. apply Rabs_le_inv in E. assert (L0 : 0 < L) by lra. set (q := l / L). assert (Q : 1 - 4.1e-16 <= q <= 1 + 4.1e-16).
  { unfold q. split; apply Rmult_le_reg_r with L; try lra; unfold Rdiv; rewrite Rmult_assoc, Rinv_l by lra; nra. }
  assert (P : 1 - 2.1e-15 <= q ^ 5 <= 1 + 2.1e-15).
  { split; [apply Rle_trans with ((1 - 4.1e-16) ^ 5); [lra|apply pow_incr; lra]|apply Rle_trans with ((1 + 4.1e-16) ^ 5); [apply pow_incr; lra|lra]]. }
  assert (I : 0 < / l ^ 5) by (apply Rinv_0_lt_compat, pow_lt, H). replace (/ L ^ 5) with (q ^ 5 * / l ^ 5) by (unfold q; field; lra).
  replace (q ^ 5 * / l ^ 5 - / l ^ 5) with ((q ^ 5 - 1) * / l ^ 5) by ring. rewrite Rabs_mult, (Rabs_pos_eq (/ _)) by lra. apply Rmult_le_compat_r; [lra|]. apply Rabs_le. lra.
Qed.
Lemma exp_near64 K a : 0 < a <= 400 -> Rabs (K - a) <= 7e-16 * a -> Rabs (exp K - exp a) <= 2.81e-13 * exp a.
Proof.
  intros A E. assert (D : Rabs (K - a) <= 2.8e-13) by nra. clear E. apply Rabs_le_inv in D. replace K with (a + (K - a)) by ring. rewrite exp_plus. set (d := K - a) in *.
  pose proof (exp_ineq1_le d) as P. pose proof (exp_ineq1_le (- d)) as Q. rewrite exp_Ropp in Q. pose proof (exp_pos d) as D0. pose proof (exp_pos a) as A0.
  assert (U : exp d <= 1 + 2.81e-13). { assert (I : 1 - 2.8e-13 <= / exp d) by lra. apply Rmult_le_reg_r with (/ exp d); [apply Rinv_0_lt_compat, D0|]. rewrite Rinv_r by lra. nra. }
  replace (exp a * exp d - exp a) with ((exp d - 1) * exp a) by ring. rewrite Rabs_mult, (Rabs_pos_eq (exp a)) by lra. apply Rmult_le_compat_r; [lra|]. apply Rabs_le. lra.
Qed.
Lemma bpow_4 k : bpow radix2 (2 * Z.of_nat k) = 4 ^ k.
Proof. induction k as [|k IH]; [reflexivity|]. rewrite Nat2Z.inj_succ, <- Zmult_succ_r_reverse, Z.add_comm, bpow_plus, IH. reflexivity. Qed.
Lemma exp_upper a : a <= 380 -> exp a <= bpow radix2 760.
Proof.
  intros A. apply Rle_trans with (exp 380); [destruct (Req_dec a 380) as [->|]; [lra|left; apply exp_increasing; lra]|].
  rewrite (exp_pow 380 380) by lia. replace (380 / INR 380) with 1 by (rewrite INR_IZR_INZ; change (IZR (Z.of_nat 380)) with 380; lra).
  change 760%Z with (2 * Z.of_nat 380)%Z. rewrite bpow_4. apply pow_incr. split; [left; apply exp_pos|]. pose proof exp_le_3. lra.
Qed.
Section T.
Context (A : accurate64 lm) (T : f32) (i : nat) (Ft : fin T) (HT : 100 <= B2R T <= 1e7) (Hi : (i < 400)%nat).
Let l := (380 + INR i) * 1e-9.
Let a := 1.438776827e-2 / (l * B2R T).
Lemma i400 : 0 <= INR i <= 399. Proof. split; [apply pos_INR|]. replace 399 with (INR 399) by (rewrite INR_IZR_INZ; reflexivity). apply le_INR. lia. Qed.
Lemma l_rng : 3.8e-7 <= l <= 7.79e-7. Proof. pose proof i400. unfold l. lra. Qed.
Lemma lT_rng : 3.8e-5 <= l * B2R T <= 7.79. Proof. pose proof l_rng. split; nra. Qed.
Lemma a_rng : 0.001846 <= a <= 379.
Proof.
  pose proof lT_rng as P. unfold a. split; apply Rmult_le_reg_r with (l * B2R T); try lra; unfold Rdiv; rewrite Rmult_assoc, Rinv_l by lra; nra.
Qed.
Definition Lw : f64 := @dmul N (@widen N (@fadd N (@flit N 380%dec) (@fofZ N (Z.of_nat i)))) (@dlit N 1e-9%dec).
Lemma L_ok : rel Lw l 3e-16.
Proof.
  pose proof i400 as I. destruct (wav_ok lm i Hi) as [F V]. destruct (widen_ok lm _ F) as [Fw Vw]. unfold Lw, l. apply rel_mul with 0 1.2e-16; try lra; [|exact nm_lit].
  split; [exact Fw|]. rewrite Vw, V, plus_IZR, <- INR_IZR_INZ. replace (380 + INR i - (380 + INR i)) with 0 by ring. rewrite Rabs_R0. lra.
Qed.
Lemma P_ok : rel (@dpow N Lw (@dofZ N (-5))) (/ l ^ 5) 2.6e-15 /\ 1e30 <= / l ^ 5 <= 1e34.
Proof.
  destruct L_ok as [F V]. pose proof l_rng as R. destruct m5_lit as [F5 V5]. pose proof u64_le as U. pose proof (bp_small (-1000) ltac:(lia)). pose proof (bp_large 1000 ltac:(lia)).
  assert (L5 : 1e-34 <= l ^ 5 <= 1e-30). { split; [apply Rle_trans with (3.8e-7 ^ 5); [lra|apply pow_incr; lra]|apply Rle_trans with (7.79e-7 ^ 5); [apply pow_incr; lra|lra]]. }
  assert (I5 : 1e30 <= / l ^ 5 <= 1e34). { split; [replace 1e30 with (/ 1e-30) by lra|replace 1e34 with (/ 1e-34) by lra]; apply Rinv_le; lra. }
  split; [|exact I5]. assert (E : Rabs (B2R Lw - l) <= 4e-16 * l) by nra. pose proof (pow5_near (B2R Lw) l ltac:(lra) E) as P. apply Rabs_le_inv in E.
  pose proof (acc64_pow lm A Lw (@dofZ N (-5)) F F5 ltac:(lra)) as G. rewrite V5, rpower_m5 in G by lra. set (q := / B2R Lw ^ 5) in *. set (p := / l ^ 5) in *. clearbody p q. apply Rabs_le_inv in P.
  assert (Q : 1e29 <= q <= 1.1e34) by nra. unfold approx64 in G. rewrite Rabs_pos_eq in G by lra. destruct (G ltac:(lra)) as [Fp Vp]. split; [exact Fp|]. change (@dpow N Lw (@dofZ N (-5))) with (lm_pow lm Lw (@dofZ N (-5))).
  apply Rabs_le_inv in Vp. apply Rabs_le. nra.
Qed.
Definition Kw : f64 := @ddiv N (@dlit N 1.438776827e-2%dec) (@dmul N Lw (@widen N T)).
Lemma K_ok : rel Kw a 7e-16.
Proof.
  pose proof lT_rng as R. pose proof l_rng as Rl. pose proof a_rng as Ra. destruct (widen_ok lm T Ft) as [Fw Vw].
  assert (M : rel (@dmul N Lw (@widen N T)) (l * B2R T) 4.4e-16).
  { apply rel_mul with 3e-16 0; try lra; [exact L_ok|]. split; [exact Fw|]. rewrite Vw. replace (B2R T - B2R T) with 0 by ring. rewrite Rabs_R0. lra. }
  unfold Kw, a. pose proof (bp_small (-900) ltac:(lia)). apply rel_div with 1.2e-16 4.4e-16; try lra; [exact hck_lit|exact M|]. fold a. lra.
Qed.
Definition Sw : f64 := @dsub N (@dexp N Kw) (@dlit N 1.0%dec).
Lemma S_ok : rel Sw (exp a - 1) 1.7e-10 /\ 0.001846 <= exp a - 1 <= bpow radix2 760.
Proof.
  destruct K_ok as [F V]. pose proof a_rng as Ra. pose proof (exp_near64 (B2R Kw) a ltac:(lra) V) as P. pose proof (exp_ineq1_le a) as Q. pose proof (exp_upper a ltac:(lra)) as W. destruct one_lit as [F1 V1]. pose proof u64_le as U.
  split; [|lra]. pose proof (acc64_exp lm A Kw F) as G. set (x := exp (B2R Kw)) in *. set (e := exp a) in *. clearbody x e. apply Rabs_le_inv in P.
  assert (B1 : bpow radix2 761 = 2 * bpow radix2 760) by (change 761%Z with (1 + 760)%Z; rewrite bpow_plus; reflexivity).
  assert (B2 : bpow radix2 762 = 2 * bpow radix2 761) by (change 762%Z with (1 + 761)%Z; rewrite bpow_plus; reflexivity).
  assert (B3 : bpow radix2 762 <= bpow radix2 1000) by (apply bpow_le; lia). pose proof (bp_small (-1000) ltac:(lia)) as B4.
  assert (X : 0.5 <= x <= 2 * e) by nra. unfold approx64 in G. rewrite Rabs_pos_eq in G by lra. destruct (G ltac:(lra)) as [Fe Ve]. change (lm_exp lm Kw) with (@dexp N Kw) in Fe, Ve. unfold Sw. set (y := @dexp N Kw) in *. clearbody y. apply Rabs_le_inv in Ve.
  assert (Y : Rabs (B2R y - e) <= 2.9e-13 * e) by (apply Rabs_le; nra). apply Rabs_le_inv in Y. assert (E1 : e <= 545 * (e - 1)) by lra.
  destruct (dsub_ok lm y (@dlit N 1.0%dec) Fe F1) as [Fs Vs]; [rewrite V1, Rabs_pos_eq; lra|]. split; [exact Fs|]. rewrite Vs, V1.
  pose proof (rnd64_rel (B2R y - 1) ltac:(lra)) as Z. apply Rabs_le_inv in Z. apply Rabs_le. nra.
Qed.
Definition Qe : R := 2 * 5.950379064e-17 * / l ^ 5 / (exp a - 1).
Definition Qw : f64 := @ddiv N (@dmul N (@dmul N (@dofZ N 2) (@dlit N 5.950379064e-17%dec)) (@dpow N Lw (@dofZ N (-5)))) Sw.
Lemma Q_ok : rel Qw Qe 1.8e-10 /\ 0 < Qe <= 1e21.
Proof.
  destruct P_ok as [P RP]. destruct S_ok as [S RS].
  assert (M1 : rel (@dmul N (@dofZ N 2) (@dlit N 5.950379064e-17%dec)) (2 * 5.950379064e-17) 2.6e-16) by (apply rel_mul with 0 1.2e-16; try lra; [exact two_lit|exact hcc_lit]).
  assert (M2 : rel (@dmul N (@dmul N (@dofZ N 2) (@dlit N 5.950379064e-17%dec)) (@dpow N Lw (@dofZ N (-5)))) (2 * 5.950379064e-17 * / l ^ 5) 4e-15) by (apply rel_mul with 2.6e-16 2.6e-15; try lra; assumption).
  set (n := 2 * 5.950379064e-17 * / l ^ 5) in *. assert (Rn : 1e14 <= n <= 1.2e18) by (unfold n; lra).
  assert (D : bpow radix2 (-900) <= n / (exp a - 1) <= 1e21).
  { split; apply Rmult_le_reg_r with (exp a - 1); try lra; unfold Rdiv; rewrite Rmult_assoc, Rinv_l by lra; rewrite Rmult_1_r.
    - apply Rle_trans with (bpow radix2 (-900) * bpow radix2 760); [apply Rmult_le_compat_l; [apply bpow_ge_0|lra]|]. rewrite <- bpow_plus. apply Rle_trans with (bpow radix2 0); [apply bpow_le; lia|]. change (bpow radix2 0) with 1. lra.
    - lra. }
  split; [unfold Qw, Qe; fold n; apply rel_div with 4e-15 1.7e-10; try lra; assumption|]. unfold Qe. fold n. split; [|lra]. apply Rlt_le_trans with (2 := proj1 D), bpow_gt_0.
Qed.
Lemma planckR_Qe : planckR (B2R T) l = Qe / 1e9.
Proof. pose proof l_rng. unfold planckR, Qe. rewrite rpower_m5 by lra. fold a. reflexivity. Qed.
Definition bbF : f32 := @narrow N (planck N (@widen N T) Lw).
Lemma planck_near : fin bbF /\ Rabs (B2R bbF - planckR (B2R T) l) <= 2.01 * u * planckR (B2R T) l + 1.01 * eta.
Proof.
  destruct Q_ok as [[F V] [Q0 Q1]]. rewrite planckR_Qe. pose proof u16 as U. pose proof eta16 as Eta.
  assert (Big : 1e25 <= bpow radix2 127). { apply Rle_trans with (bpow radix2 100); [change (bpow radix2 100) with (IZR (2 ^ 100)); change (2 ^ 100)%Z with 1267650600228229401496703205376%Z; lra|apply bpow_le; lia]. }
  apply Rabs_le_inv in V. destruct (narrow_ok lm Qw F) as [F1 V1]; [rewrite Rabs_pos_eq; nra|].
  assert (W : fin (@flit N 1e9%dec) /\ B2R (@flit N 1e9%dec) = 1e9) by f32_val. destruct W as [F9 V9].
  pose proof (rnd_err_abs (B2R Qw)) as E1. rewrite (Rabs_pos_eq (B2R Qw)) in E1 by nra. rewrite <- V1 in E1. set (x := @narrow N Qw) in *. apply Rabs_le_inv in E1.
  assert (X : -1 <= B2R x <= 1e22) by (rewrite U in *; nra).
  destruct (div_ok lm x (@flit N 1e9%dec) F1) as [F2 V2]; [rewrite V9; lra|rewrite V9; apply Rabs_le; lra|]. rewrite V9 in V2. pose proof (rnd_err_abs (B2R x / 1e9)) as E2. rewrite <- V2 in E2. set (y := @fdiv N x (@flit N 1e9%dec)) in *.
  assert (AX : Rabs (B2R x / 1e9) <= (B2R Qw * (1 + u) + eta) / 1e9) by (apply Rabs_le; rewrite U in *; nra). assert (E3 : Rabs (B2R y - B2R x / 1e9) <= u * ((B2R Qw * (1 + u) + eta) / 1e9) + eta) by (rewrite U in *; nra). clear E2 AX. apply Rabs_le_inv in E3.
  assert (Y : Rabs (B2R y) <= bpow radix2 127) by (apply Rabs_le; rewrite U in *; nra).
  destruct (widen_ok lm y F2) as [F3 V3]. destruct (narrow_ok lm (@widen N y) F3) as [F4 V4]; [rewrite V3; exact Y|]. rewrite V3, rnd_id in V4 by apply fmt_B2R.
  change bbF with (@narrow N (@widen N y)). split; [exact F4|]. rewrite V4. apply Rabs_le. rewrite U in *. clear V1 V2 V3 V4. nra.
Qed.
End T.
End F.
(** ** The whole spectrum, and its tristimulus values. *)
Definition planckS (T : R) : list R := map (fun i => planckR T ((380 + INR i) * 1e-9)) (seq 0 400).
Lemma planckS_nth T i : (i < 400)%nat -> smp (planckS T) i = planckR T ((380 + INR i) * 1e-9).
Proof. intros H. unfold smp, planckS. rewrite nth_indep with (d' := planckR T ((380 + INR 0) * 1e-9)) by (rewrite map_length, seq_length; exact H). rewrite (map_nth (fun i => planckR T ((380 + INR i) * 1e-9))), seq_nth by exact H. reflexivity. Qed.
Lemma bb_nth (lm : libm) (T : f32) i : (i < 400)%nat -> sm (S_blackbody (FN lm) T) i = bbF lm T i.
Proof.
  intros H. unfold sm, S_blackbody, S_tabulate. set (g := fun i : nat => @narrow (FN lm) _). rewrite nth_indep with (d' := g 0%nat) by (rewrite map_length, seq_length; exact H).
  rewrite (map_nth g), seq_nth by exact H. reflexivity.
Qed.
Lemma blackbody_acc (lm : libm) (T : f32) : accurate64 lm -> fin T -> 100 <= B2R T <= 1e7 ->
  length (S_blackbody (FN lm) T) = 400%nat /\ S_blackbody RN (Some (B2R T)) = finS (planckS (B2R T)) /\ forall i, (i < 400)%nat -> let p := smp (planckS (B2R T)) i in 0 < p <= 1e12 /\
  fin (sm (S_blackbody (FN lm) T) i) /\ Rabs (B2R (sm (S_blackbody (FN lm) T) i) - p) <= 2.01 * u * p + 1.01 * eta.
Proof.
  intros A F H. split; [unfold S_blackbody, S_tabulate; now rewrite map_length, seq_length|]. split; [apply bb_fin; lra|].
  intros i I p. unfold p. rewrite planckS_nth, bb_nth by exact I. split; [|exact (planck_near lm A T i F H I)].
  destruct (Q_ok lm A T i F H I) as [_ [Q0 Q1]]. rewrite planckR_Qe by assumption. lra.
Qed.
Lemma bb_bound (lm : libm) (T : f32) : accurate64 lm -> fin T -> 100 <= B2R T <= 1e7 -> boundS 100 (S_blackbody (FN lm) T).
Proof.
  intros A F H. destruct (blackbody_acc lm T A F H) as (L & _ & P). split; [exact L|]. apply Forall_forall. intros x X. apply (In_nth _ _ B754_nan) in X. destruct X as (i & I & <-).
  assert (I' : (i < 400)%nat) by (rewrite <- L; exact I). destruct (P i I') as (B & Fi & E). split; [exact Fi|]. change (Rabs (B2R (sm (S_blackbody (FN lm) T) i)) <= bpow radix2 100).
  assert (Big : 1e25 <= bpow radix2 100) by (change (bpow radix2 100) with (IZR (2 ^ 100)); change (2 ^ 100)%Z with 1267650600228229401496703205376%Z; lra).
  pose proof u16 as U. pose proof eta16 as Eta. apply Rle_trans with (2 := Big). apply Rabs_le_inv in E. apply Rabs_le. rewrite U in *. lra.
Qed.
Lemma bb_comp (lm : libm) (T : f32) t : accurate64 lm -> fin T -> 100 <= B2R T <= 1e7 -> In t CMFs ->
  let x := @fmul (FN lm) (S_dot (FN lm) (S_blackbody (FN lm) T) (spectrum_of (FN lm) t)) (@fdiv (FN lm) (@flit (FN lm) 1) (S_sum (FN lm) (spectrum_of (FN lm) t))) in
  let e := dotR (planckS (B2R T)) (tabR t) / sumR (tabR t) in 0 <= e /\ fin x /\ Rabs (B2R x - e) <= 808 * u * e + bpow radix2 (-133).
Proof.
  intros A F H I x e. destruct (blackbody_acc lm T A F H) as (L & _ & P). pose proof (bb_bound lm T A F H) as BB. destruct (comp lm t (S_blackbody (FN lm) T) I BB) as [Fx Ex]. fold x in Fx, Ex.
  assert (SP : 0 < sumR (tabR t)).
  { destruct (tab_obs t t t I I I) as [(_ & _ & _ & NZ & _) [NN _]]. assert (0 <= sumR (tabR t)); [|lra]. apply sum_nn. intros i J. now apply nonneg_smp. }
  assert (Q0 : 0 < / sumR (tabR t)) by (apply Rinv_0_lt_compat, SP). set (s := S_blackbody (FN lm) T) in *.
  assert (X0 : forall i, (i <= 399)%nat -> 0 <= smp (tabR t) i) by (intros i J; destruct (tab_at lm t i I ltac:(lia)) as [K _]; lra).
  assert (H0 : 0 <= dotR (planckS (B2R T)) (tabR t)) by (apply sum_nn; intros i J; apply Rmult_le_pos; [apply Rlt_le, P; lia|apply X0; lia]).
  assert (H1 : Rabs (dotR (valS s) (tabR t) - dotR (planckS (B2R T)) (tabR t)) <= 2.01 * u * dotR (planckS (B2R T)) (tabR t) + 1.01 * eta * sumR (tabR t)).
  { set (g := fun i => 2.01 * u * (smp (planckS (B2R T)) i * smp (tabR t) i) + 1.01 * eta * smp (tabR t) i).
    replace (2.01 * u * dotR (planckS (B2R T)) (tabR t) + 1.01 * eta * sumR (tabR t)) with (1 * sum_f_R0 g 399) by (unfold g; rewrite (sum_two (fun _ => 0)); unfold dotR, sumR; ring).
    unfold dotR at 1 2. apply sum_rel. unfold g.
    intros i J. destruct (P i ltac:(lia)) as (_ & _ & E). unfold valS. rewrite smp_map by (assumption || lia). rewrite <- Rmult_minus_distr_r, Rabs_mult, (Rabs_pos_eq (smp (tabR t) i)) by (apply X0; lia).
    specialize (X0 i J). nra. }
  assert (H2 : dotR (absS s) (tabR t) <= dotR (planckS (B2R T)) (tabR t) + (2.01 * u * dotR (planckS (B2R T)) (tabR t) + 1.01 * eta * sumR (tabR t))).
  { apply Rle_trans with (sum_f_R0 (fun i => 1 * (smp (planckS (B2R T)) i * smp (tabR t) i) + 1 * (2.01 * u * (smp (planckS (B2R T)) i * smp (tabR t) i) + 1.01 * eta * smp (tabR t) i)) 399).
    - apply sum_Rle. intros i J. destruct (P i ltac:(lia)) as (B & _ & E). unfold absS. rewrite smp_map by (assumption || lia). specialize (X0 i J). pose proof (tri2 (B2R (sm s i)) (smp (planckS (B2R T)) i)) as W. rewrite (Rabs_pos_eq (smp (planckS _) i)) in W by lra. nra.
    - rewrite (sum_two (fun _ => 0)), (sum_two (fun _ => 0)). unfold dotR, sumR. lra. }
  split; [apply Rmult_le_pos; lra|]. split; [exact Fx|].
  set (d := dotR (planckS (B2R T)) (tabR t)) in *. set (d' := dotR (valS s) (tabR t)) in *. set (a' := dotR (absS s) (tabR t)) in *. set (S0 := sumR (tabR t)) in *.
  assert (K1 : Rabs (d' / S0 - e) <= 2.01 * u * e + 1.01 * eta).
  { unfold e. replace (d' / S0 - d / S0) with ((d' - d) * / S0) by (field; lra). rewrite Rabs_mult, (Rabs_pos_eq (/ S0)) by lra. replace (2.01 * u * (d / S0) + 1.01 * eta) with ((2.01 * u * d + 1.01 * eta * S0) * / S0) by (field; lra). apply Rmult_le_compat_r; lra. }
  assert (K2 : a' / S0 <= e + (2.01 * u * e + 1.01 * eta)).
  { unfold e. replace (d / S0 + (2.01 * u * (d / S0) + 1.01 * eta)) with ((d + (2.01 * u * d + 1.01 * eta * S0)) * / S0) by (field; lra). apply Rmult_le_compat_r; lra. }
  assert (E0 : 0 <= e) by (apply Rmult_le_pos; lra). clearbody e. pose proof u16 as U. pose proof eta16 as Eta.
  assert (B1 : bpow radix2 (-133) = 2 * bpow radix2 (-134)) by (change (-133)%Z with (1 + -134)%Z; rewrite bpow_plus; reflexivity).
  assert (B2 : bpow radix2 (-134) = 65536 * eta) by (unfold eta; change (-134)%Z with (16 + -150)%Z; rewrite bpow_plus; reflexivity).
  apply Rle_trans with (1 := tri3 _ (d' / S0) _). rewrite B1, B2 in *. rewrite U in *. nra.
Qed.
Lemma bb_tristimulus (lm : libm) (T : f32) : accurate64 lm -> fin T -> 100 <= B2R T <= 1e7 -> Forall (fun o : forall N : Num, Observer N => exists t,
  fromSpectrum RN (o RN) (S_blackbody RN (Some (B2R T))) = finV t /\ (0 <= v0 t /\ 0 <= v1 t /\ 0 <= v2 t) /\
  closeT 808 (-133) (fromSpectrum (FN lm) (o (FN lm)) (S_blackbody (FN lm) T)) t t) [CIE1931; CIE31JV; CIE2012].
Proof.
  intros A F H. assert (G : forall X Y Z, In X CMFs -> In Y CMFs -> In Z CMFs -> let o M := Observer_make M (spectrum_of M X) (spectrum_of M Y) (spectrum_of M Z) in exists t,
    fromSpectrum RN (o RN) (S_blackbody RN (Some (B2R T))) = finV t /\ (0 <= v0 t /\ 0 <= v1 t /\ 0 <= v2 t) /\ closeT 808 (-133) (fromSpectrum (FN lm) (o (FN lm)) (S_blackbody (FN lm) T)) t t).
  { intros X Y Z IX IY IZ o. destruct (tab_obs X Y Z IX IY IZ) as [OK _]. unfold o. rewrite obs_of, bb_fin by lra. fold (planckS (B2R T)). exists (triR (tabR X) (tabR Y) (tabR Z) (planckS (B2R T))).
    split; [apply fromSpectrum_fin; [exact OK|unfold spectrumR, planckS; now rewrite map_length, seq_length]|].
    destruct (bb_comp lm T X A F H IX) as [PX CX], (bb_comp lm T Y A F H IY) as [PY CY], (bb_comp lm T Z A F H IZ) as [PZ CZ]. split; [repeat split; assumption|].
    unfold closeT. cbv zeta. repeat split; try apply CX; try apply CY; try apply CZ. }
  repeat apply Forall_cons; [..|apply Forall_nil]; apply G; cbn [In CMFs]; tauto.
Qed.
(** ** Such a library exists. *)
Lemma f64_surj r : fmt64 r -> Rabs r < bpow radix2 1024 -> exists x : f64, fin64 x /\ B2R x = r.
Proof.
  intros Fr Hr. set (m := Ztrunc (scaled_mantissa radix2 fe64 r)). set (e := cexp radix2 fe64 r). assert (E : r = F2R (Float radix2 m e)) by exact Fr.
  exists (binary_normalize 53 1024 p53 p53e mode_NE m e false). pose proof (binary_normalize_correct 53 1024 p53 p53e mode_NE m e false) as H. cbv zeta in H. replace (F2R _) with r in H.
  assert (I : round radix2 (SpecFloat.fexp 53 1024) (round_mode mode_NE) r = r) by exact (round_generic radix2 fe64 ZnearestE r Fr). rewrite I in H.
  rewrite Rlt_bool_true in H by exact Hr. destruct H as (A & B & _). split; [exact B|exact A].
Qed.
Lemma approx64_exists r : exists x, approx64 x r.
Proof.
  destruct (Rle_dec (bpow radix2 (-1000)) (Rabs r)) as [L|L].
  2:{ exists (B754_zero false). intros [A _]. contradiction. }
  destruct (Rle_dec (Rabs r) (bpow radix2 1000)) as [H|H].
  2:{ exists (B754_zero false). intros [_ A]. contradiction. }
  destruct (f64_surj (rnd64 r)) as (x & Fx & Vx); [apply generic_format_round; auto with typeclass_instances|apply rnd64_lt, H|].
  exists x. intros _. split; [exact Fx|]. rewrite Vx. eapply Rle_trans; [apply rnd64_err|].
  assert (eta64 <= u64 * Rabs r). { apply Rle_trans with (u64 * bpow radix2 (-1000)); [|apply Rmult_le_compat_l; [apply Rlt_le, u64_pos|exact L]]. unfold u64, eta64. rewrite <- bpow_plus. apply bpow_le. lia. }
  pose proof u64_pos. pose proof (Rabs_pos r). assert (0 <= u64 * Rabs r) by (apply Rmult_le_pos; lra). lra.
Qed.
Lemma all_SF64 : exists l : list SpecFloat.spec_float, forall x : f64, In (B2SF x) l.
Proof.
  destruct (pos_list 53) as [ms Hms].
  exists ([SpecFloat.S754_zero false; SpecFloat.S754_zero true; SpecFloat.S754_infinity false; SpecFloat.S754_infinity true; SpecFloat.S754_nan] ++
    flat_map (fun e => flat_map (fun m => [SpecFloat.S754_finite false m (Z.of_nat e - 1074); SpecFloat.S754_finite true m (Z.of_nat e - 1074)]) ms) (seq 0 3000)).
  intros x. apply in_or_app. destruct x as [s|s| |s m e B]; cbn [B2SF].
  1,2: left; destruct s; cbn; tauto.
  1: left; cbn; tauto.
  right. pose proof B as B'. unfold SpecFloat.bounded in B'. apply andb_true_iff in B'. destruct B' as [C E]. apply Z.leb_le in E.
  unfold SpecFloat.canonical_mantissa in C. apply Zeq_bool_eq in C. unfold SpecFloat.fexp, SpecFloat.emin in C.
  assert (L : (-1074 <= e)%Z) by lia. assert (D : (Zpos (SpecFloat.digits2_pos m) <= 53)%Z) by lia.
  assert (M : (Zpos m < 2 ^ 53)%Z). { rewrite Digits.Zpos_digits2_pos in D. pose proof (Digits.Zpower_gt_Zdigits radix2 53 (Zpos m) D) as K. rewrite Z.abs_eq in K by lia. exact K. }
  apply in_flat_map. exists (Z.to_nat (e + 1074)). split; [apply in_seq; lia|]. apply in_flat_map. exists m. split; [apply Hms; exact M|].
  rewrite Z2Nat.id by lia. replace (e + 1074 - 1074)%Z with e by lia. destruct s; cbn; tauto.
Qed.
Lemma choice64 {B : Type} (b0 : B) (P : f64 -> B -> Prop) : (forall x, exists y, P x y) -> exists f : f64 -> B, forall x, P x (f x).
Proof.
  intros H. destruct all_SF64 as [l Hl]. destruct (choice_list b0 (fun s y => forall x, B2SF x = s -> P x y) l) as [f Hf].
  - intros s _. destruct (Bool.bool_dec (SpecFloat.valid_binary 53 1024 s) true) as [V|V].
    + destruct (H (SF2B s V)) as [y Hy]. exists y. intros x E. replace x with (SF2B s V : f64); [exact Hy|]. apply B2SF_inj. now rewrite B2SF_SF2B.
    + exists b0. intros x E. exfalso. apply V. rewrite <- E. apply valid_binary_B2SF.
  - exists (fun x => f (B2SF x)). intros x. apply Hf; [apply Hl|reflexivity].
Qed.
Lemma accurate64_exists : exists lm, accurate64 lm.
Proof.
  destruct (choice64 (fun y : f64 => y) (fun x f => forall y, approx64 (f y) (Rpower (B2R x) (B2R y)))) as [pw Hp].
  { intros x. apply (choice64 (B754_zero false) (fun y z => approx64 z (Rpower (B2R x) (B2R y)))). intros y. apply approx64_exists. }
  destruct (choice64 (B754_zero false) (fun x z => approx64 z (exp (B2R x)))) as [ex He]; [intros x; apply approx64_exists|].
  exists (mkLibm (lm_powf no_libm) (lm_expf no_libm) (lm_logf no_libm) (lm_log10f no_libm) (lm_sinf no_libm) (lm_cosf no_libm) (lm_atan2f no_libm) (lm_fmodf no_libm) (lm_cbrtf no_libm) pw ex).
  constructor; cbn [lm_pow lm_exp]; intros; [apply Hp|apply He].
Qed.
Lemma bb_case (lm : libm) : fin (@flit (FN lm) 2856%dec) /\ 100 <= B2R (@flit (FN lm) 2856%dec) <= 1e7.
Proof. assert (W : fin (@flit (FN lm) 2856%dec) /\ B2R (@flit (FN lm) 2856%dec) = 2856) by f32_val. destruct W as [F V]. split; [exact F|rewrite V; lra]. Qed.
Lemma blackbody_acc16 (lm : libm) (T : f32) : accurate64 lm -> fin T -> 100 <= B2R T <= 1e7 -> exists p : list R,
  length (S_blackbody (FN lm) T) = 400%nat /\ S_blackbody RN (Some (B2R T)) = finS p /\ forall i, (i < 400)%nat -> 0 < smp p i /\
  fin (sm (S_blackbody (FN lm) T) i) /\ Rabs (B2R (sm (S_blackbody (FN lm) T) i) - smp p i) <= 2.01 * / 16777216 * smp p i + bpow radix2 (-149).
Proof.
  intros A F H. destruct (blackbody_acc lm T A F H) as (L & E & P). exists (planckS (B2R T)). split; [exact L|]. split; [exact E|]. intros i I. destruct (P i I) as (B & Fi & V). split; [lra|]. split; [exact Fi|].
  rewrite <- u16. replace (bpow radix2 (-149)) with (2 * eta) by (unfold eta; change (-149)%Z with (1 + -150)%Z; rewrite bpow_plus; reflexivity). pose proof eta16. lra.
Qed.
