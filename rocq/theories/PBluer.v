(** * Hotter black bodies have relatively more energy at short wavelengths. *)
From Coq Require Import ZArith Reals Lra Lia List Psatz.
From Verif Require Import Num NumR MSpectrum RTac PSpec.
Import ListNotations.
Local Open Scope R_scope.

(** The derivative test twice: a function with a positive derivative grows. *)
Lemma grows (f f' : R -> R) x y : x < y -> (forall c, x <= c <= y -> derivable_pt_lim f c (f' c)) ->
  (forall c, x < c < y -> 0 < f' c) -> f x < f y.
Proof. intros L D P. destruct (MVT_cor2 f f' x y L D) as (c & E & C). pose proof (P c C). nra. Qed.
Lemma exp_lin a x : derivable_pt_lim (fun x => exp (a * x)) x (a * exp (a * x)).
Proof.
  rewrite Rmult_comm. apply (derivable_pt_lim_comp (fun x => a * x) exp).
  - assert (D : derivable_pt_lim (mult_real_fct a id) x (a * 1)) by apply derivable_pt_lim_scal, derivable_pt_lim_id.
    rewrite Rmult_1_r in D. exact D.
  - apply derivable_pt_lim_exp.
Qed.
Lemma G_pos a b q : 0 < b < a -> 0 < q -> 0 < a * (exp (a * q) - exp ((a - b) * q)) - b * (exp (a * q) - 1).
Proof.
  intros H Q. set (g := fun x => a * (exp (a * x) - exp ((a - b) * x)) - b * (exp (a * x) - 1)).
  assert (Z : g 0 = 0) by (unfold g; rewrite !Rmult_0_r, exp_0; ring).
  enough (g 0 < g q) by (change (0 < g q); lra).
  apply (grows g (fun x => a * (a * exp (a * x) - (a - b) * exp ((a - b) * x)) - b * (a * exp (a * x) - 0)) 0 q Q).
  - intros c C. unfold g. apply (derivable_pt_lim_minus (fun x => a * (exp (a * x) - exp ((a - b) * x))) (fun x => b * (exp (a * x) - 1))).
    + apply (derivable_pt_lim_scal (fun x => exp (a * x) - exp ((a - b) * x))).
      apply (derivable_pt_lim_minus (fun x => exp (a * x)) (fun x => exp ((a - b) * x))); apply exp_lin.
    + apply (derivable_pt_lim_scal (fun x => exp (a * x) - 1)).
      apply (derivable_pt_lim_minus (fun x => exp (a * x)) (fun x => 1)); [apply exp_lin|apply (derivable_pt_lim_const 1)].
  - intros c C. assert (exp ((a - b) * c) < exp (a * c)) by (apply exp_increasing; nra).
    replace (a * (a * exp (a * c) - (a - b) * exp ((a - b) * c)) - b * (a * exp (a * c) - 0))
      with (a * (a - b) * (exp (a * c) - exp ((a - b) * c))) by ring.
    apply Rmult_lt_0_compat; [nra|lra].
Qed.
Lemma exp_cross a b p q : 0 < b < a -> 0 < q < p -> (exp (a * q) - 1) * (exp (b * p) - 1) < (exp (a * p) - 1) * (exp (b * q) - 1).
Proof.
  intros H Q. set (A := exp (a * q) - 1). set (B := exp (b * q) - 1).
  set (g := fun x => B * exp (a * x) - A * exp (b * x)).
  assert (K : g q < g p).
  2:{ unfold g in K. replace (exp (a * q)) with (A + 1) in K by (unfold A; ring). replace (exp (b * q)) with (B + 1) in K by (unfold B; ring). nra. }
  apply (grows g (fun x => B * (a * exp (a * x)) - A * (b * exp (b * x))) q p); [lra| |].
  - intros c C. unfold g. apply (derivable_pt_lim_minus (fun x => B * exp (a * x)) (fun x => A * exp (b * x))).
    + apply (derivable_pt_lim_scal (fun x => exp (a * x))), exp_lin.
    + apply (derivable_pt_lim_scal (fun x => exp (b * x))), exp_lin.
  - intros c C. replace (a * c) with (b * c + (a - b) * c) by ring. rewrite exp_plus.
    replace (B * (a * (exp (b * c) * exp ((a - b) * c))) - A * (b * exp (b * c)))
      with (exp (b * c) * (B * a * exp ((a - b) * c) - b * A)) by ring.
    apply Rmult_lt_0_compat; [apply exp_pos|]. pose proof (G_pos a b q H ltac:(lra)) as G.
    assert (exp ((a - b) * q) < exp ((a - b) * c)) by (apply exp_increasing; nra).
    assert (0 < B) by (unfold B; apply exp_gt_1; nra). assert (0 < B * a) by nra.
    replace (exp (a * q)) with (exp (b * q) * exp ((a - b) * q)) in G by (rewrite <- exp_plus; f_equal; ring).
    assert (EA : A = exp (b * q) * exp ((a - b) * q) - 1) by (unfold A; rewrite <- exp_plus; do 2 f_equal; ring).
    rewrite EA. unfold B in *. nra.
Qed.
Lemma planck_cross T T' l l' : 0 < T < T' -> 0 < l < l' -> planckR T l * planckR T' l' < planckR T' l * planckR T l'.
Proof.
  intros HT Hl. unfold planckR. set (k := 1.438776827e-2). assert (Hk : 0 < k) by (unfold k; lra). clearbody k.
  assert (IT : 0 < / T' < / T) by (split; [apply Rinv_0_lt_compat; lra|apply Rinv_lt_contravar; nra]).
  assert (IL : 0 < / l' < / l) by (split; [apply Rinv_0_lt_compat; lra|apply Rinv_lt_contravar; nra]).
  assert (W : forall x y, 0 < x -> 0 < y -> k / (x * y) = (k * / x) * / y) by (intros; field; lra).
  rewrite !W by lra. pose proof (exp_cross (k * / l) (k * / l') (/ T) (/ T') ltac:(nra) IT) as X.
  assert (E : forall x y, 0 < x -> 0 < y -> 0 < exp ((k * / x) * / y) - 1).
  { intros. apply exp_gt_1. repeat apply Rmult_lt_0_compat; try apply Rinv_0_lt_compat; assumption. }
  pose proof (E l T ltac:(lra) ltac:(lra)) as E1. pose proof (E l' T ltac:(lra) ltac:(lra)) as E2.
  pose proof (E l T' ltac:(lra) ltac:(lra)) as E3. pose proof (E l' T' ltac:(lra) ltac:(lra)) as E4.
  assert (P1 : 0 < Rpower l (-5)) by apply exp_pos. assert (P2 : 0 < Rpower l' (-5)) by apply exp_pos.
  set (e1 := exp (k * / l * / T) - 1) in *. set (e2 := exp (k * / l' * / T) - 1) in *.
  set (e3 := exp (k * / l * / T') - 1) in *. set (e4 := exp (k * / l' * / T') - 1) in *.
  set (a := Rpower l (-5)) in *. set (b := Rpower l' (-5)) in *. set (m := 2 * 5.950379064e-17). assert (Hm : 0 < m) by (unfold m; lra). clearbody m.
  replace (m * a / e1 / 1e9 * (m * b / e4 / 1e9)) with (m * m * a * b / 1e18 * / (e1 * e4)) by (field; lra).
  replace (m * a / e3 / 1e9 * (m * b / e2 / 1e9)) with (m * m * a * b / 1e18 * / (e3 * e2)) by (field; lra).
  apply Rmult_lt_compat_l.
  - apply Rdiv_lt_0_compat; [|lra]. repeat apply Rmult_lt_0_compat; assumption.
  - apply Rinv_lt_contravar; [|exact X]. repeat apply Rmult_lt_0_compat; assumption.
Qed.
Lemma C128_l T T' : 0 < T -> T < T' -> exists s s', spectrumR s /\ spectrumR s' /\
  S_blackbody RN (Some T) = finS s /\ S_blackbody RN (Some T') = finS s' /\
  forall i j, (i < j < 400)%nat -> smp s i / smp s j < smp s' i / smp s' j.
Proof.
  intros H K. eexists. eexists. rewrite !bb_fin by lra. repeat (split; [now unfold spectrumR; rewrite map_length, seq_length|]).
  split; [reflexivity|]. split; [reflexivity|]. intros i j L. unfold smp. rewrite !nth_tab by lia. pose proof (pos_INR i).
  assert (INR i < INR j) by (apply lt_INR; lia).
  pose proof (planck_cross T T' ((380 + INR i) * 1e-9) ((380 + INR j) * 1e-9) ltac:(lra) ltac:(lra)) as X.
  pose proof (planck_pos T ((380 + INR j) * 1e-9) H ltac:(lra)) as P. pose proof (planck_pos T' ((380 + INR j) * 1e-9) ltac:(lra) ltac:(lra)) as P'.
  apply Rmult_lt_reg_r with (1 := P). apply Rmult_lt_reg_r with (1 := P').
  set (u := planckR T ((380 + INR i) * 1e-9)) in *. set (v := planckR T ((380 + INR j) * 1e-9)) in *.
  set (u' := planckR T' ((380 + INR i) * 1e-9)) in *. set (v' := planckR T' ((380 + INR j) * 1e-9)) in *.
  replace (u / v * v * v') with (u * v') by (field; lra). replace (u' / v' * v * v') with (u' * v) by (field; lra). exact X.
Qed.
