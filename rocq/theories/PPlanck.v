(** * [planck] against Planck's law. *)
From Coq Require Import ZArith Reals Lra Psatz.
From Verif Require Import Num NumR MVec MSpectrum RTac PSpec SpecPlanck.
Local Open Scope R_scope.

Lemma rpower_m5 l : 0 < l -> Rpower l (-5) = / l ^ 5.
Proof.
  intros H. replace (-5) with (- INR 5) by (cbn; lra). rewrite Rpower_Ropp, Rpower_pow by exact H. reflexivity.
Qed.
(** exponentials minus one at arguments [b (1 - e)] and [b]. *)
Lemma expm1_ratio b e : 0 < b -> 0 < e <= 1 / 1000000000 -> b * e <= 1 / 1000 ->
  exp (b * (1 - e)) - 1 <= exp b - 1 <= (exp (b * (1 - e)) - 1) * (1 + 3 * e * (1 + b)).
Proof.
  intros B [E1 E2] D. split.
  - assert (b * (1 - e) < b) by nra. pose proof (exp_increasing _ _ H). lra.
  - set (b' := b * (1 - e)). set (d := b * e). assert (Hb : exp b = exp b' * exp d) by (rewrite <- exp_plus; f_equal; unfold b', d; ring).
    rewrite Hb. assert (B' : 0 < b') by (unfold b'; nra). assert (D0 : 0 < d) by (unfold d; nra).
    pose proof (exp_ineq1 b' ltac:(lra)) as X1. assert (X2 : exp d <= 1 + 2 * d).
    { pose proof (exp_ineq1 (- d) ltac:(lra)) as Y. pose proof (exp_pos d) as P. pose proof (exp_plus d (- d)) as Q.
      replace (d + - d) with 0 in Q by ring. rewrite exp_0 in Q.
      assert (Dd : d <= 1 / 1000) by exact D.
      assert (S1 : exp d * (1 - d) <= 1) by (rewrite Q; apply Rmult_le_compat_l; lra).
      destruct (Rle_dec (exp d) (1 + 2 * d)) as [G|G]; [exact G|]. exfalso.
      assert (S2 : (1 + 2 * d) * (1 - d) < exp d * (1 - d)) by (apply Rmult_lt_compat_r; lra). pose proof (Rmult_lt_0_compat d (1 - 2 * d) ltac:(lra) ltac:(lra)). lra. }
    set (E := exp b') in *. set (F := exp d) in *.
    enough (E * (F - 1) <= (E - 1) * (3 * e * (1 + b))) by nra.
    assert (H1 : E * (F - 1) <= E * (2 * d)) by (apply Rmult_le_compat_l; lra).
    (* b' E <= (1 + b') (E - 1), as 1 + b' <= E *)
    assert (H2 : b' * E <= (1 + b') * (E - 1)) by nra.
    assert (H3 : 2 * d <= 3 * e * b') by (pose proof (Rmult_lt_0_compat d (1 - 3 * e) D0 ltac:(lra)); unfold d, b' in *; lra).
    assert (H4 : E * (2 * d) <= E * (3 * e * b')) by (apply Rmult_le_compat_l; lra).
    assert (H5 : 3 * e * (b' * E) <= 3 * e * ((1 + b') * (E - 1))) by (apply Rmult_le_compat_l; lra).
    assert (H6 : 3 * e * ((1 + b') * (E - 1)) <= 3 * e * ((1 + b) * (E - 1))).
    { apply Rmult_le_compat_l; [lra|]. apply Rmult_le_compat_r; [lra|]. unfold b'; nra. }
    lra.
Qed.
Definition ch : R := 6.62606896e-34.
Definition cc : R := 2.99792458e8.
Definition ck : R := 1.38064880e-23.
Lemma C106_l (T l : R) : 0 < T -> 0 < l -> 0.00001 <= l * T -> exists p,
  planck RN (Some T) (Some l) = Some p /\
  (1 - 0.000813) * (planck_law ch cc ck T l / 1e9) <= p <= (1 - 0.000810) * (planck_law ch cc ck T l / 1e9).
Proof.
  intros HT Hl H. exists (planckR T l). split; [now apply planck_fin|]. unfold planckR, planck_law. rewrite rpower_m5 by exact Hl.
  set (b := ch * cc / (ck * l * T)). set (e := 1 - 1.438776827e-2 / (ch * cc / ck)).
  assert (W : 0 < / (l * T)) by (apply Rinv_0_lt_compat; lra).
  assert (Wb : / (l * T) <= 100000).
  { apply Rmult_le_reg_l with (l * T); [lra|]. rewrite Rinv_r by lra. lra. }
  assert (B1 : b = (ch * cc / ck) * / (l * T)) by (unfold b, ck; field; split; [|split]; lra).
  assert (R1 : 0.0143877682 <= ch * cc / ck <= 0.0143877683) by (unfold ch, cc, ck; lra).
  assert (Ee : 0 < e <= 1 / 1000000000).
  { unfold e, ch, cc, ck. lra. }
  assert (BB : 0 < b <= 1439) by (rewrite B1; nra).
  assert (A : 1.438776827e-2 / (l * T) = b * (1 - e)).
  { rewrite B1. unfold e. field. unfold ch, cc, ck. split; [|split; [|split]]; lra. }
  rewrite A. destruct (expm1_ratio b e ltac:(lra) Ee ltac:(nra)) as [L U].
  assert (P' : 0 < exp (b * (1 - e)) - 1) by (apply exp_gt_1; nra).
  assert (P : 0 < exp b - 1) by lra.
  assert (Q : 0 < / l ^ 5) by (apply Rinv_0_lt_compat, pow_lt; exact Hl).
  set (E' := exp (b * (1 - e)) - 1) in *. set (E := exp b - 1) in *. set (q := / l ^ 5) in *.
  assert (F : 3 * e * (1 + b) <= 0.00000173).
  { assert (e <= 0.0000000004) by (unfold e, ch, cc, ck; lra). nra. }
  assert (U' : E <= E' * 1.00000173) by nra.
  assert (I1 : / E <= / E') by (apply Rinv_le_contravar; lra).
  assert (I2 : / E' <= 1.00000173 * / E).
  { apply Rmult_le_reg_l with (E' * E); [nra|]. replace (E' * E * / E') with E by (field; lra).
    replace (E' * E * (1.00000173 * / E)) with (E' * 1.00000173) by (field; lra). exact U'. }
  pose proof (Rinv_0_lt_compat E P) as PE. set (w := / E) in *. set (w' := / E') in *.
  replace (2 * ch * cc ^ 2 / l ^ 5 / E / 1e9) with (2 * ch * cc ^ 2 / 1e9 * (q * w)) by (unfold q, w, Rdiv; ring).
  replace (2 * 5.950379064e-17 * q / E' / 1e9) with (2 * 5.950379064e-17 / 1e9 * (q * w')) by (unfold w', Rdiv; ring).
  assert (V1 : q * w <= q * w') by (apply Rmult_le_compat_l; lra).
  assert (V2 : q * w' <= 1.00000173 * (q * w)) by (replace (1.00000173 * (q * w)) with (q * (1.00000173 * w)) by ring; apply Rmult_le_compat_l; lra).
  assert (V0 : 0 < q * w) by (apply Rmult_lt_0_compat; assumption).
  unfold ch, cc. set (r := q * w) in *. set (r' := q * w') in *. split; lra.
Qed.
Lemma C106_refuted_l : exists T l p, 0 < T /\ 0 < l /\ planck RN (Some T) (Some l) = Some p /\
  0 < p <= (1 - 0.000810) * (planck_law ch cc ck T l / 1e9).
Proof.
  destruct (C106_l 6504 0.000000555 ltac:(lra) ltac:(lra) ltac:(lra)) as (p & E & _ & U). exists 6504, 0.000000555, p.
  repeat split; try lra; try assumption. rewrite planck_fin in E by lra. injection E as <-. apply planck_pos; lra.
Qed.
