(** * Integer code values through ST 2084, in binary32. *)
From Coq Require Import ZArith QArith Qreals Reals Lra Lia List Bool.
From Flocq Require Import Core IEEE754.BinarySingleNaN.
From Verif Require Import Num NumR NumF MVec MTri MOtf RTac F32 RPow RExp PHsvF PLibm PPowF PNearF PNearF2 PRelF POtf POtf2 POtfF POtfF2 PCodes.
Local Open Scope R_scope.

Lemma Rpower_eps x d p k : 0 < x -> Rabs d <= k -> k <= / 1000 -> 0 <= p -> p * k <= / 1000 ->
  Rabs (Rpower (x * (1 + d)) p - Rpower x p) <= 1.002 * (p * k) * (1 + 2 * (1.002 * (p * k))) * Rpower x p.
Proof.
  intros X D K P PK. pose proof (Rpower_pert x p d 0 k 0 X D K ltac:(rewrite Rmult_0_l, Rabs_R0; lra) ltac:(lra)) as H.
  rewrite !Rplus_0_r, (Rabs_pos_eq p), !Rplus_0_l in H by lra. exact (H PK).
Qed.
Lemma pqN_damp2 l d : 0 < l -> Rabs d <= / 1000 -> Rabs (pqN (l * (1 + d)) - pqN l) <= 0.053 * Rabs d * pqN l.
Proof.
  intros L D. apply Rabs_le_inv in D as D'. unfold pqN, c1q, c2q, c3q.
  assert (P0 : 0 < l * (1 + d)) by (apply Rmult_lt_0_compat; lra).
  replace ((0.8359375 + 18.8515625 * (l * (1 + d))) / (1 + 18.6875 * (l * (1 + d))) - (0.8359375 + 18.8515625 * l) / (1 + 18.6875 * l))
    with (d * ((18.8515625 - 0.8359375 * 18.6875) * l / ((1 + 18.6875 * (l * (1 + d))) * (0.8359375 + 18.8515625 * l))) * ((0.8359375 + 18.8515625 * l) / (1 + 18.6875 * l)))
    by (field; split; [|split]; lra).
  set (n := (0.8359375 + 18.8515625 * l) / (1 + 18.6875 * l)). assert (0 < n) by (apply Rdiv_lt_0_compat; lra).
  rewrite !Rabs_mult, (Rabs_pos_eq n) by lra. apply Rmult_le_compat_r; [lra|]. rewrite Rmult_comm. apply Rmult_le_compat_r; [apply Rabs_pos|].
  assert (Q : 0 < (1 + 18.6875 * (l * (1 + d))) * (0.8359375 + 18.8515625 * l)) by (apply Rmult_lt_0_compat; lra).
  rewrite Rabs_pos_eq by (apply Rlt_le, Rdiv_lt_0_compat; [apply Rmult_lt_0_compat; lra|exact Q]).
  apply Rmult_le_reg_r with (1 := Q). unfold Rdiv. rewrite Rmult_assoc, Rinv_l, Rmult_1_r by lra.
  apply Rle_trans with (0.053 * ((1 + 18.6875 * (l * 0.999)) * (0.8359375 + 18.8515625 * l))); [|apply Rmult_le_compat_l; [lra|]; apply Rmult_le_compat_r; [lra|]; apply Rplus_le_compat_l, Rmult_le_compat_l; [lra|apply Rmult_le_compat_l; lra]].
  pose proof (Rle_0_sqr (l - 0.038)) as SQ. unfold Rsqr in SQ. lra.
Qed.
(** The rational function on a quotient. *)
Lemma pqN_div a b : 0 < a -> 0 < b -> pqN (a / b) = (c1q * b + c2q * a) / (b + c3q * a).
Proof. intros A B. unfold pqN. field. unfold c3q. split; lra. Qed.
Lemma pqN_pert n e1 e2 : 0.89 <= n <= 1 -> Rabs e1 <= 4.4 * u -> Rabs e2 <= 100 * u ->
  Rabs (pqN ((n - c1q + e1) / (c2q - c3q * n + e2)) - n) <= 8.2 * u.
Proof.
  intros H E1 E2. apply Rabs_le_inv in E1 as E1'. apply Rabs_le_inv in E2 as E2'. pose proof u16 as U.
  rewrite pqN_div by (unfold c1q, c2q, c3q; rewrite U in *; lra).
  set (D := c2q - c3q * n + e2 + c3q * (n - c1q + e1)). assert (Dp : 3.2289 <= D) by (unfold D, c1q, c2q, c3q; rewrite U in *; lra).
  replace ((c1q * (c2q - c3q * n + e2) + c2q * (n - c1q + e1)) / D - n) with (((c1q - n) * e2 + (c2q - c3q * n) * e1) / D).
  2:{ unfold D. field. fold D. lra. }
  unfold Rdiv. rewrite Rabs_mult, (Rabs_pos_eq (/ D)) by (apply Rlt_le, Rinv_0_lt_compat; lra).
  apply Rmult_le_reg_r with D; [lra|]. rewrite Rmult_assoc, Rinv_l, Rmult_1_r by lra.
  apply Rle_trans with (8.2 * u * 3.2289); [|apply Rmult_le_compat_l; [rewrite U|]; lra].
  eapply Rle_trans; [apply Rabs_triang|]. rewrite !Rabs_mult.
  assert (A : Rabs (c1q - n) <= 0.1641) by (unfold c1q; apply Rabs_le; lra).
  assert (B : Rabs (c2q - c3q * n) <= 2.23) by (unfold c2q, c3q; apply Rabs_le; lra).
  assert (Rabs (c1q - n) * Rabs e2 <= 0.1641 * (100 * u)) by (apply Rmult_le_compat; try apply Rabs_pos; lra).
  assert (Rabs (c2q - c3q * n) * Rabs e1 <= 2.23 * (4.4 * u)) by (apply Rmult_le_compat; try apply Rabs_pos; lra).
  rewrite U in *. lra.
Qed.
Section F.
Context (lm : libm) (Acc : accurate lm).
Notation N := (FN lm).
Lemma pl_i2 : fin (@fdiv N (@flit N 1.0%dec) (pq_m2 N)) /\ B2R (@fdiv N (@flit N 1.0%dec) (pq_m2 N)) = 3404651 / 268435456. Proof. unfold pq_m2. f32_val. Qed.
Lemma pl_i1 : fin (@fdiv N (@flit N 1.0%dec) (pq_m1 N)) /\ B2R (@fdiv N (@flit N 1.0%dec) (pq_m1 N)) = 13164651 / 2097152. Proof. unfold pq_m1. f32_val. Qed.
Lemma pl_0 : fin (@flit N 0.0%dec) /\ B2R (@flit N 0.0%dec) = 0. Proof. f32_val. Qed.

Lemma ln_2e4 : -8.6 <= ln 0.0002.
Proof. replace (-8.6) with (- Q2R (Qmake 43 5)) by (unfold Q2R; cbn; lra). replace 0.0002 with (Q2R (Qmake 2 10000)) by (unfold Q2R; cbn; lra). lnbound 16%nat 12%nat. Qed.
Lemma ln_02 : -4 <= ln 0.02.
Proof. replace (-4) with (- Q2R (Qmake 4 1)) by (unfold Q2R; cbn; lra). replace 0.02 with (Q2R (Qmake 2 100)) by (unfold Q2R; cbn; lra). lnbound 8%nat 10%nat. Qed.
Lemma ln2_lo : 0.6 <= ln 2.
Proof.
  assert (H : ln (Q2R (Qmake 1 2)) <= - Q2R (Qmake 3 5)) by lnbound 2%nat 8%nat.
  replace (Q2R (Qmake 1 2)) with (/ 2) in H by (unfold Q2R; cbn; lra). replace (Q2R (Qmake 3 5)) with 0.6 in H by (unfold Q2R; cbn; lra). rewrite ln_Rinv in H; lra.
Qed.
Lemma mid_exp r e : 0 < r -> Rabs (ln r) <= 4 -> 0 <= e <= 10 -> mid (Rpower r e).
Proof.
  intros R L E. apply Rabs_le_inv in L. pose proof ln2_bounds. unfold Rpower.
  assert (A : bpow radix2 (-100) = exp (-100 * ln 2)) by (rewrite bpow_powerRZ, powerRZ_Rpower by (cbn; lra); reflexivity).
  assert (B : bpow radix2 100 = exp (100 * ln 2)) by (rewrite bpow_powerRZ, powerRZ_Rpower by (cbn; lra); reflexivity).
  unfold mid. rewrite A, B. split; apply Rlt_le, exp_increasing; nra.
Qed.
Lemma pq_codes_err (c : f32) : fin c -> 0.0002 <= B2R c <= 1 -> Rabs (B2R (Y_to_ST2084 N (ST2084_to_Y N c)) - B2R c) <= 1400 * u.
Proof.
  intros Fc C. pose proof u16 as U. pose proof eta16 as Et. set (x := B2R c) in *.
  set (n0 := Rpower x (/ m2q)).
  assert (IB : 0.01268331 <= / m2q <= 0.01268332) by (unfold m2q; lra).
  assert (NB : 0.89 <= n0 <= 1).
  { split; [|apply Rpower_le_1; lra]. rewrite <- (Rpower_back 0.89 m2q (/ m2q)) by (unfold m2q; lra). apply Rpower_le_l; [apply Rpower_pos| |lra].
    apply Rle_trans with 0.0002; [|lra]. apply Rle_trans with (Rpower 0.89 (INR 78)).
    - unfold Rpower. assert (ln 0.89 < 0) by (rewrite <- ln_1; apply ln_increasing; lra). apply Rlt_le, exp_increasing. replace (INR 78) with 78 by (rewrite INR_IZR_INZ; reflexivity). unfold m2q. lra.
    - rewrite Rpower_nat by lra. lra. }
  assert (Xb : n0 = Rpower x (/ m2q)) by reflexivity.
  assert (NX : Rpower n0 m2q = x) by (unfold n0; apply Rpower_back; [lra|unfold m2q; lra]).
  unfold ST2084_to_Y. cbv zeta.
  set (nf := @fpow N c (@fdiv N (@flit N 1.0%dec) (pq_m2 N))).
  assert (Rn : rel nf n0 (4.22 * u)).
  { eapply rel_le; [apply (rel_pow lm Acc c _ x (/ m2q) 0 (0.0127 * u) (0.11 * u))|].
    - unfold x. apply rel_self; [exact Fc|fold x; lra].
    - apply (near_lit _ _ _ _ pl_i2). unfold m2q. rewrite U. apply Rabs_le. lra.
    - lra.
    - pose proof (ln_abs 0.0002 (-8.6) x ltac:(lra) ltac:(lra) ln_2e4). pose proof (Rabs_pos (ln x)). rewrite U. nra.
    - rewrite U; lra.
    - rewrite Rmult_0_r; lra.
    - apply mid_ge. fold n0. lra.
    - rewrite U; lra. }
  assert (Nn : near nf n0 (4.22 * u)) by (eapply near_le; [apply rel_near, Rn|rewrite U; lra]).
  assert (Nnum : near (@fsub N nf (pq_c1 N)) (n0 - c1q) (4.4 * u)).
  { eapply near_le; [apply (near_sub lm _ _ n0 c1q (4.22 * u) 0 0.1641 Nn)|].
    - apply (near_lit _ _ _ _ (pl_c1 lm)). rewrite Rminus_diag_eq, Rabs_R0 by reflexivity. lra.
    - unfold c1q. apply Rabs_le; lra.
    - rewrite U; lra.
    - rewrite U; lra. }
  assert (Nden : near (@fsub N (pq_c2 N) (@fmul N (pq_c3 N) nf)) (c2q - c3q * n0) (100 * u)).
  { eapply near_le; [apply (near_sub lm _ _ c2q (c3q * n0) 0 (97.6 * u) 2.23)|].
    - apply (near_lit _ _ _ _ (pl_c2 lm)). rewrite Rminus_diag_eq, Rabs_R0 by reflexivity. lra.
    - eapply near_le; [apply (near_mul lm _ _ c3q n0 0 (4.22 * u) c3q 1)|].
      + apply (near_lit _ _ _ _ (pl_c3 lm)). rewrite Rminus_diag_eq, Rabs_R0 by reflexivity. lra.
      + exact Nn.
      + unfold c3q. rewrite Rabs_pos_eq; lra.
      + rewrite Rabs_pos_eq; lra.
      + unfold c3q. rewrite U; lra.
      + unfold c3q. rewrite U in *; lra.
    - unfold c2q, c3q. apply Rabs_le; lra.
    - rewrite U; lra.
    - rewrite U; lra. }
  set (num := @fsub N nf (pq_c1 N)) in *. set (den := @fsub N (pq_c2 N) (@fmul N (pq_c3 N) nf)) in *.
  destruct Nnum as [Fnum Hnum]. destruct Nden as [Fden Hden]. destruct pl_0 as [F0 V0].
  set (e1 := B2R num - (n0 - c1q)) in *. set (e2 := B2R den - (c2q - c3q * n0)) in *.
  assert (Enum : B2R num = n0 - c1q + e1) by (unfold e1; ring). assert (Eden : B2R den = c2q - c3q * n0 + e2) by (unfold e2; ring).
  pose proof (pqN_pert n0 e1 e2 NB Hnum Hden) as Pp. rewrite <- Enum, <- Eden in Pp.
  apply Rabs_le_inv in Hnum as Hnum'. apply Rabs_le_inv in Hden as Hden'.
  assert (Bnum : 0.054 <= B2R num <= 0.1641) by (rewrite Enum; unfold c1q; rewrite U in *; lra).
  assert (Bden : 0.164 <= B2R den <= 2.23) by (rewrite Eden; unfold c2q, c3q; rewrite U in *; lra).
  rewrite ltb_ok by assumption. rewrite V0, Rlt_bool_false by lra.
  set (x1 := B2R num / B2R den) in *.
  assert (X1 : 0.02 <= x1 <= 1.01).
  { unfold x1. split; apply Rmult_le_reg_r with (B2R den); try lra; unfold Rdiv; rewrite Rmult_assoc, Rinv_l by lra; [lra|].
    rewrite Enum, Eden. unfold c1q, c2q, c3q. rewrite U in *. lra. }
  assert (Lx1 : Rabs (ln x1) <= 4).
  { apply Rabs_le. split; [apply Rle_trans with (1 := ln_02), ln_mono; lra|]. pose proof (exp_ineq1_le (ln x1)) as X. rewrite exp_ln in X by lra. lra. }
  assert (Rx : rel (@fdiv N num den) x1 (1.001 * u)).
  { eapply rel_le; [apply (rel_div lm num den (B2R num) (B2R den) 0 0)|]; try (apply rel_self; [assumption|lra]); try lra. apply mid_ge. fold x1. lra. }
  set (xf := @fdiv N num den) in *.
  assert (IB1 : 6.277394 <= / m1q <= 6.277395) by (unfold m1q; lra).
  assert (Rl : rel (@fpow N xf (@fdiv N (@flit N 1.0%dec) (pq_m1 N))) (Rpower x1 (/ m1q)) (37 * u)).
  { eapply rel_le; [apply (rel_pow lm Acc xf _ x1 (/ m1q) (1.001 * u) (6.3 * u) (25.3 * u) Rx)|].
    - apply (near_lit _ _ _ _ pl_i1). unfold m1q. rewrite U. apply Rabs_le. lra.
    - rewrite U; lra.
    - pose proof (Rabs_pos (ln x1)). rewrite U. nra.
    - rewrite U; lra.
    - rewrite Rabs_pos_eq by lra. rewrite U; lra.
    - apply mid_exp; [lra|exact Lx1|lra].
    - rewrite Rabs_pos_eq by lra. rewrite U; lra. }
  set (lf := @fpow N xf _) in *.
  assert (Rv : rel (@fmul N lf (pq_C N)) (Rpower x1 (/ m1q) * 100) (38.1 * u)).
  { eapply rel_le; [apply (rel_mul lm _ _ (Rpower x1 (/ m1q)) 100 (37 * u) 0 Rl)|].
    - apply rel_exact; [apply pl_C|lra].
    - pose proof (mid_exp x1 (/ m1q) ltac:(lra) Lx1 ltac:(lra)) as [A B]. pose proof (bpow_gt_0 radix2 (-100)). split; [lra|].
      apply Rle_trans with (1.01 * 1.01 ^ 7 * 100); [|apply Rle_trans with 1000000; [lra|apply mid_ge; lra]]. apply Rmult_le_compat_r; [lra|].
      apply Rle_trans with (Rpower 1.01 (/ m1q)); [apply Rpower_le_l; lra|]. apply Rle_trans with (Rpower 1.01 (INR 8)).
      + unfold Rpower. assert (0 <= ln 1.01) by (rewrite <- ln_1; apply ln_mono; lra). rewrite INR_IZR_INZ. change (IZR (Z.of_nat 8)) with 8.
        destruct (Req_dec (/ m1q * ln 1.01) (8 * ln 1.01)) as [->|]; [lra|]. apply Rlt_le, exp_increasing. nra.
      + rewrite Rpower_nat by lra. lra.
    - rewrite U; lra.
    - lra.
    - rewrite U; lra. }
  set (vf := @fmul N lf (pq_C N)) in *. destruct (rel_ex _ _ _ Rv) as (dl & Dl & Ev). pose proof (proj1 Rv) as Fv. set (v := B2R vf) in *.
  apply Rabs_le_inv in Dl as Dl'. pose proof (Rpower_pos x1 (/ m1q)) as Px.
  assert (V100 : v / 100 = Rpower x1 (/ m1q) * (1 + dl)) by (rewrite Ev; field).
  assert (Vp : 0 < v / 100) by (rewrite V100; apply Rmult_lt_0_compat; rewrite U in *; lra).
  (* back to the quotient *)
  assert (EL : exists d', Rabs d' <= 38.4 * u /\ Rpower (v / 100) m1q = x1 * (1 + d')).
  { pose proof (Rpower_eps (Rpower x1 (/ m1q)) dl m1q (38.1 * u) Px Dl ltac:(rewrite U; lra) ltac:(unfold m1q; lra) ltac:(unfold m1q; rewrite U; lra)) as E.
    rewrite <- V100, Rpower_back in E by (try apply Rinv_l; unfold m1q; lra). exists (Rpower (v / 100) m1q / x1 - 1). split; [|field; lra].
    apply Rmult_le_reg_r with x1; [lra|]. rewrite <- (Rabs_pos_eq x1) at 2 by lra. rewrite <- Rabs_mult.
    replace ((Rpower (v / 100) m1q / x1 - 1) * x1) with (Rpower (v / 100) m1q - x1) by (field; lra).
    eapply Rle_trans; [exact E|]. apply Rmult_le_compat_r; [lra|]. unfold m1q. rewrite U; lra. }
  destruct EL as (d' & D' & El). pose proof (pqN_damp2 x1 d' ltac:(lra) ltac:(rewrite U in D'; lra)) as Da. rewrite <- El in Da.
  set (q := pqN (Rpower (v / 100) m1q)) in *. apply Rabs_le_inv in Pp.
  assert (Hq : Rabs (q - n0) <= 10.3 * u).
  { assert (0.053 * Rabs d' * pqN x1 <= 0.053 * (38.4 * u) * 1.001).
    { pose proof (Rabs_pos d'). apply Rmult_le_compat; rewrite U in *; lra. }
    apply Rabs_le_inv in Da. apply Rabs_le. rewrite U in *; lra. }
  assert (Hp : Rabs (pq_enc v - x) <= 930 * u * x).
  { unfold pq_enc. fold q. set (e := q / n0 - 1). assert (Eq : q = n0 * (1 + e)) by (unfold e; field; lra).
    assert (E : Rabs e <= 11.6 * u).
    { apply Rmult_le_reg_r with n0; [lra|]. rewrite <- (Rabs_pos_eq n0) at 1 by lra. rewrite <- Rabs_mult. replace (e * n0) with (q - n0) by (unfold e; field; lra).
      apply Rle_trans with (1 := Hq). rewrite U; lra. }
    rewrite Eq. rewrite <- NX. eapply Rle_trans; [apply (Rpower_eps n0 e m2q (11.6 * u)); unfold m2q; rewrite ?U in *; lra|].
    apply Rmult_le_compat_r; [apply Rlt_le, Rpower_pos|]. unfold m2q. rewrite U; lra. }
  apply Rabs_le_inv in Hp as Hp'. assert (UX : u * x <= u) by (rewrite U; lra).
  destruct (Rlt_le_dec v 100) as [L|L].
  - assert (bpow radix2 (-50) <= v).
    { assert (v = v / 100 * 100) by field. rewrite H, V100. assert (exp (-28) <= Rpower x1 (/ m1q)).
      { unfold Rpower. apply Rabs_le_inv in Lx1. assert (-26 <= / m1q * ln x1); [|apply Rlt_le, exp_increasing; lra].
        destruct (Rle_lt_dec 0 (ln x1)); [assert (0 <= / m1q * ln x1) by (apply Rmult_le_pos; lra); lra|].
        apply Rle_trans with (6.277395 * ln x1); [lra|]. apply Ropp_le_cancel. rewrite <- !Ropp_mult_distr_r_reverse. apply Rmult_le_compat_r; lra. }
      assert (B : bpow radix2 (-50) = exp (-50 * ln 2)) by (rewrite bpow_powerRZ, powerRZ_Rpower by (cbn; lra); reflexivity).
      assert (bpow radix2 (-50) <= exp (-28)). { rewrite B. pose proof ln2_lo. apply Rlt_le, exp_increasing. lra. }
      pose proof (bpow_gt_0 radix2 (-50)). rewrite U in *. nra. }
    destruct (pq_enc_rel lm Acc vf Fv (conj H L)) as (_ & Pe & He). fold v in Pe, He. apply Rabs_le_inv in He.
    assert (437 * u * pq_enc v <= 437 * u * (1.001)) by (apply Rmult_le_compat_l; rewrite U in *; lra).
    apply Rabs_le. rewrite U in *; lra.
  - assert (G1 : B2R (Y_to_ST2084 N vf) = 1).
    { destruct (l0 lm) as [F0' V0']. destruct (pl_100 lm) as [F1 V1]. destruct (l1 lm) as [F1' V1']. unfold Y_to_ST2084. rewrite !leb_ok by assumption. fold v. rewrite V0', V1, Rle_bool_false, Rle_bool_true by lra. exact V1'. }
    rewrite G1. assert (1 <= pq_enc v).
    { unfold pq_enc. fold q. rewrite <- (Rpower_1_l m2q). apply Rpower_le_l; [lra| |unfold m2q; lra]. unfold q.
      assert (1 <= Rpower (v / 100) m1q) by (rewrite <- (Rpower_1_l m1q); apply Rpower_le_l; unfold m1q; lra).
      rewrite <- pqN_1. destruct (Req_dec 1 (Rpower (v / 100) m1q)) as [<-|]; [lra|]. apply Rlt_le, pqN_lt; lra. }
    apply Rabs_le. rewrite U in *; lra.
Qed.
Lemma pq_zero (c : f32) : fin c -> B2R c = 0 -> B2R (Y_to_ST2084 N (ST2084_to_Y N c)) = 0.
Proof.
  intros Fc Z. destruct pl_i2 as [F2 V2]. destruct pl_i1 as [F1 V1]. destruct pl_0 as [F0 V0]. destruct (pl_c1 lm) as [Fc1 Vc1]. destruct (pl_c2 lm) as [Fc2 Vc2]. destruct (pl_c3 lm) as [Fc3 Vc3]. destruct (pl_C lm) as [FC VC].
  pose proof b127_big as BB.
  destruct (pow_zero lm Acc c _ Fc F2 Z ltac:(rewrite V2; lra)) as [Fn Vn].
  unfold ST2084_to_Y. cbv zeta. change (@fpow N c (@fdiv N (@flit N 1.0%dec) (pq_m2 N))) with (lm_powf lm c (@fdiv N (@flit N 1.0%dec) (pq_m2 N))). set (nf := lm_powf lm c _) in *.
  destruct (sub_ok lm nf (pq_c1 N) Fn Fc1) as [Fs Vs]; [rewrite Vn, Vc1; unfold c1q; apply Rabs_le; lra|].
  rewrite ltb_ok by assumption. rewrite V0, Rlt_bool_true.
  2:{ rewrite Vs, Vn, Vc1. replace (0 - c1q) with (- c1q) by ring. rewrite rnd_id; [unfold c1q; lra|]. rewrite <- Vc1. apply fmt_opp, fmt_B2R. }
  destruct (mul_ok lm (pq_c3 N) nf Fc3 Fn) as [Fm Vm]; [rewrite Vn, Rmult_0_r, Rabs_R0; apply bpow_ge_0|]. rewrite Vn, Rmult_0_r, rnd_0 in Vm.
  destruct (sub_ok lm (pq_c2 N) _ Fc2 Fm) as [Fd Vd]; [rewrite Vm, Vc2; unfold c2q; apply Rabs_le; lra|]. rewrite Vm, Rminus_0_r, rnd_id in Vd by apply fmt_B2R. rewrite Vc2 in Vd.
  destruct (div_ok lm (@flit N 0.0%dec) _ F0 ltac:(rewrite Vd; unfold c2q; lra)) as [Fq Vq]; [rewrite V0; unfold Rdiv; rewrite Rmult_0_l, Rabs_R0; apply bpow_ge_0|].
  rewrite V0 in Vq. unfold Rdiv in Vq. rewrite Rmult_0_l, rnd_0 in Vq.
  set (xf := @fdiv N (@flit N 0.0%dec) _) in *.
  destruct (pow_zero lm Acc xf _ Fq F1 Vq ltac:(rewrite V1; lra)) as [Fp Vp].
  change (@fpow N xf (@fdiv N (@flit N 1.0%dec) (pq_m1 N))) with (lm_powf lm xf (@fdiv N (@flit N 1.0%dec) (pq_m1 N))). set (lf := lm_powf lm xf _) in *.
  destruct (mul_ok lm lf (pq_C N) Fp FC) as [Fv Vv]; [rewrite Vp, Rmult_0_l, Rabs_R0; apply bpow_ge_0|]. rewrite Vp, Rmult_0_l, rnd_0 in Vv.
  destruct (l0 lm) as [F0' V0']. unfold Y_to_ST2084. rewrite leb_ok by assumption. rewrite Vv, V0', Rle_bool_true by lra. exact V0'.
Qed.
Lemma pq_codes k M : (0 <= k <= M)%Z -> (0 < M <= 4990)%Z ->
  Rabs (IZR M * B2R (Y_to_ST2084 N (ST2084_to_Y N (code lm k M))) - IZR k) < / 2.
Proof.
  intros K HM. destruct (code_ok lm k M K ltac:(lia)) as (Fc & Vc & Q & C & E). pose proof u16 as U.
  assert (M1 : 0 < IZR M <= 4990) by (split; [apply IZR_lt|apply IZR_le]; lia).
  destruct (Z.eq_dec k 0) as [->|NZ].
  - rewrite pq_zero; [rewrite Rmult_0_r, Rminus_0_r, Rabs_R0; lra|exact Fc|]. rewrite Vc. unfold Rdiv. rewrite Rmult_0_l. apply rnd_0.
  - assert (C0 : 0.0002 <= B2R (code lm k M)).
    { assert (1 <= IZR k) by (apply IZR_le; lia). assert (0.0002003 <= IZR k / IZR M).
      { apply Rmult_le_reg_r with (IZR M); [lra|]. unfold Rdiv. rewrite Rmult_assoc, Rinv_l by lra. lra. }
      apply Rabs_le_inv in E. rewrite U in *. lra. }
    set (c := code lm k M) in *. pose proof (pq_codes_err c Fc ltac:(lra)) as R0.
    apply (code_half _ _ _ (1401 * u)); [lia| |].
    + apply Rabs_le_inv in R0. apply Rabs_le_inv in E. apply Rabs_le. rewrite U in *. lra.
    + rewrite U. lra.
Qed.
End F.
