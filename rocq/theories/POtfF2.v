(** * Transfer functions in binary32: gamma, ST 2084 encoding, HLG. *)
From Coq Require Import ZArith QArith Qreals Reals Lra Lia List Bool.
From Flocq Require Import Core IEEE754.BinarySingleNaN Mult_error.
From Verif Require Import Num NumR NumF MVec MTri MOtf RTac F32 RPow RExp PHsvF PLibm PPowF PNearF PNearF2 PRelF POtf POtf2 POtfF.
Local Open Scope R_scope.

Lemma mid_ge r : / 1000000 <= r <= 1000000 -> mid r.
Proof.
  intros H. split; [apply small_100; lra|]. apply Rle_trans with (bpow radix2 60); [|apply bpow_le; lia].
  apply Rle_trans with 1000000; [lra|]. change (bpow radix2 60) with (IZR (2^60)). apply IZR_le. intros X; discriminate X.
Qed.
Lemma ln_mono a b : 0 < a -> a <= b -> ln a <= ln b.
Proof. intros A B. destruct (Req_dec a b) as [->|]; [lra|]. apply Rlt_le, ln_increasing; lra. Qed.
Lemma ln_60 v : bpow radix2 (-60) <= v <= bpow radix2 60 -> - (60 * ln 2) <= ln v <= 60 * ln 2.
Proof.
  intros [A B]. pose proof (bpow_gt_0 radix2 (-60)). split.
  - apply Rle_trans with (ln (bpow radix2 (-60))); [rewrite ln_bpow; lra|apply ln_mono; lra].
  - apply Rle_trans with (ln (bpow radix2 60)); [apply ln_mono; lra|rewrite ln_bpow; lra].
Qed.
Lemma mid_pow v e : bpow radix2 (-60) <= v <= bpow radix2 60 -> 0 <= e <= 1 -> mid (Rpower v e).
Proof.
  intros H E. pose proof (ln_60 v H). pose proof ln2_bounds. unfold Rpower.
  assert (A : bpow radix2 (-100) = exp (-100 * ln 2)) by (rewrite bpow_powerRZ, powerRZ_Rpower by (cbn; lra); reflexivity).
  assert (B : bpow radix2 100 = exp (100 * ln 2)) by (rewrite bpow_powerRZ, powerRZ_Rpower by (cbn; lra); reflexivity).
  unfold mid. rewrite A, B. split; apply Rlt_le, exp_increasing; nra.
Qed.
Section F.
Context (lm : libm) (Acc : accurate lm).
Notation N := (FN lm).

(** ** Gamma *)
Lemma gamma_rel (v g : f32) : fin v -> fin g -> bpow radix2 (-60) <= B2R v <= bpow radix2 60 -> 1 <= B2R g <= 8 ->
  rel (gamma N v g) (Rpower (B2R v) (1 / B2R g)) ((4.1 + 1.02 * Rabs (ln (B2R v)) / B2R g) * u).
Proof.
  intros Fv Fg V G. pose proof u16 as U. pose proof (bpow_gt_0 radix2 (-60)) as P. pose proof (ln_60 _ V) as L. pose proof ln2_bounds as L2.
  set (w := B2R v) in *. set (q := B2R g) in *.
  assert (Q : 0.125 <= 1 / q <= 1). { split; apply Rmult_le_reg_r with q; try lra; unfold Rdiv; rewrite Rmult_1_l, Rinv_l; lra. }
  assert (Y : near (@fdiv N (@flit N 1%dec) g) (1 / q) (u * (1 / q))).
  { eapply near_le; [apply rel_near, (rel_div lm _ g 1 q 0 0)|].
    - destruct (l1 lm) as [A B]. apply (rel_lit _ 1); [split; assumption|lra|rewrite Rminus_diag_eq, Rabs_R0 by reflexivity; lra].
    - unfold q. apply rel_self; [exact Fg|fold q; lra].
    - apply mid_ge. lra.
    - lra.
    - lra.
    - apply Rmult_le_compat_r; lra. }
  assert (La : 0 <= Rabs (ln w) <= 60) by (split; [apply Rabs_pos|apply Rabs_le; lra]). set (l := Rabs (ln w)) in *.
  assert (D : 1.02 * l / q = 1.02 * (l * (1 / q))) by (field; lra). assert (0 <= l * (1 / q) <= 60) by nra. rewrite D. set (m := l * (1 / q)) in *.
  eapply rel_le; [apply (rel_pow lm Acc v _ w (1 / q) 0 (u * (1 / q)) (u * m))|].
  - unfold w. apply rel_self; [exact Fv|fold w; lra].
  - exact Y.
  - lra.
  - unfold m. fold l. lra.
  - rewrite U; lra.
  - rewrite Rmult_0_r; lra.
  - apply mid_pow; lra.
  - rewrite U in *. lra.
Qed.
Lemma gamma_rt_rel (v g : f32) : fin v -> fin g -> bpow radix2 (-60) <= B2R v <= bpow radix2 60 -> 1 <= B2R g <= 8 ->
  rel (degamma N (gamma N v g) g) (B2R v) ((4.1 + 4.2 * B2R g + 1.04 * Rabs (ln (B2R v))) * u).
Proof.
  intros Fv Fg V G. pose proof u16 as U. pose proof (bpow_gt_0 radix2 (-60)) as P. pose proof (ln_60 _ V) as L. pose proof ln2_bounds as L2.
  pose proof (gamma_rel v g Fv Fg V G) as R. set (w := B2R v) in *. set (q := B2R g) in *. unfold degamma.
  assert (La : 0 <= Rabs (ln w) <= 60) by (split; [apply Rabs_pos|apply Rabs_le; lra]). set (l := Rabs (ln w)) in *.
  set (k := (4.1 + 1.02 * l / q) * u) in *.
  assert (Q : 0 < 1 / q <= 1). { split; [apply Rdiv_lt_0_compat; lra|]. apply Rmult_le_reg_r with q; try lra; unfold Rdiv; rewrite Rmult_1_l, Rinv_l; lra. }
  assert (D : 1.02 * l / q = 1.02 * (l * (1 / q))) by (field; lra). assert (0 <= l * (1 / q) <= 60) by nra.
  assert (QK : q * k = (4.1 * q + 1.02 * l) * u) by (unfold k; field; lra).
  assert (B : Rpower (Rpower w (1 / q)) q = w) by (apply Rpower_back; [lra|field; lra]).
  eapply rel_le; [eapply rel_eq; [apply (rel_pow lm Acc (gamma N v g) g _ q k 0 0 R)|exact B]|].
  - unfold q. apply near_self, Fg.
  - unfold k. rewrite D, U in *. lra.
  - lra.
  - lra.
  - rewrite Rabs_pos_eq by lra. rewrite Rplus_0_r, QK, U. lra.
  - rewrite B. unfold mid. split; [apply Rle_trans with (bpow radix2 (-60))|apply Rle_trans with (bpow radix2 60)]; try lra; apply bpow_le; lia.
  - rewrite Rabs_pos_eq by lra. rewrite Rplus_0_r, QK. rewrite U. lra.
Qed.

(** ** ST 2084, encoding *)
Lemma pl_m1 : fin (pq_m1 N) /\ B2R (pq_m1 N) = m1q. Proof. unfold pq_m1, m1q. f32_val. Qed.
Lemma pl_m2 : fin (pq_m2 N) /\ B2R (pq_m2 N) = m2q. Proof. unfold pq_m2, m2q. f32_val. Qed.
Lemma pl_c1 : fin (pq_c1 N) /\ B2R (pq_c1 N) = c1q. Proof. unfold pq_c1, c1q. f32_val. Qed.
Lemma pl_c2 : fin (pq_c2 N) /\ B2R (pq_c2 N) = c2q. Proof. unfold pq_c2, c2q. f32_val. Qed.
Lemma pl_c3 : fin (pq_c3 N) /\ B2R (pq_c3 N) = c3q. Proof. unfold pq_c3, c3q. f32_val. Qed.
Lemma pl_C : fin (pq_C N) /\ B2R (pq_C N) = 100. Proof. unfold pq_C. f32_val. Qed.
Lemma pl_1 : fin (@flit N 1.0%dec) /\ B2R (@flit N 1.0%dec) = 1. Proof. f32_val. Qed.
Lemma pl_100 : fin (@flit N 100%dec) /\ B2R (@flit N 100%dec) = 100. Proof. f32_val. Qed.
Lemma rel_exact (x : f32) r : fin x /\ B2R x = r -> 0 < r -> rel x r 0.
Proof. intros H P. apply (rel_lit _ _ _ _ H P). rewrite Rminus_diag_eq, Rabs_R0 by reflexivity. lra. Qed.

(** The rational function on the computed power. *)
Lemma pqN_rel (l : f32) : fin l -> bpow radix2 (-60) <= B2R l <= 2 ->
  rel (@fdiv N (@fadd N (pq_c1 N) (@fmul N (pq_c2 N) l)) (@fadd N (@flit N 1.0%dec) (@fmul N (pq_c3 N) l))) (pqN (B2R l)) (5.1 * u).
Proof.
  intros Fl [L1 L2]. pose proof u16 as U. pose proof (bpow_gt_0 radix2 (-60)) as P. set (z := B2R l) in *.
  assert (M : forall c, 1 <= c <= 20 -> mid (c * z)).
  { intros c Hc. split; [apply Rle_trans with (bpow radix2 (-60)); [apply bpow_le; lia|nra]|]. apply Rle_trans with 40; [nra|]. apply (mid_ge 40). lra. }
  assert (A2 : rel (@fmul N (pq_c2 N) l) (c2q * z) (1.001 * u)).
  { eapply rel_le; [apply (rel_mul lm _ l c2q z 0 0)|]; try lra.
    - apply rel_exact; [exact pl_c2|unfold c2q; lra].
    - unfold z. apply rel_self; [exact Fl|fold z; lra].
    - apply M. unfold c2q; lra. }
  assert (A3 : rel (@fmul N (pq_c3 N) l) (c3q * z) (1.001 * u)).
  { eapply rel_le; [apply (rel_mul lm _ l c3q z 0 0)|]; try lra.
    - apply rel_exact; [exact pl_c3|unfold c3q; lra].
    - unfold z. apply rel_self; [exact Fl|fold z; lra].
    - apply M. unfold c3q; lra. }
  assert (B2 : rel (@fadd N (pq_c1 N) (@fmul N (pq_c2 N) l)) (c1q + c2q * z) (2.002 * u)).
  { eapply rel_le; [apply (rel_add lm _ _ c1q (c2q * z) (1.001 * u))|].
    - eapply rel_le; [apply rel_exact; [exact pl_c1|unfold c1q; lra]|rewrite U; lra].
    - exact A2.
    - apply mid_ge. unfold c1q, c2q. lra.
    - rewrite U; lra.
    - rewrite U; lra. }
  assert (B3 : rel (@fadd N (@flit N 1.0%dec) (@fmul N (pq_c3 N) l)) (1 + c3q * z) (2.002 * u)).
  { eapply rel_le; [apply (rel_add lm _ _ 1 (c3q * z) (1.001 * u))|].
    - eapply rel_le; [apply rel_exact; [exact pl_1|lra]|rewrite U; lra].
    - exact A3.
    - apply mid_ge. unfold c3q. lra.
    - rewrite U; lra.
    - rewrite U; lra. }
  eapply rel_le; [apply (rel_div lm _ _ (c1q + c2q * z) (1 + c3q * z) _ _ B2 B3)|].
  - apply mid_ge. unfold c1q, c2q, c3q. assert (D : 0 < 1 + 18.6875 * z) by lra. split; apply Rmult_le_reg_r with (1 + 18.6875 * z); try lra; unfold Rdiv; rewrite Rmult_assoc, Rinv_l; lra.
  - rewrite U; lra.
  - rewrite U; lra.
  - rewrite U; lra.
Qed.
(** The rational function damps relative errors. *)
Lemma pqN_damp l d : 0 < l <= 1 -> Rabs d <= / 1000 -> Rabs (pqN (l * (1 + d)) - pqN l) <= 0.053 * Rabs d * pqN l.
Proof.
  intros L D. apply Rabs_le_inv in D as D'. unfold pqN, c1q, c2q, c3q.
  assert (P0 : 0 < l * (1 + d)) by (apply Rmult_lt_0_compat; lra).
  replace ((0.8359375 + 18.8515625 * (l * (1 + d))) / (1 + 18.6875 * (l * (1 + d))) - (0.8359375 + 18.8515625 * l) / (1 + 18.6875 * l))
    with (d * ((18.8515625 - 0.8359375 * 18.6875) * l / ((1 + 18.6875 * (l * (1 + d))) * (0.8359375 + 18.8515625 * l))) * ((0.8359375 + 18.8515625 * l) / (1 + 18.6875 * l)))
    by (field; split; [|split]; lra).
  set (n := (0.8359375 + 18.8515625 * l) / (1 + 18.6875 * l)). assert (0 < n) by (apply Rdiv_lt_0_compat; lra).
  rewrite !Rabs_mult, (Rabs_pos_eq n) by lra. apply Rmult_le_compat_r; [lra|]. rewrite Rmult_comm. apply Rmult_le_compat_r; [apply Rabs_pos|].
  assert (Q : 0 < (1 + 18.6875 * (l * (1 + d))) * (0.8359375 + 18.8515625 * l)) by (apply Rmult_lt_0_compat; lra).
  rewrite Rabs_pos_eq by (apply Rlt_le, Rdiv_lt_0_compat; [apply Rmult_lt_0_compat; lra|exact Q]).
  apply Rmult_le_reg_r with (1 := Q). unfold Rdiv. rewrite Rmult_assoc, Rinv_l, Rmult_1_r by lra.
  apply Rle_trans with (0.053 * ((1 + 18.6875 * (l * 0.999)) * (0.8359375 + 18.8515625 * l))); [|apply Rmult_le_compat_l; [lra|]; apply Rmult_le_compat_r; [lra|]; apply Rplus_le_compat_l, Rmult_le_compat_l; [lra|apply Rmult_le_compat_l; lra]].
  pose proof (Rle_0_sqr (l - 0.0376)) as SQ. unfold Rsqr in SQ. lra.
Qed.
Lemma Rpower_ge_self x e : 0 < x <= 1 -> 0 <= e <= 1 -> x <= Rpower x e.
Proof.
  intros X E. rewrite <- (Rpower_1 x) at 1 by lra. unfold Rpower. assert (ln x <= 0) by (rewrite <- ln_1; apply ln_mono; lra).
  destruct (Req_dec (1 * ln x) (e * ln x)) as [->|]; [lra|]. apply Rlt_le, exp_increasing. nra.
Qed.
Lemma pq_enc_rel (C : f32) : fin C -> bpow radix2 (-50) <= B2R C < 100 -> rel (Y_to_ST2084 N C) (pq_enc (B2R C)) (437 * u).
Proof.
  intros Fc [C1 C2]. pose proof u16 as U. pose proof (bpow_gt_0 radix2 (-50)) as P. set (v := B2R C) in *.
  destruct (l0 lm) as [F0 V0]. destruct pl_100 as [F1 V1].
  unfold Y_to_ST2084. rewrite !leb_ok by assumption. rewrite V0, V1. fold v. rewrite !Rle_bool_false by lra.
  assert (K : 128 * bpow radix2 (-57) = bpow radix2 (-50)) by (change 128 with (bpow radix2 7); rewrite <- bpow_plus; reflexivity).
  assert (K2 : 2 * bpow radix2 (-60) <= bpow radix2 (-57)) by (change 2 with (bpow radix2 1); rewrite <- bpow_plus; apply bpow_le; lia).
  pose proof (bpow_gt_0 radix2 (-60)) as P60.
  assert (L : rel (@fdiv N C (pq_C N)) (v / 100) (1.001 * u)).
  { eapply rel_le; [apply (rel_div lm C _ v 100 0 0)|]; try lra.
    - unfold v. apply rel_self; [exact Fc|fold v; lra].
    - apply rel_exact; [exact pl_C|lra].
    - split; [apply Rle_trans with (bpow radix2 (-57)); [apply bpow_le; lia|lra]|]. apply Rle_trans with 1; [lra|]. apply (mid_ge 1). lra. }
  set (x := v / 100) in *. assert (X : bpow radix2 (-57) <= x < 1) by (unfold x; lra).
  pose proof (Rpower_ge_self x m1q ltac:(lra) ltac:(unfold m1q; lra)) as LG. pose proof (Rpower_le_1 x m1q ltac:(lra) ltac:(lra) ltac:(unfold m1q; lra)) as LL.
  assert (Lm : rel (@fpow N (@fdiv N C (pq_C N)) (pq_m1 N)) (Rpower x m1q) (4.3 * u)).
  { assert (A : Rabs m1q = m1q) by (apply Rabs_pos_eq; unfold m1q; lra).
    eapply rel_le; [apply (rel_pow lm Acc _ _ x m1q (1.001 * u) 0 0 L)|]; rewrite ?A; unfold m1q in *; try (rewrite U; lra); try lra.
    - apply (near_lit _ _ _ _ pl_m1). unfold m1q. rewrite Rminus_diag_eq, Rabs_R0 by reflexivity. lra.
    - apply mid_pow; [|lra]. pose proof (bpow_lt radix2 (-60) (-57) ltac:(lia)). split; [lra|]. apply Rle_trans with 1; [lra|]. apply (bpow_le radix2 0 60). lia. }
  set (lf := @fpow N _ _) in *. set (l0 := Rpower x m1q) in *. destruct (rel_ex _ _ _ Lm) as (d & D & E). apply Rabs_le_inv in D as D'.
  assert (Bl : bpow radix2 (-60) <= B2R lf <= 2) by (rewrite E, U in *; split; nra).
  pose proof (pqN_rel lf (proj1 Lm) Bl) as Rn. cbv zeta. set (nf := @fdiv N (@fadd N _ _) _) in *.
  pose proof (pqN_damp l0 d ltac:(lra) ltac:(rewrite U in D; lra)) as Da. rewrite <- E in Da.
  assert (N0 : c1q <= pqN l0 <= 1).
  { assert (0 < l0) by lra. unfold pqN, c1q, c2q, c3q. split; apply Rmult_le_reg_r with (1 + 18.6875 * l0); try lra; unfold Rdiv; rewrite Rmult_assoc, Rinv_l; lra. }
  assert (Nn : rel nf (pqN l0) (5.4 * u)).
  { destruct Rn as (Fn & Pn & Hn). split; [exact Fn|]. split; [unfold c1q in N0; lra|].
    set (n := pqN l0) in *. set (n' := pqN (B2R lf)) in *. assert (Da' : Rabs (n' - n) <= 0.24 * u * n).
    { eapply Rle_trans; [exact Da|]. apply Rmult_le_compat_r; [unfold c1q in N0; lra|]. lra. }
    apply Rabs_le_inv in Da'. apply Rabs_le_inv in Hn. assert (n' <= 1.01 * n) by (rewrite U in *; unfold c1q in N0; lra).
    assert (u * n' <= u * (1.01 * n)) by (apply Rmult_le_compat_l; lra). apply Rabs_le. assert (0 < u * n) by (apply Rmult_lt_0_compat; unfold c1q in N0; lra). lra. }
  unfold pq_enc. fold x. fold l0.
  assert (A : Rabs m2q = m2q) by (apply Rabs_pos_eq; unfold m2q; lra).
  eapply rel_le; [apply (rel_pow lm Acc _ _ (pqN l0) m2q (5.4 * u) 0 0 Nn)|]; rewrite ?A; unfold m2q in *; try (rewrite U; lra); try lra.
  - apply (near_lit _ _ _ _ pl_m2). unfold m2q. rewrite Rminus_diag_eq, Rabs_R0 by reflexivity. lra.
  - assert (G : / 10000000 <= Rpower c1q 78.84375).
    { apply Rle_trans with (Rpower c1q (INR 79)). 2:{ unfold Rpower. assert (ln c1q < 0) by (rewrite <- ln_1; apply ln_increasing; unfold c1q; lra). apply Rlt_le, exp_increasing.
        replace (INR 79) with 79 by (rewrite INR_IZR_INZ; reflexivity). nra. }
      rewrite Rpower_nat by (unfold c1q; lra). unfold c1q. lra. }
    assert (H1 : Rpower c1q 78.84375 <= Rpower (pqN l0) 78.84375) by (apply Rpower_le_l; unfold c1q in *; lra).
    assert (H2 : Rpower (pqN l0) 78.84375 <= 1) by (apply Rpower_le_1; unfold c1q in *; lra).
    split; [|apply Rle_trans with 1; [lra|apply (mid_ge 1); lra]].
    apply Rle_trans with (bpow radix2 (-30)); [apply bpow_le; lia|]. change (bpow radix2 (-30)) with (/ 1073741824). lra.
Qed.

(** ** HLG *)
Lemma hl_a : fin (hlg_a N) /\ B2R (hlg_a N) = 750079 / 4194304. Proof. unfold hlg_a. f32_val. Qed.
Lemma hl_b : fin (hlg_b N) /\ B2R (hlg_b N) = 298497 / 1048576. Proof. unfold hlg_b. f32_val. Qed.
Lemma hl_c : fin (hlg_c N) /\ B2R (hlg_c N) = 9393743 / 16777216. Proof. unfold hlg_c. f32_val. Qed.
Lemma hl_h : fin (@flit N 0.5%dec) /\ B2R (@flit N 0.5%dec) = 0.5. Proof. f32_val. Qed.
Lemma hl_4 : fin (@flit N 4%dec) /\ B2R (@flit N 4%dec) = 4. Proof. f32_val. Qed.

Lemma fmt_scale s e : fmt s -> bpow radix2 (-100) <= s -> (-20 <= e)%Z -> fmt (s * bpow radix2 e).
Proof.
  intros F L E. apply mult_bpow_exact_FLT; [exact F|]. pose proof (mag_ge_bpow radix2 s (-99)) as M. change (-99 - 1)%Z with (-100)%Z in M.
  rewrite Rabs_pos_eq in M by (pose proof (bpow_gt_0 radix2 (-100)); lra). specialize (M L). lia.
Qed.
Lemma hlg_lo_rel (C : f32) : fin C -> bpow radix2 (-100) <= B2R C < 1 ->
  Y_to_HLG N C = @fmul N (@flit N 0.5%dec) (@fsqrt N C) /\ rel (Y_to_HLG N C) (0.5 * sqrt (B2R C)) u /\ B2R (Y_to_HLG N C) <= 0.5.
Proof.
  intros Fc [C1 C2]. set (v := B2R C) in *. pose proof (bpow_gt_0 radix2 (-100)) as P. destruct (l0 lm) as [F0 V0]. destruct (l1 lm) as [F1 V1].
  assert (EQ : Y_to_HLG N C = @fmul N (@flit N 0.5%dec) (@fsqrt N C)).
  { unfold Y_to_HLG. rewrite !ltb_ok by assumption. rewrite V0, V1. fold v. rewrite Rlt_bool_false, Rlt_bool_true by lra. reflexivity. }
  split; [exact EQ|]. rewrite EQ. destruct hl_h as [Fh Vh].
  destruct (sqrt_ok lm C Fc ltac:(fold v; lra)) as [Fs Vs]. fold v in Vs.
  assert (S1 : bpow radix2 (-50) <= sqrt v <= 1).
  { split; [|rewrite <- sqrt_1; apply sqrt_le_1_alt; lra]. rewrite <- (sqrt_square (bpow radix2 (-50))) by apply bpow_ge_0. apply sqrt_le_1_alt. rewrite <- bpow_plus. exact C1. }
  destruct (PYxyF.rnd_rel (sqrt v)) as (d & D & E). { rewrite Rabs_pos_eq by apply sqrt_pos. apply Rle_trans with (bpow radix2 (-50)); [apply bpow_le; lia|lra]. }
  pose proof (rnd_01 (sqrt v) ltac:(pose proof (sqrt_pos v); lra)) as S2.
  assert (S3 : bpow radix2 (-100) <= rnd (sqrt v)). { apply rnd_ge_fmt; [apply fmt_bpow; lia|]. apply Rle_trans with (bpow radix2 (-50)); [apply bpow_le; lia|lra]. }
  pose proof (fmt_scale (rnd (sqrt v)) (-1) ltac:(rewrite <- Vs; apply fmt_B2R) S3 ltac:(lia)) as FS. change (bpow radix2 (-1)) with (/ 2) in FS.
  destruct (mul_ok lm (@flit N 0.5%dec) (@fsqrt N C) Fh Fs) as [Fm Vm]; [rewrite Vh, Vs; pose proof b127_big; apply Rabs_le; lra|].
  rewrite Vh, Vs in Vm. replace (0.5 * rnd (sqrt v)) with (rnd (sqrt v) * / 2) in Vm by lra. rewrite (rnd_id _ FS) in Vm.
  split; [|rewrite Vm; lra]. apply (rel_of _ _ d); [exact Fm|pose proof (bpow_gt_0 radix2 (-50)); lra|exact D|]. rewrite Vm, E. lra.
Qed.
Lemma hlg_dec_lo_rel (c : f32) r k : rel c r k -> B2R c <= 0.5 -> bpow radix2 (-51) <= r -> k <= / 100 -> r <= 1 ->
  rel (HLG_to_Y N c) (4 * (r * r)) (2 * k + k * k + u + (2 * k + k * k) * u).
Proof.
  intros Rc H5 R1 K R2. destruct (rel_ex _ _ _ Rc) as (d & D & E). destruct Rc as (Fc & R0 & Hc).
  assert (D' := Rabs_le_inv _ _ D). pose proof (Rabs_pos d) as Dp. destruct (l0 lm) as [F0 V0]. destruct hl_h as [Fh Vh]. destruct hl_4 as [F4 V4].
  assert (B : bpow radix2 (-100) <= B2R c). { rewrite E. apply Rle_trans with (bpow radix2 (-51) * / 2); [rewrite Rmult_comm, half_bpow; apply bpow_le; lia|]. pose proof (bpow_gt_0 radix2 (-51)). nra. }
  pose proof (bpow_gt_0 radix2 (-100)).
  unfold HLG_to_Y. rewrite ltb_ok, leb_ok by assumption. rewrite V0, Vh, Rlt_bool_false, Rle_bool_true by lra.
  pose proof (fmt_scale (B2R c) 2 (fmt_B2R c) B ltac:(lia)) as FS. change (bpow radix2 2) with 4 in FS.
  destruct (mul_ok lm (@flit N 4%dec) c F4 Fc) as [Fm Vm]; [rewrite V4; pose proof b127_big; apply Rabs_le; lra|].
  rewrite V4, (Rmult_comm 4), (rnd_id _ FS) in Vm.
  assert (M : mid (4 * (r * r))).
  { split; [|apply Rle_trans with 4; [nra|apply (mid_ge 4); lra]]. assert (Q : bpow radix2 (-51) * bpow radix2 (-51) <= r * r) by (pose proof (bpow_gt_0 radix2 (-51)); nra).
    rewrite <- bpow_plus in Q. change (-51 + -51)%Z with (-102)%Z in Q. assert (4 * bpow radix2 (-102) = bpow radix2 (-100)) by (change 4 with (bpow radix2 2); rewrite <- bpow_plus; reflexivity). lra. }
  pose proof (abs_comb d d _ k k D D eq_refl) as C. set (e := d + d + d * d) in *.
  assert (C' : Rabs e <= / 2) by nra.
  destruct (rnd_mid (B2R (@fmul N (@flit N 4%dec) c) * B2R c) (4 * (r * r)) e M C') as (Z & t & T & V); [rewrite Vm, E; unfold e; ring|].
  destruct (mul_ok lm _ c Fm Fc Z) as [Fp Vp]. rewrite V in Vp. replace (2 * k + k * k) with (k + k + k * k) by ring.
  eapply rel_of; [exact Fp|nra| |exact Vp]. eapply abs_comb; [exact C|exact T|reflexivity].
Qed.
Lemma hlg_rt_lo (C : f32) : fin C -> bpow radix2 (-100) <= B2R C < 1 -> rel (HLG_to_Y N (Y_to_HLG N C)) (B2R C) (3.01 * u).
Proof.
  intros Fc H. destruct (hlg_lo_rel C Fc H) as (_ & Rl & L). pose proof u16 as U. pose proof (bpow_gt_0 radix2 (-100)) as P. set (v := B2R C) in *.
  assert (S1 : bpow radix2 (-50) <= sqrt v <= 1).
  { split; [|rewrite <- sqrt_1; apply sqrt_le_1_alt; lra]. rewrite <- (sqrt_square (bpow radix2 (-50))) by apply bpow_ge_0. apply sqrt_le_1_alt. rewrite <- bpow_plus. exact (proj1 H). }
  assert (S2 := sqrt_sqrt v ltac:(lra)).
  eapply rel_le; [eapply rel_eq; [apply (hlg_dec_lo_rel _ _ _ Rl L)|]|]; try (rewrite U; lra); try lra.
  pose proof (half_bpow (-50)) as Hb. change (-50 - 1)%Z with (-51)%Z in Hb. lra.
Qed.
(** The logarithmic segment. *)
Lemma ln_12 : -0.34 <= ln (1 - hb) /\ ln (12 - hb) <= 2.4649.
Proof.
  split.
  - pose proof hlg_knee as K. unfold ha, hb, hc in *. nra.
  - apply Rle_trans with (- ln (/ 11.75)). { rewrite ln_Rinv by lra. rewrite Ropp_involutive. apply ln_mono; unfold hb; lra. }
    assert (- Q2R (Qmake 24649 10000) <= ln (Q2R (Qmake 4 47))) by (apply (ln_ge_neg _ _ 4 12); [vm_compute; reflexivity|unfold Q2R; cbn; lra]).
    replace (/ 11.75) with (Q2R (Qmake 4 47)) by (unfold Q2R; cbn; lra). replace (Q2R (Qmake 24649 10000)) with 2.4649 in H by (unfold Q2R; cbn; lra). lra.
Qed.
Lemma ln_1203 : ln (12.03 - hb) <= 2.4649.
Proof.
  apply Rle_trans with (- ln (/ 11.75)). { rewrite ln_Rinv by lra. rewrite Ropp_involutive. apply ln_mono; unfold hb; lra. }
  assert (- Q2R (Qmake 24649 10000) <= ln (Q2R (Qmake 4 47))) by (apply (ln_ge_neg _ _ 4 12); [vm_compute; reflexivity|unfold Q2R; cbn; lra]).
  replace (/ 11.75) with (Q2R (Qmake 4 47)) by (unfold Q2R; cbn; lra). replace (Q2R (Qmake 24649 10000)) with 2.4649 in H by (unfold Q2R; cbn; lra). lra.
Qed.
Lemma hlg_hi_near_w (C : f32) : fin C -> 1 <= B2R C <= 12.03 -> near (Y_to_HLG N C) (ha * ln (B2R C - hb) + hc) (4.1 * u).
Proof.
  intros Fc H. set (v := B2R C) in *. pose proof u16 as U. pose proof eta16 as E. destruct (l0 lm) as [F0 V0]. destruct (l1 lm) as [F1 V1]. 
  unfold Y_to_HLG. rewrite !ltb_ok by assumption. rewrite V0, V1. fold v. rewrite !Rlt_bool_false by lra.
  pose proof (proj1 ln_12) as L1. pose proof ln_1203 as L2. pose proof (ln_mono (1 - hb) (v - hb) ltac:(unfold hb; lra) ltac:(lra)). pose proof (ln_mono (v - hb) (12.03 - hb) ltac:(unfold hb; lra) ltac:(lra)).
  set (l := ln (v - hb)) in *.
  assert (S : near (@fsub N C (hlg_b N)) (v - hb) (1.1 * u * (v - hb))).
  { eapply near_le; [apply (near_sub lm C _ v hb 0 (0.041 * u) (v - hb))|].
    - apply near_self, Fc.
    - apply (near_lit _ _ _ _ hl_b). unfold hb. apply Rabs_le; lra.
    - rewrite Rabs_pos_eq; unfold hb; lra.
    - unfold hb; rewrite U; lra.
    - unfold hb; rewrite U; lra. }
  assert (L : near (@flog N (@fsub N C (hlg_b N))) l (11.1 * u)).
  { eapply near_le; [apply (near_log lm Acc _ _ _ 2.47 S)|].
    - unfold hb; lra.
    - rewrite U; lra.
    - fold l; apply Rabs_le; lra.
    - rewrite U; lra. }
  eapply near_le; [apply (near_add lm _ _ (ha * l) hc (2.5 * u) (0.26 * u) 1.01)|].
  - eapply near_le; [apply (near_mul lm _ _ ha l (0.011 * u) (11.1 * u) ha 2.47)|].
    + apply (near_lit _ _ _ _ hl_a). unfold ha. apply Rabs_le; lra.
    + exact L.
    + unfold ha; rewrite Rabs_pos_eq; lra.
    + apply Rabs_le; lra.
    + unfold ha; rewrite U; lra.
    + unfold ha; rewrite U in *; lra.
  - apply (near_lit _ _ _ _ hl_c). unfold hc. apply Rabs_le; lra.
  - apply Rabs_le. unfold ha, hc. lra.
  - rewrite U; lra.
  - rewrite U; lra.
Qed.
Lemma hlg_hi_near (C : f32) : fin C -> 1 <= B2R C <= 12 -> near (Y_to_HLG N C) (ha * ln (B2R C - hb) + hc) (4.1 * u).
Proof. intros F H. apply hlg_hi_near_w; [exact F|lra]. Qed.
Lemma hlg_dec_hi_near (c : f32) : fin c -> 0.5 < B2R c <= 1.001 ->
  near (HLG_to_Y N c) (exp ((B2R c - hc) / ha) + hb) (160 * u).
Proof.
  intros Fc H. set (x := B2R c) in *. pose proof u16 as U. pose proof eta16 as E. destruct (l0 lm) as [F0 V0]. destruct hl_h as [Fh Vh].
  unfold HLG_to_Y. rewrite ltb_ok, leb_ok by assumption. rewrite V0, Vh. fold x. rewrite Rlt_bool_false, Rle_bool_false by lra.
  assert (Ex : exp ((x - hc) / ha) <= 11.85).
  { apply Rle_trans with (exp 2.4665). { apply Rlt_le, exp_increasing. unfold hc, ha. lra. }
    rewrite <- (Ropp_involutive 2.4665), exp_Ropp. assert (K : Q2R (Qmake 848 10000) <= exp (- Q2R (Qmake 24665 10000))) by (apply (exp_lo _ _ 4 12); vm_compute; reflexivity).
    replace (Q2R (Qmake 848 10000)) with 0.0848 in K by (unfold Q2R; cbn; lra). replace (Q2R (Qmake 24665 10000)) with 2.4665 in K by (unfold Q2R; cbn; lra).
    apply Rle_trans with (/ 0.0848); [apply Rinv_le; lra|lra]. }
  set (t := (x - hc) / ha) in *. assert (T : -0.34 <= t <= 2.47) by (unfold t, hc, ha; lra).
  assert (S : near (@fsub N c (hlg_c N)) (x - hc) (0.71 * u)).
  { eapply near_le; [apply (near_sub lm c _ x hc 0 (0.26 * u) 0.442)|].
    - apply near_self, Fc.
    - apply (near_lit _ _ _ _ hl_c). unfold hc. apply Rabs_le; lra.
    - apply Rabs_le; unfold hc; lra.
    - rewrite U; lra.
    - rewrite U; lra. }
  assert (Q : near (@fdiv N (@fsub N c (hlg_c N)) (hlg_a N)) t (6.6 * u)).
  { eapply near_le; [apply (near_div lm _ _ (x - hc) ha (0.71 * u) (0.011 * u) 2.47 ha S)|].
    - apply (near_lit _ _ _ _ hl_a). unfold ha. apply Rabs_le; lra.
    - unfold ha; rewrite Rabs_pos_eq; lra.
    - unfold ha; rewrite U; lra.
    - fold t. apply Rabs_le; lra.
    - unfold ha; rewrite U; lra.
    - unfold ha; rewrite U in *; lra. }
  eapply near_le; [apply (near_add lm _ _ (exp t) hb (128 * u) (0.041 * u) 12.2)|].
  - eapply near_le; [apply (near_exp lm Acc _ _ _ 11.85 Q)|].
    + lra.
    + rewrite U; lra.
    + exact Ex.
    + rewrite U; lra.
  - apply (near_lit _ _ _ _ hl_b). unfold hb. apply Rabs_le; lra.
  - pose proof (exp_pos t). rewrite Rabs_pos_eq; unfold hb; lra.
  - rewrite U; lra.
  - rewrite U; lra.
Qed.
Lemma hlg_rt_hi (C : f32) : fin C -> 1 <= B2R C <= 12 -> near (HLG_to_Y N (Y_to_HLG N C)) (B2R C) (450 * u).
Proof.
  intros Fc H. destruct (hlg_hi_near C Fc H) as [Fy Hy]. pose proof u16 as U. set (v := B2R C) in *. set (y := Y_to_HLG N C) in *.
  pose proof ln_12 as [L1 L2]. pose proof (ln_mono (1 - hb) (v - hb) ltac:(unfold hb; lra) ltac:(lra)). pose proof (ln_mono (v - hb) (12 - hb) ltac:(unfold hb; lra) ltac:(lra)).
  pose proof hlg_knee as Kn. set (l := ln (v - hb)) in *. apply Rabs_le_inv in Hy as Hy'.
  assert (Bd : 0.5 < ha * l + hc <= 1.0009).
  { assert (ln (1 - hb) <= l) by assumption. unfold ha, hc in *. lra. }
  assert (EL : exp l = v - hb) by (unfold l; apply exp_ln; unfold hb; lra).
  destruct (Rle_lt_dec (B2R y) 0.5) as [L|L].
  - (* just below the switch *)
    assert (Ry : rel y 0.5 (4.1 * u / 0.5)). { split; [exact Fy|]. split; [lra|]. replace (4.1 * u / 0.5 * 0.5) with (4.1 * u) by lra. apply Rabs_le. lra. }
    destruct (hlg_dec_lo_rel y 0.5 _ Ry L) as (Fz & _ & Hz); try (rewrite U; lra); try lra.
    { apply Rle_trans with (bpow radix2 (-1)); [apply bpow_le; lia|cbn; lra]. }
    split; [exact Fz|]. apply Rabs_le_inv in Hz.
    assert (v <= 1 + 250 * u).
    { assert (A : l <= ln (1 - hb) + 24 * u). { unfold ha, hc in *. lra. }
      assert (Le : exp l <= exp (ln (1 - hb) + 24 * u)) by (destruct (Req_dec l (ln (1 - hb) + 24 * u)) as [<-|]; [lra|apply Rlt_le, exp_increasing; lra]).
      rewrite exp_plus, exp_ln in Le by (unfold hb; lra). pose proof (exp_near (24 * u)) as En. rewrite (Rabs_pos_eq (24 * u)) in En by lra. specialize (En ltac:(rewrite U; lra)).
      apply Rabs_le_inv in En. assert ((1 - hb) * exp (24 * u) <= (1 - hb) * (1 + 24 * u * (1 + 2 * (24 * u)))) by (apply Rmult_le_compat_l; unfold hb; lra).
      rewrite EL in Le. unfold hb in *. rewrite U in *. lra. }
    apply Rabs_le. rewrite U in *. lra.
  - destruct (hlg_dec_hi_near y Fy ltac:(rewrite U in *; lra)) as [Fz Hz]. split; [exact Fz|].
    set (t := (B2R y - hc) / ha) in *. assert (T : Rabs (t - l) <= 23 * u).
    { replace (t - l) with ((B2R y - (ha * l + hc)) / ha) by (unfold t; field; unfold ha; lra). unfold Rdiv. rewrite Rabs_mult, (Rabs_pos_eq (/ ha)) by (unfold ha; lra).
      unfold ha in *. lra. }
    assert (Et : exp t = exp l * exp (t - l)) by (rewrite <- exp_plus; f_equal; ring).
    pose proof (exp_near (t - l) ltac:(rewrite U in *; lra)) as En. pose proof (Rabs_pos (t - l)).
    assert (En' : Rabs (exp (t - l) - 1) <= 23.001 * u). { eapply Rle_trans; [exact En|]. rewrite U in *. apply Rle_trans with (23 * / 16777216 * (1 + 2 * (23 * / 16777216))); [apply Rmult_le_compat; lra|lra]. }
    apply Rabs_le_inv in En'. assert (Q : Rabs (exp t + hb - v) <= 272 * u). { rewrite Et, EL. unfold hb in *. apply Rabs_le. rewrite U in *. nra. }
    apply Rabs_le_inv in Q. apply Rabs_le_inv in Hz. apply Rabs_le. lra.
Qed.
End F.
