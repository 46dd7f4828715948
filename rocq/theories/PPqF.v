(** * ST 2084 decoding in binary32. *)
From Coq Require Import ZArith QArith Qreals Reals Lra Lia List Bool.
From Flocq Require Import Core IEEE754.BinarySingleNaN.
From Verif Require Import Num NumR NumF MVec MTri MOtf RTac F32 RPow RExp PHsvF PLibm PPowF PNearF PNearF2 PRelF POtf POtf2 POtfF POtfF2 POtfF3 PBlackF.
Local Open Scope R_scope.

Section A.
Context (lm : libm) (Acc : accurate lm).
Notation N := (FN lm).

(** The two relative errors of the quotient, bounded together by their values at the ends of the range. *)
Lemma conv_bound a g : 0 <= a -> 0.01 <= g <= 0.1640625 ->
  a / g + (18.69 * a + 18.75) / (3.22998046875 - 18.6875 * g) <= 120.1 * a + 114.4.
Proof.
  intros A G. set (d := 3.22998046875 - 18.6875 * g). assert (D : 0.1640 <= d <= 3.0432) by (unfold d; lra).
  assert (I1 : / g <= 106.1 - 609.5 * g).
  { apply Rmult_le_reg_r with g; [lra|]. rewrite Rinv_l by lra. nra. }
  assert (I2 : / d <= (6.4265 - 2.0035 * d)).
  { apply Rmult_le_reg_r with d; [lra|]. rewrite Rinv_l by lra. nra. }
  unfold Rdiv. fold d. assert (I1' : a * / g <= a * (106.1 - 609.5 * g)) by (apply Rmult_le_compat_l; lra).
  assert (I2' : (18.69 * a + 18.75) * / d <= (18.69 * a + 18.75) * (6.4265 - 2.0035 * d)) by (apply Rmult_le_compat_l; lra).
  assert (P1 : 0.01 * a <= a * g) by (rewrite Rmult_comm; apply Rmult_le_compat_l; lra). assert (P2 : a * g <= 0.1640625 * a) by (rewrite (Rmult_comm _ a); apply Rmult_le_compat_l; lra).
  unfold d in *. lra.
Qed.
Lemma inv_lit (c : f32) v : fin c /\ B2R c = v -> / 10 <= v <= 100 -> near (@fdiv N (@flit N 1.0%dec) c) (/ v) (1.001 * u * / v).
Proof.
  intros E V. assert (I : 0 < / v <= 10). { split; [apply Rinv_0_lt_compat; lra|]. apply Rmult_le_reg_r with v; [lra|]. rewrite Rinv_l by lra. lra. }
  assert (I' : / 100 <= / v) by (apply Rinv_le_contravar; lra).
  pose proof u16 as U. replace (/ v) with (1 / v) by (unfold Rdiv; ring). replace (1 / v) with (/ v) in * by (unfold Rdiv; ring).
  assert (R : rel (@fdiv N (@flit N 1.0%dec) c) (1 / v) (1.001 * u)).
  { eapply rel_le; [apply (rel_div lm _ c 1 v 0 0)|]; try lra.
    - apply rel_exact; [exact (pl_1 lm)|lra].
    - apply rel_exact; [exact E|lra].
    - replace (1 / v) with (/ v) by (unfold Rdiv; ring). apply mid_ge. lra. }
  apply rel_near in R. replace (1 / v) with (/ v) in R by (unfold Rdiv; ring). exact R.
Qed.
Definition dec_of (q : R) : R := 100 * Rpower ((q - c1q) / (c2q - c3q * q)) (/ m1q).
(** From the computed [1/m2]-th power on. *)
Lemma dec_core (n : f32) q a : near n q (a * u) -> 0 <= a <= 11 -> c1q + 0.01 <= q <= 1 ->
  let L0 := @fsub N n (pq_c1 N) in
  let L := if @fltb N L0 (@flit N 0.0%dec) then @flit N 0.0%dec else L0 in
  rel (@fmul N (@fpow N (@fdiv N L (@fsub N (pq_c2 N) (@fmul N (pq_c3 N) n))) (@fdiv N (@flit N 1.0%dec) (pq_m1 N))) (pq_C N)) (dec_of q)
    ((70 + 6.45 * (120.1 * a + 118)) * u).
Proof.
  intros Hn Ha Hq L0 L1. unfold L1, L0. clear L0 L1. pose proof u16 as U. set (g := q - c1q). set (d := c2q - c3q * q).
  assert (G : 0.01 <= g <= 0.1640625) by (unfold g, c1q in *; lra).
  assert (Dg : d = 3.22998046875 - 18.6875 * g) by (unfold d, g, c1q, c2q, c3q; lra).
  assert (D : 0.164 <= d <= 3.0432) by lra.
  assert (AU : 0 <= a * u <= 11 * u) by (rewrite U in *; lra).
  (* numerator *)
  assert (N1 : near (@fsub N n (pq_c1 N)) g ((a + 1.001 * g) * u)).
  { eapply near_le; [apply (near_sub lm n _ q c1q (a * u) 0 g Hn)|].
    - apply (near_lit _ _ _ _ (pl_c1 lm)). rewrite Rminus_diag_eq, Rabs_R0 by reflexivity. lra.
    - fold g. rewrite Rabs_pos_eq; lra.
    - rewrite U in *. lra.
    - assert (u * (a * u) <= u * (0.001 * g)) by (apply Rmult_le_compat_l; rewrite U in *; lra). lra. }
  set (Lf := @fsub N n (pq_c1 N)) in *.
  assert (Lg : rel Lf g ((a / g + 1.001) * u)).
  { destruct N1 as [F1 E1]. split; [exact F1|]. split; [lra|]. eapply Rle_trans; [exact E1|]. right. field. lra. }
  destruct (l0 lm) as [F0 V0].
  assert (Lt : @fltb N Lf (@flit N 0.0%dec) = false).
  { destruct N1 as [F1 E1]. assert (Z : fin (@flit N 0.0%dec) /\ B2R (@flit N 0.0%dec) = 0) by f32_val. destruct Z as [FZ VZ].
    rewrite (ltb_ok lm Lf _ F1 FZ), VZ. apply Rlt_bool_false. apply Rabs_le_inv in E1. rewrite U in *. lra. }
  rewrite Lt.
  (* denominator *)
  assert (M1 : near (@fmul N (pq_c3 N) n) (c3q * q) ((18.6876 * a + 18.6876) * u)).
  { eapply near_le; [apply (near_mul lm _ n c3q q 0 (a * u) c3q 1)|].
    - apply (near_lit _ _ _ _ (pl_c3 lm)). rewrite Rminus_diag_eq, Rabs_R0 by reflexivity. lra.
    - exact Hn.
    - unfold c3q. rewrite Rabs_pos_eq; lra.
    - unfold c1q in *. rewrite Rabs_pos_eq; lra.
    - unfold c3q. rewrite U in *. lra.
    - pose proof eta_sharp as ET. assert (u * (a * u) <= u * 0.000001) by (apply Rmult_le_compat_l; rewrite U in *; lra). unfold c3q. rewrite U in *. lra. }
  assert (M2 : near (@fsub N (pq_c2 N) (@fmul N (pq_c3 N) n)) d ((18.69 * a + 18.69 + 1.001 * d) * u)).
  { eapply near_le; [apply (near_sub lm _ _ c2q (c3q * q) 0 ((18.6876 * a + 18.6876) * u) d)|].
    - apply (near_lit _ _ _ _ (pl_c2 lm)). rewrite Rminus_diag_eq, Rabs_R0 by reflexivity. lra.
    - exact M1.
    - fold d. rewrite Rabs_pos_eq; lra.
    - rewrite U in *. lra.
    - assert (u * ((18.6876 * a + 18.6876) * u) <= u * 0.0001) by (apply Rmult_le_compat_l; rewrite U in *; lra). assert (0 <= d * u) by (apply Rmult_le_pos; rewrite ?U; lra). assert (0 < u) by (rewrite U; lra). lra. }
  set (Df := @fsub N (pq_c2 N) _) in *.
  assert (Ld : rel Df d (((18.69 * a + 18.75) / d + 1.001) * u)).
  { destruct M2 as [F1 E1]. split; [exact F1|]. split; [lra|]. eapply Rle_trans; [exact E1|].
    replace (((18.69 * a + 18.75) / d + 1.001) * u * d) with ((18.69 * a + 18.75 + 1.001 * d) * u) by (field; lra). apply Rmult_le_compat_r; rewrite ?U; lra. }
  pose proof (conv_bound a g ltac:(lra) G) as CB. rewrite <- Dg in CB.
  assert (K1 : 0 <= a / g) by (apply Rmult_le_pos; [lra|apply Rlt_le, Rinv_0_lt_compat; lra]).
  assert (K2 : 0 <= (18.69 * a + 18.75) / d) by (apply Rmult_le_pos; [lra|apply Rlt_le, Rinv_0_lt_compat; lra]).
  set (k1 := a / g) in *. set (k2 := (18.69 * a + 18.75) / d) in *.
  assert (Qr : 0.0032 <= g / d <= 1.001).
  { split; apply Rmult_le_reg_r with d; try lra; unfold Rdiv; rewrite Rmult_assoc, Rinv_l; lra. }
  assert (Lq : rel (@fdiv N Lf Df) (g / d) (1.012 * (120.1 * a + 118) * u)).
  { eapply rel_le; [apply (rel_div lm Lf Df g d _ _ Lg Ld)|].
    - apply mid_ge. lra.
    - rewrite U. lra.
    - rewrite U. lra.
    - set (x := (k1 + 1.001) * u). set (y := (k2 + 1.001) * u). assert (X : 0 <= x <= 0.0001) by (unfold x; rewrite U; lra). assert (Y : 0 <= y <= 0.0001) by (unfold y; rewrite U; lra).
      assert (XY : x * (1.011 * y) <= x * 0.000102) by (apply Rmult_le_compat_l; lra).
      assert (XU : (x + 1.011 * y + x * (1.011 * y)) * u <= 0.0003 * u) by (apply Rmult_le_compat_r; [rewrite U; lra|]; lra).
      unfold x, y in *. rewrite U in *. lra. }
  set (kq := 1.012 * (120.1 * a + 118) * u) in *. assert (KQ : 0 <= kq <= 0.0001) by (unfold kq; rewrite U; lra).
  assert (EX := inv_lit (pq_m1 N) m1q (pl_m1 lm) ltac:(unfold m1q; lra)).
  assert (IM : 6.27 <= / m1q <= 6.2775). { unfold m1q. split; [apply Rmult_le_reg_r with 0.1593017578125|apply Rmult_le_reg_r with 0.1593017578125]; try lra; rewrite Rinv_l; lra. }
  set (e := / m1q) in *.
  assert (LN : Rabs (ln (g / d)) <= 9).
  { pose proof ln2_bounds. assert (A1 : ln (bpow radix2 (-9)) <= ln (g / d)) by (apply ln_mono; [apply bpow_gt_0|change (bpow radix2 (-9)) with (/ 512); lra]).
    rewrite ln_bpow in A1. assert (A2 : ln (g / d) <= g / d - 1) by (apply ln_le_sub; lra). apply Rabs_le. lra. }
  assert (PW : / 1000000000000000000 <= Rpower (g / d) e <= 1.01).
  { split.
    - apply Rle_trans with (Rpower 0.0032 e); [|apply Rpower_le_l; lra].
      apply Rle_trans with (Rpower 0.0032 (INR 7)); [rewrite Rpower_nat by lra; simpl; lra|].
      unfold Rpower. assert (ln 0.0032 < 0) by (rewrite <- ln_1; apply ln_increasing; lra). apply Rlt_le, exp_increasing.
      replace (INR 7) with 7 by (rewrite INR_IZR_INZ; reflexivity). nra.
    - apply Rle_trans with (Rpower 1.001 e); [apply Rpower_le_l; lra|].
      apply Rle_trans with (Rpower 1.001 (INR 7)); [|rewrite Rpower_nat by lra; simpl; lra]. apply Rle_Rpower; [lra|]. replace (INR 7) with 7 by (rewrite INR_IZR_INZ; reflexivity). lra. }
  assert (MD : forall c, 1 <= c <= 100 -> mid (Rpower (g / d) e * c)).
  { intros c Hc. assert (/ 1000000000000000000 <= Rpower (g / d) e * c <= 101) by nra. split; [|apply Rle_trans with 101; [lra|apply (mid_ge 101); lra]].
    apply Rle_trans with (bpow radix2 (-60)); [apply bpow_le; lia|]. change (bpow radix2 (-60)) with (/ 1152921504606846976). lra. }
  assert (Lp : rel (@fpow N (@fdiv N Lf Df) (@fdiv N (@flit N 1.0%dec) (pq_m1 N))) (Rpower (g / d) e) (62 * u + 6.36 * kq)).
  { eapply rel_le; [apply (rel_pow lm Acc _ _ (g / d) e kq (1.001 * u * e) (56.7 * u) Lq EX)|].
    - lra.
    - pose proof (Rabs_pos (ln (g / d))). apply Rle_trans with (1.001 * u * e * 9); [apply Rmult_le_compat_l; rewrite ?U; lra|rewrite U; lra].
    - rewrite U; lra.
    - rewrite Rabs_pos_eq by lra. rewrite U. nra.
    - replace (Rpower (g / d) e) with (Rpower (g / d) e * 1) by ring. apply MD. lra.
    - rewrite Rabs_pos_eq by lra. assert ((e + 1.001 * u * e) * kq <= 6.278 * kq) by (apply Rmult_le_compat_r; rewrite ?U; lra). rewrite U in *. lra. }
  assert (KB : 0 <= 62 * u + 6.36 * kq <= 0.001) by (rewrite U; lra).
  unfold dec_of. fold g. fold d. fold e. rewrite (Rmult_comm 100).
  eapply rel_le; [apply (rel_mul lm _ _ _ 100 _ 0 Lp)|].
  - apply rel_exact; [exact (pl_C lm)|lra].
  - apply MD. lra.
  - lra.
  - lra.
  - set (z := 62 * u + 6.36 * kq) in *. assert (z * u <= 0.001 * u) by (apply Rmult_le_compat_r; rewrite ?U; lra).
    replace (z + 0 + z * 0) with z by ring. unfold z, kq in *. rewrite U in *. lra.
Qed.
Lemma pow_stage (p : f32) r k a : rel p r (k * u) -> 0 <= k <= 440 -> 4.3 + 0.0129 * k <= a -> 0 < r -> c1q + 0.01 <= Rpower r (/ m2q) <= 1 ->
  near (@fpow N p (@fdiv N (@flit N 1.0%dec) (pq_m2 N))) (Rpower r (/ m2q)) (a * u).
Proof.
  intros Hp Hk Ha R0 Hq. pose proof u16 as U. assert (EX := inv_lit (pq_m2 N) m2q (pl_m2 lm) ltac:(unfold m2q; lra)).
  assert (IM : 0.0126 <= / m2q <= 0.01269). { unfold m2q. split; apply Rmult_le_reg_r with 78.84375; try lra; rewrite Rinv_l; lra. }
  set (e := / m2q) in *. assert (KU : 0 <= k * u <= 0.0001) by (rewrite U; lra).
  assert (LQ : Rabs (e * ln r) <= 0.1823).
  { assert (E : e * ln r = ln (Rpower r e)) by (unfold Rpower; rewrite ln_exp; reflexivity). rewrite E. set (q := Rpower r e) in *. unfold c1q in Hq.
    pose proof (ln_le_sub q ltac:(lra)). pose proof (ln_ge_sub q ltac:(lra)) as B. assert (/ q <= 1.1822) by (apply Rmult_le_reg_r with q; [lra|]; rewrite Rinv_l by lra; lra). apply Rabs_le. lra. }
  eapply near_le; [apply (near_pow lm Acc p _ r e (k * u) (1.001 * u * e) (0.1825 * u) 1 (rel_near _ _ _ Hp) EX R0)|].
  - lra.
  - rewrite Rabs_mult, (Rabs_pos_eq e) in LQ by lra. replace (1.001 * u * e * Rabs (ln r)) with (1.001 * u * (e * Rabs (ln r))) by ring.
    apply Rle_trans with (1.001 * u * 0.1823); [apply Rmult_le_compat_l; rewrite ?U; lra|rewrite U; lra].
  - rewrite U. lra.
  - rewrite Rabs_pos_eq by lra. apply Rle_trans with (1 * 0.0001); [apply Rmult_le_compat; rewrite ?U in *; lra|lra].
  - lra.
  - lra.
  - unfold c1q in Hq. apply Rle_trans with (bpow radix2 (-1)); [apply bpow_le; lia|]. change (bpow radix2 (-1)) with (/ 2). lra.
  - rewrite Rabs_pos_eq by lra. assert ((e + 1.001 * u * e) * (k * u) <= 0.012691 * (k * u)) by (apply Rmult_le_compat_r; rewrite ?U in *; lra). rewrite U in *. lra.
Qed.
Lemma dec_unfold (p : f32) : ST2084_to_Y N p = 
  let n := @fpow N p (@fdiv N (@flit N 1.0%dec) (pq_m2 N)) in
  let L0 := @fsub N n (pq_c1 N) in
  let L := if @fltb N L0 (@flit N 0.0%dec) then @flit N 0.0%dec else L0 in
  @fmul N (@fpow N (@fdiv N L (@fsub N (pq_c2 N) (@fmul N (pq_c3 N) n))) (@fdiv N (@flit N 1.0%dec) (pq_m1 N))) (pq_C N).
Proof. reflexivity. Qed.
Lemma dec_rel (p : f32) r k a K : rel p r (k * u) -> 0 <= k <= 440 -> 4.3 + 0.0129 * k <= a <= 11 -> 0 < r -> c1q + 0.01 <= Rpower r (/ m2q) <= 1 ->
  70 + 6.45 * (120.1 * a + 118) <= K -> rel (ST2084_to_Y N p) (dec_of (Rpower r (/ m2q))) (K * u).
Proof.
  intros Hp Hk Ha R0 Hq HK. rewrite dec_unfold. eapply rel_le; [apply (dec_core _ _ a)|].
  - apply (pow_stage p r k a); try assumption; lra.
  - lra.
  - exact Hq.
  - pose proof u16 as U. apply Rmult_le_compat_r; rewrite ?U; lra.
Qed.
Lemma q_low c : 0.00001 <= c <= 1 -> c1q + 0.01 <= Rpower c (/ m2q) <= 1.
Proof.
  intros H. assert (IM : 0 <= / m2q) by (unfold m2q; apply Rlt_le, Rinv_0_lt_compat; lra). split; [|apply Rpower_le_1; lra].
  assert (B : Rpower (c1q + 0.01) m2q <= c).
  { apply Rle_trans with (Rpower (c1q + 0.01) (INR 72)).
    - unfold Rpower. assert (ln (c1q + 0.01) < 0) by (rewrite <- ln_1; apply ln_increasing; unfold c1q; lra). apply Rlt_le, exp_increasing.
      replace (INR 72) with 72 by (rewrite INR_IZR_INZ; reflexivity). unfold m2q. nra.
    - rewrite Rpower_nat by (unfold c1q; lra). apply Rle_trans with 0.00001; [unfold c1q; lra|lra]. }
  replace (c1q + 0.01) with (Rpower (Rpower (c1q + 0.01) m2q) (/ m2q)).
  - apply Rpower_le_l; [apply Rpower_pos|exact B|exact IM].
  - apply Rpower_back; [unfold c1q; lra|unfold m2q; field; lra].
Qed.
Lemma dec_spec c : 0.00001 <= c <= 1 -> ST2084_to_Y RN (Some c) = Some (dec_of (Rpower c (/ m2q))).
Proof.
  intros H. rewrite pq_dec_fin by lra. pose proof (q_low c H). destruct (Rlt_dec c1q (Rpower c (/ m2q))) as [L|L]; [reflexivity|lra].
Qed.
Lemma pq_dec_stmt (c : f32) : fin c -> 0.00001 <= B2R c <= 1 ->
  exists v, ST2084_to_Y RN (Some (B2R c)) = Some v /\ rel (ST2084_to_Y N c) v (4200 * u).
Proof.
  intros Fc H. exists (dec_of (Rpower (B2R c) (/ m2q))). split; [apply dec_spec, H|].
  apply (dec_rel c (B2R c) 0 4.3); try lra.
  - rewrite Rmult_0_l. apply rel_self; [exact Fc|lra].
  - apply q_low, H.
Qed.
Lemma enc_q v : 0.0000000001 <= v < 100 -> c1q + 0.01 <= Rpower (pq_enc v) (/ m2q) <= 1 /\ dec_of (Rpower (pq_enc v) (/ m2q)) = v.
Proof.
  intros V. unfold pq_enc. set (l := Rpower (v / 100) m1q).
  assert (L : 0.01 <= l <= 1).
  { split; [|apply Rpower_le_1; unfold m1q; lra]. apply Rle_trans with (Rpower (0.01 ^ 6) m1q); [|unfold l; apply Rpower_le_l; unfold m1q; try lra; apply pow_lt; lra].
    rewrite <- Rpower_nat by lra. rewrite Rpower_mult. rewrite <- (Rpower_1 0.01) at 1 by lra. unfold Rpower.
    assert (ln 0.01 < 0) by (rewrite <- ln_1; apply ln_increasing; lra). apply Rlt_le, exp_increasing.
    replace (INR 6) with 6 by (rewrite INR_IZR_INZ; reflexivity). unfold m1q. nra. }
  assert (Q : c1q + 0.01 <= pqN l <= 1).
  { unfold pqN, c1q, c2q, c3q. split; apply Rmult_le_reg_r with (1 + 18.6875 * l); try lra; unfold Rdiv; rewrite Rmult_assoc, Rinv_l; lra. }
  assert (B : Rpower (Rpower (pqN l) m2q) (/ m2q) = pqN l) by (apply Rpower_back; [unfold c1q in *; lra|unfold m2q; field; lra]).
  rewrite B. split; [exact Q|]. unfold dec_of.
  replace ((pqN l - c1q) / (c2q - c3q * pqN l)) with l.
  - unfold l. rewrite Rpower_back; [field|lra|unfold m1q; field; lra].
  - unfold pqN, c1q, c2q, c3q. field. repeat split; lra.
Qed.
Lemma pq_round_stmt (C : f32) : fin C -> 0.0000000001 <= B2R C <= 100 -> rel (ST2084_to_Y N (Y_to_ST2084 N C)) (B2R C) (8600 * u).
Proof.
  intros Fc H. pose proof u16 as U. destruct (Rlt_dec (B2R C) 100) as [L|L].
  - destruct (enc_q (B2R C) ltac:(lra)) as [Q E]. eapply rel_eq; [apply (dec_rel _ (pq_enc (B2R C)) 437 10)|exact E]; try lra.
    + apply pq_enc_rel; [exact Acc|exact Fc|]. split; [|exact L]. apply Rle_trans with (bpow radix2 (-40)); [apply bpow_le; lia|]. change (bpow radix2 (-40)) with (/ 1099511627776). lra.
    + apply Rpower_pos.
  - assert (E1 : B2R C = 100) by lra. destruct (otf_clip lm C Fc) as (_ & _ & E). specialize (E ltac:(lra)).
    assert (F1 : fin (Y_to_ST2084 N C)).
    { unfold Y_to_ST2084. destruct (l0 lm) as [F0 V0]. destruct (l1 lm) as [F1 V1]. destruct (pl_100 lm) as [F2 V2]. rewrite !leb_ok by assumption. rewrite V0, V2, E1. rewrite (Rle_bool_false 100 0), (Rle_bool_true 100) by lra. exact F1. }
    assert (E2 : dec_of (Rpower 1 (/ m2q)) = B2R C).
    { unfold dec_of. rewrite Rpower_1_l, E1. replace (c2q - c3q * 1) with (1 - c1q) by (unfold c1q, c2q, c3q; lra). replace ((1 - c1q) / (1 - c1q)) with 1 by (field; unfold c1q; lra). rewrite Rpower_1_l. ring. }
    eapply rel_eq; [apply (dec_rel _ 1 0 10)|exact E2]; try lra.
    + rewrite Rmult_0_l. rewrite <- E. apply rel_self; [exact F1|rewrite E; lra].
    + rewrite Rpower_1_l. unfold c1q. lra.
Qed.
End A.

(** Whole pixels. *)
Definition each {A} (P : A -> Prop) (t : Vector3 A) : Prop := P (v0 t) /\ P (v1 t) /\ P (v2 t).
Lemma pq_round_pixel lm (t : Vector3 f32) g g' : accurate lm -> each (fun x => fin x /\ 1e-10 <= B2R x <= 100) t ->
  let r := toScene (FN lm) ST2084 (toScreen (FN lm) ST2084 t g) g' in
  rel (v0 r) (B2R (v0 t)) (8600 * u) /\ rel (v1 r) (B2R (v1 t)) (8600 * u) /\ rel (v2 r) (B2R (v2 t)) (8600 * u).
Proof. intros A ((F0 & H0) & (F1 & H1) & (F2 & H2)). repeat split; apply (pq_round_stmt lm A); try assumption; lra. Qed.
Lemma pq_dec_pixel lm (t : Vector3 f32) g : accurate lm -> each (fun x => fin x /\ 1e-5 <= B2R x <= 1) t ->
  exists a b c, toScene RN ST2084 (V3 (Some (B2R (v0 t))) (Some (B2R (v1 t))) (Some (B2R (v2 t)))) (Some 1) = V3 (Some a) (Some b) (Some c) /\
    let r := toScene (FN lm) ST2084 t g in rel (v0 r) a (4200 * u) /\ rel (v1 r) b (4200 * u) /\ rel (v2 r) c (4200 * u).
Proof.
  intros A ((F0 & H0) & (F1 & H1) & (F2 & H2)).
  destruct (pq_dec_stmt lm A (v0 t) F0 ltac:(lra)) as (a & Ea & Ra). destruct (pq_dec_stmt lm A (v1 t) F1 ltac:(lra)) as (b & Eb & Rb).
  destruct (pq_dec_stmt lm A (v2 t) F2 ltac:(lra)) as (c & Ec & Rc). exists a, b, c. split; [|repeat split; first [apply Ra|apply Rb|apply Rc]].
  unfold toScene. cbn [vref v0 v1 v2]. rewrite Ea, Eb, Ec. reflexivity.
Qed.
Lemma pq_case lm : let h := @flit (FN lm) 0.5%dec in each (fun x => fin x /\ 1e-5 <= B2R x <= 1) (V3 h h h) /\ each (fun x => fin x /\ 1e-10 <= B2R x <= 100) (V3 h h h).
Proof. intros h. assert (H : fin h /\ B2R h = 0.5) by (unfold h; f32_val). destruct H as [Fh Vh]. unfold each. cbn [v0 v1 v2]. rewrite Vh. repeat split; try exact Fh; lra. Qed.
