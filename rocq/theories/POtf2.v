(** * Transfer functions over the reals: PQ, HLG, S-Log, gamma. *)
From Coq Require Import ZArith QArith Qreals Reals Lra Lia List Bool.
From Flocq Require Import Core.Raux.
From Verif Require Import Num NumR MVec MTri MOtf SpecMat RTac PMat RPow RExp POtf.
Local Open Scope R_scope.

(** ** PQ *)
Definition m1q : R := 0.1593017578125.
Definition m2q : R := 78.84375.
Definition c1q : R := 0.8359375.
Definition c2q : R := 18.8515625.
Definition c3q : R := 18.6875.
Lemma pq_lits : pq_m1 RN = Some m1q /\ pq_m2 RN = Some m2q /\ pq_c1 RN = Some c1q /\ pq_c2 RN = Some c2q /\
  pq_c3 RN = Some c3q /\ pq_C RN = Some 100.
Proof. unfold pq_m1, pq_m2, pq_c1, pq_c2, pq_c3, pq_C, m1q, m2q, c1q, c2q, c3q. rl. repeat split; f_equal; qlra. Qed.
Ltac pqv := unfold m1q, m2q, c1q, c2q, c3q in *.
Definition pqN (l : R) : R := (c1q + c2q * l) / (1 + c3q * l).
Definition pq_enc (v : R) : R := Rpower (pqN (Rpower (v / 100) m1q)) m2q.
Lemma pq_enc_fin v : 0 < v < 100 -> Y_to_ST2084 RN (Some v) = Some (pq_enc v).
Proof.
  intros H. unfold Y_to_ST2084. destruct pq_lits as (-> & -> & -> & -> & -> & ->). rl. rb.
  rewrite rdiv_ok by lra. rl. rewrite rpow_pos by lra. rl.
  pose proof (Rpower_pos (v / 100) m1q). unfold pq_enc. set (l := Rpower (v / 100) m1q) in *.
  rewrite rdiv_ok by (pqv; qlra). rl. rewrite rpow_pos. { unfold pqN. replace (Rdec 1.0) with 1 by qlra. reflexivity. }
  apply Rmult_lt_0_compat; [|apply Rinv_0_lt_compat]; pqv; qlra.
Qed.
Lemma pq_enc_lo v : v <= 0 -> Y_to_ST2084 RN (Some v) = Some 0.
Proof. intros H. unfold Y_to_ST2084. rl. rb. reflexivity. Qed.
Lemma pq_enc_hi v : 100 <= v -> Y_to_ST2084 RN (Some v) = Some 1.
Proof. intros H. unfold Y_to_ST2084. rl. rb. reflexivity. Qed.
Definition pq_dec_num (n : R) : R := if Rlt_dec (n - c1q) 0 then 0 else n - c1q.
Lemma pq_dec_fin c : 0 < c <= 1 -> ST2084_to_Y RN (Some c) =
  Some (100 * (if Rlt_dec c1q (Rpower c (/ m2q)) then Rpower ((Rpower c (/ m2q) - c1q) / (c2q - c3q * Rpower c (/ m2q))) (/ m1q) else 0)).
Proof.
  intros H. unfold ST2084_to_Y. destruct pq_lits as (-> & -> & -> & -> & -> & ->). rl.
  rewrite !rdiv_ok by (pqv; qlra). rl. rewrite rpow_pos by lra. rl.
  replace (Rdec 1.0 / m2q) with (/ m2q) by (pqv; qlra). replace (Rdec 1.0 / m1q) with (/ m1q) by (pqv; qlra).
  replace (Rdec 0.0) with 0 by qlra. set (n := Rpower c (/ m2q)).
  assert (n <= 1). { apply Rpower_le_1; try lra. pqv; lra. }
  destruct (Rlt_dec c1q n) as [L|L].
  - rewrite Rlt_bool_false by lra. rl. rewrite rdiv_ok by (pqv; lra). rl.
    rewrite rpow_pos. { rl. f_equal. ring. }
    apply Rmult_lt_0_compat; [|apply Rinv_0_lt_compat]; pqv; lra.
  - destruct (Rlt_dec (n - c1q) 0) as [K|K].
    + rewrite Rlt_bool_true by lra. rl. rewrite rdiv_ok by (pqv; lra). rl.
      replace (0 / (c2q - c3q * n)) with 0 by (unfold Rdiv; ring). rewrite rpow_0 by (pqv; lra). rl. f_equal. ring.
    + rewrite Rlt_bool_false by lra. rl. rewrite rdiv_ok by (pqv; lra). rl.
      replace (n - c1q) with 0 by lra.
      replace (0 / (c2q - c3q * n)) with 0 by (unfold Rdiv; ring). rewrite rpow_0 by (pqv; lra). rl. f_equal. ring.
Qed.
Lemma pq_dec_0 : ST2084_to_Y RN (Some 0) = Some 0.
Proof.
  unfold ST2084_to_Y. destruct pq_lits as (-> & -> & -> & -> & -> & ->). rl.
  rewrite !rdiv_ok by (pqv; qlra). rl. rewrite rpow_0 by (pqv; qlra). rl. rewrite Rlt_bool_true by (pqv; qlra).
  rl. rewrite rdiv_ok by (pqv; lra). rl. replace (Rdec 0.0 / (c2q - c3q * 0)) with 0 by (pqv; qlra).
  rewrite rpow_0 by (pqv; qlra). rl. f_equal. ring.
Qed.
Lemma pqN_pos l : 0 <= l -> 0 < pqN l.
Proof. intros H. unfold pqN. apply Rmult_lt_0_compat; [|apply Rinv_0_lt_compat]; pqv; lra. Qed.
Lemma pqN_sub l : 0 <= l -> pqN l - c1q = (c2q - c1q * c3q) * l / (1 + c3q * l).
Proof. intros H. unfold pqN. field. pqv; lra. Qed.
Lemma pqN_sub2 l : 0 <= l -> c2q - c3q * pqN l = (c2q - c1q * c3q) / (1 + c3q * l).
Proof. intros H. unfold pqN. field. pqv; lra. Qed.
Lemma pqN_lt a b : 0 <= a -> a < b -> pqN a < pqN b.
Proof.
  intros A H. cut (pqN a - c1q < pqN b - c1q); [lra|]. rewrite !pqN_sub by lra.
  assert (P : 0 < 1 + c3q * a) by (pqv; lra). assert (Q : 0 < 1 + c3q * b) by (pqv; lra).
  apply Rmult_lt_reg_r with ((1 + c3q * a) * (1 + c3q * b)); [apply Rmult_lt_0_compat; assumption|].
  replace ((c2q - c1q * c3q) * a / (1 + c3q * a) * ((1 + c3q * a) * (1 + c3q * b)))
    with ((c2q - c1q * c3q) * (a + c3q * a * b)) by (field; lra).
  replace ((c2q - c1q * c3q) * b / (1 + c3q * b) * ((1 + c3q * a) * (1 + c3q * b)))
    with ((c2q - c1q * c3q) * (b + c3q * a * b)) by (field; lra).
  apply Rmult_lt_compat_l; [pqv; lra|lra].
Qed.
Lemma pqN_1 : pqN 1 = 1. Proof. unfold pqN. pqv. lra. Qed.
Lemma pqN_0 : pqN 0 = c1q. Proof. unfold pqN. pqv. lra. Qed.
Lemma pq_l v : 0 < v < 100 -> 0 < Rpower (v / 100) m1q < 1.
Proof.
  intros H. split; [apply Rpower_pos|]. rewrite <- (Rpower_1_l m1q). apply Rpower_lt_l; try lra. pqv; lra.
Qed.
Lemma pq_enc_range v : 0 < v < 100 -> Rpower c1q m2q < pq_enc v < 1.
Proof.
  intros H. pose proof (pq_l v H) as L. pose proof (pqN_lt 0 _ ltac:(lra) (proj1 L)) as A. rewrite pqN_0 in A.
  pose proof (pqN_lt _ 1 (Rlt_le _ _ (proj1 L)) (proj2 L)) as B. rewrite pqN_1 in B. unfold pq_enc. split.
  - apply Rpower_lt_l; [pqv; lra|exact A|pqv; lra].
  - rewrite <- (Rpower_1_l m2q). apply Rpower_lt_l; [pqv; lra|exact B|pqv; lra].
Qed.
Lemma pq_rt v : 0 <= v <= 100 -> exists c, Y_to_ST2084 RN (Some v) = Some c /\ ST2084_to_Y RN (Some c) = Some v.
Proof.
  intros H. destruct (Req_dec v 0) as [->|N0].
  { exists 0. split; [apply pq_enc_lo; lra|apply pq_dec_0]. }
  destruct (Req_dec v 100) as [->|N1].
  { exists 1. split; [apply pq_enc_hi; lra|]. rewrite pq_dec_fin by lra. rewrite Rpower_1_l.
    destruct (Rlt_dec c1q 1) as [L|L]; [|pqv; lra]. f_equal.
    replace ((1 - c1q) / (c2q - c3q * 1)) with 1 by (pqv; lra). rewrite Rpower_1_l. lra. }
  assert (V : 0 < v < 100) by lra. exists (pq_enc v). split; [apply pq_enc_fin, V|].
  pose proof (pq_enc_range v V) as Rg. pose proof (Rpower_pos c1q m2q). rewrite pq_dec_fin by lra.
  pose proof (pq_l v V) as L. assert (E : Rpower (pq_enc v) (/ m2q) = pqN (Rpower (v / 100) m1q)).
  { unfold pq_enc. apply Rpower_back; [apply pqN_pos; lra|]. apply Rinv_r. pqv; lra. }
  rewrite E. set (l := Rpower (v / 100) m1q) in *. pose proof (pqN_lt 0 l ltac:(lra) (proj1 L)) as A. rewrite pqN_0 in A.
  destruct (Rlt_dec c1q (pqN l)) as [_|?]; [|lra]. f_equal.
  rewrite pqN_sub, pqN_sub2 by lra.
  replace ((c2q - c1q * c3q) * l / (1 + c3q * l) / ((c2q - c1q * c3q) / (1 + c3q * l))) with l
    by (field; split; pqv; lra).
  unfold l. rewrite Rpower_back; [lra|lra|]. apply Rinv_r. pqv; lra.
Qed.
Lemma pq_rt2 c : Rpower c1q m2q < c <= 1 -> exists v, 0 < v <= 100 /\ ST2084_to_Y RN (Some c) = Some v /\ Y_to_ST2084 RN (Some v) = Some c.
Proof.
  intros H. pose proof (Rpower_pos c1q m2q) as P. destruct (Req_dec c 1) as [->|N1].
  { exists 100. split; [lra|]. split.
    - rewrite pq_dec_fin by lra. rewrite Rpower_1_l.
      destruct (Rlt_dec c1q 1) as [L|L]; [|pqv; lra]. f_equal.
      replace ((1 - c1q) / (c2q - c3q * 1)) with 1 by (pqv; lra). rewrite Rpower_1_l. lra.
    - apply pq_enc_hi. lra. }
  assert (A : c1q < Rpower c (/ m2q)).
  { rewrite <- (Rpower_back c1q m2q (/ m2q)) at 1; [|pqv; lra|apply Rinv_r; pqv; lra].
    apply Rpower_lt_l; [exact P|lra|]. pqv; lra. }
  assert (B : Rpower c (/ m2q) < 1).
  { rewrite <- (Rpower_1_l (/ m2q)). apply Rpower_lt_l; [lra|lra|]. pqv; lra. }
  rewrite pq_dec_fin by lra. destruct (Rlt_dec c1q (Rpower c (/ m2q))) as [_|?]; [|lra].
  set (n := Rpower c (/ m2q)) in *. set (l := (n - c1q) / (c2q - c3q * n)).
  assert (L0 : 0 < l). { apply Rmult_lt_0_compat; [lra|]. apply Rinv_0_lt_compat. pqv; lra. }
  assert (L1 : l < 1).
  { apply Rmult_lt_reg_r with (c2q - c3q * n); [pqv; lra|]. unfold l, Rdiv. rewrite Rmult_assoc, Rinv_l by (pqv; lra). pqv; lra. }
  assert (EN : pqN l = n).
  { unfold pqN, l. field. split; pqv; lra. }
  set (q := Rpower l (/ m1q)). assert (Q0 : 0 < q) by apply Rpower_pos.
  assert (Q1 : q < 1). { unfold q. rewrite <- (Rpower_1_l (/ m1q)). apply Rpower_lt_l; [lra|lra|]. pqv; lra. }
  exists (100 * q). split; [lra|]. split; [reflexivity|]. rewrite pq_enc_fin by lra. unfold pq_enc.
  replace (100 * q / 100) with q by field. unfold q. rewrite Rpower_back; [|lra|apply Rinv_l; pqv; lra].
  rewrite EN. unfold n. rewrite Rpower_back; [reflexivity|lra|apply Rinv_l; pqv; lra].
Qed.
Lemma pq_dec_dark c : 0 <= c <= Rpower c1q m2q -> ST2084_to_Y RN (Some c) = Some 0.
Proof.
  intros H. destruct (Req_dec c 0) as [->|N]; [apply pq_dec_0|].
  assert (Rpower c1q m2q <= 1) by (apply Rpower_le_1; pqv; lra).
  rewrite pq_dec_fin by lra. destruct (Rlt_dec c1q (Rpower c (/ m2q))) as [L|L]; [|f_equal; ring].
  exfalso. assert (Rpower c (/ m2q) <= c1q); [|lra].
  rewrite <- (Rpower_back c1q m2q (/ m2q)) at 1; [|pqv; lra|apply Rinv_r; pqv; lra].
  apply Rpower_le_l; [lra|lra|]. pqv; lra.
Qed.
Lemma pq_mono v w : v <= w -> exists a b, Y_to_ST2084 RN (Some v) = Some a /\ Y_to_ST2084 RN (Some w) = Some b /\ 0 <= a <= b /\ b <= 1.
Proof.
  intros H. destruct (Rle_lt_dec v 0) as [V|V].
  { destruct (Rle_lt_dec w 0) as [W|W]; [rewrite !pq_enc_lo by assumption; exists 0, 0; repeat split; lra|].
    destruct (Rle_lt_dec 100 w) as [W'|W']; [rewrite pq_enc_lo, pq_enc_hi by assumption; exists 0, 1; repeat split; lra|].
    rewrite pq_enc_lo, pq_enc_fin by lra. pose proof (pq_enc_range w). pose proof (Rpower_pos c1q m2q).
    do 2 eexists; repeat split; lra. }
  destruct (Rle_lt_dec 100 w) as [W|W].
  { destruct (Rle_lt_dec 100 v) as [V'|V']; [rewrite !pq_enc_hi by assumption; exists 1, 1; repeat split; lra|].
    rewrite pq_enc_fin, pq_enc_hi by lra. pose proof (pq_enc_range v). pose proof (Rpower_pos c1q m2q).
    do 2 eexists; repeat split; lra. }
  rewrite !pq_enc_fin by lra. pose proof (pq_enc_range v). pose proof (pq_enc_range w). pose proof (Rpower_pos c1q m2q).
  do 2 eexists; repeat split; try lra. unfold pq_enc. apply Rpower_le_l; [apply pqN_pos; left; apply Rpower_pos| |pqv; lra].
  destruct H as [H| ->]; [|lra]. left. apply pqN_lt; [left; apply Rpower_pos|]. apply Rpower_lt_l; [lra|lra|pqv; lra].
Qed.

(** ** HLG *)
Definition ha : R := 0.17883277.
Definition hb : R := 0.28466892.
Definition hc : R := 0.55991073.
Lemma hlg_lits : hlg_a RN = Some ha /\ hlg_b RN = Some hb /\ hlg_c RN = Some hc.
Proof. unfold hlg_a, hlg_b, hlg_c, ha, hb, hc. rl. repeat split; f_equal; qlra. Qed.
Ltac hv := unfold ha, hb, hc in *.
Lemma hlg_enc_lo v : 0 <= v < 1 -> Y_to_HLG RN (Some v) = Some (0.5 * sqrt v).
Proof. intros H. unfold Y_to_HLG. rl. rb. rewrite rsqrt_ok by lra. rl. apply Some_eq. qlra. Qed.
Lemma hlg_enc_hi v : 1 <= v -> Y_to_HLG RN (Some v) = Some (ha * ln (v - hb) + hc).
Proof.
  intros H. unfold Y_to_HLG. destruct hlg_lits as (-> & -> & ->). rl. rb. rewrite rlog_ok by (hv; lra). reflexivity.
Qed.
Lemma hlg_enc_neg v : v < 0 -> Y_to_HLG RN (Some v) = Some 0.
Proof. intros H. unfold Y_to_HLG. rl. rb. reflexivity. Qed.
Lemma hlg_dec_lo c : 0 <= c <= 0.5 -> HLG_to_Y RN (Some c) = Some (4 * c * c).
Proof. intros H. unfold HLG_to_Y. rl. rb. f_equal. Qed.
Lemma hlg_dec_hi c : 0.5 < c -> HLG_to_Y RN (Some c) = Some (exp ((c - hc) / ha) + hb).
Proof.
  intros H. unfold HLG_to_Y. destruct hlg_lits as (-> & -> & ->). rl. rb. rewrite rdiv_ok by (hv; lra). reflexivity.
Qed.
(** the knee: where the logarithmic branch starts. *)
Lemma hlg_knee : 0.5 < ha * ln (1 - hb) + hc < 0.50000000048.
Proof.
  assert (A : - Q2R (Qmake 5991073 17883277)%Q <= ln (Q2R (Qmake 715331079 1000000000)%Q)).
  { apply (ln_ge_neg _ _ 1 8); [vm_compute; reflexivity|]. unfold Q2R; cbn; lra. }
  assert (B : ln (Q2R (Qmake 71533108003 100000000000)%Q) <= - Q2R (Qmake 5991072952 17883277000)%Q).
  { apply (ln_le_neg _ _ 1 8); [vm_compute; reflexivity|]. unfold Q2R; cbn; lra. }
  assert (C : ln (Q2R (Qmake 715331079 1000000000)%Q) < ln (1 - hb)).
  { apply ln_increasing; unfold Q2R; cbn; hv; lra. }
  assert (D : ln (1 - hb) < ln (Q2R (Qmake 71533108003 100000000000)%Q)).
  { apply ln_increasing; unfold Q2R; cbn; hv; lra. }
  replace (Q2R (Qmake 5991073 17883277)) with (5991073 / 17883277) in A by (unfold Q2R; cbn; lra).
  replace (Q2R (Qmake 5991072952 17883277000)) with (5991072952 / 17883277000) in B by (unfold Q2R; cbn; lra).
  set (x := ln (1 - hb)) in *. hv. lra.
Qed.
Lemma hlg_dec_knee : 0.999999998117 < exp ((0.5 - hc) / ha) + hb.
Proof.
  assert (A : Q2R (0.999999998118 - 0.28466892)%Q <= exp (- Q2R (Qmake 5991073 17883277)%Q)).
  { apply (exp_lo _ _ 1 8). vm_compute. reflexivity. }
  replace ((0.5 - hc) / ha) with (- Q2R (Qmake 5991073 17883277)%Q) by (unfold Q2R; cbn; hv; lra).
  rewrite Q2R_minus in A. set (x := exp _) in *. hv. lra.
Qed.
Lemma ln_le a b : 0 < a -> a <= b -> ln a <= ln b.
Proof. intros A [H| ->]; [left; apply ln_increasing; assumption|lra]. Qed.
Lemma hlg_rt v : 0 <= v -> exists c, Y_to_HLG RN (Some v) = Some c /\ 0 <= c /\ HLG_to_Y RN (Some c) = Some v.
Proof.
  intros H. destruct (Rlt_le_dec v 1) as [L|L].
  - exists (0.5 * sqrt v). split; [apply hlg_enc_lo; lra|]. pose proof (sqrt_pos v). pose proof (sqrt_sqrt v H).
    assert (sqrt v < 1) by (rewrite <- sqrt_1; apply sqrt_lt_1; lra). split; [lra|].
    rewrite hlg_dec_lo by lra. f_equal. lra.
  - exists (ha * ln (v - hb) + hc). split; [apply hlg_enc_hi, L|]. pose proof hlg_knee.
    assert (ln (1 - hb) <= ln (v - hb)) by (apply ln_le; hv; lra).
    assert (ha * ln (1 - hb) <= ha * ln (v - hb)) by (apply Rmult_le_compat_l; [hv; lra|assumption]).
    split; [lra|]. rewrite hlg_dec_hi by lra. f_equal.
    replace ((ha * ln (v - hb) + hc - hc) / ha) with (ln (v - hb)) by (field; hv; lra).
    rewrite exp_ln by (hv; lra). ring.
Qed.
Lemma hlg_rt2 c : 0 <= c -> exists v c', HLG_to_Y RN (Some c) = Some v /\ 0 <= v /\ Y_to_HLG RN (Some v) = Some c' /\
  (c < 0.5 \/ 0.500000001 <= c -> c' = c) /\ Rabs (c' - c) <= 1e-9.
Proof.
  intros H. destruct (Rlt_le_dec c 0.5) as [L|L].
  { exists (4 * c * c), c. split; [apply hlg_dec_lo; lra|]. split; [nra|]. split; [|split; [reflexivity|replace (c - c) with 0 by ring; rewrite Rabs_R0; lra]].
    rewrite hlg_enc_lo by nra. f_equal. replace (4 * c * c) with ((2 * c) * (2 * c)) by ring. rewrite sqrt_square by lra. lra. }
  pose proof hlg_knee as K. destruct (Req_dec c 0.5) as [->|N].
  { exists 1, (ha * ln (1 - hb) + hc). split; [rewrite hlg_dec_lo by lra; f_equal; lra|]. split; [lra|].
    split; [apply hlg_enc_hi; lra|]. split; [lra|]. apply Rabs_le. lra. }
  assert (P : 0.5 < c) by lra. rewrite hlg_dec_hi by exact P.
  set (e := exp ((c - hc) / ha)). assert (E0 : 0 < e) by apply exp_pos.
  assert (E1 : ln e = (c - hc) / ha) by (unfold e; apply ln_exp).
  destruct (Rle_lt_dec 1 (e + hb)) as [G|G].
  - exists (e + hb), c. split; [reflexivity|]. split; [lra|]. split.
    + rewrite hlg_enc_hi by exact G. f_equal. replace (e + hb - hb) with e by ring. rewrite E1. field. hv; lra.
    + split; [reflexivity|]. replace (c - c) with 0 by ring. rewrite Rabs_R0. lra.
  - exists (e + hb), (0.5 * sqrt (e + hb)). split; [reflexivity|].
    assert (M : exp ((0.5 - hc) / ha) <= e).
    { unfold e. left. apply exp_increasing. apply Rmult_lt_compat_r; [apply Rinv_0_lt_compat; hv; lra|lra]. }
    pose proof hlg_dec_knee as DK. split; [lra|]. split; [apply hlg_enc_lo; lra|].
    assert (U : c < ha * ln (1 - hb) + hc).
    { assert (ln e < ln (1 - hb)) by (apply ln_increasing; [exact E0|lra]). rewrite E1 in H0.
      assert (Q : (c - hc) / ha * ha < ln (1 - hb) * ha) by (apply Rmult_lt_compat_r; [hv; lra|exact H0]).
      replace ((c - hc) / ha * ha) with (c - hc) in Q by (field; hv; lra). lra. }
    split; [intros [?|?]; lra|].
    assert (S1 : sqrt (e + hb) <= 1) by (rewrite <- sqrt_1; apply sqrt_le_1; lra).
    assert (S2 : 0.999999999057 <= sqrt (e + hb)).
    { rewrite <- (sqrt_square 0.999999999057) by lra. apply sqrt_le_1; lra. }
    apply Rabs_le. lra.
Qed.
Lemma hlg_mono v w : v <= w -> exists a b, Y_to_HLG RN (Some v) = Some a /\ Y_to_HLG RN (Some w) = Some b /\ 0 <= a <= b.
Proof.
  intros H. assert (G : forall v, 1 <= v -> 0.5 < ha * ln (v - hb) + hc).
  { intros u U. pose proof hlg_knee. assert (ln (1 - hb) <= ln (u - hb)) by (apply ln_le; hv; lra).
    assert (ha * ln (1 - hb) <= ha * ln (u - hb)) by (apply Rmult_le_compat_l; [hv; lra|assumption]). lra. }
  assert (S : forall v, 0 <= v < 1 -> 0 <= sqrt v < 1).
  { intros u U. split; [apply sqrt_pos|]. rewrite <- sqrt_1. apply sqrt_lt_1; lra. }
  destruct (Rlt_le_dec v 0) as [V|V].
  - rewrite (hlg_enc_neg v) by exact V. destruct (Rlt_le_dec w 0) as [W|W]; [rewrite hlg_enc_neg by exact W; exists 0, 0; repeat split; lra|].
    destruct (Rlt_le_dec w 1) as [W'|W'].
    + rewrite hlg_enc_lo by lra. pose proof (S w). do 2 eexists; repeat split; lra.
    + rewrite hlg_enc_hi by lra. pose proof (G w). do 2 eexists; repeat split; lra.
  - destruct (Rlt_le_dec v 1) as [V'|V'].
    + rewrite (hlg_enc_lo v) by lra. pose proof (S v). destruct (Rlt_le_dec w 1) as [W'|W'].
      * rewrite hlg_enc_lo by lra. assert (sqrt v <= sqrt w) by (apply sqrt_le_1; lra). do 2 eexists; repeat split; lra.
      * rewrite hlg_enc_hi by lra. pose proof (G w). do 2 eexists; repeat split; lra.
    + rewrite !hlg_enc_hi by lra. pose proof (G v V').
      assert (ln (v - hb) <= ln (w - hb)) by (apply ln_le; hv; lra).
      assert (ha * ln (v - hb) <= ha * ln (w - hb)) by (apply Rmult_le_compat_l; [hv; lra|assumption]).
      do 2 eexists; repeat split; lra.
Qed.

(** ** S-Log *)
Definition log10 (x : R) : R := ln x / ln 10.
Lemma ln10_pos : 0 < ln 10. Proof. rewrite <- ln_1. apply ln_increasing; lra. Qed.
Lemma ten_log10 x : 0 < x -> Rpower 10 (log10 x) = x.
Proof.
  intros H. unfold Rpower, log10. replace (ln x / ln 10 * ln 10) with (ln x) by (field; pose proof ln10_pos; lra). apply exp_ln, H.
Qed.
Lemma log10_lt a b : 0 < a -> a < b -> log10 a < log10 b.
Proof. intros A H. apply Rmult_lt_compat_r; [apply Rinv_0_lt_compat, ln10_pos|]. apply ln_increasing; assumption. Qed.
Definition slog (z : R) : R := 0.432699 * log10 (z + 0.037584) + 0.616596 + 0.03.
Lemma slog_enc x : 0 <= x <= 10 -> Y_to_SLog RN (Some x) = Some (slog x).
Proof.
  intros H. unfold Y_to_SLog. rl. rb. rl. rewrite rlog10_ok by qlra. rl. fold (log10 (x + Rdec 0.037584)).
  unfold slog. replace (Rdec 0.037584) with 0.037584 by qlra. apply Some_eq. qlra.
Qed.
Lemma slog_dec z : - 0.037584 < z -> SLog_to_Y RN (Some (slog z)) = Some z.
Proof.
  intros H. unfold SLog_to_Y. rl. rewrite rdiv_ok by qlra. rl.
  replace ((slog z - Rdec 0.616596 - Rdec 0.03) / Rdec 0.432699) with (log10 (z + 0.037584)) by (unfold slog; qlra).
  change (Rdec 10) with 10. rewrite rpow_pos by lra. rewrite ten_log10 by lra. apply Some_eq. qlra.
Qed.
Lemma slog_lt a b : - 0.037584 < a -> a < b -> slog a < slog b.
Proof. intros A H. unfold slog. pose proof (log10_lt (a + 0.037584) (b + 0.037584)). lra. Qed.

(** ** S-Log2 *)
Definition ire (x : R) : R := x * (876 / 1024) + 64 / 1024.
Definition thr2 : R := 0.030001222851889303.
Lemma slog2_enc x : 0 <= x -> Y_to_SLog2 RN (Some x) = Some (ire (slog (155 * x / 219))).
Proof.
  intros H. unfold Y_to_SLog2, IRE_to_CV_SLog2, slog2_BLACK, slog2_WV. rl. rb. rewrite !rdiv_ok by qlra. rl.
  rewrite rlog10_ok by qlra. rl. unfold ire, slog. fold (log10 (Rdec 155.0 * x / Rdec 219.0 + Rdec 0.037584)).
  replace (Rdec 155.0 * x / Rdec 219.0 + Rdec 0.037584) with (155 * x / 219 + 0.037584) by qlra. apply Some_eq. qlra.
Qed.
Lemma slog2_dec_hi z : - 0.037584 < z -> thr2 <= slog z -> 0 < z -> SLog2_to_Y RN (Some (ire (slog z))) = Some (219 * z / 155).
Proof.
  intros H T Z. unfold SLog2_to_Y, CV_to_IRE_SLog2, slog2_BLACK, slog2_WV. rl. rewrite !rdiv_ok by qlra. rl.
  rewrite rdiv_ok by qlra. rl.
  replace ((ire (slog z) - Rdec 64 / Rdec 1024) / (Rdec 876 / Rdec 1024)) with (slog z) by (unfold ire; qlra).
  rewrite Rle_bool_true by (revert T; unfold thr2; qlra). rewrite rdiv_ok by qlra. rl.
  replace ((slog z - Rdec 0.616596 - Rdec 0.03) / Rdec 0.432699) with (log10 (z + 0.037584)) by (unfold slog; qlra).
  replace (Rdec 10.0) with 10 by qlra. rewrite rpow_pos by lra. rewrite ten_log10 by lra. rl. rewrite rdiv_ok by qlra. rl.
  rewrite Rlt_bool_true by qlra. apply Some_eq. qlra.
Qed.
Lemma slog2_dec_0 : thr2 <= slog 0 -> SLog2_to_Y RN (Some (ire (slog 0))) = Some 0.
Proof.
  intros T. unfold SLog2_to_Y, CV_to_IRE_SLog2, slog2_BLACK, slog2_WV. rl. rewrite !rdiv_ok by qlra. rl.
  rewrite rdiv_ok by qlra. rl.
  replace ((ire (slog 0) - Rdec 64 / Rdec 1024) / (Rdec 876 / Rdec 1024)) with (slog 0) by (unfold ire; qlra).
  rewrite Rle_bool_true by (revert T; unfold thr2; qlra). rewrite rdiv_ok by qlra. rl.
  replace ((slog 0 - Rdec 0.616596 - Rdec 0.03) / Rdec 0.432699) with (log10 (0 + 0.037584)) by (unfold slog; qlra).
  replace (Rdec 10.0) with 10 by qlra. rewrite rpow_pos by lra. rewrite ten_log10 by lra. rl. rewrite rdiv_ok by qlra. rl.
  rewrite Rlt_bool_false by qlra. f_equal.
Qed.
Lemma slog2_dec_lo z : slog z < thr2 -> SLog2_to_Y RN (Some (ire (slog z))) = Some 0.
Proof.
  intros T. unfold SLog2_to_Y, CV_to_IRE_SLog2, slog2_BLACK, slog2_WV. rl. rewrite !rdiv_ok by qlra. rl.
  rewrite rdiv_ok by qlra. rl.
  replace ((ire (slog z) - Rdec 64 / Rdec 1024) / (Rdec 876 / Rdec 1024)) with (slog z) by (unfold ire; qlra).
  rewrite Rle_bool_false by (revert T; unfold thr2; qlra). rewrite rdiv_ok by qlra. rl.
  rewrite Rlt_bool_false by (revert T; unfold thr2; qlra). reflexivity.
Qed.
Lemma slog2_knee : thr2 <= slog (155 * 1e-15 / 219).
Proof.
  assert (L : 2.302585092994045 <= ln 10).
  { assert (A : ln (Q2R (Qmake 1 10)%Q) <= - Q2R (Qmake 10369921366796840 4503599627370496)%Q).
    { apply (ln_le_neg _ _ 3 8); [vm_compute; reflexivity|unfold Q2R; cbn; lra]. }
    replace (Q2R (Qmake 1 10)%Q) with (/ 10) in A by (unfold Q2R; cbn; lra). rewrite ln_Rinv in A by lra. unfold Q2R in A. cbn in A. lra. }
  assert (B : - Q2R (Qmake 59108427375182554 18014398509481984)%Q <= ln (Q2R (Qmake 8230896000000155 219000000000000000)%Q)).
  { apply (ln_ge_neg _ _ 4 9); [vm_compute; reflexivity|unfold Q2R; cbn; lra]. }
  replace (Q2R (Qmake 8230896000000155 219000000000000000)%Q) with (155 * 1e-15 / 219 + 0.037584) in B by (unfold Q2R; cbn [QArith_base.Qnum QArith_base.Qden]; lra).
  replace (Q2R (Qmake 59108427375182554 18014398509481984)%Q) with (59108427375182554 / 18014398509481984) in B by reflexivity.
  unfold slog, log10, thr2. set (z := 155 * 1e-15 / 219 + 0.037584) in *. pose proof ln10_pos as P10.
  assert (C : - (0.616594777148110697 / 0.432699) * ln 10 <= ln z) by lra.
  assert (D : - (0.616594777148110697 / 0.432699) <= ln z / ln 10).
  { apply Rmult_le_reg_r with (ln 10); [exact P10|]. unfold Rdiv at 2. rewrite Rmult_assoc, Rinv_l by lra. lra. }
  lra.
Qed.
Lemma slog2_rt v : 0 <= v -> exists c v', Y_to_SLog2 RN (Some v) = Some c /\ SLog2_to_Y RN (Some c) = Some v' /\
  (1e-15 <= v -> v' = v) /\ Rabs (v' - v) <= 1e-15.
Proof.
  intros H. rewrite slog2_enc by exact H. set (z := 155 * v / 219).
  assert (Z : 0 <= z) by (unfold z; lra).
  destruct (Rlt_le_dec (slog z) thr2) as [T|T].
  - do 2 eexists. split; [reflexivity|]. split; [apply slog2_dec_lo, T|].
    assert (v < 1e-15).
    { apply Rnot_le_lt. intros K. pose proof slog2_knee as S. destruct (Rle_lt_or_eq_dec _ _ K) as [Q|Q].
      - pose proof (slog_lt (155 * 1e-15 / 219) z ltac:(lra) ltac:(unfold z; lra)). lra.
      - unfold z in T. rewrite <- Q in T. lra. }
    split; [lra|]. apply Rabs_le. lra.
  - destruct (Req_dec v 0) as [V|V].
    + assert (E : z = 0) by (unfold z; rewrite V; lra). rewrite E in *. do 2 eexists. split; [reflexivity|].
      split; [apply slog2_dec_0, T|]. rewrite V. split; [reflexivity|]. replace (0 - 0) with 0 by ring. rewrite Rabs_R0. lra.
    + do 2 eexists. split; [reflexivity|]. split; [apply slog2_dec_hi; [lra|exact T|unfold z; lra]|].
      replace (219 * z / 155) with v by (unfold z; lra). split; [reflexivity|]. replace (v - v) with 0 by ring. rewrite Rabs_R0. lra.
Qed.
Lemma slog2_mono v w : 0 <= v -> v < w -> exists a b, Y_to_SLog2 RN (Some v) = Some a /\ Y_to_SLog2 RN (Some w) = Some b /\ a < b.
Proof.
  intros H K. rewrite !slog2_enc by lra. do 2 eexists. split; [reflexivity|]. split; [reflexivity|].
  unfold ire. pose proof (slog_lt (155 * v / 219) (155 * w / 219)). lra.
Qed.

(** ** S-Log3 *)
Definition slog3_enc_code (x : R) : R := (420 + log10 ((x + 0.01) / 0.19 * 261.5)) / 1023.
Lemma slog3_enc_hi x : 0.01125 < x -> Y_to_SLog3 RN (Some x) = Some (slog3_enc_code x).
Proof.
  intros H. unfold Y_to_SLog3. rl. rb. rewrite rdiv_ok by qlra. rl. rewrite rlog10_ok by qlra. rl. rewrite rdiv_ok by qlra.
  unfold slog3_enc_code. fold (log10 ((x + Rdec 0.01) / Rdec 0.19 * Rdec 261.5)).
  replace ((x + Rdec 0.01) / Rdec 0.19 * Rdec 261.5) with ((x + 0.01) / 0.19 * 261.5) by qlra. f_equal.
Qed.
Lemma slog3_enc_lo x : x <= 0.01125 -> Y_to_SLog3 RN (Some x) = Some ((x * 76.2102946929 / 0.01125 + 95) / 1023).
Proof.
  intros H. unfold Y_to_SLog3. rl. rb. rewrite rdiv_ok by qlra. rl. rewrite rdiv_ok by qlra. apply Some_eq. qlra.
Qed.
(** Sony's formula. *)
Definition sony_dec (c : R) : R :=
  if Rlt_dec (171.2102946929 / 1023) c then Rpower 10 ((c * 1023 - 420) / 261.5) * 0.19 - 0.01
  else (c * 1023 - 95) * 0.01125 / (171.2102946929 - 95).
Lemma slog3_dec c : SLog3_to_Y RN (Some c) = Some (sony_dec c).
Proof.
  unfold SLog3_to_Y, sony_dec. rl. rewrite !rdiv_ok by qlra. rl. destruct (Rlt_dec (171.2102946929 / 1023) c) as [L|L].
  - rewrite Rlt_bool_true by (revert L; qlra). rewrite rpow_pos by qlra. rl. change (Rdec 10) with 10.
    replace ((c * Rdec 1023 - Rdec 420) / Rdec 261.5) with ((c * 1023 - 420) / 261.5) by qlra. apply Some_eq. qlra.
  - rewrite Rlt_bool_false by (revert L; qlra). apply Some_eq. qlra.
Qed.
Lemma ln_big : 0 < log10 261.5.
Proof. apply Rmult_lt_0_compat; [|apply Rinv_0_lt_compat, ln10_pos]. rewrite <- ln_1. apply ln_increasing; lra. Qed.
Lemma slog3_grey : exists c, Y_to_SLog3 RN (Some 0.18) = Some c /\ c > 420 / 1023.
Proof.
  eexists. split; [apply slog3_enc_hi; lra|]. unfold slog3_enc_code.
  replace ((0.18 + 0.01) / 0.19 * 261.5) with 261.5 by lra. pose proof ln_big. lra.
Qed.
Lemma slog3_rt_bad : exists c v', Y_to_SLog3 RN (Some 0.18) = Some c /\ SLog3_to_Y RN (Some c) = Some v' /\ v' > 0.18.
Proof.
  do 2 eexists. split; [apply slog3_enc_hi; lra|]. split; [apply slog3_dec|]. unfold slog3_enc_code.
  replace ((0.18 + 0.01) / 0.19 * 261.5) with 261.5 by lra. pose proof ln_big. unfold sony_dec.
  destruct (Rlt_dec _ _) as [L|L]; [|lra].
  replace (((420 + log10 261.5) / 1023 * 1023 - 420) / 261.5) with (log10 261.5 / 261.5) by lra.
  assert (1 < Rpower 10 (log10 261.5 / 261.5)); [|lra].
  unfold Rpower. rewrite <- exp_0. apply exp_increasing. apply Rmult_lt_0_compat; [lra|apply ln10_pos].
Qed.
Lemma slog3_rt_lo v : v <= 0.01125 -> exists c, Y_to_SLog3 RN (Some v) = Some c /\ SLog3_to_Y RN (Some c) = Some v.
Proof.
  intros H. eexists. split; [apply slog3_enc_lo, H|]. rewrite slog3_dec. unfold sony_dec.
  destruct (Rlt_dec _ _) as [L|L]; [lra|]. f_equal. lra.
Qed.

(** ** Pure gamma *)
Lemma gamma_rt v g : 0 <= v -> 0 < g -> exists c, gamma RN (Some v) (Some g) = Some c /\ 0 <= c /\ degamma RN (Some c) (Some g) = Some v.
Proof.
  intros H G. unfold gamma, degamma. rl. rewrite rdiv_ok by lra. rl. change (Rdec 1) with 1.
  destruct H as [H|<-].
  - rewrite rpow_pos by exact H. eexists. split; [reflexivity|]. split; [left; apply Rpower_pos|].
    rewrite rpow_pos by apply Rpower_pos. f_equal. apply Rpower_back; [exact H|]. field. lra.
  - exists 0. rewrite !rpow_0; [split; [reflexivity|split; [lra|reflexivity]]|exact G|].
    apply Rmult_lt_0_compat; [lra|apply Rinv_0_lt_compat, G].
Qed.
