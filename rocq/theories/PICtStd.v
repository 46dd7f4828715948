(** * ICtCp of BT.2020 colours against BT.2100. *)
From Coq Require Import ZArith Reals Lra Lia List Bool.
From Flocq Require Import Core.Raux.
From Verif Require Import Num NumR MVec MTri MOtf MDelta SpecMat RTac PMat PGamut PGamF2 PCover RPow RExp POtf POtf2 PPowF PDelta PPoly PCodes2 SpecOtf PStd SpecIct.
Import ListNotations.
Local Open Scope R_scope.

Lemma div_nn a b : 0 <= a -> 0 < b -> 0 <= a / b.
Proof. intros A B. apply Rmult_le_pos; [exact A|]. apply Rlt_le, Rinv_0_lt_compat, B. Qed.
(** ** The slope of the PQ curve against the logarithm of the luminance is at most 0.1103. *)
Lemma pq_slope l : 0 < l <= 1 ->
  m2q * m1q * ((c2q - c1q * c3q) * l / ((1 + c3q * l) * (c1q + c2q * l))) * Rpower (pqN l) m2q <= 0.1103.
Proof.
  intros L. assert (NP : 0 < pqN l) by (apply pqN_pos; lra).
  assert (D : 0 < 1 + c3q * l) by (pqv; lra). assert (D2 : 0 < c1q + c2q * l) by (pqv; lra).
  set (x := m2q * (0.1640625 * (1 - l) / (1 + c3q * l)) / 4).
  assert (X0 : 0 <= x).
  { unfold x. assert (0 <= 0.1640625 * (1 - l) / (1 + c3q * l)) by (apply div_nn; lra). unfold m2q. lra. }
  assert (NE : pqN l = 1 - 0.1640625 * (1 - l) / (1 + c3q * l)) by (unfold pqN, Rdiv;
    assert (I : (1 + c3q * l) * / (1 + c3q * l) = 1) by (apply Rinv_r; lra); set (i := / (1 + c3q * l)) in *; clearbody i; pqv; lra).
  assert (A : Rpower (pqN l) m2q <= / (1 + x) ^ 4).
  { unfold Rpower. apply Rle_trans with (exp (- (4 * x))).
    - assert (ln (pqN l) <= pqN l - 1).
      { pose proof (exp_ineq1_le (ln (pqN l))) as E. rewrite exp_ln in E by exact NP. lra. }
      destruct (Req_dec (m2q * ln (pqN l)) (- (4 * x))) as [->|NQ]; [lra|]. apply Rlt_le, exp_increasing.
      assert (m2q * ln (pqN l) <= m2q * (pqN l - 1)) by (apply Rmult_le_compat_l; [unfold m2q; lra|assumption]).
      unfold x in *. rewrite NE in *. lra.
    - rewrite exp_Ropp. apply Rinv_le_contravar; [apply pow_lt; lra|].
      replace (4 * x) with (x + x + (x + x)) by ring. rewrite !exp_plus. pose proof (exp_ineq1_le x) as E.
      replace ((1 + x) ^ 4) with ((1 + x) * (1 + x) * ((1 + x) * (1 + x))) by ring.
      assert ((1 + x) * (1 + x) <= exp x * exp x) by (apply Rmult_le_compat; lra).
      assert (0 <= (1 + x) * (1 + x)) by (apply Rmult_le_pos; lra).
      apply Rmult_le_compat; lra. }
  set (g := m2q * m1q * ((c2q - c1q * c3q) * l / ((1 + c3q * l) * (c1q + c2q * l)))).
  assert (G : 0 <= g).
  { unfold g. assert (0 <= (c2q - c1q * c3q) * l / ((1 + c3q * l) * (c1q + c2q * l))).
    { apply div_nn; [pqv; lra|apply Rmult_lt_0_compat; lra]. } pqv. lra. }
  apply Rle_trans with (g * / (1 + x) ^ 4); [apply Rmult_le_compat_l; assumption|].
  apply Rmult_le_reg_r with ((1 + x) ^ 4); [apply pow_lt; lra|]. rewrite Rmult_assoc, Rinv_l, Rmult_1_r by (apply pow_nonzero; lra).
  set (w := 1 + c3q * l + m2q * 0.1640625 / 4 * (1 - l)).
  assert (XW : 1 + x = w / (1 + c3q * l)) by (unfold x, w; field; lra).
  rewrite XW. apply Rmult_le_reg_r with ((1 + c3q * l) ^ 4 * (c1q + c2q * l)); [apply Rmult_lt_0_compat; [apply pow_lt|]; lra|].
  replace (g * ((1 + c3q * l) ^ 4 * (c1q + c2q * l))) with (m2q * m1q * (c2q - c1q * c3q) * l * (1 + c3q * l) ^ 3) by (unfold g; field; lra).
  replace (0.1103 * (w / (1 + c3q * l)) ^ 4 * ((1 + c3q * l) ^ 4 * (c1q + c2q * l))) with (0.1103 * w ^ 4 * (c1q + c2q * l)) by (field; lra).
  assert (PP : 0 < pe [2732567758987310836687141; 97777493343309347578766575; 908372065930463036613959890; 1537380851541655403693241470; -11947420328638361287713424615; 10938042659120379814488369539]%Z l).
  { apply (pos_ok 12); [vm_compute; reflexivity|lra]. }
  unfold pe in PP. unfold w. pqv. lra.
Qed.
(** ** Two luminances in a ratio close to 1. *)
Lemma ratio_pow r d : Rabs (r - 1) <= d -> d <= 0.00145 -> Rabs (Rpower r m1q - 1) <= 0.16 * d.
Proof.
  intros H D. assert (0 <= d) by (pose proof (Rabs_pos (r - 1)); lra). unfold Rpower.
  assert (A : Rabs (ln r) <= 1.003 * d).
  { replace r with (1 + (r - 1)) by lra. eapply Rle_trans; [apply ln_near; lra|].
    apply Rle_trans with (d * (1 + 2 * d)); [|nra]. pose proof (Rabs_pos (r - 1)). apply Rmult_le_compat; lra. }
  assert (B : Rabs (m1q * ln r) <= 0.1598 * d).
  { rewrite Rabs_mult, Rabs_pos_eq by (unfold m1q; lra). apply Rle_trans with (m1q * (1.003 * d)); [apply Rmult_le_compat_l; [unfold m1q; lra|exact A]|unfold m1q; lra]. }
  eapply Rle_trans; [apply exp_near; lra|]. pose proof (Rabs_pos (m1q * ln r)).
  apply Rle_trans with (0.1598 * d * (1 + 2 * (0.1598 * d))); [apply Rmult_le_compat; lra|nra].
Qed.
Lemma pq_ratio a b d : 0 < a <= 100 -> 0 < b -> Rabs (b - a) <= d * a -> d <= 0.00145 ->
  Rabs (pq_enc b - pq_enc a) <= 0.112 * d.
Proof.
  intros A B H D. assert (D0 : 0 <= d). { pose proof (Rabs_pos (b - a)). destruct (Rle_lt_dec 0 d); [assumption|]. assert (d * a < 0) by nra. lra. }
  assert (R : Rabs (b / a - 1) <= d).
  { replace (b / a - 1) with ((b - a) / a) by (field; lra). unfold Rdiv. rewrite Rabs_mult, (Rabs_pos_eq (/ a)) by (apply Rlt_le, Rinv_0_lt_compat; lra).
    apply Rmult_le_reg_r with a; [lra|]. rewrite Rmult_assoc, Rinv_l by lra. lra. }
  pose proof (ratio_pow _ _ R D) as RP. set (e := Rpower (b / a) m1q - 1) in *.
  assert (E : Rabs e <= / 1000) by lra. apply Rabs_le_inv in E as E'.
  unfold pq_enc. set (l := Rpower (a / 100) m1q).
  assert (L : 0 < l <= 1). { split; [apply Rpower_pos|]. unfold l. rewrite <- (Rpower_1_l m1q). apply Rle_Rpower_l; [unfold m1q; lra|]. lra. }
  replace (Rpower (b / 100) m1q) with (l * (1 + e)).
  2:{ unfold l, e. replace (1 + (Rpower (b / a) m1q - 1)) with (Rpower (b / a) m1q) by lra.
      rewrite Rpower_mult_distr by (apply Rdiv_lt_0_compat; lra). f_equal. field. lra. }
  assert (N0 : 0 < pqN l) by (apply pqN_pos; lra).
  set (g := (c2q - c1q * c3q) * l / ((1 + c3q * l) * (c1q + c2q * l))).
  assert (G0 : 0 <= g). { unfold g. apply div_nn; [pqv; lra|apply Rmult_lt_0_compat; pqv; lra]. }
  assert (G1 : g <= 0.053).
  { unfold g. assert (Q : 0 < (1 + c3q * l) * (c1q + c2q * l)) by (apply Rmult_lt_0_compat; pqv; lra).
    apply Rmult_le_reg_r with (1 := Q). unfold Rdiv. rewrite Rmult_assoc, Rinv_l, Rmult_1_r by lra. pqv.
    pose proof (Rle_0_sqr (l - 0.038)) as SQ. unfold Rsqr in SQ. lra. }
  set (f := pqN (l * (1 + e)) / pqN l - 1).
  assert (F : Rabs f <= 1.0003 * g * (0.16 * d)).
  { assert (P1 : 0 < 1 + c3q * (l * (1 + e))). { assert (0 < l * (1 + e)) by (apply Rmult_lt_0_compat; lra). pqv; lra. }
    assert (FE : f = e * g * ((1 + c3q * l) / (1 + c3q * (l * (1 + e))))).
    { unfold f, g, pqN. field. repeat split; pqv; lra. }
    rewrite FE, !Rabs_mult. rewrite (Rabs_pos_eq g) by exact G0.
    assert (Q0 : 0 <= (1 + c3q * l) / (1 + c3q * (l * (1 + e))) <= 1.0003).
    { split; [apply div_nn; [pqv; lra|exact P1]|]. apply Rmult_le_reg_r with (1 := P1). unfold Rdiv. rewrite Rmult_assoc, Rinv_l, Rmult_1_r by lra.
      assert (0 <= l * (e + 0.000232)). { apply Rmult_le_pos; [lra|]. apply Rabs_le_inv in RP. lra. }
      pqv. lra. }
    rewrite (Rabs_pos_eq _ (proj1 Q0)). pose proof (Rabs_pos e).
    apply Rle_trans with (0.16 * d * g * 1.0003); [|lra].
    apply Rmult_le_compat; [apply Rmult_le_pos; lra|apply Q0| |apply Q0]. apply Rmult_le_compat; lra. }
  replace (pqN (l * (1 + e))) with (pqN l * (1 + f)) by (unfold f; field; lra).
  set (k := 1.0003 * g * (0.16 * d)) in *.
  assert (K0 : 0 <= k) by (pose proof (Rabs_pos f); lra).
  assert (GD : 0 <= g * d <= 0.053 * 0.00145). { split; [apply Rmult_le_pos; lra|]. apply Rmult_le_compat; lra. }
  assert (K1 : m2q * k <= / 1000) by (unfold k, m2q; lra).
  pose proof (Rpower_eps (pqN l) f m2q k N0 F ltac:(unfold k; lra) ltac:(unfold m2q; lra) K1) as PE.
  pose proof (pq_slope l L) as SL. fold g in SL. set (y := Rpower (pqN l) m2q) in *. assert (Y : 0 < y) by apply Rpower_pos.
  eapply Rle_trans; [exact PE|].
  assert (MK : 0 <= m2q * k) by (apply Rmult_le_pos; [unfold m2q; lra|exact K0]).
  assert (C0 : 0 <= m2q * k * y) by (apply Rmult_le_pos; lra).
  apply Rle_trans with (1.0041 * (m2q * k * y)).
  { replace (1.002 * (m2q * k) * (1 + 2 * (1.002 * (m2q * k))) * y) with (1.002 * (1 + 2 * (1.002 * (m2q * k))) * (m2q * k * y)) by ring.
    apply Rmult_le_compat_r; [exact C0|]. lra. }
  assert (S2 : g * y * (m2q * m1q) <= 0.1103) by lra.
  assert (GY : m2q * k * y = 1.0003 * (0.16 / m1q) * (g * y * (m2q * m1q)) * d) by (unfold k; field; unfold m1q; lra).
  rewrite GY.
  apply Rle_trans with (1.0041 * (1.0003 * (0.16 / m1q) * 0.1103 * d)); [|unfold m1q; lra].
  apply Rmult_le_compat_l; [lra|]. apply Rmult_le_compat_r; [lra|]. apply Rmult_le_compat_l; [unfold m1q; lra|exact S2].
Qed.
(** ** The library's cone responses of BT.2020 colours against the integer matrix. *)
Definition ict2020 (t : Vector3 R) : Vector3 R := applyR hpe (applyR (qR (fst (gq gRec2020))) t).
Lemma q2020 : let m := qR (fst (gq gRec2020)) in
  Rabs (m0 m - 0.63695804830) <= 1e-9 /\ Rabs (m1 m - 0.14461690359) <= 1e-9 /\ Rabs (m2 m - 0.16888097516) <= 1e-9 /\
  Rabs (m3 m - 0.26270021201) <= 1e-9 /\ Rabs (m4 m - 0.67799807152) <= 1e-9 /\ Rabs (m5 m - 0.05930171647) <= 1e-9 /\
  Rabs (m6 m - 0) <= 1e-9 /\ Rabs (m7 m - 0.02807269305) <= 1e-9 /\ Rabs (m8 m - 1.06098505771) <= 1e-9.
Proof.
  cbv zeta. let q := eval vm_compute in (fst (gq gRec2020)) in change (fst (gq gRec2020)) with q.
  unfold qR. cbn [qn qd0 qd1 qd2 m0 m1 m2 m3 m4 m5 m6 m7 m8]. repeat split; apply Rabs_le; lra.
Qed.
Lemma rows r g b : 0 <= r -> 0 <= g -> 0 <= b ->
  let k := ict2020 (V3 r g b) in let s := bt2100_LMS (V3 r g b) in
  Rabs (v0 k - v0 s) <= 0.0013 * v0 s /\ Rabs (v1 k - v1 s) <= 0.00096 * v1 s /\ Rabs (v2 k - v2 s) <= 0.00145 * v2 s.
Proof.
  intros R G B. cbv zeta. unfold ict2020, bt2100_LMS. pose proof q2020 as Q. cbv zeta in Q.
  destruct (qR (fst (gq gRec2020))) as [a0 a1 a2 a3 a4 a5 a6 a7 a8]. cbn [m0 m1 m2 m3 m4 m5 m6 m7 m8] in Q.
  destruct Q as (Q0 & Q1 & Q2 & Q3 & Q4 & Q5 & Q6 & Q7 & Q8).
  apply Rabs_le_inv in Q0, Q1, Q2, Q3, Q4, Q5, Q6, Q7, Q8.
  unfold hpe. spec.
  assert (X : forall k c d x, 0 <= x -> Rabs (k - c) <= d -> Rabs (k * x - c * x) <= d * x).
  { intros. rewrite <- Rmult_minus_distr_r, Rabs_mult, (Rabs_pos_eq x) by assumption. apply Rmult_le_compat_r; assumption. }
  assert (Y : forall k1 k2 k3 c1 c2 c3 d, Rabs (k1 - c1) <= d * c1 -> Rabs (k2 - c2) <= d * c2 -> Rabs (k3 - c3) <= d * c3 ->
    Rabs ((k1 * r + k2 * g + k3 * b) - (c1 * r + c2 * g + c3 * b)) <= d * (c1 * r + c2 * g + c3 * b)).
  { intros k1 k2 k3 c1 c2 c3 d D1 D2 D3. apply (X _ _ _ r R) in D1. apply (X _ _ _ g G) in D2. apply (X _ _ _ b B) in D3.
    apply Rabs_le_inv in D1, D2, D3. apply Rabs_le. lra. }
  split; [|split].
  - assert (D := Y (0.3592 * a0 + 0.6976 * a3 - 0.0358 * a6) (0.3592 * a1 + 0.6976 * a4 - 0.0358 * a7) (0.3592 * a2 + 0.6976 * a5 - 0.0358 * a8)
      (1688 / 4096) (2146 / 4096) (262 / 4096) 0.0013 ltac:(apply Rabs_le; lra) ltac:(apply Rabs_le; lra) ltac:(apply Rabs_le; lra)).
    apply Rabs_le_inv in D. apply Rabs_le. lra.
  - assert (D := Y (-0.1922 * a0 + 1.1004 * a3 + 0.0755 * a6) (-0.1922 * a1 + 1.1004 * a4 + 0.0755 * a7) (-0.1922 * a2 + 1.1004 * a5 + 0.0755 * a8)
      (683 / 4096) (2951 / 4096) (462 / 4096) 0.00096 ltac:(apply Rabs_le; lra) ltac:(apply Rabs_le; lra) ltac:(apply Rabs_le; lra)).
    apply Rabs_le_inv in D. apply Rabs_le. lra.
  - assert (D := Y (0.0070 * a0 + 0.0749 * a3 + 0.8434 * a6) (0.0070 * a1 + 0.0749 * a4 + 0.8434 * a7) (0.0070 * a2 + 0.0749 * a5 + 0.8434 * a8)
      (99 / 4096) (309 / 4096) (3688 / 4096) 0.00145 ltac:(apply Rabs_le; lra) ltac:(apply Rabs_le; lra) ltac:(apply Rabs_le; lra)).
    apply Rabs_le_inv in D. apply Rabs_le. lra.
Qed.
Lemma pq_close a k d : 0 < a <= 100 -> Rabs (k - a) <= d * a -> d <= 0.00145 -> Rabs (pqv k - pq_encode (100 * a)) <= 0.112 * d.
Proof.
  intros A H D. replace (pq_encode (100 * a)) with (pq_enc a).
  2:{ unfold pq_encode, pq_enc, pqN. destruct st_eq as (-> & -> & -> & -> & ->). replace (100 * a / 10000) with (a / 100) by lra. reflexivity. }
  apply Rabs_le_inv in H as H'. assert (d * a <= 0.00145 * a) by (apply Rmult_le_compat_r; lra).
  unfold pqv. destruct (Rle_dec k 0); [lra|]. destruct (Rle_dec 100 k) as [C|C].
  - replace 1 with (pq_enc 100).
    2:{ unfold pq_enc. replace (100 / 100) with 1 by lra. rewrite Rpower_1_l, pqN_1, Rpower_1_l. reflexivity. }
    apply pq_ratio; try lra. rewrite Rabs_pos_eq by lra. lra.
  - apply pq_ratio; lra.
Qed.
Lemma ictcp_std r g b : 0 <= r <= 100 -> 0 <= g <= 100 -> 0 <= b <= 100 -> 0 < r + g + b ->
  exists i ct cp, XYZ_to_ICtCp RN (G_toXYZ_t RN (Rec2020 RN) (finV (V3 r g b))) = finV (V3 i ct cp) /\
  let s := bt2100_ICtCp (V3 (100 * r) (100 * g) (100 * b)) in
  Rabs (i - v0 s) <= 0.00013 /\ Rabs (ct - v1 s) <= 0.0009 /\ Rabs (cp - v2 s) <= 0.0012.
Proof.
  intros R G B S. pose proof (gq_ok gRec2020) as Q. cbn [gam] in Q. rewrite Q. unfold G_toXYZ_t. cbn [g_toXYZ].
  rewrite M_apply_fin, ictcp_fin. unfold ictcp. fold (ict2020 (V3 r g b)).
  do 3 eexists. split; [reflexivity|]. cbv zeta.
  destruct (rows r g b) as (A1 & A2 & A3); try lra.
  assert (E : bt2100_LMS (V3 (100 * r) (100 * g) (100 * b)) = V3 (100 * v0 (bt2100_LMS (V3 r g b))) (100 * v1 (bt2100_LMS (V3 r g b))) (100 * v2 (bt2100_LMS (V3 r g b)))).
  { unfold bt2100_LMS. cbn [v0 v1 v2]. f_equal; lra. }
  unfold bt2100_ICtCp. rewrite E. cbn [v0 v1 v2].
  assert (W : 0 < v0 (bt2100_LMS (V3 r g b)) <= 100 /\ 0 < v1 (bt2100_LMS (V3 r g b)) <= 100 /\ 0 < v2 (bt2100_LMS (V3 r g b)) <= 100).
  { unfold bt2100_LMS. cbn [v0 v1 v2]. lra. }
  destruct W as (W1 & W2 & W3).
  pose proof (pq_close _ _ _ W1 A1 ltac:(lra)) as P1. pose proof (pq_close _ _ _ W2 A2 ltac:(lra)) as P2. pose proof (pq_close _ _ _ W3 A3 ltac:(lra)) as P3.
  apply Rabs_le_inv in P1, P2, P3. repeat split; apply Rabs_le; lra.
Qed.
Lemma ictcp_black : XYZ_to_ICtCp RN (finV (V3 0 0 0)) = finV (V3 0 0 0).
Proof.
  rewrite ictcp_fin. unfold ictcp, hpe. spec. replace (0.3592 * 0 + 0.6976 * 0 + -0.0358 * 0) with 0 by lra.
  assert (Z : forall x, x = 0 -> pqv x = 0). { intros x ->. unfold pqv. destruct (Rle_dec 0 0); lra. }
  rewrite !Z by lra. f_equal. apply V3_eq; lra.
Qed.
(** the forward formula itself, for any XYZ. *)
Lemma ictcp_formula t : exists l m s, XYZ_to_ICtCp RN (finV t) =
    finV (V3 ((l + m) / 2) ((6610 * l - 13613 * m + 7003 * s) / 4096) ((17933 * l - 17390 * m - 543 * s) / 4096)) /\
  Y_to_ST2084 RN (Some (0.3592 * v0 t + 0.6976 * v1 t - 0.0358 * v2 t)) = Some l /\
  Y_to_ST2084 RN (Some (- 0.1922 * v0 t + 1.1004 * v1 t + 0.0755 * v2 t)) = Some m /\
  Y_to_ST2084 RN (Some (0.0070 * v0 t + 0.0749 * v1 t + 0.8434 * v2 t)) = Some s.
Proof.
  rewrite ictcp_fin. unfold ictcp. do 3 eexists. split; [reflexivity|]. destruct t as [x y z]. unfold hpe. spec. rewrite !pqv_fin.
  repeat split; do 2 f_equal; lra.
Qed.
Lemma bt2100_white : bt2100_ICtCp (V3 (100 * 100) (100 * 100) (100 * 100)) = V3 1 0 0.
Proof.
  unfold bt2100_ICtCp, bt2100_LMS. cbn [v0 v1 v2].
  assert (E : forall x, x = 10000 -> pq_encode x = 1). { intros x ->. apply std_landmarks. }
  rewrite !E by lra. f_equal; lra.
Qed.
