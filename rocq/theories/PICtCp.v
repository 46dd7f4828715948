(** * ICtCp: the round trip through the rounded inverse matrix. *)
From Coq Require Import ZArith Reals Lra Lia List Bool.
From Flocq Require Import Core.Raux.
From Verif Require Import Num NumR MVec MTri MOtf MDelta SpecMat RTac PMat RPow RExp POtf POtf2 PGamut PDelta.
Local Open Scope R_scope.

(** ** PQ decoding outside [0,1]. *)
Lemma pq_dec_neg c : c < 0 -> ST2084_to_Y RN (Some c) = None.
Proof.
  intros H. unfold ST2084_to_Y. destruct pq_lits as (-> & -> & -> & -> & -> & ->). rl.
  rewrite !rdiv_ok by (pqv; qlra). rl. replace (Rdec 1.0 / m2q) with (/ m2q) by (pqv; qlra).
  assert (E : rx_pow c (/ m2q) = None).
  { unfold rx_pow. rewrite Rlt_bool_false by lra. rewrite Req_bool_false by (pqv; lra). rewrite Req_bool_false by lra.
    assert (T : Ztrunc (/ m2q) = 0%Z) by (rewrite Ztrunc_floor by (pqv; lra); apply Zfloor_imp; cbn; pqv; lra).
    rewrite T, Req_bool_false by (pqv; lra). reflexivity. }
  rewrite E. reflexivity.
Qed.
Lemma pq_n_hi c : 1 <= c <= 1.1 -> 1 <= Rpower c (/ m2q) < 1.0087.
Proof.
  intros H. split.
  - rewrite <- (Rpower_1_l (/ m2q)). apply Rpower_le_l; [lra|lra|pqv; lra].
  - apply Rnot_le_lt. intros K. apply (Rpower_le_l _ _ m2q) in K; [|lra|pqv; lra].
    rewrite Rpower_back in K; [|lra|apply Rinv_l; pqv; lra].
    assert (A : Rpower 1.0087 78 <= Rpower 1.0087 m2q) by (apply Rle_Rpower; pqv; lra).
    assert (B : Rpower 1.0087 78 = 1.0087 ^ 78) by (rewrite <- (Rpower_pow 78) by lra; f_equal; cbn; lra).
    pose proof (poly 78 0.0087 ltac:(lra)) as P. replace (1 + 0.0087) with 1.0087 in P by lra.
    replace (INR 78) with 78 in P by (cbn; lra). lra.
Qed.
Lemma pq_dec_hi c : 1 <= c <= 1.1 -> exists v, 100 <= v /\ ST2084_to_Y RN (Some c) = Some v.
Proof.
  intros H. pose proof (pq_n_hi c H) as Nn. unfold ST2084_to_Y. destruct pq_lits as (-> & -> & -> & -> & -> & ->). rl.
  rewrite !rdiv_ok by (pqv; qlra). rl. rewrite rpow_pos by lra. rl.
  replace (Rdec 1.0 / m2q) with (/ m2q) by (pqv; qlra). replace (Rdec 1.0 / m1q) with (/ m1q) by (pqv; qlra).
  replace (Rdec 0.0) with 0 by qlra. set (n := Rpower c (/ m2q)) in *.
  rewrite Rlt_bool_false by (pqv; lra). rl. rewrite rdiv_ok by (pqv; lra). rl.
  assert (L : 1 <= (n - c1q) / (c2q - c3q * n)).
  { apply Rmult_le_reg_r with (c2q - c3q * n); [pqv; lra|]. unfold Rdiv. rewrite Rmult_assoc, Rinv_l by (pqv; lra). pqv; lra. }
  rewrite rpow_pos by lra. rl. eexists. split; [|reflexivity].
  assert (1 <= Rpower ((n - c1q) / (c2q - c3q * n)) (/ m1q)).
  { rewrite <- (Rpower_1_l (/ m1q)). apply Rpower_le_l; [lra|exact L|pqv; lra]. }
  lra.
Qed.
Lemma dark_small : Rpower c1q m2q <= 1e-6.
Proof.
  assert (A : Rpower c1q m2q <= Rpower c1q 78).
  { unfold Rpower. apply exp_le. assert (ln c1q < 0) by (rewrite <- ln_1; apply ln_increasing; pqv; lra). pqv; nra. }
  assert (B : Rpower c1q 78 = c1q ^ 78) by (rewrite <- (Rpower_pow 78) by (pqv; lra); f_equal; cbn; lra).
  assert (C : c1q ^ 78 = IZR (107 ^ 78) / IZR (128 ^ 78)).
  { rewrite <- !pow_IZR with (n := 78%nat). replace c1q with (107 / 128) by (pqv; lra). unfold Rdiv. rewrite Rpow_mult_distr, pow_inv. reflexivity. }
  apply Rle_trans with (1 := A). rewrite B, C.
  assert (G : IZR (107 ^ 78) * 1000000 <= IZR (128 ^ 78)) by (rewrite <- (mult_IZR _ 1000000); apply IZR_le; vm_compute; discriminate).
  assert (P : 0 < IZR (128 ^ 78)) by (apply (IZR_lt 0); reflexivity).
  revert G P. generalize (IZR (107 ^ 78)) (IZR (128 ^ 78)). intros a b G P.
  apply Rmult_le_reg_r with b; [exact P|]. unfold Rdiv. rewrite Rmult_assoc, Rinv_l by lra. lra.
Qed.
(** every code up to 1.1 decodes, and encodes again to itself clamped to [0,1], up to the dark codes. *)
Lemma pq_dec_any c : 0 <= c <= 1.1 -> exists v, ST2084_to_Y RN (Some c) = Some v /\
  ((c <= 1e-6 /\ pqv v = 0) \/ (c <= 1 /\ pqv v = c) \/ (1 <= c /\ pqv v = 1)).
Proof.
  intros H. destruct (Rle_lt_dec 1 c) as [K|K].
  { destruct (pq_dec_hi c ltac:(lra)) as (v & V & E). exists v. split; [exact E|]. right. right. split; [exact K|].
    pose proof (pqv_fin v) as P. rewrite pq_enc_hi in P by exact V. congruence. }
  destruct (Rle_lt_dec c (Rpower c1q m2q)) as [D|D].
  - exists 0. split; [apply pq_dec_dark; lra|]. left. split; [pose proof dark_small; lra|].
    pose proof (pqv_fin 0) as P. rewrite pq_enc_lo in P by lra. congruence.
  - destruct (pq_rt2 c ltac:(lra)) as (v & _ & E & E'). exists v. split; [exact E|]. right. left. split; [lra|].
    pose proof (pqv_fin v) as P. congruence.
Qed.

(** ** The round trip. *)
Definition codes' (l m s : R) : Vector3 R :=
  V3 ((l + m) / 2 + 0.00860904 * ((6610 * l - 13613 * m + 7003 * s) / 4096) + 0.11103 * ((17933 * l - 17390 * m - 543 * s) / 4096))
     ((l + m) / 2 - 0.00860904 * ((6610 * l - 13613 * m + 7003 * s) / 4096) - 0.11103 * ((17933 * l - 17390 * m - 543 * s) / 4096))
     ((l + m) / 2 + 0.560031 * ((6610 * l - 13613 * m + 7003 * s) / 4096) - 0.320627 * ((17933 * l - 17390 * m - 543 * s) / 4096)).
Lemma codes'_near l m s : 0 <= l <= 1 -> 0 <= m <= 1 -> 0 <= s <= 1 ->
  let c := codes' l m s in Rabs (v0 c - l) <= 1.65e-6 /\ Rabs (v1 c - m) <= 1.65e-6 /\ Rabs (v2 c - s) <= 1.65e-6.
Proof. intros L M S. cbv zeta. unfold codes'. cbn [v0 v1 v2]. repeat split; apply Rabs_le; lra. Qed.
Lemma ictcp_back t : let c := applyR hpe t in let p := codes' (pqv (v0 c)) (pqv (v1 c)) (pqv (v2 c)) in
  ICtCp_to_XYZ RN (XYZ_to_ICtCp RN (finV t)) =
  G_toXYZ_t RN (HPE_LMS RN) (V3 (ST2084_to_Y RN (Some (v0 p))) (ST2084_to_Y RN (Some (v1 p))) (ST2084_to_Y RN (Some (v2 p)))).
Proof.
  cbv zeta. rewrite ictcp_fin. unfold ICtCp_to_XYZ, ictcp, codes'. cbn [v0 v1 v2]. unfold finV. cbn [v0 v1 v2]. rl.
  refine (f_equal (G_toXYZ_t RN (HPE_LMS RN)) _). apply V3_eq; apply f_equal; fin_eq; qn; lra.
Qed.
Definition cones (t c : Vector3 R) : Prop := G_fromXYZ_t RN (HPE_LMS RN) (finV t) = finV c.
Lemma cones_iff t c : cones t c <-> applyR hpe t = c.
Proof.
  unfold cones, G_fromXYZ_t. rewrite HPE_fin. unfold Gamut_of_fromXYZ. cbn [g_fromXYZ]. rewrite M_apply_fin. split; [|intros <-; reflexivity].
  destruct (applyR hpe t) as [a b d], c as [a' b' d']. unfold finV. cbn [v0 v1 v2]. congruence.
Qed.
Lemma C90_partial_l (t c p : Vector3 R) : cones t c ->
  Y_to_ST2084 RN (Some (v0 c)) = Some (v0 p) -> Y_to_ST2084 RN (Some (v1 c)) = Some (v1 p) -> Y_to_ST2084 RN (Some (v2 c)) = Some (v2 p) ->
  2e-6 <= v0 p -> 2e-6 <= v1 p -> 2e-6 <= v2 p ->
  exists t' c' p', ICtCp_to_XYZ RN (XYZ_to_ICtCp RN (finV t)) = finV t' /\ cones t' c' /\
    Y_to_ST2084 RN (Some (v0 c')) = Some (v0 p') /\ Y_to_ST2084 RN (Some (v1 c')) = Some (v1 p') /\ Y_to_ST2084 RN (Some (v2 c')) = Some (v2 p') /\
    Rabs (v0 p' - v0 p) <= 3e-6 /\ Rabs (v1 p' - v1 p) <= 3e-6 /\ Rabs (v2 p' - v2 p) <= 3e-6.
Proof.
  intros C P0 P1 P2 H0 H1 H2. rewrite pqv_fin in P0, P1, P2. injection P0 as P0. injection P1 as P1. injection P2 as P2.
  pose proof (proj1 (cones_iff _ _) C) as E. pose proof (ictcp_back t) as B. cbv zeta in B. rewrite E in B.
  pose proof (pqv_range (v0 c)) as R0. pose proof (pqv_range (v1 c)) as R1. pose proof (pqv_range (v2 c)) as R2.
  pose proof (codes'_near (pqv (v0 c)) (pqv (v1 c)) (pqv (v2 c)) R0 R1 R2) as N. cbv zeta in N.
  rewrite P0, P1, P2 in *. set (q := codes' (v0 p) (v1 p) (v2 p)) in *. destruct N as (N0 & N1 & N2).
  apply Rabs_le_inv in N0, N1, N2.
  destruct (pq_dec_any (v0 q)) as (w0 & D0 & Q0); [lra|]. destruct (pq_dec_any (v1 q)) as (w1 & D1 & Q1); [lra|]. destruct (pq_dec_any (v2 q)) as (w2 & D2 & Q2); [lra|].
  rewrite D0, D1, D2 in B. change (V3 (Some w0) (Some w1) (Some w2)) with (finV (V3 w0 w1 w2)) in B.
  destruct HPE_good as (GT & _).
  exists (applyR (invR hpe) (V3 w0 w1 w2)), (V3 w0 w1 w2), (V3 (pqv w0) (pqv w1) (pqv w2)). cbn [v0 v1 v2].
  split; [rewrite B; unfold G_toXYZ_t; rewrite HPE_fin; unfold Gamut_of_fromXYZ; cbn [g_toXYZ]; rewrite M_invert_fin by apply hpe_det; apply M_apply_fin|].
  split; [apply cones_iff; rewrite <- applyR_mul, invR_r, applyR_id by apply hpe_det; reflexivity|].
  split; [apply pqv_fin|]. split; [apply pqv_fin|]. split; [apply pqv_fin|].
  repeat split; apply Rabs_le; lra.
Qed.
(** a colour whose first cone response is 0 or negative does not come back. *)
Lemma C90_refuted_gen t c : cones t c -> v0 c <= 0 -> 0 < v1 c -> ICtCp_to_XYZ RN (XYZ_to_ICtCp RN (finV t)) = V3 None None None.
Proof.
  intros C H0 H1. apply cones_iff in C. pose proof (ictcp_back t) as B. cbv zeta in B. rewrite C in B.
  assert (Z : pqv (v0 c) = 0) by (pose proof (pqv_fin (v0 c)) as P; rewrite pq_enc_lo in P by exact H0; congruence).
  assert (M : 0 < pqv (v1 c)).
  { unfold pqv. destruct (Rle_dec (v1 c) 0); [lra|]. destruct (Rle_dec 100 (v1 c)); [lra|]. apply Rpower_pos. }
  pose proof (pqv_range (v2 c)) as R2. rewrite Z in B.
  rewrite (pq_dec_neg (v0 (codes' 0 (pqv (v1 c)) (pqv (v2 c))))) in B by (unfold codes'; cbn [v0]; lra).
  rewrite B. unfold G_toXYZ_t. rewrite HPE_fin. unfold Gamut_of_fromXYZ. cbn [g_toXYZ]. rewrite M_invert_fin by apply hpe_det.
  reflexivity.
Qed.
Lemma C90_refuted_l : exists t c, cones t c /\ 0 <= v0 c <= 100 /\ 0 <= v1 c <= 100 /\ 0 <= v2 c <= 100 /\
  ICtCp_to_XYZ RN (XYZ_to_ICtCp RN (finV t)) = V3 None None None.
Proof.
  assert (C : cones (applyR (invR hpe) (V3 0 1 1)) (V3 0 1 1)) by (apply cones_iff; rewrite <- applyR_mul, invR_r, applyR_id by apply hpe_det; reflexivity).
  exists (applyR (invR hpe) (V3 0 1 1)), (V3 0 1 1). split; [exact C|]. cbn [v0 v1 v2]. repeat split; try lra.
  apply (C90_refuted_gen _ _ C); cbn [v0 v1]; lra.
Qed.
(** the blue axis of XYZ. *)
Lemma C90_refuted_Z z : 0 < z -> ICtCp_to_XYZ RN (XYZ_to_ICtCp RN (finV (V3 0 0 z))) = V3 None None None.
Proof.
  intros H. apply (C90_refuted_gen _ (V3 (- 0.0358 * z) (0.0755 * z) (0.8434 * z))); [|cbn [v0]; lra|cbn [v1]; lra].
  apply cones_iff. unfold hpe. spec. apply V3_eq; lra.
Qed.
Lemma C90_ex : exists t c, cones t c /\ Y_to_ST2084 RN (Some (v0 c)) = Some 0.5 /\ Y_to_ST2084 RN (Some (v1 c)) = Some 0.25 /\
  Y_to_ST2084 RN (Some (v2 c)) = Some 0.75.
Proof.
  pose proof dark_small. destruct (pq_rt2 0.5 ltac:(lra)) as (a & _ & _ & A), (pq_rt2 0.25 ltac:(lra)) as (b & _ & _ & B), (pq_rt2 0.75 ltac:(lra)) as (c & _ & _ & C).
  exists (applyR (invR hpe) (V3 a b c)), (V3 a b c). split; [apply cones_iff; rewrite <- applyR_mul, invR_r, applyR_id by apply hpe_det; reflexivity|]. auto.
Qed.
