(** * Oklab, ICtCp and the Euclidean colour differences. *)
From Coq Require Import ZArith Reals Lra Psatz.
From Flocq Require Import Core.Raux.
From Verif Require Import Num NumR MVec MTri MOtf MDelta SpecMat RTac PMat RPow POtf POtf2 PGamut.
Local Open Scope R_scope.

(** ** Cube roots *)
Lemma cbrt_cube x : R_cbrt x * R_cbrt x * R_cbrt x = x.
Proof.
  unfold R_cbrt. destruct (Rtotal_order 0 x) as [H|[H|H]].
  - rewrite Rlt_bool_true by lra. apply Rpower_third, H.
  - subst. rewrite Rlt_bool_false by lra. ring.
  - rewrite Rlt_bool_false by lra. rewrite Rlt_bool_true by lra.
    pose proof (Rpower_third (- x) ltac:(lra)). lra.
Qed.
Lemma cube_inj_R a b : a * a * a = b * b * b -> a = b.
Proof.
  intros H. assert (E : (a - b) * (a * a + a * b + b * b) = 0) by lra.
  apply Rmult_integral in E. destruct E as [E|E]; [lra|].
  pose proof (Rle_0_sqr (a + b / 2)) as A. pose proof (Rle_0_sqr (b + a / 2)) as B. unfold Rsqr in *.
  assert (a * a = 0) by (pose proof (Rle_0_sqr a); unfold Rsqr in *; lra).
  assert (b * b = 0) by (pose proof (Rle_0_sqr b); unfold Rsqr in *; lra).
  rewrite (Rsqr_0_uniq a), (Rsqr_0_uniq b) by assumption. reflexivity.
Qed.
Lemma cbrt_of_cube d : R_cbrt (d * d * d) = d.
Proof. apply cube_inj_R. apply cbrt_cube. Qed.
Lemma cbrt_scale k x : R_cbrt (k * k * k * x) = k * R_cbrt x.
Proof. apply cube_inj_R. rewrite cbrt_cube. pose proof (cbrt_cube x). transitivity (k * k * k * (R_cbrt x * R_cbrt x * R_cbrt x)); [congruence|ring]. Qed.

(** ** Oklab *)
Definition okm1 : Matrix3 R :=
  M3 0.8189330101 0.3618667424 (- 0.1288597137) (- 0.0329845436) 0.9293118715
     0.0361456387 0.0482003018 0.2643662691 0.6338517070.
Definition okm2 : Matrix3 R :=
  M3 0.2104542553 0.7936177850 (- 0.0040720468) 1.9779984951 (- 2.4285922050)
     0.4505937099 0.0259040371 0.7827717662 (- 0.8086757660).
Lemma okm1_fin : ok_m1 RN = finM okm1.
Proof. unfold ok_m1, okm1, finM. rl. apply M3_eq; fin_eq; qn; lra. Qed.
Lemma okm2_fin : ok_m2 RN = finM okm2.
Proof. unfold ok_m2, okm2, finM. rl. apply M3_eq; fin_eq; qn; lra. Qed.
Lemma okm1_det : detR okm1 <> 0.
Proof. unfold detR, okm1. spec. lra. Qed.
Lemma okm2_det : detR okm2 <> 0.
Proof. unfold detR, okm2. spec. lra. Qed.
Definition cbrtV (v : Vector3 R) := V3 (R_cbrt (v0 v)) (R_cbrt (v1 v)) (R_cbrt (v2 v)).
Definition cubeV (v : Vector3 R) := V3 (v0 v * v0 v * v0 v) (v1 v * v1 v * v1 v) (v2 v * v2 v * v2 v).
Lemma cubeV_cbrtV v : cubeV (cbrtV v) = v.
Proof. destruct v as [a b c]. unfold cubeV, cbrtV; cbn [v0 v1 v2]. now rewrite !cbrt_cube. Qed.
Lemma cbrtV_cubeV v : cbrtV (cubeV v) = v.
Proof. destruct v as [a b c]. unfold cubeV, cbrtV; cbn [v0 v1 v2]. now rewrite !cbrt_of_cube. Qed.
Definition oklab (t : Vector3 R) : Vector3 R := applyR okm2 (cbrtV (applyR okm1 t)).
Definition unoklab (t : Vector3 R) : Vector3 R := applyR (invR okm1) (cubeV (applyR (invR okm2) t)).
Lemma oklab_fin t : XYZ_to_OKLAB RN (finV t) = finV (oklab t).
Proof.
  unfold XYZ_to_OKLAB, T_apply. rewrite okm1_fin, okm2_fin, M_apply_fin.
  exact (M_apply_fin okm2 (cbrtV (applyR okm1 t))).
Qed.
Lemma unoklab_fin t : OKLAB_to_XYZ RN (finV t) = finV (unoklab t).
Proof.
  unfold OKLAB_to_XYZ, T_apply. rewrite okm1_fin, okm2_fin.
  rewrite !M_invert_fin by (apply okm1_det || apply okm2_det). rewrite M_apply_fin.
  exact (M_apply_fin (invR okm1) (cubeV (applyR (invR okm2) t))).
Qed.
Lemma C37_l (t : Vector3 R) :
  OKLAB_to_XYZ RN (XYZ_to_OKLAB RN (finV t)) = finV t /\
  XYZ_to_OKLAB RN (OKLAB_to_XYZ RN (finV t)) = finV t.
Proof.
  rewrite oklab_fin, !unoklab_fin, oklab_fin. unfold oklab, unoklab. split; f_equal.
  - rewrite <- (applyR_mul (invR okm2)), invR_l, applyR_id by apply okm2_det. rewrite cubeV_cbrtV.
    rewrite <- applyR_mul, invR_l, applyR_id by apply okm1_det. reflexivity.
  - rewrite <- (applyR_mul okm1), invR_r, applyR_id by apply okm1_det. rewrite cbrtV_cubeV.
    rewrite <- applyR_mul, invR_r, applyR_id by apply okm2_det. reflexivity.
Qed.
Lemma applyR_scale m k v : applyR m (scaleV k v) = scaleV k (applyR m v).
Proof. unfold scaleV. destruct v as [a b c]. unfold applyR, mkV, sum3. spec. apply V3_eq; cbn [v0 v1 v2]; ring. Qed.
Lemma C37_scale_l (t : Vector3 R) (k : R) : exists lab,
  XYZ_to_OKLAB RN (finV t) = finV lab /\
  XYZ_to_OKLAB RN (finV (scaleV (k * k * k) t)) = finV (scaleV k lab).
Proof.
  exists (oklab t). rewrite !oklab_fin. split; [reflexivity|]. f_equal. unfold oklab.
  rewrite applyR_scale, <- (applyR_scale okm2 k). f_equal. unfold cbrtV, scaleV. cbn [v0 v1 v2]. now rewrite !cbrt_scale.
Qed.

(** ** ICtCp *)
Definition hpe : Matrix3 R :=
  M3 0.3592 0.6976 (- 0.0358) (- 0.1922) 1.1004 0.0755 0.0070 0.0749 0.8434.
Lemma HPE_fin : HPE_LMS RN = Gamut_of_fromXYZ RN (finM hpe).
Proof. unfold HPE_LMS, hpe, finM. rl. apply f_equal, M3_eq; fin_eq; qn; lra. Qed.
Lemma hpe_det : detR hpe <> 0.
Proof. unfold detR, hpe. spec. lra. Qed.
Lemma HPE_good : good_gamut (HPE_LMS RN) (invR hpe) hpe.
Proof. rewrite HPE_fin. apply good_fromXYZ, hpe_det. Qed.
Definition pqv (v : R) : R := if Rle_dec v 0 then 0 else if Rle_dec 100 v then 1 else pq_enc v.
Lemma pqv_fin v : Y_to_ST2084 RN (Some v) = Some (pqv v).
Proof.
  unfold pqv. destruct (Rle_dec v 0); [apply pq_enc_lo; lra|]. destruct (Rle_dec 100 v); [apply pq_enc_hi; lra|].
  apply pq_enc_fin; lra.
Qed.
Lemma pqv_range v : 0 <= pqv v <= 1.
Proof. destruct (pq_mono v v (Rle_refl v)) as (a & b & A & B & H & ?). rewrite pqv_fin in A, B. injection A as <-. injection B as <-. lra. Qed.
Definition ictcp (t : Vector3 R) : Vector3 R :=
  let c := applyR hpe t in let l := pqv (v0 c) in let m := pqv (v1 c) in let s := pqv (v2 c) in
  V3 ((l + m) / 2) ((6610 * l - 13613 * m + 7003 * s) / 4096) ((17933 * l - 17390 * m - 543 * s) / 4096).
Lemma ictcp_fin t : XYZ_to_ICtCp RN (finV t) = finV (ictcp t).
Proof.
  unfold XYZ_to_ICtCp, G_fromXYZ_t. rewrite HPE_fin. unfold Gamut_of_fromXYZ. cbn [g_fromXYZ]. rewrite M_apply_fin.
  unfold ictcp. destruct (applyR hpe t) as [l m s].
  change ((finV (V3 l m s)).[0]) with (Some l). change ((finV (V3 l m s)).[1]) with (Some m). change ((finV (V3 l m s)).[2]) with (Some s).
  rewrite !pqv_fin. cbn [v0 v1 v2]. unfold finV. rl. rewrite !rdiv_ok by (qn; lra). apply V3_eq; fin_eq; qn; field.
Qed.
Lemma C38_range_l (t : Vector3 R) : exists i ct cp, XYZ_to_ICtCp RN (finV t) = finV (V3 i ct cp) /\ 0 <= i <= 1.
Proof.
  rewrite ictcp_fin. unfold ictcp. do 3 eexists. split; [reflexivity|].
  pose proof (pqv_range (v0 (applyR hpe t))). pose proof (pqv_range (v1 (applyR hpe t))). lra.
Qed.
Lemma C38_l (t : Vector3 R) (k : R) : G_fromXYZ_t RN (HPE_LMS RN) (finV t) = finV (V3 k k k) -> 
  exists i, XYZ_to_ICtCp RN (finV t) = finV (V3 i 0 0) /\
  (0 <= k <= 100 -> ICtCp_to_XYZ RN (XYZ_to_ICtCp RN (finV t)) = finV t).
Proof.
  intros H. rewrite HPE_fin in H. unfold G_fromXYZ_t, Gamut_of_fromXYZ in H. cbn [g_fromXYZ] in H.
  rewrite M_apply_fin in H. assert (E : applyR hpe t = V3 k k k).
  { destruct (applyR hpe t) as [a b c]. unfold finV in H; cbn [v0 v1 v2] in H. congruence. }
  rewrite ictcp_fin. assert (EI : ictcp t = V3 (pqv k) 0 0).
  { unfold ictcp. rewrite E. cbn [v0 v1 v2]. apply V3_eq; field. }
  rewrite EI. exists (pqv k). split; [reflexivity|]. intros K.
  destruct (pq_rt k K) as (c & A & B). rewrite pqv_fin in A. injection A as A. rewrite <- A in B.
  unfold ICtCp_to_XYZ. unfold finV at 1 2 3 4 5 6 7 8 9. rl.
  repeat match goal with |- context [ST2084_to_Y RN (Some ?x)] =>
    lazymatch x with pqv k => fail | _ => replace x with (pqv k) by ring end end.
  rewrite !B. rewrite HPE_fin. unfold G_toXYZ_t, Gamut_of_fromXYZ. cbn [g_toXYZ].
  rewrite M_invert_fin by apply hpe_det. change (V3 (Some k) (Some k) (Some k)) with (finV (V3 k k k)).
  rewrite M_apply_fin, <- E, <- applyR_mul, invR_l, applyR_id by apply hpe_det. reflexivity.
Qed.

(** ** Euclidean differences *)
Definition n3 (a b c : R) : R := sqrt (a * a + b * b + c * c).
Lemma n3_nonneg a b c : 0 <= n3 a b c. Proof. apply sqrt_pos. Qed.
Lemma sq3_nonneg a b c : 0 <= a * a + b * b + c * c.
Proof. pose proof (Rle_0_sqr a). pose proof (Rle_0_sqr b). pose proof (Rle_0_sqr c). unfold Rsqr in *. lra. Qed.
Lemma n3_sq a b c : n3 a b c * n3 a b c = a * a + b * b + c * c.
Proof. apply sqrt_def, sq3_nonneg. Qed.
Lemma n3_0 : n3 0 0 0 = 0.
Proof. unfold n3. replace (0 * 0 + 0 * 0 + 0 * 0) with 0 by ring. apply sqrt_0. Qed.
Lemma n3_zero a b c : n3 a b c = 0 -> a = 0 /\ b = 0 /\ c = 0.
Proof. intros H. pose proof (n3_sq a b c) as E. rewrite H in E. repeat split; nra. Qed.
Lemma n3_cs a b c d e f : a * d + b * e + c * f <= n3 a b c * n3 d e f.
Proof.
  assert (Q : (a * d + b * e + c * f) * (a * d + b * e + c * f) <= (n3 a b c * n3 d e f) * (n3 a b c * n3 d e f)).
  { replace (n3 a b c * n3 d e f * (n3 a b c * n3 d e f)) with ((n3 a b c * n3 a b c) * (n3 d e f * n3 d e f)) by ring.
    rewrite !n3_sq. 
    pose proof (Rle_0_sqr (a * e - b * d)). pose proof (Rle_0_sqr (a * f - c * d)). pose proof (Rle_0_sqr (b * f - c * e)).
    unfold Rsqr in *. lra. }
  pose proof (Rmult_le_pos _ _ (n3_nonneg a b c) (n3_nonneg d e f)). nra.
Qed.
Lemma n3_triangle a b c d e f : n3 (a + d) (b + e) (c + f) <= n3 a b c + n3 d e f.
Proof.
  pose proof (n3_nonneg a b c). pose proof (n3_nonneg d e f). pose proof (n3_nonneg (a + d) (b + e) (c + f)).
  pose proof (n3_cs a b c d e f). pose proof (n3_sq a b c). pose proof (n3_sq d e f). pose proof (n3_sq (a + d) (b + e) (c + f)).
  apply Rsqr_incr_0; [|assumption|lra]. unfold Rsqr. lra.
Qed.
Lemma n3_opp a b c : n3 (- a) (- b) (- c) = n3 a b c.
Proof. unfold n3. f_equal. ring. Qed.

Definition dE (p q : Vector3 R) : R := n3 (v0 p - v0 q) (v1 p - v1 q) (v2 p - v2 q).
Lemma dE_nonneg p q : 0 <= dE p q. Proof. apply n3_nonneg. Qed.
Lemma dE_sym p q : dE p q = dE q p.
Proof. unfold dE. rewrite <- n3_opp. f_equal; ring. Qed.
Lemma dE_self p : dE p p = 0.
Proof. unfold dE. rewrite <- n3_0. f_equal; ring. Qed.
Lemma dE_tri p q r : dE p r <= dE p q + dE q r.
Proof.
  unfold dE. replace (v0 p - v0 r) with ((v0 p - v0 q) + (v0 q - v0 r)) by ring.
  replace (v1 p - v1 r) with ((v1 p - v1 q) + (v1 q - v1 r)) by ring.
  replace (v2 p - v2 r) with ((v2 p - v2 q) + (v2 q - v2 r)) by ring. apply n3_triangle.
Qed.
Lemma dE_eq p q : dE p q = 0 -> p = q.
Proof. intros H. apply n3_zero in H. destruct p as [a b c], q as [d e f]; cbn [v0 v1 v2] in H. apply V3_eq; lra. Qed.

(** [metric d]: [d] is total, non-negative, symmetric, zero on equal arguments, triangular. *)
Definition metric (d : Vector3 (F RN) -> Vector3 (F RN) -> F RN) : Prop := exists D : Vector3 R -> Vector3 R -> R,
  (forall p q, d (finV p) (finV q) = Some (D p q)) /\ (forall p q, 0 <= D p q) /\ (forall p q, D p q = D q p) /\
  (forall p, D p p = 0) /\ (forall p q r, D p r <= D p q + D q r).
Lemma metric_pull (d : Vector3 (F RN) -> Vector3 (F RN) -> F RN) (f : Vector3 R -> Vector3 R) :
  (forall p q, d (finV p) (finV q) = Some (dE (f p) (f q))) -> metric d.
Proof.
  intros H. exists (fun p q => dE (f p) (f q)). split; [exact H|]. repeat split; intros.
  - apply dE_nonneg. - apply dE_sym. - apply dE_self. - apply dE_tri.
Qed.
Lemma E76_fin p q : Delta_E76 RN (finV p) (finV q) = Some (dE p q).
Proof. unfold Delta_E76, dE, n3. rl. rewrite rsqrt_ok by apply sq3_nonneg. reflexivity. Qed.
Lemma UV_fin p q : Delta_UV RN (finV p) (finV q) = Some (dE (V3 0 (v1 p) (v2 p)) (V3 0 (v1 q) (v2 q))).
Proof.
  unfold Delta_UV, dE, n3. rl. rewrite rsqrt_ok.
  - do 2 f_equal. ring.
  - pose proof (sq3_nonneg 0 (v1 p - v1 q) (v2 p - v2 q)). lra.
Qed.
Definition half1 (p : Vector3 R) : Vector3 R := V3 (v0 p) (v1 p / 2) (v2 p).
Lemma dICtCp_fin p q : Delta_ICtCp RN (finV p) (finV q) = Some (dE (half1 (ictcp p)) (half1 (ictcp q))).
Proof.
  unfold Delta_ICtCp, dE, n3, half1. rewrite !ictcp_fin. set (a := ictcp p). set (b := ictcp q). rl.
  cbn [v0 v1 v2]. match goal with |- rx_sqrt ?x = Some (sqrt ?y) => replace x with y by (qn; field) end.
  apply rsqrt_ok, sq3_nonneg.
Qed.
Lemma C39_l : metric (Delta_E76 RN) /\ metric (Delta_UV RN) /\ metric (Delta_ICtCp RN).
Proof.
  split; [|split].
  - apply (metric_pull _ (fun p => p)). apply E76_fin.
  - apply (metric_pull _ (fun p => V3 0 (v1 p) (v2 p))). apply UV_fin.
  - apply (metric_pull _ (fun p => half1 (ictcp p))). apply dICtCp_fin.
Qed.
Lemma C39_zero_l (p q : Vector3 R) : Delta_E76 RN (finV p) (finV q) = Some 0 <-> p = q.
Proof.
  rewrite E76_fin. split.
  - intros H. injection H as H. now apply dE_eq.
  - intros ->. now rewrite dE_self.
Qed.
Lemma C38_ex (k : R) : exists t, G_fromXYZ_t RN (HPE_LMS RN) (finV t) = finV (V3 k k k).
Proof.
  exists (applyR (invR hpe) (V3 k k k)). rewrite HPE_fin. unfold G_fromXYZ_t, Gamut_of_fromXYZ. cbn [g_fromXYZ].
  now rewrite M_apply_fin, <- applyR_mul, invR_r, applyR_id by apply hpe_det.
Qed.
Lemma C39_ex : Delta_E76 RN (finV (V3 50 3 4)) (finV (V3 50 0 0)) = Some 5.
Proof.
  rewrite E76_fin. f_equal. unfold dE, n3. cbn [v0 v1 v2]. replace (_ + _ + _) with (5 * 5) by ring. apply sqrt_square. lra.
Qed.
