(** * The predefined gamuts in binary32 against their exact values. *)
From Coq Require Import ZArith Reals Lra Lia List Bool.
From Flocq Require Import Core IEEE754.BinarySingleNaN.
From Verif Require Import Num NumR NumF MVec MTri RTac SpecMat PMat PTri PGamut F32 PMatF PHsvF PGamF.
Import ListNotations.
Local Open Scope R_scope.

(** ** Exact matrices with rational rows. *)
Record qmat := mkq { qn : Matrix3 Z; qd0 : Z; qd1 : Z; qd2 : Z }.
Definition qR (q : qmat) : Matrix3 R :=
  let n := qn q in
  M3 (IZR (m0 n) / IZR (qd0 q)) (IZR (m1 n) / IZR (qd0 q)) (IZR (m2 n) / IZR (qd0 q))
     (IZR (m3 n) / IZR (qd1 q)) (IZR (m4 n) / IZR (qd1 q)) (IZR (m5 n) / IZR (qd1 q))
     (IZR (m6 n) / IZR (qd2 q)) (IZR (m7 n) / IZR (qd2 q)) (IZR (m8 n) / IZR (qd2 q)).
(** The gamut with primaries and white given in units of 10^-5. *)
Definition p5 (x y : Z) : pt := (IZR x / 100000, IZR y / 100000).
Definition zarea (px py qx qy rx ry : Z) : Z := ((qx - px) * (ry - py) - (rx - px) * (qy - py))%Z.
Lemma area_z px py qx qy rx ry : area (p5 px py) (p5 qx qy) (p5 rx ry) = IZR (zarea px py qx qy rx ry) / 10000000000.
Proof. unfold area, p5, zarea. cbn [fst snd]. rewrite minus_IZR, !mult_IZR, !minus_IZR. field. Qed.
Section Q.
Context (rx ry gx gy bx by_ wx wy : Z).
Let A := zarea rx ry gx gy bx by_.
Let AR := zarea wx wy gx gy bx by_.
Let AG := zarea rx ry wx wy bx by_.
Let AB := zarea rx ry gx gy wx wy.
Let zz (x y : Z) : Z := (100000 - x - y)%Z.
Definition to_q : qmat :=
  mkq (M3 (AR * rx) (AG * gx) (AB * bx) (AR * ry) (AG * gy) (AB * by_) (AR * zz rx ry) (AG * zz gx gy) (AB * zz bx by_))%Z
      (wy * A) (wy * A) (wy * A).
Definition from_q : qmat :=
  let rz := zz rx ry in let gz := zz gx gy in let bz := zz bx by_ in
  mkq (M3 (wy * (gy * bz - by_ * gz)) (wy * (bx * gz - gx * bz)) (wy * (gx * by_ - bx * gy))
          (wy * (by_ * rz - ry * bz)) (wy * (rx * bz - bx * rz)) (wy * (bx * ry - rx * by_))
          (wy * (ry * gz - gy * rz)) (wy * (gx * rz - rx * gz)) (wy * (rx * gy - gx * ry)))%Z
      (AR * 100000) (AG * 100000) (AB * 100000).
Context (HA : A <> 0%Z) (HR : AR <> 0%Z) (HG : AG <> 0%Z) (HB : AB <> 0%Z) (HW : wy <> 0%Z).
Let r := p5 rx ry. Let g := p5 gx gy. Let b := p5 bx by_. Let w := p5 wx wy.
Lemma svec_z : svec r g b w = V3 (IZR AR * 100000 / (IZR wy * IZR A)) (IZR AG * 100000 / (IZR wy * IZR A)) (IZR AB * 100000 / (IZR wy * IZR A)).
Proof.
  unfold svec, sR, sG, sB, r, g, b, w. rewrite !area_z. unfold p5 at 1 2 3. cbn [snd]. fold A AR AG AB.
  assert (IZR A <> 0) by (now apply not_0_IZR). assert (IZR wy <> 0) by (now apply not_0_IZR).
  f_equal; field; auto.
Qed.
Lemma to_q_ok : gmat r g b w = qR to_q.
Proof.
  unfold gmat. rewrite svec_z. assert (IZR A <> 0) by (now apply not_0_IZR). assert (IZR wy <> 0) by (now apply not_0_IZR).
  unfold qR, to_q, zz. cbn [qn qd0 qd1 qd2 m0 m1 m2 m3 m4 m5 m6 m7 m8]. rewrite !mult_IZR, !minus_IZR.
  generalize dependent (IZR A). generalize (IZR AR) (IZR AG) (IZR AB). intros.
  unfold mulR, pmat, diagR, r, g, b, p5. spec. unfold xyz. cbn [v0 v1 v2 nth fst snd]. apply M3_eq; field; auto.
Qed.
Lemma inv_PD (p : Matrix3 R) x y z : detR p <> 0 -> x <> 0 -> y <> 0 -> z <> 0 ->
  invR (mulR p (diagR (V3 x y z))) =
  M3 (m0 (invR p) / x) (m1 (invR p) / x) (m2 (invR p) / x) (m3 (invR p) / y) (m4 (invR p) / y) (m5 (invR p) / y) (m6 (invR p) / z) (m7 (invR p) / z) (m8 (invR p) / z).
Proof.
  intros D X Y Z. unfold invR at 1. rewrite detR_mul, detR_diag. cbn [v0 v1 v2].
  unfold invR. generalize dependent (detR p). intros d D. destruct p. unfold mulR, diagR. spec. apply M3_eq; field; auto.
Qed.
Lemma from_q_ok : invR (gmat r g b w) = qR from_q.
Proof.
  assert (NA : IZR A <> 0) by (now apply not_0_IZR). assert (NW : IZR wy <> 0) by (now apply not_0_IZR).
  assert (NR : IZR AR <> 0) by (now apply not_0_IZR). assert (NG : IZR AG <> 0) by (now apply not_0_IZR). assert (NB : IZR AB <> 0) by (now apply not_0_IZR).
  assert (D : detR (pmat r g b) = IZR A / 10000000000) by (rewrite pmat_det; apply area_z).
  unfold gmat. rewrite svec_z, inv_PD.
  2:{ rewrite D. lra. }
  2,3,4: apply Rmult_integral_contrapositive_currified; [lra|apply Rinv_neq_0_compat, Rmult_integral_contrapositive_currified; assumption].
  unfold invR. rewrite D. unfold qR, from_q, zz. cbn [qn qd0 qd1 qd2 m0 m1 m2 m3 m4 m5 m6 m7 m8]. repeat rewrite ?mult_IZR, ?minus_IZR.
  generalize dependent (IZR A). generalize dependent (IZR AR). generalize dependent (IZR AG). generalize dependent (IZR AB). intros.
  unfold pmat, r, g, b, p5. spec. unfold xyz. cbn [v0 v1 v2 nth fst snd]. apply M3_eq; field; auto.
Qed.
End Q.

(** ** One row against its exact value: relative to the largest argument, [K u]. *)
Definition qrow (K : Z) (f0 f1 f2 n0 n1 n2 d : Z) : bool :=
  ((Z.abs (f0 * d - n0 * 2 ^ 80) + Z.abs (f1 * d - n1 * 2 ^ 80) + Z.abs (f2 * d - n2 * 2 ^ 80)) * 2 ^ 24
    + 4 * (Z.abs f0 + Z.abs f1 + Z.abs f2) * Z.abs d <=? K * 2 ^ 80 * Z.abs d)%Z.
Definition qchk (K : Z) (m : Matrix3 f32) (q : qmat) : bool :=
  match zM m with
  | Some f =>
      let n := qn q in
      qrow K (m0 f) (m1 f) (m2 f) (m0 n) (m1 n) (m2 n) (qd0 q) && qrow K (m3 f) (m4 f) (m5 f) (m3 n) (m4 n) (m5 n) (qd1 q) &&
      qrow K (m6 f) (m7 f) (m8 f) (m6 n) (m7 n) (m8 n) (qd2 q) &&
      negb (qd0 q =? 0)%Z && negb (qd1 q =? 0)%Z && negb (qd2 q =? 0)%Z &&
      (Z.abs (m0 f) + Z.abs (m1 f) + Z.abs (m2 f) <=? 24 * 2 ^ 80)%Z &&
      (Z.abs (m3 f) + Z.abs (m4 f) + Z.abs (m5 f) <=? 24 * 2 ^ 80)%Z &&
      (Z.abs (m6 f) + Z.abs (m7 f) + Z.abs (m8 f) <=? 24 * 2 ^ 80)%Z
  | None => false
  end.
Lemma qrow_ok K f0 f1 f2 n0 n1 n2 d : qrow K f0 f1 f2 n0 n1 n2 d = true -> d <> 0%Z ->
  Rabs (IZR f0 * s80 - IZR n0 / IZR d) + Rabs (IZR f1 * s80 - IZR n1 / IZR d) + Rabs (IZR f2 * s80 - IZR n2 / IZR d)
    + 4 * u * (Rabs (IZR f0 * s80) + Rabs (IZR f1 * s80) + Rabs (IZR f2 * s80)) <= IZR K * u.
Proof.
  unfold qrow. rewrite Z.leb_le. intros H Hd. apply IZR_le in H.
  rewrite plus_IZR, !mult_IZR, !plus_IZR, !abs_IZR, !minus_IZR, !mult_IZR in H.
  assert (ND : IZR d <> 0) by (now apply not_0_IZR). assert (PD : 0 < Rabs (IZR d)) by (now apply Rabs_pos_lt).
  assert (P : 0 < s80) by apply bpow_gt_0.
  assert (S1 : IZR (2 ^ 80) * s80 = 1). { unfold s80. change 2%Z with (radix_val radix2). rewrite (IZR_Zpower radix2) by lia. rewrite <- !bpow_plus. reflexivity. }
  assert (Hu : IZR (2 ^ 24) * u = 1). { unfold u. change 2%Z with (radix_val radix2). rewrite (IZR_Zpower radix2) by lia. rewrite <- !bpow_plus. reflexivity. }
  assert (X : forall f n, Rabs (IZR f * s80 - IZR n / IZR d) = Rabs (IZR f * IZR d - IZR n * IZR (2 ^ 80)) * (s80 / Rabs (IZR d))).
  { intros f n. rewrite <- (Rabs_pos_eq s80) at 2 by lra. unfold Rdiv at 2. rewrite <- Rabs_inv, <- !Rabs_mult. f_equal.
    replace ((IZR f * IZR d - IZR n * IZR (2 ^ 80)) * (s80 * / IZR d)) with (IZR f * s80 * (IZR d * / IZR d) - IZR n / IZR d * (IZR (2 ^ 80) * s80)) by (unfold Rdiv; ring).
    rewrite S1, Rinv_r by assumption. ring. }
  rewrite !X, !Rabs_mult, (Rabs_pos_eq s80) by lra.
  repeat match type of H with context [Rabs (?a - ?b)] => let q := fresh "q" in set (q := Rabs (a - b)) in *; clearbody q end.
  set (D := Rabs (IZR d)) in *. clearbody D. clear X ND.
  assert (Q : 0 < u * s80 / D). { apply Rmult_lt_0_compat; [apply Rmult_lt_0_compat; [apply F32.u_pos|lra]|now apply Rinv_0_lt_compat]. }
  apply (Rmult_le_compat_r (u * s80 / D)) in H; [|lra].
  generalize dependent (IZR (2 ^ 24)). generalize dependent (IZR (2 ^ 80)). intros k80 K80 k24 H K24.
  match type of H with (?e * _ + 4 * ?c * _) * _ <= _ =>
    replace ((e * k24 + 4 * c * D) * (u * s80 / D)) with (e * (s80 / D) * (k24 * u) + 4 * u * (c * s80)) in H by (field; lra) end.
  replace (IZR K * k80 * D * (u * s80 / D)) with (IZR K * u * (k80 * s80)) in H by (field; lra).
  rewrite K24, K80 in H. lra.
Qed.
Definition near_app (K : R) (f : Vector3 f32) (e : Vector3 R) (M : R) : Prop :=
  allV fin f /\ Rabs (B2R (v0 f) - v0 e) <= K * u * M + 4 * eta /\ Rabs (B2R (v1 f) - v1 e) <= K * u * M + 4 * eta /\
  Rabs (B2R (v2 f) - v2 e) <= K * u * M + 4 * eta.
Lemma qrow_real p q r x y z t0 t1 t2 K M v :
  Rabs (p - x) + Rabs (q - y) + Rabs (r - z) + 4 * u * (Rabs p + Rabs q + Rabs r) <= K * u ->
  Rabs t0 <= M -> Rabs t1 <= M -> Rabs t2 <= M ->
  Rabs (v - (p * t0 + q * t1 + r * t2)) <= 4 * u * (Rabs p * Rabs t0 + Rabs q * Rabs t1 + Rabs r * Rabs t2) + 4 * eta ->
  Rabs (v - (x * t0 + y * t1 + z * t2)) <= K * u * M + 4 * eta.
Proof.
  intros H T0 T1 T2 V. pose proof F32.u_pos as U. assert (PM : 0 <= M) by (pose proof (Rabs_pos t0); lra).
  replace (v - (x * t0 + y * t1 + z * t2)) with (v - (p * t0 + q * t1 + r * t2) + ((p - x) * t0 + (q - y) * t1 + (r - z) * t2)) by ring.
  eapply Rle_trans; [apply Rabs_triang|]. apply (Rmult_le_compat_r M) in H; [|exact PM].
  assert (E : Rabs ((p - x) * t0 + (q - y) * t1 + (r - z) * t2) <= Rabs (p - x) * M + Rabs (q - y) * M + Rabs (r - z) * M).
  { eapply Rle_trans; [apply abs3|]. rewrite !Rabs_mult. repeat apply Rplus_le_compat; apply Rmult_le_compat_l; auto using Rabs_pos. }
  assert (S : Rabs p * Rabs t0 + Rabs q * Rabs t1 + Rabs r * Rabs t2 <= Rabs p * M + Rabs q * M + Rabs r * M).
  { repeat apply Rplus_le_compat; apply Rmult_le_compat_l; auto using Rabs_pos. }
  apply (Rmult_le_compat_l (4 * u)) in S; [|lra]. lra.
Qed.
Lemma qchk_ok (lm : libm) K m q (t : Vector3 f32) : qchk K m q = true -> allV fin t -> norm3 t <= bpow radix2 110 ->
  near_app (IZR K) (M_apply (FN lm) m t) (applyR (qR q) (vR t)) (norm3 t).
Proof.
  unfold qchk. destruct (zM m) as [f|] eqn:E; [|discriminate]. rewrite !andb_true_iff, !Z.leb_le, !negb_true_iff, !Z.eqb_neq.
  intros ((((((((R0 & R1) & R2) & D0) & D1) & D2) & S0) & S1) & S2) Ft HM.
  apply zM_ok in E. destruct E as (FA & A0 & A1 & A2 & A3 & A4 & A5 & A6 & A7 & A8).
  apply qrow_ok in R0, R1, R2; try assumption. apply sum_le_Z in S0, S1, S2.
  revert R0 R1 R2 S0 S1 S2. rewrite <- !A0, <- !A1, <- !A2, <- !A3, <- !A4, <- !A5, <- !A6, <- !A7, <- !A8. intros R0 R1 R2 S0 S1 S2.
  clear A0 A1 A2 A3 A4 A5 A6 A7 A8 f.
  destruct (norm3_ge t) as (N0 & N1 & N2). set (M := norm3 t) in *. clearbody M.
  rewrite apply_rows. destruct m as [a00 a01 a02 a10 a11 a12 a20 a21 a22], t as [t0 t1 t2]. unfold allM in FA. cbn [m0 m1 m2 m3 m4 m5 m6 m7 m8 v0 v1 v2] in *.
  destruct FA as (FA0 & FA1 & FA2 & FA3 & FA4 & FA5 & FA6 & FA7 & FA8).
  assert (L : bpow radix2 110 <= bpow radix2 120) by (apply bpow_le; lia).
  assert (W : forall p q r : f32, fin p -> fin q -> fin r -> Rabs (B2R p) + Rabs (B2R q) + Rabs (B2R r) <= 24 ->
     let y := V_dot (FN lm) (V3 p q r) (V3 t0 t1 t2) in fin y /\
     Rabs (B2R y - (B2R p * B2R t0 + B2R q * B2R t1 + B2R r * B2R t2)) <= 4 * u * (Rabs (B2R p) * Rabs (B2R t0) + Rabs (B2R q) * Rabs (B2R t1) + Rabs (B2R r) * Rabs (B2R t2)) + 4 * eta).
  { intros p q' r Fp Fq Fr Hs. destruct (row_dot lm (V3 p q' r) (V3 t0 t1 t2) M) as (Fy & Ey & _); try assumption; [repeat split; assumption..|lra|].
    split; [exact Fy|exact Ey]. }
  destruct (W a00 a01 a02) as (Fz0 & Ez0); try assumption. destruct (W a10 a11 a12) as (Fz1 & Ez1); try assumption. destruct (W a20 a21 a22) as (Fz2 & Ez2); try assumption.
  split; [repeat split; assumption|].
  exact (conj (qrow_real _ _ _ _ _ _ _ _ _ _ M _ R0 N0 N1 N2 Ez0) (conj (qrow_real _ _ _ _ _ _ _ _ _ _ M _ R1 N0 N1 N2 Ez1) (qrow_real _ _ _ _ _ _ _ _ _ _ M _ R2 N0 N1 N2 Ez2))).
Qed.

(** ** The ten gamuts. *)
Definition gamut_fun := forall N : Num, Gamut (F N).
Definition agrees (lm : libm) (G : gamut_fun) : Prop :=
  forall t : Vector3 f32, allV fin t -> norm3 t <= bpow radix2 110 ->
    (exists e, G_toXYZ_t RN (G RN) (finV (vR t)) = finV e /\ near_app 10 (G_toXYZ_t (FN lm) (G (FN lm)) t) e (norm3 t)) /\
    (exists e, G_fromXYZ_t RN (G RN) (finV (vR t)) = finV e /\ near_app 30 (G_fromXYZ_t (FN lm) (G (FN lm)) t) e (norm3 t)).
Lemma agrees_by lm (G : gamut_fun) a b : G RN = mkGamut (finM (qR a)) (finM (qR b)) ->
  qchk 10 (g_toXYZ (G (FN lm))) a = true -> qchk 30 (g_fromXYZ (G (FN lm))) b = true -> agrees lm G.
Proof.
  intros E A B t Ft HM. rewrite E. unfold G_toXYZ_t, G_fromXYZ_t. cbn [g_toXYZ g_fromXYZ]. split; eexists.
  - split; [apply M_apply_fin|]. now apply (qchk_ok lm 10).
  - split; [apply M_apply_fin|]. now apply (qchk_ok lm 30).
Qed.
Lemma prim_eq (rx ry gx gy bx by_ wx wy : Z) :
  negb (zarea rx ry gx gy bx by_ =? 0)%Z && negb (zarea wx wy gx gy bx by_ =? 0)%Z && negb (zarea rx ry wx wy bx by_ =? 0)%Z &&
  negb (zarea rx ry gx gy wx wy =? 0)%Z && (1 <=? wy)%Z = true ->
  gamut_of (p5 rx ry) (p5 gx gy) (p5 bx by_) (p5 wx wy) =
  mkGamut (finM (qR (to_q rx ry gx gy bx by_ wx wy))) (finM (qR (from_q rx ry gx gy bx by_ wx wy))).
Proof.
  rewrite !andb_true_iff, !negb_true_iff, !Z.eqb_neq, Z.leb_le. intros ((((A & B) & C) & D) & E).
  apply IZR_le in E as E'.
  assert (Y : eps8 <= Rabs (snd (p5 wx wy))) by (unfold p5, eps8; cbn [snd]; rewrite Rabs_pos_eq by lra; lra).
  assert (Ar : forall a b c d e f, zarea a b c d e f <> 0%Z -> area (p5 a b) (p5 c d) (p5 e f) <> 0).
  { intros a b c d e f H. rewrite area_z. apply not_0_IZR in H. lra. }
  destruct (good_primaries (p5 rx ry) (p5 gx gy) (p5 bx by_) (p5 wx wy)) as (G1 & G2 & _); auto.
  rewrite to_q_ok in G1 by lia. rewrite from_q_ok in G2 by lia. destruct (gamut_of _ _ _ _) as [x y]. cbn in G1, G2. now rewrite G1, G2.
Qed.
Ltac prim_rn := match goal with |- ?G = mkGamut (finM (qR (to_q ?a ?b ?c ?d ?e ?f ?g ?h))) _ =>
  transitivity (gamut_of (p5 a b) (p5 c d) (p5 e f) (p5 g h)); [|apply prim_eq; vm_compute; reflexivity] end;
  unfold gamut_of, p5; cbn [fst snd]; f_equal; rl; fin_eq; qn; lra.
Lemma AdobeRGB_agrees lm : agrees lm AdobeRGB.
Proof.
  apply (agrees_by lm _ (to_q 64000 33000 21000 71000 15000 6000 31270 32900) (from_q 64000 33000 21000 71000 15000 6000 31270 32900));
    [unfold AdobeRGB; prim_rn|vm_compute; reflexivity..].
Qed.
Lemma Rec709_agrees lm : agrees lm Rec709.
Proof.
  apply (agrees_by lm _ (to_q 64000 33000 30000 60000 15000 6000 31270 32900) (from_q 64000 33000 30000 60000 15000 6000 31270 32900));
    [unfold Rec709; prim_rn|vm_compute; reflexivity..].
Qed.
Lemma Rec2020_agrees lm : agrees lm Rec2020.
Proof.
  apply (agrees_by lm _ (to_q 70800 29200 17000 79700 13100 4600 31270 32900) (from_q 70800 29200 17000 79700 13100 4600 31270 32900));
    [unfold Rec2020; prim_rn|vm_compute; reflexivity..].
Qed.
Lemma DCI_P3_agrees lm : agrees lm DCI_P3.
Proof.
  apply (agrees_by lm _ (to_q 68000 32000 26500 69000 15000 6000 31400 35100) (from_q 68000 32000 26500 69000 15000 6000 31400 35100));
    [unfold DCI_P3; prim_rn|vm_compute; reflexivity..].
Qed.
Lemma S_Gamut_agrees lm : agrees lm S_Gamut.
Proof.
  apply (agrees_by lm _ (to_q 73000 28000 14000 85500 10000 (-5000) 31270 32900) (from_q 73000 28000 14000 85500 10000 (-5000) 31270 32900));
    [unfold S_Gamut; prim_rn|vm_compute; reflexivity..].
Qed.
Lemma S_Gamut3_Cine_agrees lm : agrees lm S_Gamut3_Cine.
Proof.
  apply (agrees_by lm _ (to_q 76600 27500 22500 80000 8900 (-8700) 31270 32900) (from_q 76600 27500 22500 80000 8900 (-8700) 31270 32900));
    [unfold S_Gamut3_Cine; prim_rn|vm_compute; reflexivity..].
Qed.
Lemma ACEScg_agrees lm : agrees lm ACEScg.
Proof.
  apply (agrees_by lm _ (to_q 71300 29300 16500 83000 12800 4400 32168 33767) (from_q 71300 29300 16500 83000 12800 4400 32168 33767));
    [unfold ACEScg; prim_rn|vm_compute; reflexivity..].
Qed.
Lemma ACES2065_agrees lm : agrees lm ACES2065.
Proof.
  apply (agrees_by lm _ (to_q 73470 26530 0 100000 10 (-7700) 32168 33767) (from_q 73470 26530 0 100000 10 (-7700) 32168 33767));
    [unfold ACES2065; prim_rn|vm_compute; reflexivity..].
Qed.
Definition brad_q : qmat := mkq (M3 8951 2664 (-1614) (-7502) 17135 367 389 (-685) 10296)%Z 10000 10000 10000.
Definition cof (m : Matrix3 Z) : Matrix3 Z :=
  (M3 (m4 m * m8 m - m5 m * m7 m) (m2 m * m7 m - m1 m * m8 m) (m1 m * m5 m - m2 m * m4 m)
     (m5 m * m6 m - m3 m * m8 m) (m0 m * m8 m - m2 m * m6 m) (m2 m * m3 m - m0 m * m5 m)
     (m3 m * m7 m - m4 m * m6 m) (m1 m * m6 m - m0 m * m7 m) (m0 m * m4 m - m1 m * m3 m))%Z.
Definition brad_inv_q : qmat :=
  let c := cof (qn brad_q) in
  let d := (8951 * m0 c + 2664 * m3 c + (-1614) * m6 c)%Z in
  mkq (M3 (m0 c * 10000) (m1 c * 10000) (m2 c * 10000) (m3 c * 10000) (m4 c * 10000) (m5 c * 10000) (m6 c * 10000) (m7 c * 10000) (m8 c * 10000))%Z d d d.
Lemma brad_qR : bradR = qR brad_q.
Proof. unfold bradR, qR, brad_q. cbn [qn qd0 qd1 qd2 m0 m1 m2 m3 m4 m5 m6 m7 m8]. apply M3_eq; lra. Qed.
Lemma brad_inv_qR : invR bradR = qR brad_inv_q.
Proof.
  assert (D : detR bradR = 1790016463355 / 1000000000000) by (unfold detR, bradR; spec; lra).
  unfold invR. rewrite D. let q := eval vm_compute in brad_inv_q in change brad_inv_q with q.
  unfold qR, bradR. cbn [qn qd0 qd1 qd2 m0 m1 m2 m3 m4 m5 m6 m7 m8]. spec. apply M3_eq; lra.
Qed.
Lemma LMS_agrees lm : agrees lm LMS.
Proof.
  apply (agrees_by lm _ brad_inv_q brad_q); [|vm_compute; reflexivity..].
  rewrite <- brad_qR, <- brad_inv_qR. destruct LMS_good as (A & B & _). destruct (LMS RN) as [x y]. cbn in A, B. now rewrite A, B.
Qed.
Definition id_q : qmat := mkq (M3 1 0 0 0 1 0 0 0 1)%Z 1 1 1.
Lemma XYZ_agrees lm : agrees lm XYZ_gamut.
Proof.
  apply (agrees_by lm _ id_q id_q); [|vm_compute; reflexivity..].
  destruct XYZ_good as (A & B & _). destruct (XYZ_gamut RN) as [x y]. cbn [g_toXYZ g_fromXYZ] in A, B. rewrite A, B. f_equal; f_equal;
    unfold invR, qR, detR, idR, id_q; cbn [qn qd0 qd1 qd2 m0 m1 m2 m3 m4 m5 m6 m7 m8]; spec; apply M3_eq; field; lra.
Qed.
Lemma all_agree lm : Forall (agrees lm)
  (AdobeRGB :: Rec709 :: Rec2020 :: DCI_P3 :: S_Gamut :: S_Gamut3_Cine :: ACEScg :: ACES2065 :: LMS :: XYZ_gamut :: nil).
Proof.
  repeat apply Forall_cons; auto using AdobeRGB_agrees, Rec709_agrees, Rec2020_agrees, DCI_P3_agrees, S_Gamut_agrees, S_Gamut3_Cine_agrees, ACEScg_agrees, ACES2065_agrees, LMS_agrees, XYZ_agrees.
Qed.
