(** * Oklab round trip in binary32. *)
From Coq Require Import ZArith Reals Lra Lia List Bool.
From Flocq Require Import Core IEEE754.BinarySingleNaN.
From Verif Require Import Num NumR NumF MVec MTri MDelta RTac SpecMat PMat PDelta F32 PMatF PHsvF PLibm PGamF PGamF2 PBlackF PBradF.
Import ListNotations.
Local Open Scope R_scope.

(** What is asked of [cbrtf]: relative error at most 4 * 2^-24. *)
Definition cbrt_ok (lm : libm) : Prop := forall x : f32, fin x ->
  fin (lm_cbrtf lm x) /\ Rabs (B2R (lm_cbrtf lm x) - R_cbrt (B2R x)) <= 4 * u * Rabs (R_cbrt (B2R x)).
Section F.
Context (lm : libm).
Notation N := (FN lm).

Lemma b127_big : 1e38 <= bpow radix2 127.
Proof.
  change (bpow radix2 127) with (IZR 170141183460469231731687303715884105728). lra.
Qed.
Lemma eta45 : 0 < eta <= 1e-45.
Proof.
  split; [apply F32.eta_pos|]. unfold eta. change (bpow radix2 (-150)) with (/ IZR 1427247692705959881058285969449495136382746624). 
  apply Rmult_le_reg_r with (IZR 1427247692705959881058285969449495136382746624); [lra|]. rewrite Rinv_l; lra.
Qed.
Lemma cube_ok (x : f32) W : fin x -> Rabs (B2R x) <= W -> 0 <= W <= 1e11 ->
  let c := @fmul N (@fmul N x x) x in fin c /\ Rabs (B2R c - B2R x * B2R x * B2R x) <= 2.001 * u * (W * W * W) + (1.1 * W + 2) * eta.
Proof.
  intros F H B c. pose proof u16 as U. pose proof eta45 as E. pose proof b127_big as BB. set (r := B2R x) in *.
  assert (R2 : Rabs (r * r) <= W * W) by (rewrite Rabs_mult; pose proof (Rabs_pos r); nra).
  assert (W2 : 0 <= W * W <= 1e22) by nra.
  destruct (mul_ok lm x x F F) as [F1 V1]; [fold r; lra|]. fold r in V1.
  pose proof (rnd_err_abs (r * r)) as E1. rewrite <- V1 in E1. set (p := B2R (@fmul N x x)) in *.
  assert (E1' : Rabs (p - r * r) <= u * (W * W) + eta) by (rewrite U in *; lra).
  assert (P : Rabs p <= W * W * (1 + u) + eta). { replace p with (p - r * r + r * r) by ring. eapply Rle_trans; [apply Rabs_triang|]. lra. }
  assert (P2 : Rabs (p * r) <= (W * W * (1 + u) + eta) * W) by (rewrite Rabs_mult; apply Rmult_le_compat; auto using Rabs_pos).
  assert (W3 : 0 <= W * W * W <= 1e33) by nra.
  assert (P3 : (W * W * (1 + u) + eta) * W <= 1.0000001 * (W * W * W) + eta * W) by (rewrite U; lra).
  assert (EW : 0 <= eta * W <= 1e-30) by nra.
  destruct (mul_ok lm (@fmul N x x) x F1 F) as [F2 V2]; [fold r p; rewrite U in *; lra|]. fold r p in V2.
  split; [exact F2|]. fold c in V2. pose proof (rnd_err_abs (p * r)) as E2. rewrite <- V2 in E2.
  replace (B2R c - r * r * r) with ((B2R c - p * r) + (p - r * r) * r) by ring. eapply Rle_trans; [apply Rabs_triang|]. rewrite (Rabs_mult (p - r * r)).
  assert (E3 : Rabs (p - r * r) * Rabs r <= (u * (W * W) + eta) * W) by (apply Rmult_le_compat; auto using Rabs_pos).
  rewrite U in *. lra.
Qed.
Lemma cube_diff a b W : Rabs a <= W -> Rabs b <= W -> Rabs (a * a * a - b * b * b) <= Rabs (a - b) * (3 * (W * W)).
Proof.
  intros A B. replace (a * a * a - b * b * b) with ((a - b) * (a * a + a * b + b * b)) by ring. rewrite Rabs_mult. apply Rmult_le_compat_l; [apply Rabs_pos|].
  eapply Rle_trans; [apply abs3|]. rewrite !Rabs_mult. pose proof (Rabs_pos a). pose proof (Rabs_pos b). nra.
Qed.
Lemma cbrt_abs x : Rabs (R_cbrt x) * Rabs (R_cbrt x) * Rabs (R_cbrt x) = Rabs x.
Proof. rewrite <- !Rabs_mult. now rewrite cbrt_cube. Qed.
Lemma cbrt_rel (y d : R) : Rabs (d - R_cbrt y) <= 4 * u * Rabs (R_cbrt y) ->
  Rabs (d * d * d - y) <= 12.01 * u * Rabs y /\ Rabs d * Rabs d * Rabs d <= 1.00001 * Rabs y.
Proof.
  intros H. pose proof u16 as U. pose proof (cbrt_abs y) as C. pose proof (cbrt_cube y) as C'. set (q := R_cbrt y) in *. pose proof (Rabs_pos q) as Q.
  assert (D : Rabs d <= (1 + 4 * u) * Rabs q). { replace d with (d - q + q) by ring. eapply Rle_trans; [apply Rabs_triang|]. lra. }
  set (W := (1 + 4 * u) * Rabs q) in *. split.
  - rewrite <- C' at 1. eapply Rle_trans; [apply (cube_diff d q W D)|]; [unfold W; rewrite U; lra|].
    apply Rle_trans with (4 * u * Rabs q * (3 * (W * W))); [apply Rmult_le_compat_r; [nra|exact H]|].
    rewrite <- C. replace (4 * u * Rabs q * (3 * (W * W))) with (12 * u * ((1 + 4 * u) * (1 + 4 * u)) * (Rabs q * Rabs q * Rabs q)) by (unfold W; ring).
    apply Rmult_le_compat_r; [rewrite C; apply Rabs_pos|]. rewrite U. lra.
  - assert (K : Rabs d * Rabs d * Rabs d <= W * W * W). { pose proof (Rabs_pos d). assert (Rabs d * Rabs d <= W * W) by (apply Rmult_le_compat; lra). apply Rmult_le_compat; nra. }
    eapply Rle_trans; [exact K|]. replace (W * W * W) with ((1 + 4 * u) * (1 + 4 * u) * (1 + 4 * u) * (Rabs q * Rabs q * Rabs q)) by (unfold W; ring).
    rewrite C. apply Rmult_le_compat_r; [apply Rabs_pos|]. rewrite U. lra.
Qed.
(** the cube of a perturbed cube root. *)
Lemma back_cube (y d d' : f32) D Y : fin d' -> Rabs (B2R d - R_cbrt (B2R y)) <= 4 * u * Rabs (R_cbrt (B2R y)) ->
  Rabs (B2R d) <= D -> Rabs (B2R d' - B2R d) <= 50 * u * D + 128 * eta -> Rabs (B2R y) <= Y -> D * D * D <= 1.00001 * Y -> Y <= 1e31 ->
  let c := @fmul N (@fmul N d' d') d' in fin c /\ Rabs (B2R c - B2R y) <= 168 * u * Y + 1e-38.
Proof.
  intros Fd' Hd HD He HY DY BY c. pose proof u16 as U. pose proof eta45 as E.
  destruct (cbrt_rel _ _ Hd) as [A _]. assert (D0 : 0 <= D) by (pose proof (Rabs_pos (B2R d)); lra). assert (Y0 : 0 <= Y) by (pose proof (Rabs_pos (B2R y)); lra).
  assert (DB : D <= 3e10). { destruct (Rle_dec D 3e10); [assumption|]. exfalso. assert (9e20 <= D * D) by nra. nra. }
  set (W := D + (50 * u * D + 128 * eta)).
  assert (RW : Rabs (B2R d') <= W). { replace (B2R d') with (B2R d' - B2R d + B2R d) by ring. eapply Rle_trans; [apply Rabs_triang|]. unfold W. lra. }
  assert (WB : 0 <= W <= 1e11) by (unfold W; rewrite U in *; lra).
  assert (WU : W <= 1.00001 * D + 1e-42) by (unfold W; rewrite U in *; lra).
  destruct (cube_ok d' W Fd' RW WB) as [F V]. split; [exact F|].
  pose proof (cube_diff (B2R d') (B2R d) W RW ltac:(unfold W; rewrite U in *; lra)) as CD.
  assert (D2 : D * D <= 1 + D * D * D). { destruct (Rle_dec D 1); [|nra]. assert (0 <= D * D * D) by (repeat apply Rmult_le_pos; assumption). nra. }
  assert (D1 : D <= 1 + D * D * D). { assert (0 <= D * D * D) by (repeat apply Rmult_le_pos; assumption). destruct (Rle_dec D 1); [lra|]. assert (D <= D * D) by nra. assert (D * D <= D * D * D) by nra. lra. }
  assert (D3 : 0 <= D * D * D) by (repeat apply Rmult_le_pos; assumption).
  assert (W2 : W * W <= 1.00003 * (D * D) + 1e-41 * D + 1e-42) by nra.
  assert (W3 : W * W * W <= 1.0001 * (D * D * D) + 1e-40). { apply Rle_trans with ((1.00003 * (D * D) + 1e-41 * D + 1e-42) * (1.00001 * D + 1e-42)); [apply Rmult_le_compat; nra|]. nra. }
  assert (CD2 : Rabs (B2R d' - B2R d) * (3 * (W * W)) <= (50 * u * D + 128 * eta) * (3 * (1.00003 * (D * D) + 1e-41 * D + 1e-42))).
  { apply Rmult_le_compat; [apply Rabs_pos|nra|exact He|lra]. }
  assert (CD3 : (50 * u * D + 128 * eta) * (3 * (1.00003 * (D * D) + 1e-41 * D + 1e-42)) <= 150.01 * u * (D * D * D) + 1e-40).
  { rewrite U in *. assert (eta * (D * D) <= 1e-45 * (1 + D * D * D)) by (apply Rmult_le_compat; nra). assert (eta * D <= 1e-45 * (1 + D * D * D)) by (apply Rmult_le_compat; nra). lra. }
  assert (WE : (1.1 * W + 2) * eta <= 1e-43 + 1e-20 * u * (D * D * D)). { rewrite U in *. assert (eta * D <= 1e-45 * (1 + D * D * D)) by (apply Rmult_le_compat; nra). assert (W * eta <= (1.00001 * D + 1e-42) * eta) by (apply Rmult_le_compat_r; lra). lra. }
  replace (B2R c - B2R y) with ((B2R c - B2R d' * B2R d' * B2R d') + (B2R d' * B2R d' * B2R d' - B2R d * B2R d * B2R d) + (B2R d * B2R d * B2R d - B2R y)) by ring.
  eapply Rle_trans; [apply abs3|]. fold c in V. rewrite U in *. lra.
Qed.

(** Row sums of a matrix of floats, in hundredths. *)
Definition rsum (m : Matrix3 f32) (k : Z) : bool :=
  match zM m with
  | Some z => (100 * (Z.abs (m0 z) + Z.abs (m1 z) + Z.abs (m2 z)) <=? k * 2 ^ 80)%Z && (100 * (Z.abs (m3 z) + Z.abs (m4 z) + Z.abs (m5 z)) <=? k * 2 ^ 80)%Z &&
              (100 * (Z.abs (m6 z) + Z.abs (m7 z) + Z.abs (m8 z)) <=? k * 2 ^ 80)%Z
  | None => false
  end.
Lemma rsum_Z k x y z : (100 * (Z.abs x + Z.abs y + Z.abs z) <= k * 2 ^ 80)%Z -> Rabs (IZR x * s80) + Rabs (IZR y * s80) + Rabs (IZR z * s80) <= IZR k / 100.
Proof.
  intros H. apply IZR_le in H. rewrite !mult_IZR, !plus_IZR, !abs_IZR in H. assert (P : 0 < s80) by apply bpow_gt_0.
  rewrite !Rabs_mult, (Rabs_pos_eq s80) by lra.
  assert (S : IZR (2 ^ 80) * s80 = 1). { unfold s80. change 2%Z with (radix_val radix2). rewrite (IZR_Zpower radix2) by lia. rewrite <- bpow_plus. reflexivity. }
  apply (Rmult_le_compat_r s80) in H; [|lra]. rewrite (Rmult_assoc (IZR k)), S in H. lra.
Qed.
Definition rowsum (r : Vector3 f32) : R := Rabs (B2R (v0 r)) + Rabs (B2R (v1 r)) + Rabs (B2R (v2 r)).
Lemma rsum_ok m k : rsum m k = true -> allM fin m /\
  rowsum (V3 (m0 m) (m1 m) (m2 m)) <= IZR k / 100 /\ rowsum (V3 (m3 m) (m4 m) (m5 m)) <= IZR k / 100 /\ rowsum (V3 (m6 m) (m7 m) (m8 m)) <= IZR k / 100.
Proof.
  unfold rsum, rowsum. destruct (zM m) as [z|] eqn:E; [|discriminate]. rewrite !andb_true_iff, !Z.leb_le. intros ((A & B) & C).
  apply zM_ok in E. destruct E as (F & -> & -> & -> & -> & -> & -> & -> & -> & ->) || (destruct E as (F & E0 & E1 & E2 & E3 & E4 & E5 & E6 & E7 & E8); cbn [v0 v1 v2]; rewrite E0, E1, E2, E3, E4, E5, E6, E7, E8).
  apply rsum_Z in A, B, C. auto.
Qed.
Lemma row_pert (r c y : Vector3 f32) Y de : allV fin r -> allV fin c -> allV fin y -> rowsum r <= 2.1 -> allV (fun x => Rabs (B2R x) <= Y) y ->
  Rabs (B2R (v0 c) - B2R (v0 y)) <= de -> Rabs (B2R (v1 c) - B2R (v1 y)) <= de -> Rabs (B2R (v2 c) - B2R (v2 y)) <= de -> Y + de <= 1e32 ->
  fin (V_dot N r c) /\ Rabs (B2R (V_dot N r c) - B2R (V_dot N r y)) <= 2.1 * de + 8.4 * u * (2 * Y + de) + 8 * eta.
Proof.
  intros Fr Fc Fy RS HY C0 C1 C2 B. assert (B120 : 1e32 <= bpow radix2 120) by (change (bpow radix2 120) with (IZR (2 ^ 120)); replace (2 ^ 120)%Z with 1329227995784915872903807060280344576%Z by reflexivity; lra).
  destruct HY as (Y0 & Y1 & Y2). pose proof (Rabs_pos (B2R (v0 c) - B2R (v0 y))) as P0. pose proof (Rabs_pos (B2R (v0 y))) as P1.
  assert (K : forall p q, Rabs (p - q) <= de -> Rabs q <= Y -> Rabs p <= Y + de). { intros p q A D. replace p with (p - q + q) by ring. eapply Rle_trans; [apply Rabs_triang|]. lra. }
  assert (Z0 := K _ _ C0 Y0). assert (Z1 := K _ _ C1 Y1). assert (Z2 := K _ _ C2 Y2).
  destruct (row_dot lm r c (Y + de) Fr Fc) as (F1 & E1 & _); [repeat split; assumption|unfold rowsum in RS; lra|lra|].
  destruct (row_dot lm r y Y Fr Fy) as (F2 & E2 & _); [repeat split; assumption|unfold rowsum in RS; lra|lra|].
  split; [exact F1|]. unfold rowsum in RS. unfold dotR in *.
  set (a := Rabs (B2R (v0 r))) in *. set (b := Rabs (B2R (v1 r))) in *. set (d := Rabs (B2R (v2 r))) in *.
  assert (Pa : 0 <= a) by apply Rabs_pos. assert (Pb : 0 <= b) by apply Rabs_pos. assert (Pd : 0 <= d) by apply Rabs_pos.
  assert (S : forall W p q s, Rabs p <= W -> Rabs q <= W -> Rabs s <= W -> a * Rabs p + b * Rabs q + d * Rabs s <= 2.1 * W).
  { intros W p q s A1 A2 A3. assert (0 <= W) by (pose proof (Rabs_pos p); lra). apply Rle_trans with (a * W + b * W + d * W); [repeat apply Rplus_le_compat; apply Rmult_le_compat_l; assumption|].
    replace (a * W + b * W + d * W) with ((a + b + d) * W) by ring. apply Rmult_le_compat_r; lra. }
  pose proof (S _ _ _ _ Z0 Z1 Z2) as S1. pose proof (S _ _ _ _ Y0 Y1 Y2) as S2. pose proof (S _ _ _ _ C0 C1 C2) as S3.
  pose proof u16 as U.
  match type of E1 with Rabs (?z - ?p) <= _ => match type of E2 with Rabs (?w - ?q) <= _ =>
    replace (z - w) with ((z - p) + - (w - q) + (p - q)) by ring; eapply Rle_trans; [apply abs3|]; rewrite Rabs_Ropp;
    assert (T : Rabs (p - q) <= 2.1 * de) end end.
  { eapply Rle_trans; [|exact S3]. unfold a, b, d. rewrite <- !Rabs_mult. eapply Rle_trans; [|apply abs3]. right. f_equal. ring. }
  change (binary_float 24 128) with f32 in S2. rewrite U in *. lra.
Qed.
Definition cbF (y : Vector3 f32) : Vector3 f32 := V3 (lm_cbrtf lm (v0 y)) (lm_cbrtf lm (v1 y)) (lm_cbrtf lm (v2 y)).
Definition cubeF (e : Vector3 f32) : Vector3 f32 :=
  V3 (@fmul N (@fmul N (v0 e) (v0 e)) (v0 e)) (@fmul N (@fmul N (v1 e) (v1 e)) (v1 e)) (@fmul N (@fmul N (v2 e) (v2 e)) (v2 e)).
Lemma norm3_pos t : 0 <= norm3 t.
Proof. eapply Rle_trans; [apply Rabs_pos|]. apply norm3_ge. Qed.
Lemma oklab_roundtrip (t : Vector3 f32) : cbrt_ok lm -> allV fin t -> norm3 t <= 1e30 ->
  let t' := OKLAB_to_XYZ N (XYZ_to_OKLAB N t) in
  allV fin t' /\ Rabs (B2R (v0 t') - B2R (v0 t)) <= 540 * u * norm3 t + 1e-37 /\
  Rabs (B2R (v1 t') - B2R (v1 t)) <= 540 * u * norm3 t + 1e-37 /\ Rabs (B2R (v2 t') - B2R (v2 t)) <= 540 * u * norm3 t + 1e-37.
Proof.
  intros HC Ft HM. pose proof u16 as U. pose proof eta45 as E.
  assert (B110 : 1e32 <= bpow radix2 110) by (change (bpow radix2 110) with (IZR 1298074214633706907132624082305024); lra).
  assert (B120 : 1e32 <= bpow radix2 120) by (change (bpow radix2 120) with (IZR 1329227995784915872903807060280344576); lra).
  assert (K1 : chk (ok_m1 N) (M_invert N (ok_m1 N)) = true) by (vm_compute; reflexivity).
  assert (K2 : chk (ok_m2 N) (M_invert N (ok_m2 N)) = true) by (vm_compute; reflexivity).
  assert (S1 : rsum (ok_m1 N) 132 = true) by (vm_compute; reflexivity).
  assert (S2 : rsum (M_invert N (ok_m1 N)) 210 = true) by (vm_compute; reflexivity).
  change (OKLAB_to_XYZ N (XYZ_to_OKLAB N t)) with (M_apply N (M_invert N (ok_m1 N)) (cubeF (M_apply N (M_invert N (ok_m2 N)) (M_apply N (ok_m2 N) (cbF (M_apply N (ok_m1 N) t)))))).
  set (A := ok_m1 N : Matrix3 f32) in *. set (A' := M_invert N A : Matrix3 f32) in *. set (B := ok_m2 N : Matrix3 f32) in *. set (B' := M_invert N B : Matrix3 f32) in *.
  clearbody A A' B B'.
  destruct (chk_ok lm A A' t K1 Ft ltac:(lra)) as (_ & R0 & R1 & R2).
  destruct (rsum_ok _ _ S1) as (FA & P0 & P1 & P2). destruct (rsum_ok _ _ S2) as (FA' & Q0 & Q1 & Q2).
  assert (M0 : 0 <= norm3 t) by (apply norm3_pos).
  set (M := norm3 t) in *. set (y := M_apply N A t : Vector3 f32) in *.
  assert (YY : allV fin y /\ allV (fun x => Rabs (B2R x) <= 1.320001 * M + 4 * eta) y).
  { unfold y. rewrite apply_rows. destruct FA as (f0 & f1 & f2 & f3 & f4 & f5 & f6 & f7 & f8). destruct (norm3_ge t) as (g0 & g1 & g2). fold M in g0, g1, g2.
    assert (X : forall r, allV fin r -> rowsum r <= 132 / 100 -> fin (V_dot N r t) /\ Rabs (B2R (V_dot N r t)) <= 1.320001 * M + 4 * eta).
    { intros r Fr HR. destruct (row_dot lm r t M Fr Ft) as (F1 & _ & F2); [repeat split; assumption|unfold rowsum in HR; lra|lra|]. split; [exact F1|].
      fold (rowsum r) in F2. assert (rowsum r * M <= 1.32 * M) by (apply Rmult_le_compat_r; lra). rewrite U in *. lra. }
    destruct (X (V3 (m0 A) (m1 A) (m2 A)) ltac:(repeat split; assumption) P0) as [h0 h0'].
    destruct (X (V3 (m3 A) (m4 A) (m5 A)) ltac:(repeat split; assumption) P1) as [h1 h1'].
    destruct (X (V3 (m6 A) (m7 A) (m8 A)) ltac:(repeat split; assumption) P2) as [h2 h2'].
    split; repeat split; assumption. }
  destruct YY as [Fy HY]. set (Y := 1.320001 * M + 4 * eta) in *. clearbody y.
  assert (BY : Y <= 1e31) by (unfold Y; lra).
  destruct Fy as (y0f & y1f & y2f). destruct HY as (y0b & y1b & y2b).
  unfold cbF.
  destruct (HC _ y0f) as [d0f d0e]. destruct (HC _ y1f) as [d1f d1e]. destruct (HC _ y2f) as [d2f d2e].
  set (d0 := lm_cbrtf lm (v0 y)) in *. set (d1 := lm_cbrtf lm (v1 y)) in *. set (d2 := lm_cbrtf lm (v2 y)) in *. clearbody d0 d1 d2.
  set (d := V3 d0 d1 d2 : Vector3 f32). set (D := norm3 d).
  assert (DY : D * D * D <= 1.00001 * Y).
  { destruct (cbrt_rel _ _ d0e) as [_ c0]. destruct (cbrt_rel _ _ d1e) as [_ c1]. destruct (cbrt_rel _ _ d2e) as [_ c2].
    unfold D, norm3, d. cbn [v0 v1 v2]. unfold Rmax. repeat destruct (Rle_dec _ _); (eapply Rle_trans; [first [exact c0|exact c1|exact c2]|apply Rmult_le_compat_l; [lra|assumption]]). }
  assert (D0 : 0 <= D) by (apply norm3_pos).
  assert (DB : D <= 3e10). { destruct (Rle_dec D 3e10); [assumption|]. exfalso. assert (9e20 <= D * D) by nra. nra. }
  destruct (chk_ok lm B B' d K2 ltac:(repeat split; assumption) ltac:(fold D; lra)) as ((e0f & e1f & e2f) & e0 & e1 & e2).
  fold D in e0, e1, e2. destruct (norm3_ge d) as (n0 & n1 & n2). fold D in n0, n1, n2.
  set (e := M_apply N B' (M_apply N B d) : Vector3 f32) in *. clearbody e. cbn [d v0 v1 v2] in e0, e1, e2, n0, n1, n2.
  destruct (back_cube (v0 y) d0 (v0 e) D Y e0f d0e n0 e0 y0b DY BY) as [c0f c0].
  destruct (back_cube (v1 y) d1 (v1 e) D Y e1f d1e n1 e1 y1b DY BY) as [c1f c1].
  destruct (back_cube (v2 y) d2 (v2 e) D Y e2f d2e n2 e2 y2b DY BY) as [c2f c2].
  set (c := cubeF e) in *.
  assert (Fc : allV fin c) by (repeat split; assumption).
  set (de := 168 * u * Y + 1e-38) in *.
  assert (BD : Y + de <= 1e32) by (unfold de; rewrite U in *; lra).
  rewrite !apply_rows in *. destruct FA' as (f0 & f1 & f2 & f3 & f4 & f5 & f6 & f7 & f8).
  assert (X : forall (r : Vector3 f32) (x : R), allV fin r -> rowsum r <= 210 / 100 -> Rabs (B2R (V_dot N r y) - x) <= 50 * u * M + 128 * eta ->
    fin (V_dot N r c) /\ Rabs (B2R (V_dot N r c) - x) <= 540 * u * M + 1e-37).
  { intros r x Fr HR Hx. destruct (row_pert r c y Y de Fr Fc) as [g h]; [repeat split; assumption|lra|repeat split; assumption|assumption|assumption|assumption|assumption|].
    split; [exact g|]. replace (B2R (V_dot N r c) - x) with ((B2R (V_dot N r c) - B2R (V_dot N r y)) + (B2R (V_dot N r y) - x)) by ring.
    eapply Rle_trans; [apply Rabs_triang|]. unfold de, Y in h. rewrite U in *. lra. }
  cbn [v0 v1 v2] in R0, R1, R2 |- *.
  destruct (X (V3 (m0 A') (m1 A') (m2 A')) _ ltac:(repeat split; assumption) Q0 R0) as [h0 h0'].
  destruct (X (V3 (m3 A') (m4 A') (m5 A')) _ ltac:(repeat split; assumption) Q1 R1) as [h1 h1'].
  destruct (X (V3 (m6 A') (m7 A') (m8 A')) _ ltac:(repeat split; assumption) Q2 R2) as [h2 h2'].
  split; [repeat split; assumption|]. split; [exact h0'|]. split; [exact h1'|exact h2'].
Qed.
End F.
Lemma cbrt_ok_exists : exists lm, cbrt_ok lm.
Proof.
  destruct (choice1 (B754_zero false) (fun x z : f32 => fin x -> fin z /\ Rabs (B2R z - R_cbrt (B2R x)) <= 4 * u * Rabs (R_cbrt (B2R x)))) as [f Hf].
  { intros x. destruct (Req_dec (B2R x) 0) as [Z|Z].
    - exists (B754_zero false). intros _. split; [reflexivity|]. pose proof (cbrt_abs (B2R x)) as C. rewrite Z in *. rewrite Rabs_R0 in C.
      assert (Q : R_cbrt 0 = 0). { replace 0 with (0 * 0 * 0) at 1 by ring. apply cbrt_of_cube. } rewrite Q. cbn [B2R]. rewrite Rminus_0_r, Rabs_R0. lra.
    - destruct (approx_exists (R_cbrt (B2R x))) as [z Hz]. exists z. intros F. apply Hz. pose proof (cbrt_abs (B2R x)) as C. set (q := Rabs (R_cbrt (B2R x))) in *.
      assert (Q : 0 <= q) by apply Rabs_pos. assert (L : bpow radix2 (-149) <= Rabs (B2R x) < bpow radix2 128).
      { split; [|apply (abs_B2R_lt_emax 24 128 x)]. apply (abs_B2R_ge_emin 24 128 x); try reflexivity. destruct x as [s|s| |s m e b]; cbn in Z |- *; try reflexivity; try lra; discriminate. }
      pose proof (bpow_gt_0 radix2 (-126)) as P. split.
      + destruct (Rle_dec (bpow radix2 (-126)) q); [assumption|]. exfalso. assert (q * q <= bpow radix2 (-126) * bpow radix2 (-126)) by nra.
        assert (q * q * q <= bpow radix2 (-126) * bpow radix2 (-126) * bpow radix2 (-126)) by (apply Rmult_le_compat; nra). rewrite <- !bpow_plus in *.
        assert (bpow radix2 (-126 + -126 + -126) < bpow radix2 (-149)) by (apply bpow_lt; lia). lra.
      + destruct (Rle_dec q (bpow radix2 127)); [assumption|]. exfalso. assert (B : 0 < bpow radix2 127) by apply bpow_gt_0. assert (bpow radix2 127 * bpow radix2 127 <= q * q) by nra.
        assert (bpow radix2 127 * bpow radix2 127 * bpow radix2 127 <= q * q * q) by (apply Rmult_le_compat; nra). rewrite <- !bpow_plus in *.
        assert (bpow radix2 128 < bpow radix2 (127 + 127 + 127)) by (apply bpow_lt; lia). lra. }
  exists (mkLibm (lm_powf no_libm) (lm_expf no_libm) (lm_logf no_libm) (lm_log10f no_libm) (lm_sinf no_libm) (lm_cosf no_libm) (lm_atan2f no_libm) (lm_fmodf no_libm) f (lm_pow no_libm) (lm_exp no_libm)).
  exact Hf.
Qed.
Lemma oklab_case : (exists lm, cbrt_ok lm) /\ forall lm, let t : Vector3 f32 := Illuminant_D65 (FN lm) in allV fin t /\ norm3 t <= 1e30.
Proof.
  split; [exact cbrt_ok_exists|]. intros lm. destruct (Bradford_case lm) as (_ & F & _ & H & _). split; [exact F|].
  eapply Rle_trans; [exact H|lra].
Qed.
