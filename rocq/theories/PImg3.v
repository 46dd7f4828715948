(** * Integer images through Oklab in binary32. *)
From Coq Require Import ZArith Reals Lra Lia List Bool.
From Flocq Require Import Core IEEE754.BinarySingleNaN.
From Verif Require Import Num NumR NumF MVec MTri MOtf MDelta SpecMat RTac F32 PHsvF PLibm PMat PMatF PGamF POkF PImg PImg2.
Import ListNotations.
Local Open Scope R_scope.

(** ** Absolute row sums of the product of two float matrices, in thousandths. *)
Definition crowZ (p q r : Z) (a : Matrix3 Z) (k : Z) : bool :=
  (1000 * (Z.abs (p * m0 a + q * m3 a + r * m6 a) + Z.abs (p * m1 a + q * m4 a + r * m7 a) + Z.abs (p * m2 a + q * m5 a + r * m8 a)) <=? k * 2 ^ 160)%Z.
Definition comp (b a : Matrix3 f32) (k : Z) : bool :=
  match zM b, zM a with
  | Some b, Some a => crowZ (m0 b) (m1 b) (m2 b) a k && crowZ (m3 b) (m4 b) (m5 b) a k && crowZ (m6 b) (m7 b) (m8 b) a k
  | _, _ => false
  end.
Definition crow (p q r : R) (a : Matrix3 f32) : R :=
  Rabs (p * B2R (m0 a) + q * B2R (m3 a) + r * B2R (m6 a)) + Rabs (p * B2R (m1 a) + q * B2R (m4 a) + r * B2R (m7 a)) + Rabs (p * B2R (m2 a) + q * B2R (m5 a) + r * B2R (m8 a)).
Lemma comp_ok b a k : comp b a k = true -> allM fin b /\ allM fin a /\ crow (B2R (m0 b)) (B2R (m1 b)) (B2R (m2 b)) a <= IZR k / 1000 /\
  crow (B2R (m3 b)) (B2R (m4 b)) (B2R (m5 b)) a <= IZR k / 1000 /\ crow (B2R (m6 b)) (B2R (m7 b)) (B2R (m8 b)) a <= IZR k / 1000.
Proof.
  unfold comp. destruct (zM b) as [zb|] eqn:EB; [|discriminate]. destruct (zM a) as [za|] eqn:EA; [|discriminate].
  rewrite !andb_true_iff. intros ((C0 & C1) & C2). apply zM_ok in EA, EB. destruct EA as (FA & A0 & A1 & A2 & A3 & A4 & A5 & A6 & A7 & A8). destruct EB as (FB & E0 & E1 & E2 & E3 & E4 & E5 & E6 & E7 & E8).
  split; [exact FB|]. split; [exact FA|]. unfold crow. rewrite A0, A1, A2, A3, A4, A5, A6, A7, A8, E0, E1, E2, E3, E4, E5, E6, E7, E8.
  assert (P : 0 < s80) by apply bpow_gt_0.
  assert (S : IZR (2 ^ 160) * (s80 * s80) = 1). { unfold s80. change 2%Z with (radix_val radix2). rewrite (IZR_Zpower radix2) by lia. rewrite <- !bpow_plus. reflexivity. }
  assert (T : forall p q r, crowZ p q r za k = true ->
    Rabs (IZR p * s80 * (IZR (m0 za) * s80) + IZR q * s80 * (IZR (m3 za) * s80) + IZR r * s80 * (IZR (m6 za) * s80)) +
    Rabs (IZR p * s80 * (IZR (m1 za) * s80) + IZR q * s80 * (IZR (m4 za) * s80) + IZR r * s80 * (IZR (m7 za) * s80)) +
    Rabs (IZR p * s80 * (IZR (m2 za) * s80) + IZR q * s80 * (IZR (m5 za) * s80) + IZR r * s80 * (IZR (m8 za) * s80)) <= IZR k / 1000).
  { intros p q r H. unfold crowZ in H. apply Z.leb_le in H. apply IZR_le in H. rewrite (mult_IZR 1000), (mult_IZR k), !plus_IZR, !abs_IZR, !plus_IZR, !mult_IZR in H.
    assert (K : forall x y z x' y' z', Rabs (x * s80 * (x' * s80) + y * s80 * (y' * s80) + z * s80 * (z' * s80)) = Rabs (x * x' + y * y' + z * z') * (s80 * s80)).
    { intros. replace (x * s80 * (x' * s80) + y * s80 * (y' * s80) + z * s80 * (z' * s80)) with ((x * x' + y * y' + z * z') * (s80 * s80)) by ring.
      rewrite Rabs_mult, (Rabs_pos_eq (s80 * s80)) by (apply Rmult_le_pos; lra). reflexivity. }
    rewrite !K. apply (Rmult_le_compat_r (s80 * s80)) in H; [|apply Rmult_le_pos; lra]. rewrite (Rmult_assoc (IZR k)), S in H. lra. }
  auto.
Qed.
Lemma rgb_ok lm : forallb (fun G => comp (g_fromXYZ G) (M_invert (FN lm) (ok_m1 (FN lm))) 7200 && comp (ok_m1 (FN lm)) (g_toXYZ G) 1001) (rgb_gamuts lm) = true.
Proof. vm_compute. reflexivity. Qed.
Section F.
Context (lm : libm).
Notation N := (FN lm).
(** Cone responses through the nonlinear part and back. *)
Lemma ok_mid (y : Vector3 f32) Y : cbrt_ok lm -> allV fin y -> allV (fun x => Rabs (B2R x) <= Y) y -> Y <= 1e31 ->
  let c := cubeF lm (M_apply N (M_invert N (ok_m2 N)) (M_apply N (ok_m2 N) (cbF lm y))) in
  allV fin c /\ Rabs (B2R (v0 c) - B2R (v0 y)) <= 168 * u * Y + 1e-38 /\ Rabs (B2R (v1 c) - B2R (v1 y)) <= 168 * u * Y + 1e-38 /\ Rabs (B2R (v2 c) - B2R (v2 y)) <= 168 * u * Y + 1e-38.
Proof.
  intros HC Fy HY BY. pose proof u16 as U. pose proof eta45 as E.
  assert (B110 : 1e32 <= bpow radix2 110) by (change (bpow radix2 110) with (IZR 1298074214633706907132624082305024); lra).
  assert (K2 : chk (ok_m2 N) (M_invert N (ok_m2 N)) = true) by (vm_compute; reflexivity).
  set (B := ok_m2 N : Matrix3 f32) in *. set (B' := M_invert N B : Matrix3 f32) in *. clearbody B B'.
  destruct Fy as (y0f & y1f & y2f). destruct HY as (y0b & y1b & y2b). unfold cbF. cbv zeta.
  destruct (HC _ y0f) as [d0f d0e]. destruct (HC _ y1f) as [d1f d1e]. destruct (HC _ y2f) as [d2f d2e].
  set (d0 := lm_cbrtf lm (v0 y)) in *. set (d1 := lm_cbrtf lm (v1 y)) in *. set (d2 := lm_cbrtf lm (v2 y)) in *. clearbody d0 d1 d2.
  set (d := V3 d0 d1 d2 : Vector3 f32). set (D := norm3 d).
  assert (DY : D * D * D <= 1.00001 * Y).
  { destruct (cbrt_rel _ _ d0e) as [_ c0]. destruct (cbrt_rel _ _ d1e) as [_ c1]. destruct (cbrt_rel _ _ d2e) as [_ c2].
    unfold D, norm3, d. cbn [v0 v1 v2]. unfold Rmax. repeat destruct (Rle_dec _ _); (eapply Rle_trans; [first [exact c0|exact c1|exact c2]|apply Rmult_le_compat_l; [lra|assumption]]). }
  assert (D0 : 0 <= D) by (apply norm3_pos).
  assert (DB : D <= 3e10). { destruct (Rle_dec D 3e10); [assumption|]. exfalso. assert (9e20 <= D * D) by nra. nra. }
  destruct (chk_ok lm B B' d K2 ltac:(repeat split; assumption) ltac:(fold D; lra)) as ((e0f & e1f & e2f) & e0 & e1 & e2).
  fold D in e0, e1, e2. destruct (norm3_ge d) as (n0 & n1 & n2). fold D in n0, n1, n2.
  set (e := M_apply N B' (M_apply N B d) : Vector3 f32) in *. clearbody e. cbn [d v0 v1 v2] in e0, e1, e2, n0, n1, n2.
  destruct (back_cube lm (v0 y) d0 (v0 e) D Y e0f d0e n0 e0 y0b DY BY) as [c0f c0].
  destruct (back_cube lm (v1 y) d1 (v1 e) D Y e1f d1e n1 e1 y1b DY BY) as [c1f c1].
  destruct (back_cube lm (v2 y) d2 (v2 e) D Y e2f d2e n2 e2 y2b DY BY) as [c2f c2].
  split; [repeat split; assumption|]. split; [exact c0|]. split; [exact c1|exact c2].
Qed.
(** One row of the inverse of the first matrix: the change of XYZ is that of the exact product plus rounding. *)
Lemma ok_row (r c y : Vector3 f32) (x : R) : allV fin r -> allV fin c -> allV fin y -> rowsum r <= 2.1 -> allV (fun z => Rabs (B2R z) <= 1.002) y ->
  Rabs (B2R (v0 c) - B2R (v0 y)) <= 168.4 * u -> Rabs (B2R (v1 c) - B2R (v1 y)) <= 168.4 * u -> Rabs (B2R (v2 c) - B2R (v2 y)) <= 168.4 * u ->
  Rabs (B2R (V_dot N r y) - x) <= 55.1 * u ->
  fin (V_dot N r c) /\ exists e, Rabs e <= 72 * u /\
    B2R (V_dot N r c) - x = B2R (v0 r) * (B2R (v0 c) - B2R (v0 y)) + B2R (v1 r) * (B2R (v1 c) - B2R (v1 y)) + B2R (v2 r) * (B2R (v2 c) - B2R (v2 y)) + e.
Proof.
  intros Fr Fc Fy RS (Y0 & Y1 & Y2) C0 C1 C2 HX. pose proof u16 as U. pose proof eta45 as E. pose proof eta16 as Et.
  assert (B120 : 2 <= bpow radix2 120) by (apply Rle_trans with (bpow radix2 1); [change (bpow radix2 1) with 2; lra|apply bpow_le; lia]).
  assert (K : forall p q, Rabs (p - q) <= 168.4 * u -> Rabs q <= 1.002 -> Rabs p <= 1.0021). { intros p q A D. replace p with (p - q + q) by ring. eapply Rle_trans; [apply Rabs_triang|]. rewrite U in *. lra. }
  assert (Z0 := K _ _ C0 Y0). assert (Z1 := K _ _ C1 Y1). assert (Z2 := K _ _ C2 Y2).
  destruct (row_dot lm r c 1.0021 Fr Fc) as (F1 & E1 & _); [repeat split; assumption|unfold rowsum in RS; lra|lra|].
  destruct (row_dot lm r y 1.002 Fr Fy) as (F2 & E2 & _); [repeat split; assumption|unfold rowsum in RS; lra|lra|].
  split; [exact F1|]. unfold rowsum in RS. unfold dotR in *.
  set (a := Rabs (B2R (v0 r))) in *. set (b := Rabs (B2R (v1 r))) in *. set (d := Rabs (B2R (v2 r))) in *.
  assert (Pa : 0 <= a) by apply Rabs_pos. assert (Pb : 0 <= b) by apply Rabs_pos. assert (Pd : 0 <= d) by apply Rabs_pos.
  assert (S : forall W p q s, Rabs p <= W -> Rabs q <= W -> Rabs s <= W -> a * Rabs p + b * Rabs q + d * Rabs s <= 2.1 * W).
  { intros W p q s A1 A2 A3. assert (0 <= W) by (pose proof (Rabs_pos p); lra). apply Rle_trans with (a * W + b * W + d * W); [repeat apply Rplus_le_compat; apply Rmult_le_compat_l; assumption|].
    replace (a * W + b * W + d * W) with ((a + b + d) * W) by ring. apply Rmult_le_compat_r; lra. }
  pose proof (S _ _ _ _ Z0 Z1 Z2) as S1. pose proof (S _ _ _ _ Y0 Y1 Y2) as S2.
  set (p := B2R (v0 r) * B2R (v0 c) + B2R (v1 r) * B2R (v1 c) + B2R (v2 r) * B2R (v2 c)) in *. set (q := B2R (v0 r) * B2R (v0 y) + B2R (v1 r) * B2R (v1 y) + B2R (v2 r) * B2R (v2 y)) in *.
  exists ((B2R (V_dot N r c) - p) + (q - B2R (V_dot N r y)) + (B2R (V_dot N r y) - x)). split; [|unfold p, q; ring].
  eapply Rle_trans; [apply abs3|]. rewrite (Rabs_minus_sym q). change (binary_float 24 128) with f32 in *. rewrite U in *. lra.
Qed.
Lemma absb x h : 0 <= x <= h -> Rabs x <= h.
Proof. intros H. rewrite Rabs_pos_eq; lra. Qed.
(** The cone responses of a colour of the unit cube are at most 1.002. *)
Lemma ok_y (r x t : Vector3 f32) (a : Matrix3 f32) : allV fin r -> allV fin x -> rowsum r <= 1.32 -> crow (B2R (v0 r)) (B2R (v1 r)) (B2R (v2 r)) a <= 1.001 ->
  allV (fun z => 0 <= B2R z <= 1 + 16 * u) t -> allV (fun z => Rabs (B2R z) <= 1.1005) x ->
  Rabs (B2R (v0 x) - (B2R (m0 a) * B2R (v0 t) + B2R (m1 a) * B2R (v1 t) + B2R (m2 a) * B2R (v2 t))) <= 5 * u ->
  Rabs (B2R (v1 x) - (B2R (m3 a) * B2R (v0 t) + B2R (m4 a) * B2R (v1 t) + B2R (m5 a) * B2R (v2 t))) <= 5 * u ->
  Rabs (B2R (v2 x) - (B2R (m6 a) * B2R (v0 t) + B2R (m7 a) * B2R (v1 t) + B2R (m8 a) * B2R (v2 t))) <= 5 * u ->
  fin (V_dot N r x) /\ Rabs (B2R (V_dot N r x)) <= 1.002.
Proof.
  intros Fr Fx RS HC (T0 & T1 & T2) (X0 & X1 & X2) E0 E1 E2. pose proof u16 as U. pose proof eta16 as Et.
  assert (B120 : 2 <= bpow radix2 120) by (apply Rle_trans with (bpow radix2 1); [change (bpow radix2 1) with 2; lra|apply bpow_le; lia]).
  destruct (row_dot lm r x 1.1005 Fr Fx) as (F1 & E & _); [repeat split; assumption|unfold rowsum in RS; lra|lra|]. split; [exact F1|].
  unfold rowsum in RS. unfold dotR in E. unfold crow in HC.
  set (f0 := B2R (v0 x) - _) in E0. set (f1 := B2R (v1 x) - _) in E1. set (f2 := B2R (v2 x) - _) in E2.
  set (k0 := B2R (v0 r) * B2R (m0 a) + B2R (v1 r) * B2R (m3 a) + B2R (v2 r) * B2R (m6 a)) in *.
  set (k1 := B2R (v0 r) * B2R (m1 a) + B2R (v1 r) * B2R (m4 a) + B2R (v2 r) * B2R (m7 a)) in *.
  set (k2 := B2R (v0 r) * B2R (m2 a) + B2R (v1 r) * B2R (m5 a) + B2R (v2 r) * B2R (m8 a)) in *.
  assert (D : B2R (v0 r) * B2R (v0 x) + B2R (v1 r) * B2R (v1 x) + B2R (v2 r) * B2R (v2 x) =
    (k0 * B2R (v0 t) + k1 * B2R (v1 t) + k2 * B2R (v2 t)) + (B2R (v0 r) * f0 + B2R (v1 r) * f1 + B2R (v2 r) * f2)) by (unfold k0, k1, k2, f0, f1, f2; ring).
  assert (A1 : Rabs (k0 * B2R (v0 t) + k1 * B2R (v1 t) + k2 * B2R (v2 t)) <= 1.001 * (1 + 16 * u)).
  { apply row_sum with (1 + 16 * u) (1 + 16 * u) (1 + 16 * u); [exact (absb _ _ T0)|exact (absb _ _ T1)|exact (absb _ _ T2)|].
    replace (Rabs k0 * (1 + 16 * u) + Rabs k1 * (1 + 16 * u) + Rabs k2 * (1 + 16 * u)) with ((Rabs k0 + Rabs k1 + Rabs k2) * (1 + 16 * u)) by ring.
    apply Rmult_le_compat_r; [rewrite U; lra|exact HC]. }
  assert (A2 : Rabs (B2R (v0 r) * f0 + B2R (v1 r) * f1 + B2R (v2 r) * f2) <= 1.32 * (5 * u)).
  { apply row_sum with (5 * u) (5 * u) (5 * u); try assumption. rewrite U. lra. }
  assert (A3 : Rabs (B2R (v0 r)) * Rabs (B2R (v0 x)) + Rabs (B2R (v1 r)) * Rabs (B2R (v1 x)) + Rabs (B2R (v2 r)) * Rabs (B2R (v2 x)) <= 1.32 * 1.1005).
  { assert (Rabs (B2R (v0 r)) * Rabs (B2R (v0 x)) <= Rabs (B2R (v0 r)) * 1.1005) by (apply Rmult_le_compat_l; [apply Rabs_pos|assumption]).
    assert (Rabs (B2R (v1 r)) * Rabs (B2R (v1 x)) <= Rabs (B2R (v1 r)) * 1.1005) by (apply Rmult_le_compat_l; [apply Rabs_pos|assumption]).
    assert (Rabs (B2R (v2 r)) * Rabs (B2R (v2 x)) <= Rabs (B2R (v2 r)) * 1.1005) by (apply Rmult_le_compat_l; [apply Rabs_pos|assumption]). lra. }
  rewrite D in E. change (binary_float 24 128) with f32 in *. apply Rabs_le_inv in E, A1, A2. apply Rabs_le. rewrite U in *. lra.
Qed.
Lemma x_err x r h : Rabs (x - r) <= 4 * u * r + 4 * eta -> 0 <= r -> r <= h * (1 + 16 * u) -> h <= 1.1 -> Rabs (x - r) <= 5 * u /\ Rabs x <= 1.1005.
Proof.
  intros E R0 R1 H. pose proof u16 as U. pose proof eta16 as Et. assert (A : Rabs (x - r) <= 5 * u) by (rewrite U in *; lra). split; [exact A|].
  apply Rabs_le_inv in A. apply Rabs_le. rewrite U in *. lra.
Qed.
(** A row of [fromXYZ] applied to the change of XYZ. *)
Lemma ok_b (p q r d0 d1 d2 e0 e1 e2 x0 x1 x2 : R) (a : Matrix3 f32) : crow p q r a <= 7.2 -> br p q r ->
  Rabs d0 <= 168.4 * u -> Rabs d1 <= 168.4 * u -> Rabs d2 <= 168.4 * u -> Rabs e0 <= 72 * u -> Rabs e1 <= 72 * u -> Rabs e2 <= 72 * u ->
  x0 = B2R (m0 a) * d0 + B2R (m1 a) * d1 + B2R (m2 a) * d2 + e0 -> x1 = B2R (m3 a) * d0 + B2R (m4 a) * d1 + B2R (m5 a) * d2 + e1 ->
  x2 = B2R (m6 a) * d0 + B2R (m7 a) * d1 + B2R (m8 a) * d2 + e2 -> Rabs (p * x0 + q * x1 + r * x2) <= 1607 * u.
Proof.
  intros HC (B & _) D0 D1 D2 E0 E1 E2 -> -> ->. pose proof u16 as U. unfold crow in HC.
  match goal with |- Rabs ?z <= _ => replace z with
    (((p * B2R (m0 a) + q * B2R (m3 a) + r * B2R (m6 a)) * d0 + (p * B2R (m1 a) + q * B2R (m4 a) + r * B2R (m7 a)) * d1 + (p * B2R (m2 a) + q * B2R (m5 a) + r * B2R (m8 a)) * d2) +
     (p * e0 + q * e1 + r * e2)) by ring end.
  eapply Rle_trans; [apply Rabs_triang|].
  assert (A1 : Rabs ((p * B2R (m0 a) + q * B2R (m3 a) + r * B2R (m6 a)) * d0 + (p * B2R (m1 a) + q * B2R (m4 a) + r * B2R (m7 a)) * d1 + (p * B2R (m2 a) + q * B2R (m5 a) + r * B2R (m8 a)) * d2) <= 7.2 * (168.4 * u)).
  { apply row_sum with (168.4 * u) (168.4 * u) (168.4 * u); try assumption. rewrite U. lra. }
  assert (A2 : Rabs (p * e0 + q * e1 + r * e2) <= 5.47 * (72 * u)).
  { apply row_sum with (72 * u) (72 * u) (72 * u); try assumption. pose proof (Rabs_pos p). pose proof (Rabs_pos q). pose proof (Rabs_pos r). rewrite U. lra. }
  rewrite U in *. lra.
Qed.
Lemma d_small (r0 r1 r2 d0 d1 d2 e x : R) : Rabs r0 + Rabs r1 + Rabs r2 <= 2.1 -> Rabs d0 <= 168.4 * u -> Rabs d1 <= 168.4 * u -> Rabs d2 <= 168.4 * u -> Rabs e <= 72 * u ->
  x = r0 * d0 + r1 * d1 + r2 * d2 + e -> Rabs x <= 0.0009.
Proof.
  intros RS D0 D1 D2 E ->. pose proof u16 as U. eapply Rle_trans; [apply Rabs_triang|].
  assert (Rabs (r0 * d0 + r1 * d1 + r2 * d2) <= 2.1 * (168.4 * u)) by (apply row_sum with (168.4 * u) (168.4 * u) (168.4 * u); try assumption; rewrite U; lra).
  rewrite U in *. lra.
Qed.
Context (Acc : accurate lm) (HC : cbrt_ok lm).
Lemma img_oklab_gen G M k g' (A A' : Matrix3 f32) : In G (rgb_gamuts lm) -> codes_of M k -> (0 < M <= 375)%Z ->
  comp (g_fromXYZ G) A' 7200 = true -> comp A (g_toXYZ G) 1001 = true -> chk A A' = true -> rsum A 132 = true -> rsum A' 210 = true ->
  same_codes M k (toScreen N SRGB (G_fromXYZ_t N G (M_apply N A' (cubeF lm (M_apply N (M_invert N (ok_m2 N)) (M_apply N (ok_m2 N) (cbF lm (M_apply N A (G_toXYZ_t N G (dec lm M k))))))))) g').
Proof.
  intros HG HK HM RO1 RO2 K1 S1 S2. destruct (gok_ok lm G HG) as [_ GR]. pose proof u16 as U. pose proof eta16 as Et.
  destruct (pixel_dec lm Acc M k HK ltac:(lia)) as (Ft & Rt & _). fold (dec lm M k) in Ft, Rt.
  destruct (xyz_rows lm G _ GR Ft Rt) as ((X0 & P0 & E0 & _) & (X1 & P1 & E1 & _) & (X2 & P2 & E2 & _)).
  destruct (comp_ok _ _ _ RO1) as (_ & _ & H0 & H1 & H2). destruct (comp_ok _ _ _ RO2) as (_ & _ & I0 & I1 & I2). clear RO1 RO2.
  pose proof (fun x' => img_pertK lm Acc G M k g' x' 0.0009 0.0009 0.0009 (1607 * u) HG HK ltac:(lia)) as Goal0.
  set (x := G_toXYZ_t N G (dec lm M k)) in *.
  destruct (rsum_ok _ _ S1) as (FA & p0 & p1 & p2). destruct (rsum_ok _ _ S2) as (FA' & q0 & q1 & q2).
  destruct GR as (_ & _ & (A0 & A1 & A2 & A3) & (B0 & B1 & B2 & B3) & (C0 & C1 & C2 & C3) & b0 & b1 & b2 & _).
  pose proof Rt as (R0 & R1 & R2).
  destruct (row_le _ _ _ _ _ _ 0.96 (16 * u) 0 A0 A1 A2 (proj2 A3) R0 R1 R2) as [T0 T0']. destruct (row_le _ _ _ _ _ _ 1.0001 (16 * u) 0 B0 B1 B2 (proj2 B3) R0 R1 R2) as [T1 T1'].
  destruct (row_le _ _ _ _ _ _ 1.1 (16 * u) 0 C0 C1 C2 (proj2 C3) R0 R1 R2) as [T2 T2'].
  destruct (x_err _ _ 0.96 E0 (proj1 T0) T0' ltac:(lra)) as [U0 V0]. destruct (x_err _ _ 1.0001 E1 (proj1 T1) T1' ltac:(lra)) as [U1 V1]. destruct (x_err _ _ 1.1 E2 (proj1 T2) T2' ltac:(lra)) as [U2 V2].
  assert (Fx : allV fin x) by (repeat split; assumption).
  assert (Nx : norm3 x <= 1.1005) by (unfold norm3; repeat apply Rmax_lub; assumption).
  destruct (chk_ok lm A A' x K1 Fx ltac:(apply big110; lra)) as (_ & J0 & J1 & J2).
  set (y := M_apply N A x : Vector3 f32) in *.
  assert (YY : allV fin y /\ allV (fun z => Rabs (B2R z) <= 1.002) y).
  { unfold y. rewrite apply_rows. destruct FA as (f0 & f1 & f2 & f3 & f4 & f5 & f6 & f7 & f8).
    destruct (ok_y (V3 (m0 A) (m1 A) (m2 A)) x (dec lm M k) (g_toXYZ G) (conj f0 (conj f1 f2)) Fx ltac:(lra) ltac:(cbn [v0 v1 v2]; lra) Rt (conj V0 (conj V1 V2)) U0 U1 U2) as [h0 h0'].
    destruct (ok_y (V3 (m3 A) (m4 A) (m5 A)) x (dec lm M k) (g_toXYZ G) (conj f3 (conj f4 f5)) Fx ltac:(lra) ltac:(cbn [v0 v1 v2]; lra) Rt (conj V0 (conj V1 V2)) U0 U1 U2) as [h1 h1'].
    destruct (ok_y (V3 (m6 A) (m7 A) (m8 A)) x (dec lm M k) (g_toXYZ G) (conj f6 (conj f7 f8)) Fx ltac:(lra) ltac:(cbn [v0 v1 v2]; lra) Rt (conj V0 (conj V1 V2)) U0 U1 U2) as [h2 h2'].
    split; repeat split; assumption. }
  destruct YY as [Fy HY]. clearbody y.
  destruct (ok_mid y 1.002 HC Fy HY ltac:(lra)) as (Fc & c0 & c1 & c2).
  set (c := cubeF lm _) in *. clearbody c.
  assert (dd : 168 * u * 1.002 + 1e-38 <= 168.4 * u) by (rewrite U; lra).
  apply (fun h => Rle_trans _ _ _ h dd) in c0, c1, c2.
  rewrite !apply_rows in *. change (Num.F N) with f32 in *. destruct FA' as (f0 & f1 & f2 & f3 & f4 & f5 & f6 & f7 & f8). cbn [v0 v1 v2] in J0, J1, J2.
  assert (JJ : 50 * u * norm3 x + 128 * eta <= 55.1 * u). { assert (50 * u * norm3 x <= 50 * u * 1.1005) by (apply Rmult_le_compat_l; [rewrite U; lra|exact Nx]). pose proof eta45. rewrite U in *. lra. }
  apply (fun h => Rle_trans _ _ _ h JJ) in J0, J1, J2.
  destruct (ok_row (V3 (m0 A') (m1 A') (m2 A')) c y _ (conj f0 (conj f1 f2)) Fc Fy ltac:(lra) HY c0 c1 c2 J0) as (g0 & e0 & l0 & k0).
  destruct (ok_row (V3 (m3 A') (m4 A') (m5 A')) c y _ (conj f3 (conj f4 f5)) Fc Fy ltac:(lra) HY c0 c1 c2 J1) as (g1 & e1 & l1 & k1).
  destruct (ok_row (V3 (m6 A') (m7 A') (m8 A')) c y _ (conj f6 (conj f7 f8)) Fc Fy ltac:(lra) HY c0 c1 c2 J2) as (g2 & e2 & l2 & k2).
  cbn [v0 v1 v2] in k0, k1, k2. unfold rowsum in q0, q1, q2. cbn [v0 v1 v2] in q0, q1, q2.
  assert (z1 : 210 / 100 <= 2.1) by lra. apply (fun h => Rle_trans _ _ _ h z1) in q0, q1, q2. assert (z2 : 7200 / 1000 <= 7.2) by lra. apply (fun h => Rle_trans _ _ _ h z2) in H0, H1, H2.
  apply Goal0; cbn [v0 v1 v2].
  - repeat split; assumption.
  - exact (d_small _ _ _ _ _ _ _ _ q0 c0 c1 c2 l0 k0).
  - exact (d_small _ _ _ _ _ _ _ _ q1 c0 c1 c2 l1 k1).
  - exact (d_small _ _ _ _ _ _ _ _ q2 c0 c1 c2 l2 k2).
  - lra.
  - lra.
  - lra.
  - cbv zeta. split; [|split].
    + exact (ok_b _ _ _ _ _ _ _ _ _ _ _ _ A' H0 b0 c0 c1 c2 l0 l1 l2 k0 k1 k2).
    + exact (ok_b _ _ _ _ _ _ _ _ _ _ _ _ A' H1 b1 c0 c1 c2 l0 l1 l2 k0 k1 k2).
    + exact (ok_b _ _ _ _ _ _ _ _ _ _ _ _ A' H2 b2 c0 c1 c2 l0 l1 l2 k0 k1 k2).
  - assert (0 < IZR M) by (apply IZR_lt; lia). assert (IZR M <= 375) by (apply IZR_le; lia).
    apply Rle_lt_trans with (375 * (22181 * u)); [apply Rmult_le_compat; rewrite ?U; lra|rewrite U; lra].
Qed.
Lemma ok_facts : chk (ok_m1 N) (M_invert N (ok_m1 N)) = true /\ rsum (ok_m1 N) 132 = true /\ rsum (M_invert N (ok_m1 N)) 210 = true.
Proof. split; [|split]; vm_compute; reflexivity. Qed.
Lemma img_oklab G M k g g' : In G (rgb_gamuts lm) -> codes_of M k -> (0 < M <= 375)%Z ->
  same_codes M k (toScreen N SRGB (G_fromXYZ_t N G (OKLAB_to_XYZ N (XYZ_to_OKLAB N (G_toXYZ_t N G (toScene N SRGB (pixel lm M k) g))))) g').
Proof.
  intros HG HK HM. pose proof (rgb_ok lm) as RO. rewrite forallb_forall in RO. specialize (RO G HG). apply andb_true_iff in RO. destruct RO as [RO1 RO2]. destruct ok_facts as (K1 & S1 & S2).
  exact (img_oklab_gen G M k g' (ok_m1 N) (M_invert N (ok_m1 N)) HG HK HM RO1 RO2 K1 S1 S2).
Qed.
End F.
Lemma img3_case : (exists lm, accurate lm /\ cbrt_ok lm) /\ codes_of 255 (V3 12 200 255)%Z /\ (0 < 255 <= 375)%Z /\
  forall lm, In (Rec709 (FN lm)) (rgb_gamuts lm).
Proof.
  split.
  - destruct accurate_exists as [a [A0 A1 A2 A3 A4 A5 A6]]. destruct cbrt_ok_exists as [b B].
    exists (mkLibm (lm_powf a) (lm_expf a) (lm_logf a) (lm_log10f a) (lm_sinf a) (lm_cosf a) (lm_atan2f a) (lm_fmodf a) (lm_cbrtf b) (lm_pow a) (lm_exp a)).
    split; [constructor; assumption|exact B].
  - unfold codes_of. cbn [v0 v1 v2]. repeat split; try lia. intros lm. unfold rgb_gamuts. cbn [In]. tauto.
Qed.
