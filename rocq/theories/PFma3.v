(** * Determinants, gamuts and exact cases with fused multiply-add. *)
From Coq Require Import ZArith Reals Lra Lia Psatz List Bool.
From Flocq Require Import Core BinarySingleNaN.
From Verif Require Import Num NumR NumF MVec MTri MSpectrum MFma RTac F32 SpecMat PMat PMatF PVec PGamut PHsvF PNearF POkF PGamF PGamF2 PInvF PFma PFma2.
Import ListNotations.
Local Open Scope R_scope.

Section WithLibm.
Variable lm : libm.
Lemma er_mul3 (x y z : f32) : Rabs (B2R x) <= 1e9 -> Rabs (B2R y) <= 1e9 -> Rabs (B2R z) <= 1e9 -> fin x -> fin y -> fin z ->
  let e := Mul (Mul (Val x) (Val y)) (Val z) in ex e = B2R x * B2R y * B2R z /\ mg e = Rabs (B2R x * B2R y * B2R z) /\ mg e <= 1e27 /\ er e <= 2.001 * u * mg e + 2e-36 /\ safe e.
Proof.
  intros X Y Z Fx Fy Fz e. pose proof (Rabs_pos (B2R x)) as Px. pose proof (Rabs_pos (B2R y)) as Py. pose proof (Rabs_pos (B2R z)) as Pz. pose proof u16 as U. pose proof eta45 as E45. pose proof eta_pos. pose proof b127_big as BB.
  assert (Q : 0 <= Rabs (B2R x) * Rabs (B2R y) <= 1e18). { split; [now apply Rmult_le_pos|]. replace 1e18 with (1e9 * 1e9) by lra. now apply Rmult_le_compat. }
  assert (T : 0 <= Rabs (B2R x) * Rabs (B2R y) * Rabs (B2R z) <= 1e27). { split; [now apply Rmult_le_pos|]. replace 1e27 with (1e18 * 1e9) by lra. now apply Rmult_le_compat. }
  split; [reflexivity|]. split; [unfold e; cbn [mg]; now rewrite !Rabs_mult|]. unfold e. cbn [mg er safe]. rewrite !Rplus_0_r.
  set (q := Rabs (B2R x) * Rabs (B2R y)) in *. set (z' := Rabs (B2R z)) in *. set (t := q * z') in *.
  assert (EZ : 0 <= eta * z' <= 1e-45 * 1e9) by (split; [apply Rmult_le_pos; lra|apply Rmult_le_compat; lra]).
  assert (M : (q + (q - q + (u * q + eta))) * z' = t + u * t + eta * z') by (unfold t; ring).
  split; [lra|]. split; [rewrite M; fold t; rewrite U in *; lra|]. rewrite M. rewrite U in *. repeat split; try assumption; lra.
Qed.
Lemma er_add_le a b A B Ea Eb : mg a = A -> mg b = B -> er a <= Ea -> er b <= Eb -> er (Add a b) <= Ea + Eb + u * (A + Ea + (B + Eb)) /\ er (Sub a b) <= Ea + Eb + u * (A + Ea + (B + Eb)).
Proof. intros <- <- Ha Hb. pose proof u_pos. cbn [er]. assert (u * (mg a + er a + (mg b + er b)) <= u * (mg a + Ea + (mg b + Eb))) by (apply Rmult_le_compat_l; lra). lra. Qed.
Lemma det_fused (m : Matrix3 f32) r : allM sm m -> ev lm (M_det (EN lm) (inM lm m)) r -> near r (detR (mR m)) (7.01 * u * perm (mR m) + 2e-35).
Proof.
  destruct m as [a0 a1 a2 a3 a4 a5 a6 a7 a8]. unfold allM. cbn [m0 m1 m2 m3 m4 m5 m6 m7 m8]. intros ((F0 & B0) & (F1 & B1) & (F2 & B2) & (F3 & B3) & (F4 & B4) & (F5 & B5) & (F6 & B6) & (F7 & B7) & (F8 & B8)) E.
  unfold M_det in E. cbn in E.
  destruct (er_mul3 a0 a4 a8) as (X1 & M1 & L1 & E1 & S1); try assumption. destruct (er_mul3 a3 a7 a2) as (X2 & M2 & L2 & E2 & S2); try assumption. destruct (er_mul3 a6 a1 a5) as (X3 & M3 & L3 & E3 & S3); try assumption.
  destruct (er_mul3 a0 a7 a5) as (X4 & M4 & L4 & E4 & S4); try assumption. destruct (er_mul3 a6 a4 a2) as (X5 & M5 & L5 & E5 & S5); try assumption. destruct (er_mul3 a3 a1 a8) as (X6 & M6 & L6 & E6 & S6); try assumption.
  set (T1 := Mul (Mul (Val a0) (Val a4)) (Val a8)) in *. set (T2 := Mul (Mul (Val a3) (Val a7)) (Val a2)) in *. set (T3 := Mul (Mul (Val a6) (Val a1)) (Val a5)) in *.
  set (T4 := Mul (Mul (Val a0) (Val a7)) (Val a5)) in *. set (T5 := Mul (Mul (Val a6) (Val a4)) (Val a2)) in *. set (T6 := Mul (Mul (Val a3) (Val a1)) (Val a8)) in *.
  clearbody T1 T2 T3 T4 T5 T6. unfold near, detR, perm, mR. cbn [m0 m1 m2 m3 m4 m5 m6 m7 m8]. rewrite <- M1, <- M2, <- M3, <- M4, <- M5, <- M6. clear M1 M2 M3 M4 M5 M6.
  destruct (mg_er T1) as (P1 & Q1 & _), (mg_er T2) as (P2 & Q2 & _), (mg_er T3) as (P3 & Q3 & _), (mg_er T4) as (P4 & Q4 & _), (mg_er T5) as (P5 & Q5 & _), (mg_er T6) as (P6 & Q6 & _).
  pose proof u16 as U. pose proof b127_big as BB.
  pose proof (proj1 (er_add_le T1 T2 _ _ _ _ eq_refl eq_refl E1 E2)) as D2. set (V2 := Add T1 T2) in *. assert (G2 : mg V2 = mg T1 + mg T2) by reflexivity.
  assert (C2 : er V2 <= 3.0011 * u * mg V2 + 4.1e-36) by (rewrite G2, U in *; lra). assert (W2 : safe V2) by (repeat split; try assumption; rewrite U in *; lra). assert (Z2 : ex V2 = ex T1 + ex T2) by reflexivity. clearbody V2. clear D2.
  pose proof (proj1 (er_add_le V2 T3 _ _ _ _ eq_refl eq_refl C2 E3)) as D3. set (V3 := Add V2 T3) in *. assert (G3 : mg V3 = mg V2 + mg T3) by reflexivity.
  assert (C3 : er V3 <= 4.0012 * u * mg V3 + 6.2e-36) by (rewrite G3, G2, U in *; lra). assert (W3 : safe V3) by (repeat split; try assumption; rewrite G2, U in *; lra). assert (Z3 : ex V3 = ex V2 + ex T3) by reflexivity. clearbody V3. clear D3.
  pose proof (proj2 (er_add_le V3 T4 _ _ _ _ eq_refl eq_refl C3 E4)) as D4. set (V4 := Sub V3 T4) in *. assert (G4 : mg V4 = mg V3 + mg T4) by reflexivity.
  assert (C4 : er V4 <= 5.0013 * u * mg V4 + 8.3e-36) by (rewrite G4, G3, G2, U in *; lra). assert (W4 : safe V4) by (repeat split; try assumption; rewrite G3, G2, U in *; lra). assert (Z4 : ex V4 = ex V3 - ex T4) by reflexivity. clearbody V4. clear D4.
  pose proof (proj2 (er_add_le V4 T5 _ _ _ _ eq_refl eq_refl C4 E5)) as D5. set (V5 := Sub V4 T5) in *. assert (G5 : mg V5 = mg V4 + mg T5) by reflexivity.
  assert (C5 : er V5 <= 6.0014 * u * mg V5 + 10.4e-36) by (rewrite G5, G4, G3, G2, U in *; lra). assert (W5 : safe V5) by (repeat split; try assumption; rewrite G4, G3, G2, U in *; lra). assert (Z5 : ex V5 = ex V4 - ex T5) by reflexivity. clearbody V5. clear D5.
  pose proof (proj2 (er_add_le V5 T6 _ _ _ _ eq_refl eq_refl C5 E6)) as D6. set (V6 := Sub V5 T6) in *. assert (G6 : mg V6 = mg V5 + mg T6) by reflexivity.
  assert (C6 : er V6 <= 7.0015 * u * mg V6 + 12.5e-36) by (rewrite G6, G5, G4, G3, G2, U in *; lra). assert (W6 : safe V6) by (repeat split; try assumption; rewrite G5, G4, G3, G2, U in *; lra). assert (Z6 : ex V6 = ex V5 - ex T6) by reflexivity. clearbody V6. clear D6.
  apply ev_error in E; [|exact W6]. destruct E as (Fr & E). split; [exact Fr|]. rewrite Z6, Z5, Z4, Z3, Z2, X1, X2, X3, X4, X5, X6 in E.
  assert (C : er V6 <= 7.01 * u * (mg T1 + mg T2 + mg T3 + mg T4 + mg T5 + mg T6) + 2e-35) by (rewrite G6, G5, G4, G3, G2, U in *; lra).
  match type of E with Rabs (_ - ?a) <= _ => match goal with |- Rabs (_ - ?b) <= _ => replace b with a by (cbn; ring) end end. lra.
Qed.
(** ** Gamuts *)
Lemma qchk_fused K m q (t r : Vector3 f32) : qchk K m q = true -> allV fin t -> norm3 t <= bpow radix2 110 ->
  evV lm (M_apply (EN lm) (inM lm m) (inV lm t)) r -> near_app (IZR K) r (applyR (qR q) (vR t)) (norm3 t).
Proof.
  unfold qchk. destruct (zM m) as [f|] eqn:E; [|discriminate]. rewrite !andb_true_iff, !Z.leb_le, !negb_true_iff, !Z.eqb_neq.
  intros ((((((((R0 & R1) & R2) & D0) & D1) & D2) & S0) & S1) & S2) Ft HM EV. apply row_ev in EV.
  apply zM_ok in E. destruct E as (FA & A0 & A1 & A2 & A3 & A4 & A5 & A6 & A7 & A8).
  apply qrow_ok in R0, R1, R2; try assumption. apply sum_le_Z in S0, S1, S2.
  revert R0 R1 R2 S0 S1 S2. rewrite <- !A0, <- !A1, <- !A2, <- !A3, <- !A4, <- !A5, <- !A6, <- !A7, <- !A8. intros R0 R1 R2 S0 S1 S2.
  clear A0 A1 A2 A3 A4 A5 A6 A7 A8 f.
  destruct (norm3_ge t) as (N0 & N1 & N2). set (M := norm3 t) in *. clearbody M.
  destruct m as [a00 a01 a02 a10 a11 a12 a20 a21 a22], t as [t0 t1 t2], r as [r0 r1 r2]. unfold allM in FA. cbn [m0 m1 m2 m3 m4 m5 m6 m7 m8 v0 v1 v2] in *.
  destruct FA as (FA0 & FA1 & FA2 & FA3 & FA4 & FA5 & FA6 & FA7 & FA8). destruct EV as (EV0 & EV1 & EV2).
  assert (L : bpow radix2 110 * 1024 <= bpow radix2 126) by (replace (bpow radix2 126) with (bpow radix2 110 * bpow radix2 16) by (rewrite <- bpow_plus; reflexivity); apply Rmult_le_compat_l; [apply bpow_ge_0|change (bpow radix2 16) with 65536; lra]).
  assert (W : forall (p q r : f32) y, fin p -> fin q -> fin r -> Rabs (B2R p) + Rabs (B2R q) + Rabs (B2R r) <= 24 ->
     ev lm (V_dot (EN lm) (inV lm (V3 p q r)) (inV lm (V3 t0 t1 t2))) y -> fin y /\
     Rabs (B2R y - (B2R p * B2R t0 + B2R q * B2R t1 + B2R r * B2R t2)) <= 4 * u * (Rabs (B2R p) * Rabs (B2R t0) + Rabs (B2R q) * Rabs (B2R t1) + Rabs (B2R r) * Rabs (B2R t2)) + 4 * eta).
  { intros p q' r y Fp Fq Fr Hs Ev. apply dot_fused in Ev; [|repeat split; assumption|exact Ft|].
    - unfold absdot, PMatF.dotR in Ev. cbn [v0 v1 v2] in Ev. rewrite !Rabs_mult in Ev. exact Ev.
    - unfold absdot. cbn [v0 v1 v2]. rewrite !Rabs_mult. pose proof (bpow_ge_0 radix2 110).
      assert (Q : forall x t, Rabs t <= M -> Rabs (B2R (x : f32)) * Rabs t <= Rabs (B2R x) * bpow radix2 110) by (intros; apply Rmult_le_compat_l; [apply Rabs_pos|lra]).
      pose proof (Q p _ N0). pose proof (Q q' _ N1). pose proof (Q r _ N2).
      assert ((Rabs (B2R p) + Rabs (B2R q') + Rabs (B2R r)) * bpow radix2 110 <= 24 * bpow radix2 110) by (apply Rmult_le_compat_r; lra). lra. }
  destruct (W _ _ _ _ FA0 FA1 FA2 S0 EV0) as (Fz0 & Ez0). destruct (W _ _ _ _ FA3 FA4 FA5 S1 EV1) as (Fz1 & Ez1). destruct (W _ _ _ _ FA6 FA7 FA8 S2 EV2) as (Fz2 & Ez2).
  split; [repeat split; assumption|].
  exact (conj (qrow_real _ _ _ _ _ _ _ _ _ _ M _ R0 N0 N1 N2 Ez0) (conj (qrow_real _ _ _ _ _ _ _ _ _ _ M _ R1 N0 N1 N2 Ez1) (qrow_real _ _ _ _ _ _ _ _ _ _ M _ R2 N0 N1 N2 Ez2))).
Qed.
Definition agreesF (G : gamut_fun) : Prop := forall t r : Vector3 f32, allV fin t -> norm3 t <= bpow radix2 110 ->
  (evV lm (M_apply (EN lm) (inM lm (g_toXYZ (G (FN lm)))) (inV lm t)) r -> exists e, G_toXYZ_t RN (G RN) (finV (vR t)) = finV e /\ near_app 10 r e (norm3 t)) /\
  (evV lm (M_apply (EN lm) (inM lm (g_fromXYZ (G (FN lm)))) (inV lm t)) r -> exists e, G_fromXYZ_t RN (G RN) (finV (vR t)) = finV e /\ near_app 30 r e (norm3 t)).
Lemma agreesF_by (G : gamut_fun) a b : G RN = mkGamut (finM (qR a)) (finM (qR b)) ->
  qchk 10 (g_toXYZ (G (FN lm))) a = true -> qchk 30 (g_fromXYZ (G (FN lm))) b = true -> agreesF G.
Proof.
  intros E A B t r Ft HM. rewrite E. unfold G_toXYZ_t, G_fromXYZ_t. cbn [g_toXYZ g_fromXYZ]. split; intros Ev; eexists.
  - split; [apply M_apply_fin|]. now apply (qchk_fused 10) with (1 := A).
  - split; [apply M_apply_fin|]. now apply (qchk_fused 30) with (1 := B).
Qed.
Lemma AdobeRGB_agreesF : agreesF AdobeRGB.
Proof.
  apply (agreesF_by _ (to_q 64000 33000 21000 71000 15000 6000 31270 32900) (from_q 64000 33000 21000 71000 15000 6000 31270 32900));
    [unfold AdobeRGB; prim_rn|vm_compute; reflexivity..].
Qed.
Lemma Rec709_agreesF : agreesF Rec709.
Proof.
  apply (agreesF_by _ (to_q 64000 33000 30000 60000 15000 6000 31270 32900) (from_q 64000 33000 30000 60000 15000 6000 31270 32900));
    [unfold Rec709; prim_rn|vm_compute; reflexivity..].
Qed.
Lemma Rec2020_agreesF : agreesF Rec2020.
Proof.
  apply (agreesF_by _ (to_q 70800 29200 17000 79700 13100 4600 31270 32900) (from_q 70800 29200 17000 79700 13100 4600 31270 32900));
    [unfold Rec2020; prim_rn|vm_compute; reflexivity..].
Qed.
Lemma DCI_P3_agreesF : agreesF DCI_P3.
Proof.
  apply (agreesF_by _ (to_q 68000 32000 26500 69000 15000 6000 31400 35100) (from_q 68000 32000 26500 69000 15000 6000 31400 35100));
    [unfold DCI_P3; prim_rn|vm_compute; reflexivity..].
Qed.
Lemma S_Gamut_agreesF : agreesF S_Gamut.
Proof.
  apply (agreesF_by _ (to_q 73000 28000 14000 85500 10000 (-5000) 31270 32900) (from_q 73000 28000 14000 85500 10000 (-5000) 31270 32900));
    [unfold S_Gamut; prim_rn|vm_compute; reflexivity..].
Qed.
Lemma S_Gamut3_Cine_agreesF : agreesF S_Gamut3_Cine.
Proof.
  apply (agreesF_by _ (to_q 76600 27500 22500 80000 8900 (-8700) 31270 32900) (from_q 76600 27500 22500 80000 8900 (-8700) 31270 32900));
    [unfold S_Gamut3_Cine; prim_rn|vm_compute; reflexivity..].
Qed.
Lemma ACEScg_agreesF : agreesF ACEScg.
Proof.
  apply (agreesF_by _ (to_q 71300 29300 16500 83000 12800 4400 32168 33767) (from_q 71300 29300 16500 83000 12800 4400 32168 33767));
    [unfold ACEScg; prim_rn|vm_compute; reflexivity..].
Qed.
Lemma ACES2065_agreesF : agreesF ACES2065.
Proof.
  apply (agreesF_by _ (to_q 73470 26530 0 100000 10 (-7700) 32168 33767) (from_q 73470 26530 0 100000 10 (-7700) 32168 33767));
    [unfold ACES2065; prim_rn|vm_compute; reflexivity..].
Qed.
Lemma LMS_agreesF : agreesF LMS.
Proof.
  apply (agreesF_by _ brad_inv_q brad_q); [|vm_compute; reflexivity..].
  rewrite <- brad_qR, <- brad_inv_qR. destruct LMS_good as (A & B & _). destruct (LMS RN) as [x y]. cbn in A, B. now rewrite A, B.
Qed.
Lemma XYZ_agreesF : agreesF XYZ_gamut.
Proof.
  apply (agreesF_by _ id_q id_q); [|vm_compute; reflexivity..].
  destruct XYZ_good as (A & B & _). destruct (XYZ_gamut RN) as [x y]. cbn [g_toXYZ g_fromXYZ] in A, B. rewrite A, B. f_equal; f_equal;
    unfold invR, qR, detR, idR, id_q; cbn [qn qd0 qd1 qd2 m0 m1 m2 m3 m4 m5 m6 m7 m8]; spec; apply M3_eq; field; lra.
Qed.
Lemma all_agreeF : Forall agreesF
  (AdobeRGB :: Rec709 :: Rec2020 :: DCI_P3 :: S_Gamut :: S_Gamut3_Cine :: ACEScg :: ACES2065 :: LMS :: XYZ_gamut :: nil).
Proof.
  repeat apply Forall_cons; auto using AdobeRGB_agreesF, Rec709_agreesF, Rec2020_agreesF, DCI_P3_agreesF, S_Gamut_agreesF, S_Gamut3_Cine_agreesF, ACEScg_agreesF, ACES2065_agreesF, LMS_agreesF, XYZ_agreesF.
Qed.
(** ** Exact cases *)
Fixpoint exactly (e : exp) : Prop :=
  match e with
  | Val x => fin x
  | Add a b | Sub a b | Mul a b => exactly a /\ exactly b /\ fmt (ex e) /\ Rabs (ex e) <= bpow radix2 127
  | Neg a => exactly a | _ => False end.
Lemma ev_exact e r : ev lm e r -> exactly e -> fin r /\ B2R r = ex e.
Proof.
  induction 1 as [x|a b x y _ IA _ IB|a b x y _ IA _ IB|a b x y _ IA _ IB|a x _ IA| |  |a b c x y z _ IA _ IB _ IC|a b c x y z _ IA _ IB _ IC|a b c x y z _ IA _ IB _ IC|a b c x y z _ IA _ IB _ IC]; intros S.
  - split; [exact S|reflexivity].
  - destruct S as (SA & SB & M & L). destruct (IA SA) as (FA & A), (IB SB) as (FB & B). cbn [ex] in *. rewrite <- A, <- B in *. destruct (add_ok lm x y FA FB L) as (Fr & V). split; [exact Fr|]. rewrite V. now apply rnd_id.
  - destruct S as (SA & SB & M & L). destruct (IA SA) as (FA & A), (IB SB) as (FB & B). cbn [ex] in *. rewrite <- A, <- B in *. destruct (sub_ok lm x y FA FB L) as (Fr & V). split; [exact Fr|]. rewrite V. now apply rnd_id.
  - destruct S as (SA & SB & M & L). destruct (IA SA) as (FA & A), (IB SB) as (FB & B). cbn [ex] in *. rewrite <- A, <- B in *. destruct (mul_ok lm x y FA FB L) as (Fr & V). split; [exact Fr|]. rewrite V. now apply rnd_id.
  - destruct (IA S) as (FA & A). destruct (opp_ok lm x FA) as (Fr & V). split; [exact Fr|]. rewrite V, A. reflexivity.
  - destruct S.
  - destruct S.
  - destruct S as ((SA & SB & _) & SC & M & L). destruct (IA SA) as (FA & A), (IB SB) as (FB & B), (IC SC) as (FC & C). cbn [ex] in *. rewrite <- A, <- B, <- C in *. destruct (fma_ok x y z FA FB FC L) as (Fr & V). split; [exact Fr|]. rewrite V. now apply rnd_id.
  - destruct S as (SC & (SA & SB & _) & M & L). destruct (IA SA) as (FA & A), (IB SB) as (FB & B), (IC SC) as (FC & C). cbn [ex] in *. rewrite <- A, <- B, <- C in *. rewrite Rplus_comm in *. destruct (fma_ok x y z FA FB FC L) as (Fr & V). split; [exact Fr|]. rewrite V. now apply rnd_id.
  - destruct S as ((SA & SB & _) & SC & M & L). destruct (IA SA) as (FA & A), (IB SB) as (FB & B), (IC SC) as (FC & C). cbn [ex] in *. rewrite <- A, <- B, <- C in *.
    destruct (opp_ok lm z FC) as (Fo & Vo). unfold Rminus in M, L. rewrite <- Vo in M, L. destruct (fma_ok x y _ FA FB Fo L) as (Fr & V). split; [exact Fr|]. rewrite V. rewrite rnd_id by exact M. rewrite Vo. ring.
  - destruct S as (SC & (SA & SB & _) & M & L). destruct (IA SA) as (FA & A), (IB SB) as (FB & B), (IC SC) as (FC & C). cbn [ex] in *. rewrite <- A, <- B, <- C in *.
    destruct (opp_ok lm x FA) as (Fo & Vo). assert (Q : B2R z - B2R x * B2R y = B2R (@fopp (FN lm) x) * B2R y + B2R z) by (rewrite Vo; ring). rewrite Q in *. destruct (fma_ok _ y z Fo FB FC L) as (Fr & V). split; [exact Fr|]. rewrite V. now apply rnd_id.
Qed.
Definition integral (x : f32) : Prop := fin x /\ exists k, B2R x = IZR k.
Lemma fmt_int x k : x = IZR k -> Rabs x <= 16777216 -> fmt x.
Proof. intros -> H. apply fmt_IZR. rewrite <- abs_IZR in H. apply le_IZR in H. exact H. Qed.
Lemma int_dot (a b : Vector3 f32) r : allV integral a -> allV integral b -> absdot a b <= 16777216 -> ev lm (V_dot (EN lm) (inV lm a) (inV lm b)) r -> fin r /\ B2R r = PMatF.dotR a b.
Proof.
  destruct a as [x0 x1 x2], b as [y0 y1 y2]. unfold allV, absdot, PMatF.dotR, inV, V_dot, vref. cbn [v0 v1 v2 fadd fmul EN].
  intros ((Fx0 & k0 & X0) & (Fx1 & k1 & X1) & (Fx2 & k2 & X2)) ((Fy0 & l0 & Y0) & (Fy1 & l1 & Y1) & (Fy2 & l2 & Y2)) S E. apply ev_exact in E; [exact E|].
  assert (BB : 16777216 <= bpow radix2 127) by (change 16777216 with (bpow radix2 24); apply bpow_le; lia).
  cbn [exactly ex]. rewrite X0, X1, X2, Y0, Y1, Y2 in *. rewrite <- !mult_IZR in *.
  pose proof (Rabs_triang (IZR (k0 * l0) + IZR (k1 * l1)) (IZR (k2 * l2))). pose proof (Rabs_triang (IZR (k0 * l0)) (IZR (k1 * l1))). pose proof (Rabs_pos (IZR (k0 * l0))). pose proof (Rabs_pos (IZR (k1 * l1))). pose proof (Rabs_pos (IZR (k2 * l2))).
  repeat split; try assumption; try lra; (eapply fmt_int; [rewrite <- ?plus_IZR; reflexivity|rewrite ?plus_IZR; lra]).
Qed.
Lemma int_fused (m : Matrix3 f32) (v r : Vector3 f32) (i : Z) : allM integral m -> allV integral v -> (0 <= i < 3)%Z ->
  evV lm (M_apply (EN lm) (inM lm m) (inV lm v)) r ->
  exists row x, M_row m i = Ret row /\ V_index r i = Ret x /\ (absdot row v <= 16777216 -> fin x /\ B2R x = PMatF.dotR row v).
Proof.
  intros Hm Hv Hi E. apply row_ev in E. destruct E as (E0 & E1 & E2). destruct m as [a0 a1 a2 a3 a4 a5 a6 a7 a8]. unfold allM in Hm. cbn [m0 m1 m2 m3 m4 m5 m6 m7 m8] in *.
  rewrite M_row_in by exact Hi. destruct (cases3 i Hi) as [->|[->| ->]]; eexists; eexists; (split; [reflexivity|]); (split; [destruct r; reflexivity|]); intros S.
  - apply (int_dot (V3 a0 a1 a2) v); try assumption. unfold allV; cbn [v0 v1 v2]; tauto.
  - apply (int_dot (V3 a3 a4 a5) v); try assumption. unfold allV; cbn [v0 v1 v2]; tauto.
  - apply (int_dot (V3 a6 a7 a8) v); try assumption. unfold allV; cbn [v0 v1 v2]; tauto.
Qed.
(** ** The choice matters *)
Definition wx : f32 := @flit (FN lm) 1.000244140625.
Definition wy : f32 := @flit (FN lm) (-1.00048828125).
Definition w1 : f32 := @flit (FN lm) 1.
Definition w0 : f32 := @flit (FN lm) 0.
Lemma matters : exists (m : Matrix3 f32) (v r : Vector3 f32), allM fin m /\ allV fin v /\ evV lm (M_apply (EN lm) (inM lm m) (inV lm v)) r /\
  B2R (v0 (M_apply (FN lm) m v)) = 0 /\ B2R (v0 r) = / 16777216.
Proof.
  exists (M3 wx wy w0 w0 w0 w0 w0 w0 w0), (V3 wx w1 w0).
  set (e := M_apply (EN lm) (inM lm (M3 wx wy w0 w0 w0 w0 w0 w0 w0)) (inV lm (V3 wx w1 w0))).
  exists (V3 (@fadd (FN lm) (fma wx wx (@fmul (FN lm) wy w1)) (@fmul (FN lm) w0 w0)) (plain lm (v1 e)) (plain lm (v2 e))).
  split; [repeat split|]. split; [repeat split|]. split; [split; [|split; apply plain_ev]|].
  - unfold e. apply (ev_add lm (Add (Mul (Val wx) (Val wx)) (Mul (Val wy) (Val w1))) (Mul (Val w0) (Val w0))); [|apply plain_ev].
    apply ev_fma_l; [constructor..|]. apply (plain_ev lm (Mul (Val wy) (Val w1))).
  - split.
    + assert (Z : fin (v0 (M_apply (FN lm) (M3 wx wy w0 w0 w0 w0 w0 w0 w0) (V3 wx w1 w0))) /\ B2R (v0 (M_apply (FN lm) (M3 wx wy w0 w0 w0 w0 w0 w0 w0) (V3 wx w1 w0))) = 0) by f32_val. apply Z.
    + cbn [v0]. assert (Z : fin (@fadd (FN lm) (fma wx wx (@fmul (FN lm) wy w1)) (@fmul (FN lm) w0 w0)) /\ B2R (@fadd (FN lm) (fma wx wx (@fmul (FN lm) wy w1)) (@fmul (FN lm) w0 w0)) = / 16777216) by f32_val. apply Z.
Qed.
Lemma apply_plain m v : evV lm (M_apply (EN lm) (inM lm m) (inV lm v)) (M_apply (FN lm) m v).
Proof. rewrite <- plain_apply. repeat split; apply plain_ev. Qed.
Lemma fused_case : let z k : f32 := @fofZ (FN lm) k in let a := V3 (z 3%Z) (z 2%Z) (z 7%Z) in let b := V3 (z 5%Z) (z 4%Z) (z 1%Z) in
  exists r, ev lm (V_dot (EN lm) (inV lm a) (inV lm b)) r /\ r = fma (z 7%Z) (z 1%Z) (fma (z 3%Z) (z 5%Z) (@fmul (FN lm) (z 2%Z) (z 4%Z))) /\ B2R r = 30.
Proof.
  cbv zeta. eexists. split; [|split; [reflexivity|]].
  - apply ev_fma_r; [constructor..|]. apply ev_fma_l; [constructor..|]. apply (plain_ev lm (Mul (Val (@fofZ (FN lm) 2)) (Val (@fofZ (FN lm) 4)))).
  - match goal with |- B2R ?x = _ => assert (Z : fin x /\ B2R x = 30) by f32_val end. apply Z.
Qed.
End WithLibm.
