(** * Transfer functions, gamut round trips and images with fused multiply-add. *)
From Coq Require Import ZArith QArith Qreals Reals Lra Lia Psatz List Bool.
From Flocq Require Import Core IEEE754.BinarySingleNaN.
From Verif Require Import Num NumR NumF MVec MTri MOtf MFma RTac F32 RPow RExp PHsvF PLibm PPowF PNearF PNearF2 PRelF POtf POtf2 POtfF POtfF2 PCodes PMat PMatF PGamF PImg PFma PFma2.
Local Open Scope R_scope.

Section F.
Context (lm : libm).
Notation N := (FN lm).
Notation E := (EN lm).
Lemma near_fma (x y z : f32) r s t e f g A B Q : near x r e -> near y s f -> near z t g -> Rabs r <= A -> Rabs s <= B -> Rabs (r * s + t) <= Q ->
  let P := A * f + B * e + e * f in Q + P + g <= 1000000000000 -> near (fma x y z) (r * s + t) (P + g + (u * (Q + P + g) + eta)).
Proof.
  intros [Fx Hx] [Fy Hy] [Fz Hz] HA HB HQ P Hb.
  assert (D : Rabs (B2R x * B2R y + B2R z - (r * s + t)) <= P + g).
  { replace (B2R x * B2R y + B2R z - (r * s + t)) with (r * (B2R y - s) + s * (B2R x - r) + (B2R x - r) * (B2R y - s) + (B2R z - t)) by ring.
    eapply Rle_trans; [apply Rabs_triang|]. apply Rplus_le_compat; [|exact Hz]. unfold P. eapply Rle_trans; [apply Rabs_triang|]. apply Rplus_le_compat; [eapply Rle_trans; [apply Rabs_triang|]; apply Rplus_le_compat|];
      rewrite Rabs_mult; apply Rmult_le_compat; auto using Rabs_pos. }
  assert (V : Rabs (B2R x * B2R y + B2R z) <= Q + P + g).
  { replace (B2R x * B2R y + B2R z) with (B2R x * B2R y + B2R z - (r * s + t) + (r * s + t)) by ring. eapply Rle_trans; [apply Rabs_triang|]. lra. }
  destruct (fma_ok x y z Fx Fy Fz) as [Ff Vf]; [pose proof b40; lra|]. split; [exact Ff|]. rewrite Vf.
  pose proof (rnd_err_abs (B2R x * B2R y + B2R z)) as Er. pose proof u_pos.
  assert (u * Rabs (B2R x * B2R y + B2R z) <= u * (Q + P + g)) by (apply Rmult_le_compat_l; lra).
  replace (rnd (B2R x * B2R y + B2R z) - (r * s + t)) with (rnd (B2R x * B2R y + B2R z) - (B2R x * B2R y + B2R z) + (B2R x * B2R y + B2R z - (r * s + t))) by ring.
  eapply Rle_trans; [apply Rabs_triang|]. lra.
Qed.
Lemma near_opp (x : f32) r e : near x r e -> near (@fopp N x) (- r) e.
Proof.
  intros [F H]. split; [unfold fin; cbn; now rewrite is_finite_Bopp|]. cbn. rewrite B2R_Bopp. replace (- B2R x - - r) with (- (B2R x - r)) by ring. now rewrite Rabs_Ropp.
Qed.

(** ** Evaluation of a vector expression *)
Lemma fused_dot (a : Vector3 f32) (e : Vector3 (F E)) z : ev lm (V_dot E (inV lm a) e) z -> exists y, evV lm e y /\ ev lm (V_dot E (inV lm a) (inV lm y)) z.
Proof.
  destruct a as [a0 a1 a2], e as [e0 e1 e2]. unfold V_dot, vref, inV. cbn [v0 v1 v2 fadd fmul EN]. intros H.
  assert (M : forall a e r, ev lm (Mul (Val a) e) r -> exists y, ev lm e y /\ r = @fmul N a y).
  { intros a e r X. inversion X; subst. match goal with X : ev lm (Val _) _ |- _ => inversion X; subst end. eauto. }
  assert (S : forall r, ev lm (Add (Mul (Val a0) e0) (Mul (Val a1) e1)) r -> exists y0 y1, ev lm e0 y0 /\ ev lm e1 y1 /\ ev lm (Add (Mul (Val a0) (Val y0)) (Mul (Val a1) (Val y1))) r).
  { intros r X. inversion X; subst.
    - repeat match goal with X : ev lm (Mul _ _) _ |- _ => apply M in X; destruct X as (? & ? & ->) end. eexists. eexists. repeat split; try eassumption. repeat constructor.
    - repeat match goal with X : ev lm (Mul _ _) _ |- _ => apply M in X; destruct X as (? & ? & ->) | X : ev lm (Val _) _ |- _ => inversion X; clear X; subst end.
      eexists. eexists. repeat split; try eassumption. apply ev_fma_l; repeat constructor.
    - repeat match goal with X : ev lm (Mul _ _) _ |- _ => apply M in X; destruct X as (? & ? & ->) | X : ev lm (Val _) _ |- _ => inversion X; clear X; subst end.
      eexists. eexists. repeat split; try eassumption. apply ev_fma_r; repeat constructor. }
  inversion H; clear H; subst.
  - match goal with X : ev lm (Add _ _) _ |- _ => apply S in X; destruct X as (q0 & q1 & Hq0 & Hq1 & X) end.
    match goal with X : ev lm (Mul _ _) _ |- _ => apply M in X; destruct X as (z2 & Hz2 & ->) end.
    exists (V3 q0 q1 z2). split; [repeat split; assumption|]. cbn [v0 v1 v2]. apply ev_add; [assumption|]. repeat constructor.
  - match goal with X : ev lm (Add _ _) _ |- _ => apply S in X; destruct X as (q0 & q1 & Hq0 & Hq1 & X) end.
    match goal with X : ev lm (Val _) _ |- _ => inversion X; clear X; subst end.
    exists (V3 q0 q1 y). split; [repeat split; assumption|]. cbn [v0 v1 v2]. apply ev_fma_r; [constructor|constructor|assumption].
Qed.
Lemma rows_fused (m : Matrix3 f32) (e : Vector3 (F E)) r : evV lm (M_apply E (inM lm m) e) r ->
  ev lm (V_dot E (inV lm (V3 (m0 m) (m1 m) (m2 m))) e) (v0 r) /\ ev lm (V_dot E (inV lm (V3 (m3 m) (m4 m) (m5 m))) e) (v1 r) /\
  ev lm (V_dot E (inV lm (V3 (m6 m) (m7 m) (m8 m))) e) (v2 r).
Proof. destruct m, e. exact (fun H => H). Qed.

(** ** There and back *)
Lemma chk_fused (A B : Matrix3 f32) (t t' : Vector3 f32) : chk A B = true -> allV fin t -> norm3 t <= bpow radix2 110 ->
  evV lm (M_apply E (inM lm B) (M_apply E (inM lm A) (inV lm t))) t' -> back t t'.
Proof.
  unfold chk. destruct (zM A) as [a|] eqn:EA; [|discriminate]. destruct (zM B) as [b|] eqn:EB; [|discriminate].
  rewrite !andb_true_iff, !Z.leb_le. intros (((((R0 & R1) & R2) & S0) & S1) & S2) Ft HM EV.
  apply zM_ok in EA, EB. destruct EA as (FA & A0 & A1 & A2 & A3 & A4 & A5 & A6 & A7 & A8). destruct EB as (FB & B0 & B1 & B2 & B3 & B4 & B5 & B6 & B7 & B8).
  apply row_le_Z in R0, R1, R2. apply sum_le_Z in S0, S1, S2. cbv zeta in R0, R1, R2.
  revert R0 R1 R2 S0 S1 S2. rewrite <- !A0, <- !A1, <- !A2, <- !A3, <- !A4, <- !A5, <- !A6, <- !A7, <- !A8, <- !B0, <- !B1, <- !B2, <- !B3, <- !B4, <- !B5, <- !B6, <- !B7, <- !B8. intros R0 R1 R2 S0 S1 S2.
  clear A0 A1 A2 A3 A4 A5 A6 A7 A8 B0 B1 B2 B3 B4 B5 B6 B7 B8 a b.
  destruct R0 as [R0 Q0], R1 as [R1 Q1], R2 as [R2 Q2]. destruct (norm3_ge t) as (N0 & N1 & N2).
  apply rows_fused in EV. unfold back. set (M := norm3 t) in *. clearbody M.
  destruct A as [a00 a01 a02 a10 a11 a12 a20 a21 a22], B as [b00 b01 b02 b10 b11 b12 b20 b21 b22], t as [t0 t1 t2], t' as [z0 z1 z2].
  unfold allM in FA, FB. cbn [m0 m1 m2 m3 m4 m5 m6 m7 m8 v0 v1 v2] in *.
  destruct FA as (FA0 & FA1 & FA2 & FA3 & FA4 & FA5 & FA6 & FA7 & FA8), FB as (FB0 & FB1 & FB2 & FB3 & FB4 & FB5 & FB6 & FB7 & FB8).
  assert (L : bpow radix2 110 * 1024 = bpow radix2 120) by (change 120%Z with (110 + 10)%Z; rewrite (bpow_plus radix2 110 10); reflexivity).
  assert (L2 : bpow radix2 120 * 64 = bpow radix2 126) by (change 126%Z with (120 + 6)%Z; rewrite (bpow_plus radix2 120 6); reflexivity).
  pose proof (bpow_gt_0 radix2 110) as P110. pose proof u16 as U. pose proof eta16 as Et.
  assert (PM : 0 <= M) by (pose proof (Rabs_pos (B2R t0)); lra).
  assert (E110 : eta <= bpow radix2 110) by (apply bpow_le; lia).
  assert (D : forall (p q r x0 x1 x2 : f32) K y, fin p -> fin q -> fin r -> fin x0 -> fin x1 -> fin x2 -> Rabs (B2R p) + Rabs (B2R q) + Rabs (B2R r) <= 24 ->
     Rabs (B2R x0) <= K -> Rabs (B2R x1) <= K -> Rabs (B2R x2) <= K -> K <= bpow radix2 120 ->
     ev lm (V_dot E (inV lm (V3 p q r)) (inV lm (V3 x0 x1 x2))) y -> fin y /\
     Rabs (B2R y - (B2R p * B2R x0 + B2R q * B2R x1 + B2R r * B2R x2)) <= 4 * u * (Rabs (B2R p) * Rabs (B2R x0) + Rabs (B2R q) * Rabs (B2R x1) + Rabs (B2R r) * Rabs (B2R x2)) + 4 * eta /\
     Rabs (B2R p) * Rabs (B2R x0) + Rabs (B2R q) * Rabs (B2R x1) + Rabs (B2R r) * Rabs (B2R x2) <= (Rabs (B2R p) + Rabs (B2R q) + Rabs (B2R r)) * K /\
     Rabs (B2R p * B2R x0 + B2R q * B2R x1 + B2R r * B2R x2) <= (Rabs (B2R p) + Rabs (B2R q) + Rabs (B2R r)) * K).
  { intros p q r x0 x1 x2 K y Fp Fq Fr F0 F1 F2 Hs K0 K1 K2 HK Ev. pose proof (Rabs_pos (B2R p)). pose proof (Rabs_pos (B2R q)). pose proof (Rabs_pos (B2R r)).
    assert (PK : 0 <= K) by (pose proof (Rabs_pos (B2R x0)); lra).
    assert (S : Rabs (B2R p) * Rabs (B2R x0) + Rabs (B2R q) * Rabs (B2R x1) + Rabs (B2R r) * Rabs (B2R x2) <= (Rabs (B2R p) + Rabs (B2R q) + Rabs (B2R r)) * K).
    { assert (Rabs (B2R p) * Rabs (B2R x0) <= Rabs (B2R p) * K) by (apply Rmult_le_compat_l; assumption).
      assert (Rabs (B2R q) * Rabs (B2R x1) <= Rabs (B2R q) * K) by (apply Rmult_le_compat_l; assumption).
      assert (Rabs (B2R r) * Rabs (B2R x2) <= Rabs (B2R r) * K) by (apply Rmult_le_compat_l; assumption). lra. }
    apply dot_fused in Ev; [|repeat split; assumption|repeat split; assumption|].
    - unfold absdot, PMatF.dotR in Ev. cbn [v0 v1 v2] in Ev. rewrite !Rabs_mult in Ev. destruct Ev as [Fy Ey]. split; [exact Fy|]. split; [exact Ey|]. split; [exact S|].
      eapply Rle_trans; [apply abs3|]. rewrite !Rabs_mult. exact S.
    - unfold absdot. cbn [v0 v1 v2]. rewrite !Rabs_mult. eapply Rle_trans; [exact S|]. apply Rle_trans with (24 * bpow radix2 120); [apply Rmult_le_compat; lra|lra]. }
  assert (W : forall (p q r y : f32), fin p -> fin q -> fin r -> Rabs (B2R p) + Rabs (B2R q) + Rabs (B2R r) <= 24 ->
     ev lm (V_dot E (inV lm (V3 p q r)) (inV lm (V3 t0 t1 t2))) y -> fin y /\
     Rabs (B2R y - (B2R p * B2R t0 + B2R q * B2R t1 + B2R r * B2R t2)) <= 4 * u * ((Rabs (B2R p) + Rabs (B2R q) + Rabs (B2R r)) * M) + 4 * eta /\
     Rabs (B2R y) <= (1 + 4 * u) * ((Rabs (B2R p) + Rabs (B2R q) + Rabs (B2R r)) * M) + 4 * eta /\ Rabs (B2R y) <= bpow radix2 120).
  { intros p q r y Fp Fq Fr Hs Ev. destruct Ft as (F0 & F1 & F2). cbn [v0 v1 v2] in *.
    destruct (D p q r t0 t1 t2 M y Fp Fq Fr F0 F1 F2 Hs N0 N1 N2 ltac:(lra) Ev) as (Fy & Ey & Sy & Ty).
    set (s := (Rabs (B2R p) + Rabs (B2R q) + Rabs (B2R r)) * M) in *.
    assert (s <= 24 * bpow radix2 110) by (unfold s; pose proof (Rabs_pos (B2R p)); pose proof (Rabs_pos (B2R q)); pose proof (Rabs_pos (B2R r)); apply Rmult_le_compat; lra).
    assert (X : 4 * u * (Rabs (B2R p) * Rabs (B2R t0) + Rabs (B2R q) * Rabs (B2R t1) + Rabs (B2R r) * Rabs (B2R t2)) <= 4 * u * s) by (apply Rmult_le_compat_l; lra).
    assert (Y : Rabs (B2R y) <= (1 + 4 * u) * s + 4 * eta).
    { replace (B2R y) with (B2R y - (B2R p * B2R t0 + B2R q * B2R t1 + B2R r * B2R t2) + (B2R p * B2R t0 + B2R q * B2R t1 + B2R r * B2R t2)) by ring.
      eapply Rle_trans; [apply Rabs_triang|]. lra. }
    split; [exact Fy|]. split; [lra|]. split; [exact Y|]. eapply Rle_trans; [exact Y|]. rewrite U. lra. }
  assert (T : forall (p q r z : f32) (k0 k1 k2 : R), fin p -> fin q -> fin r -> Rabs (B2R p) + Rabs (B2R q) + Rabs (B2R r) <= 24 ->
     Rabs (B2R p * B2R a00 + B2R q * B2R a10 + B2R r * B2R a20 - k0) + Rabs (B2R p * B2R a01 + B2R q * B2R a11 + B2R r * B2R a21 - k1) + Rabs (B2R p * B2R a02 + B2R q * B2R a12 + B2R r * B2R a22 - k2)
      + 9 * u * (Rabs (B2R p) * (Rabs (B2R a00) + Rabs (B2R a01) + Rabs (B2R a02)) + Rabs (B2R q) * (Rabs (B2R a10) + Rabs (B2R a11) + Rabs (B2R a12)) + Rabs (B2R r) * (Rabs (B2R a20) + Rabs (B2R a21) + Rabs (B2R a22))) <= 50 * u ->
     ev lm (V_dot E (inV lm (V3 p q r)) (M_apply E (inM lm (M3 a00 a01 a02 a10 a11 a12 a20 a21 a22)) (inV lm (V3 t0 t1 t2)))) z ->
     fin z /\ Rabs (B2R z - (k0 * B2R t0 + k1 * B2R t1 + k2 * B2R t2)) <= 50 * u * M + 128 * eta).
  { intros p q r z k0 k1 k2 Fp Fq Fr Hs Hk Ev. apply fused_dot in Ev. destruct Ev as ([y0 y1 y2] & Ea & Eb). apply rows_fused in Ea. cbn [m0 m1 m2 m3 m4 m5 m6 m7 m8 v0 v1 v2] in Ea. destruct Ea as (Ea0 & Ea1 & Ea2).
    destruct (W a00 a01 a02 y0) as (Fy0 & Ey0 & By0 & Cy0); try assumption. destruct (W a10 a11 a12 y1) as (Fy1 & Ey1 & By1 & Cy1); try assumption. destruct (W a20 a21 a22 y2) as (Fy2 & Ey2 & By2 & Cy2); try assumption.
    destruct (D p q r y0 y1 y2 (bpow radix2 120) z Fp Fq Fr Fy0 Fy1 Fy2 Hs Cy0 Cy1 Cy2 (Rle_refl _) Eb) as (Fz & Ez & _). split; [exact Fz|].
    exact (rt_real _ _ _ _ _ _ _ _ _ _ _ _ _ _ _ _ _ _ _ _ _ _ M Hk Hs N0 N1 N2 Ey0 By0 Ey1 By1 Ey2 By2 Ez). }
  destruct EV as (V0 & V1 & V2).
  destruct (T _ _ _ _ _ _ _ FB0 FB1 FB2 Q0 R0 V0) as [G0 X0]. destruct (T _ _ _ _ _ _ _ FB3 FB4 FB5 Q1 R1 V1) as [G1 X1]. destruct (T _ _ _ _ _ _ _ FB6 FB7 FB8 Q2 R2 V2) as [G2 X2].
  replace (1 * B2R t0 + 0 * B2R t1 + 0 * B2R t2) with (B2R t0) in X0 by ring.
  replace (0 * B2R t0 + 1 * B2R t1 + 0 * B2R t2) with (B2R t1) in X1 by ring.
  replace (0 * B2R t0 + 0 * B2R t1 + 1 * B2R t2) with (B2R t2) in X2 by ring.
  split; [repeat split; assumption|]. auto.
Qed.
Lemma gam_round_fused (G : Gamut f32) (t t' : Vector3 f32) : In G (gams lm) -> allV fin t -> norm3 t <= bpow radix2 110 ->
  (evV lm (M_apply E (inM lm (g_fromXYZ G)) (M_apply E (inM lm (g_toXYZ G)) (inV lm t))) t' -> back t t') /\
  (evV lm (M_apply E (inM lm (g_toXYZ G)) (M_apply E (inM lm (g_fromXYZ G)) (inV lm t))) t' -> back t t').
Proof.
  intros HG Ft HM. pose proof (proj1 (forallb_forall _ _) (gams_chk lm) G HG) as H. apply andb_true_iff in H. destruct H as [H1 H2].
  split; [exact (chk_fused _ _ t t' H1 Ft HM)|exact (chk_fused _ _ t t' H2 Ft HM)].
Qed.
Lemma gam_conv_fused (G H : Gamut f32) (t t' : Vector3 f32) : In G (gams lm) -> In H (gams lm) -> allV fin t -> norm3 t <= bpow radix2 110 ->
  evV lm (M_apply E (inM lm (GamutConvert N H G)) (M_apply E (inM lm (GamutConvert N G H)) (inV lm t))) t' -> back t t'.
Proof.
  intros HG HH Ft HM. pose proof (proj1 (forallb_forall _ _) (gams_conv lm) G HG) as C. pose proof (proj1 (forallb_forall _ _) C H HH) as C2.
  exact (chk_fused _ _ t t' C2 Ft HM).
Qed.

(** ** The transfer functions: sRGB and BT.709 *)
Ltac inv1 := match goal with X : ev lm (Val _) _ |- _ => inversion X; clear X; subst | X : ev lm (flit _) _ |- _ => inversion X; clear X; subst
  | X : ev lm (Op1 _ _) _ |- _ => inversion X; clear X; subst | X : ev lm (Op2 _ _ _) _ |- _ => inversion X; clear X; subst
  | X : ev lm (Mul _ _) _ |- _ => inversion X; clear X; subst end.
Lemma srgb_dec_fused (C r : f32) : ev lm (sRGB_to_Y E (Val C)) r -> r = sRGB_to_Y N C.
Proof.
  unfold sRGB_to_Y. cbn [fltb EN plain flit fdiv fadd fpow].
  destruct (@fltb N C _); [intros; repeat inv1; reflexivity|]. destruct (@fltb N _ C); [intros; repeat inv1; reflexivity|].
  destruct (@fltb N C _); intros; repeat inv1; [reflexivity|].
  match goal with X : ev lm (Add _ _) _ |- _ => inversion X; clear X; subst end. repeat inv1. reflexivity.
Qed.
Lemma bt_dec_fused (C r : f32) : ev lm (BT709_to_Y E (Val C)) r -> r = BT709_to_Y N C.
Proof.
  unfold BT709_to_Y. cbn [fltb EN plain flit fdiv fadd fpow].
  destruct (@fltb N C _); [intros; repeat inv1; reflexivity|]. destruct (@fltb N _ C); [intros; repeat inv1; reflexivity|].
  destruct (@fltb N C _); intros; repeat inv1; [reflexivity|].
  match goal with X : ev lm (Add _ _) _ |- _ => inversion X; clear X; subst end. repeat inv1. reflexivity.
Qed.
Lemma srgb_enc_fused (C r : f32) : accurate lm -> fin C -> ev lm (Y_to_sRGB E (Val C)) r -> near r (s_enc (B2R C)) (9 * u).
Proof.
  intros Acc Fc. pose proof (srgb_enc_near lm Acc C Fc) as Hn. pose proof u16 as U. pose proof eta16 as Et. set (v := B2R C) in *.
  destruct (l0 lm) as [F0 V0]. destruct (l1 lm) as [F1 V1]. destruct (sl_a lm) as [Fa Va].
  revert Hn. unfold Y_to_sRGB. cbn [fltb EN plain flit fdiv fadd fpow fmul fsub]. 
  destruct (@fltb N C (@flit N 0%dec)) eqn:X0; [intros; repeat inv1; assumption|]. destruct (@fltb N (@flit N 1%dec) C) eqn:X1; [intros; repeat inv1; assumption|].
  destruct (@fltb N C (@flit N 0.0031308%dec)) eqn:X2; intros Hn H; [repeat inv1; assumption|].
  rewrite ltb_ok in X0, X1, X2 by assumption. rewrite V0 in X0. rewrite V1 in X1. rewrite Va in X2. fold v in X0, X1, X2.
  revert X0 X1 X2. case Rlt_bool_spec; [discriminate|]. intros A _. case Rlt_bool_spec; [discriminate|]. intros B _. case Rlt_bool_spec; [discriminate|]. intros D _.
  pose proof (s_pow_range v ltac:(lra)) as PR.
  assert (P : near (@fpow N C (@fdiv N (@flit N 1.0%dec) (@flit N 2.4%dec))) (Rpower v (5 / 12)) (5.2 * u)).
  { eapply near_le; [apply (near_pow lm Acc C _ v (5 / 12) 0 (u / 5.9) (6 * u / 5.9) 1)|].
    - eapply near_le; [apply near_self, Fc|lra].
    - apply (near_lit _ _ _ _ (sl_f lm)). apply Rabs_le; lra.
    - lra.
    - lra.
    - pose proof (ln_abs 0.003 (-6) v ltac:(lra) ltac:(lra) ln_003). pose proof (Rabs_pos (ln v)). unfold Rdiv in *. nra.
    - lra.
    - lra.
    - lra.
    - lra.
    - apply small_100. lra.
    - lra. }
  inversion H; clear H; subst; repeat inv1; [assumption|].
  rewrite s_enc_hi by lra.
  eapply near_le; [eapply near_eq; [apply (near_fma _ _ _ 1.055 (Rpower v (5 / 12)) (Ropp 0.055) (0.9 * u) (5.2 * u) (/ 1000000000) 1.055 1 1); [|exact P|apply near_opp|..]|ring]|].
  + apply (near_lit _ _ _ _ (sl_c lm)). apply Rabs_le; lra.
  + apply (near_lit _ _ _ _ (sl_d lm)). apply Rabs_le; lra.
  + apply Rabs_le; lra.
  + apply Rabs_le; lra.
  + apply Rabs_le; lra.
  + rewrite U; lra.
  + rewrite U in *; lra.
Qed.
Lemma bt_enc_fused (C r : f32) : accurate lm -> fin C -> B2R C <> B2R (@flit N 0.018%dec) -> ev lm (Y_to_BT709 E (Val C)) r -> near r (bt_enc (B2R C)) (9 * u).
Proof.
  intros Acc Fc Ne. pose proof (bt_enc_near lm Acc C Fc Ne) as Hn. pose proof u16 as U. pose proof eta16 as Et. set (v := B2R C) in *.
  destruct (l0 lm) as [F0 V0]. destruct (l1 lm) as [F1 V1]. destruct (bl_a lm) as [Fa Va].
  revert Hn. unfold Y_to_BT709. cbn [fltb EN plain flit fdiv fadd fpow fmul fsub].
  destruct (@fltb N C (@flit N 0%dec)) eqn:X0; [intros; repeat inv1; assumption|]. destruct (@fltb N (@flit N 1%dec) C) eqn:X1; [intros; repeat inv1; assumption|].
  destruct (@fltb N C (@flit N 0.018%dec)) eqn:X2; intros Hn H; [repeat inv1; assumption|].
  rewrite ltb_ok in X0, X1, X2 by assumption. rewrite V0 in X0. rewrite V1 in X1. rewrite Va in X2, Ne. fold v in X0, X1, X2.
  revert X0 X1 X2. case Rlt_bool_spec; [discriminate|]. intros A _. case Rlt_bool_spec; [discriminate|]. intros B _. case Rlt_bool_spec; [discriminate|]. intros D _.
  assert (0.018 <= v).
  { pose proof (gap_lt (-6) (2415919 / 134217728) v ltac:(lia) ltac:(rewrite <- Va; apply fmt_B2R) (fmt_B2R C)) as G.
    change (bpow radix2 (-6)) with (/ 64) in G. change (bpow radix2 (-6 - 23)) with (/ 536870912) in G. lra. }
  pose proof (bt_pow_range v ltac:(lra)) as PR.
  assert (P : near (@fpow N C (@flit N 0.45%dec)) (Rpower v 0.45) (5 * u)).
  { eapply near_le; [apply (near_pow lm Acc C _ v 0.45 0 (0.21 * u) (4.1 * (0.21 * u)) 1)|].
    - eapply near_le; [apply near_self, Fc|lra].
    - apply (near_lit _ _ _ _ (bl_e lm)). apply Rabs_le; lra.
    - lra.
    - lra.
    - pose proof (ln_abs 0.017 (-4.1) v ltac:(lra) ltac:(lra) ln_0179). pose proof (Rabs_pos (ln v)). nra.
    - lra.
    - lra.
    - lra.
    - lra.
    - apply small_100. lra.
    - lra. }
  inversion H; clear H; subst; repeat inv1; [assumption|].
  rewrite bt_enc_hi by lra.
  eapply near_le; [eapply near_eq; [apply (near_fma _ _ _ 1.099 (Rpower v 0.45) (Ropp 0.099) (0.4 * u) (5 * u) (/ 100000000) 1.099 1 1); [|exact P|apply near_opp|..]|ring]|].
  + apply (near_lit _ _ _ _ (bl_c lm)). apply Rabs_le; lra.
  + apply (near_lit _ _ _ _ (bl_d lm)). apply Rabs_le; lra.
  + apply Rabs_le; lra.
  + apply Rabs_le; lra.
  + apply Rabs_le; lra.
  + rewrite U; lra.
  + rewrite U in *; lra.
Qed.

(** ** Images *)
Lemma scene_fused (t s : Vector3 f32) g : evV lm (toScene E SRGB (inV lm t) g) s -> s = toScene N SRGB t (@flit N 1.0%dec).
Proof.
  destruct t as [t0 t1 t2], s as [s0 s1 s2]. intros (H0 & H1 & H2). cbn [v0 v1 v2 toScene vref inV] in H0, H1, H2.
  apply srgb_dec_fused in H0, H1, H2. subst. reflexivity.
Qed.
Lemma screen_fused M k g (t' o : Vector3 f32) : accurate lm -> codes_of M k -> (0 < M <= 9000)%Z -> let t := toScene N SRGB (pixel lm M k) (@flit N 1.0%dec) in
  back t t' -> evV lm (toScreen E SRGB (inV lm t') g) o -> same_codes M k o.
Proof.
  intros Acc K HM t (Ft' & B0 & B1 & B2) (O0 & O1 & O2). destruct (pixel_dec lm Acc M k K ltac:(lia)) as (_ & _ & Bt). fold t in Bt. pose proof u16 as U.
  assert (Le : 50 * u * norm3 t + 128 * eta <= 50 * u * (1 + 16 * u) + 128 * eta) by (apply Rplus_le_compat_r, Rmult_le_compat_l; [rewrite U; lra|exact Bt]).
  pose proof (bound_50 M HM) as Hb. set (e := 50 * u * (1 + 16 * u) + 128 * eta) in *. clearbody e.
  assert (Ch : forall j (x r : f32), (0 <= j <= M)%Z -> fin x -> Rabs (B2R x - B2R (sRGB_to_Y N (code lm j M))) <= e -> ev lm (Y_to_sRGB E (Val x)) r ->
    fin r /\ Rabs (IZR M * B2R r - IZR j) < / 2).
  { intros j x r J Fx Hx Hr. destruct (code_ok lm j M J ltac:(lia)) as (Fc & _ & Q & C & Ec). set (c := code lm j M) in *.
    destruct (srgb_dec_near lm Acc c Fc) as [Fd Hd]. destruct (srgb_enc_fused x r Acc Fx Hr) as [Fe He]. set (d := sRGB_to_Y N c) in *.
    pose proof (s_enc_lip (B2R x) (s_dec (B2R c))) as L. pose proof (s_rt2_err (B2R c) C) as R0.
    assert (T : Rabs (B2R x - s_dec (B2R c)) <= e + 16 * u).
    { replace (B2R x - s_dec (B2R c)) with ((B2R x - B2R d) + (B2R d - s_dec (B2R c))) by ring. eapply Rle_trans; [apply Rabs_triang|]. lra. }
    split; [exact Fe|]. apply (code_half _ _ _ (12.92 * e + 225 * u)); [lia| |exact Hb].
    apply Rabs_le_inv in He. apply Rabs_le_inv in L. apply Rabs_le_inv in R0. apply Rabs_le_inv in Ec. apply Rabs_le. rewrite U in *. lra. }
  destruct K as (K0 & K1 & K2), Ft' as (F0 & F1 & F2), t' as [x0 x1 x2], o as [o0 o1 o2]. cbn [v0 v1 v2 toScreen vref inV] in *.
  destruct (Ch _ _ _ K0 F0 (Rle_trans _ _ _ B0 Le) O0) as [G0 C0]. destruct (Ch _ _ _ K1 F1 (Rle_trans _ _ _ B1 Le) O1) as [G1 C1]. destruct (Ch _ _ _ K2 F2 (Rle_trans _ _ _ B2 Le) O2) as [G2 C2].
  repeat split; assumption.
Qed.
Lemma img_xyz_fused (G : Gamut f32) M k g g' (s t' o : Vector3 f32) : accurate lm -> In G (gams lm) -> codes_of M k -> (0 < M <= 9000)%Z ->
  evV lm (toScene E SRGB (inV lm (pixel lm M k)) g) s ->
  evV lm (M_apply E (inM lm (g_fromXYZ G)) (M_apply E (inM lm (g_toXYZ G)) (inV lm s))) t' ->
  evV lm (toScreen E SRGB (inV lm t') g') o -> same_codes M k o.
Proof.
  intros Acc HG K HM Hs Ht Ho. apply scene_fused in Hs. subst s. destruct (pixel_dec lm Acc M k K ltac:(lia)) as (F & _ & B). pose proof u16 as U.
  apply (screen_fused M k g' t' o Acc K HM); [|exact Ho]. refine (proj1 (gam_round_fused G _ t' HG F _) Ht). apply big110. rewrite U in B. lra.
Qed.
Lemma img_conv_fused (G H : Gamut f32) M k g g' (s t' o : Vector3 f32) : accurate lm -> In G (gams lm) -> In H (gams lm) -> codes_of M k -> (0 < M <= 9000)%Z ->
  evV lm (toScene E SRGB (inV lm (pixel lm M k)) g) s ->
  evV lm (M_apply E (inM lm (GamutConvert N H G)) (M_apply E (inM lm (GamutConvert N G H)) (inV lm s))) t' ->
  evV lm (toScreen E SRGB (inV lm t') g') o -> same_codes M k o.
Proof.
  intros Acc HG HH K HM Hs Ht Ho. apply scene_fused in Hs. subst s. destruct (pixel_dec lm Acc M k K ltac:(lia)) as (F & _ & B). pose proof u16 as U.
  apply (screen_fused M k g' t' o Acc K HM); [|exact Ho]. apply (gam_conv_fused G H _ t' HG HH F); [|exact Ht]. apply big110. rewrite U in B. lra.
Qed.
Lemma srgb_enc_fused_stmt (C r : f32) : accurate lm -> fin C -> ev lm (Y_to_sRGB E (Val C)) r ->
  exists e, Y_to_sRGB RN (Some (B2R C)) = Some e /\ near r e (9 * u).
Proof. intros A Fc H. exists (s_enc (B2R C)). split; [apply s_enc_fin|now apply srgb_enc_fused]. Qed.
Lemma bt_enc_fused_stmt (C r : f32) : accurate lm -> fin C -> B2R C <> B2R (@flit N 0.018%dec) -> ev lm (Y_to_BT709 E (Val C)) r ->
  exists e, Y_to_BT709 RN (Some (B2R C)) = Some e /\ near r e (9 * u).
Proof. intros A Fc Ne H. exists (bt_enc (B2R C)). split; [apply bt_enc_fin|now apply bt_enc_fused]. Qed.
Lemma plainV_ev e : evV lm e (plainV lm e).
Proof. repeat split; apply plain_ev. Qed.
Lemma img_fused_case : let k := (V3 12 200 255)%Z in let G := Rec709 N in let H := Rec2020 N in let g : Num.F E := @flit E 1%dec in
  codes_of 255 k /\ (0 < 255 <= 9000)%Z /\ In G (gams lm) /\ In H (gams lm) /\ exists s t' o, evV lm (toScene E SRGB (inV lm (pixel lm 255 k)) g) s /\
  evV lm (M_apply E (inM lm (GamutConvert N H G)) (M_apply E (inM lm (GamutConvert N G H)) (inV lm s))) t' /\ evV lm (toScreen E SRGB (inV lm t') g) o.
Proof.
  intros k G H g. destruct (img_case lm) as (A & B & C & D). repeat (split; [assumption|]).
  eexists. eexists. eexists. split; [apply plainV_ev|]. split; [apply plainV_ev|]. apply plainV_ev.
Qed.
End F.
