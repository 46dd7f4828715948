(** * Oklab with fused multiply-add. *)
From Coq Require Import ZArith Reals Lra Lia List Bool.
From Flocq Require Import Core IEEE754.BinarySingleNaN.
From Verif Require Import Num NumR NumF MVec MTri MDelta MFma RTac SpecMat PMat PDelta F32 PMatF PHsvF PLibm PGamF PGamF2 PBlackF PBradF POkF PFma PFma2 PFma4.
Import ListNotations.
Local Open Scope R_scope.

Section F.
Context (lm : libm).
Notation N := (FN lm).
Notation E := (EN lm).
(** hpp:1445-1452, 1461-1465.  Every variable ([lms], [dash]) has one value; the matrices are [constexpr] (not fused). *)
Definition to_oklab (t lab : Vector3 f32) : Prop := exists lms : Vector3 f32,
  evV lm (T_apply E (inV lm t) (inM lm (ok_m1 N))) lms /\
  evV lm (T_apply E (inV lm (V3 (lm_cbrtf lm (v0 lms)) (lm_cbrtf lm (v1 lms)) (lm_cbrtf lm (v2 lms)))) (inM lm (ok_m2 N))) lab.
Definition of_oklab (lab t : Vector3 f32) : Prop := exists dash : Vector3 f32,
  evV lm (T_apply E (inV lm lab) (inM lm (M_invert N (ok_m2 N)))) dash /\
  (let d := inV lm dash in evV lm (T_apply E (V3 (@fmul E (@fmul E (v0 d) (v0 d)) (v0 d)) (@fmul E (@fmul E (v1 d) (v1 d)) (v1 d)) (@fmul E (@fmul E (v2 d) (v2 d)) (v2 d)))
     (inM lm (M_invert N (ok_m1 N)))) t).

Lemma dot_sub (a : Vector3 f32) (e : Vector3 (F E)) y z : evV lm e y -> ev lm (V_dot E (inV lm a) (inV lm y)) z -> ev lm (V_dot E (inV lm a) e) z.
Proof.
  destruct a as [a0 a1 a2], e as [e0 e1 e2], y as [y0 y1 y2]. unfold evV, V_dot, vref, inV. cbn [v0 v1 v2 fadd fmul EN]. intros (H0 & H1 & H2) H.
  assert (M : forall a e w r, ev lm e w -> ev lm (Mul (Val a) (Val w)) r -> ev lm (Mul (Val a) e) r).
  { intros a e w r X Y. inversion Y; subst. repeat match goal with X : ev lm (Val _) _ |- _ => inversion X; clear X; subst end. apply ev_mul; [constructor|assumption]. }
  assert (S : forall r, ev lm (Add (Mul (Val a0) (Val y0)) (Mul (Val a1) (Val y1))) r -> ev lm (Add (Mul (Val a0) e0) (Mul (Val a1) e1)) r).
  { intros r X. inversion X; subst; repeat match goal with X : ev lm (Val _) _ |- _ => inversion X; clear X; subst end.
    - apply ev_add; eapply M; eassumption.
    - apply ev_fma_l; [constructor|assumption|eapply M; eassumption].
    - apply ev_fma_r; [constructor|assumption|eapply M; eassumption]. }
  inversion H; clear H; subst; repeat match goal with X : ev lm (Val _) _ |- _ => inversion X; clear X; subst end.
  - apply ev_add; [apply S; assumption|eapply M; eassumption].
  - apply ev_fma_r; [constructor|assumption|apply S; assumption].
Qed.
Lemma apply_sub (m : Matrix3 f32) (e : Vector3 (F E)) y z : evV lm e y -> evV lm (M_apply E (inM lm m) (inV lm y)) z -> evV lm (M_apply E (inM lm m) e) z.
Proof.
  intros H Z. apply rows_fused in Z. destruct Z as (Z0 & Z1 & Z2). apply (dot_sub _ e y _ H) in Z0, Z1, Z2. destruct m, e. exact (conj Z0 (conj Z1 Z2)).
Qed.
Lemma plain_in (m : Matrix3 f32) y : evV lm (M_apply E (inM lm m) (inV lm y)) (M_apply N m y).
Proof. rewrite <- plain_apply. apply plainV_ev. Qed.
Lemma fdot (r v : Vector3 f32) M z : allV fin r -> allV fin v -> allV (fun x => Rabs (B2R x) <= M) v -> rowsum r <= 24 -> M <= bpow radix2 120 ->
  ev lm (V_dot E (inV lm r) (inV lm v)) z ->
  fin z /\ Rabs (B2R z - dotR r v) <= 4 * u * (Rabs (B2R (v0 r)) * Rabs (B2R (v0 v)) + Rabs (B2R (v1 r)) * Rabs (B2R (v1 v)) + Rabs (B2R (v2 r)) * Rabs (B2R (v2 v))) + 4 * eta /\
  Rabs (B2R z) <= (1 + 4 * u) * (rowsum r * M) + 4 * eta.
Proof.
  intros Fr Fv (K0 & K1 & K2) Hs HK Ev. unfold rowsum in *.
  set (a := Rabs (B2R (v0 r))) in *. set (b := Rabs (B2R (v1 r))) in *. set (c := Rabs (B2R (v2 r))) in *.
  assert (Pa : 0 <= a) by apply Rabs_pos. assert (Pb : 0 <= b) by apply Rabs_pos. assert (Pc : 0 <= c) by apply Rabs_pos.
  assert (PK : 0 <= M) by (eapply Rle_trans; [apply Rabs_pos|exact K0]).
  assert (S : a * Rabs (B2R (v0 v)) + b * Rabs (B2R (v1 v)) + c * Rabs (B2R (v2 v)) <= (a + b + c) * M).
  { apply Rle_trans with (a * M + b * M + c * M); [repeat apply Rplus_le_compat; apply Rmult_le_compat_l; assumption|right; ring]. }
  assert (L2 : bpow radix2 120 * 64 = bpow radix2 126) by (change 126%Z with (120 + 6)%Z; rewrite (bpow_plus radix2 120 6); reflexivity).
  pose proof (bpow_gt_0 radix2 120) as P120. pose proof u16 as U.
  assert (AD : absdot r v = a * Rabs (B2R (v0 v)) + b * Rabs (B2R (v1 v)) + c * Rabs (B2R (v2 v))) by (unfold absdot; now rewrite !Rabs_mult).
  apply dot_fused in Ev; [|assumption|assumption|].
  - destruct Ev as [Fz Ez]. rewrite AD in Ez. split; [exact Fz|]. split; [exact Ez|].
    assert (T : Rabs (dotR r v) <= (a + b + c) * M). { eapply Rle_trans; [|exact S]. unfold a, b, c. rewrite <- !Rabs_mult. apply abs3. }
    replace (B2R z) with (B2R z - dotR r v + dotR r v) by ring. eapply Rle_trans; [apply Rabs_triang|]. rewrite U in *. lra.
  - rewrite AD. eapply Rle_trans; [exact S|]. apply Rle_trans with (24 * bpow radix2 120); [apply Rmult_le_compat; lra|lra].
Qed.
Lemma frow_pert (r c y : Vector3 f32) Y de z : allV fin r -> allV fin c -> allV fin y -> rowsum r <= 2.1 -> allV (fun x => Rabs (B2R x) <= Y) y ->
  Rabs (B2R (v0 c) - B2R (v0 y)) <= de -> Rabs (B2R (v1 c) - B2R (v1 y)) <= de -> Rabs (B2R (v2 c) - B2R (v2 y)) <= de -> Y + de <= 1e32 -> ev lm (V_dot E (inV lm r) (inV lm c)) z ->
  fin z /\ Rabs (B2R z - B2R (V_dot N r y)) <= 2.1 * de + 8.4 * u * (2 * Y + de) + 8 * eta.
Proof.
  intros Fr Fc Fy RS HY C0 C1 C2 B Hz. assert (B120 : 1e32 <= bpow radix2 120) by (change (bpow radix2 120) with (IZR (2 ^ 120)); replace (2 ^ 120)%Z with 1329227995784915872903807060280344576%Z by reflexivity; lra).
  destruct HY as (Y0 & Y1 & Y2). pose proof (Rabs_pos (B2R (v0 c) - B2R (v0 y))) as P0. pose proof (Rabs_pos (B2R (v0 y))) as P1.
  assert (K : forall p q, Rabs (p - q) <= de -> Rabs q <= Y -> Rabs p <= Y + de). { intros p q A D. replace p with (p - q + q) by ring. eapply Rle_trans; [apply Rabs_triang|]. lra. }
  assert (Z0 := K _ _ C0 Y0). assert (Z1 := K _ _ C1 Y1). assert (Z2 := K _ _ C2 Y2).
  destruct (fdot r c (Y + de) z Fr Fc) as (F1 & E1 & _); [repeat split; assumption|lra|lra|exact Hz|].
  destruct (row_dot lm r y Y Fr Fy) as (F2 & E2 & _); [repeat split; assumption|unfold rowsum in RS; lra|lra|].
  split; [exact F1|]. unfold rowsum in RS. unfold dotR in *.
  set (a := Rabs (B2R (v0 r))) in *. set (b := Rabs (B2R (v1 r))) in *. set (d := Rabs (B2R (v2 r))) in *.
  assert (Pa : 0 <= a) by apply Rabs_pos. assert (Pb : 0 <= b) by apply Rabs_pos. assert (Pd : 0 <= d) by apply Rabs_pos.
  assert (S : forall W p q s, Rabs p <= W -> Rabs q <= W -> Rabs s <= W -> a * Rabs p + b * Rabs q + d * Rabs s <= 2.1 * W).
  { intros W p q s A1 A2 A3. assert (0 <= W) by (pose proof (Rabs_pos p); lra). apply Rle_trans with (a * W + b * W + d * W); [repeat apply Rplus_le_compat; apply Rmult_le_compat_l; assumption|].
    replace (a * W + b * W + d * W) with ((a + b + d) * W) by ring. apply Rmult_le_compat_r; lra. }
  pose proof (S _ _ _ _ Z0 Z1 Z2) as S1. pose proof (S _ _ _ _ Y0 Y1 Y2) as S2. pose proof (S _ _ _ _ C0 C1 C2) as S3.
  pose proof u16 as U.
  match type of E1 with Rabs (?z - ?p) <= _ => match type of E2 with Rabs (?w - ?q) <= _ =>
    replace (z - w) with ((z - p) + - (w - q) + (p - q)) by ring; eapply Rle_trans; [apply abs3|]; rewrite Rabs_Ropp;
    assert (T : Rabs (p - q) <= 2.1 * de) end end.
  { eapply Rle_trans; [|exact S3]. unfold a, b, d. rewrite <- !Rabs_mult. eapply Rle_trans; [|apply abs3]. right. f_equal. ring. }
  change (binary_float 24 128) with f32 in S2. rewrite U in *. lra.
Qed.
Lemma cubes_ev (m : Matrix3 f32) (e : Vector3 f32) t : let d := inV lm e in
  evV lm (T_apply E (V3 (@fmul E (@fmul E (v0 d) (v0 d)) (v0 d)) (@fmul E (@fmul E (v1 d) (v1 d)) (v1 d)) (@fmul E (@fmul E (v2 d) (v2 d)) (v2 d))) (inM lm m)) t ->
  evV lm (M_apply E (inM lm m) (inV lm (cubeF lm e))) t.
Proof.
  intros d H. apply rows_fused in H. destruct H as (H0 & H1 & H2).
  assert (C : forall x r, ev lm (Mul (Mul (Val x) (Val x)) (Val x)) r -> r = @fmul N (@fmul N x x) x).
  { intros x r X. repeat match goal with X : ev lm (Mul _ _) _ |- _ => inversion X; clear X; subst | X : ev lm (Val _) _ |- _ => inversion X; clear X; subst end. reflexivity. }
  assert (K : forall (a : Vector3 f32) z, ev lm (V_dot E (inV lm a) (V3 (@fmul E (@fmul E (v0 d) (v0 d)) (v0 d)) (@fmul E (@fmul E (v1 d) (v1 d)) (v1 d)) (@fmul E (@fmul E (v2 d) (v2 d)) (v2 d)))) z -> ev lm (V_dot E (inV lm a) (inV lm (cubeF lm e))) z).
  { intros a z X. apply fused_dot in X. destruct X as ([c0 c1 c2] & (X0 & X1 & X2) & X). cbn [v0 v1 v2] in X0, X1, X2. apply C in X0, X1, X2. subst. exact X. }
  apply K in H0, H1, H2. destruct m. exact (conj H0 (conj H1 H2)).
Qed.
Lemma oklab_fused (t lab t' : Vector3 f32) : cbrt_ok lm -> allV fin t -> norm3 t <= 1e30 -> to_oklab t lab -> of_oklab lab t' ->
  allV fin t' /\ Rabs (B2R (v0 t') - B2R (v0 t)) <= 540 * u * norm3 t + 1e-37 /\
  Rabs (B2R (v1 t') - B2R (v1 t)) <= 540 * u * norm3 t + 1e-37 /\ Rabs (B2R (v2 t') - B2R (v2 t)) <= 540 * u * norm3 t + 1e-37.
Proof.
  intros HC Ft HM (y & HE1 & HE2) (e & HE3 & HE4). pose proof u16 as U. pose proof eta45 as Et. change (evV lm (M_apply E (inM lm (ok_m1 N)) (inV lm t)) y) in HE1. change (evV lm (M_apply E (inM lm (ok_m2 N)) (inV lm (V3 (lm_cbrtf lm (v0 y)) (lm_cbrtf lm (v1 y)) (lm_cbrtf lm (v2 y))))) lab) in HE2.
  assert (B110 : 1e32 <= bpow radix2 110) by (change (bpow radix2 110) with (IZR 1298074214633706907132624082305024); lra).
  assert (B120 : 1e32 <= bpow radix2 120) by (change (bpow radix2 120) with (IZR 1329227995784915872903807060280344576); lra).
  assert (K1 : chk (ok_m1 N) (M_invert N (ok_m1 N)) = true) by (vm_compute; reflexivity).
  assert (K2 : chk (ok_m2 N) (M_invert N (ok_m2 N)) = true) by (vm_compute; reflexivity).
  assert (S1 : rsum (ok_m1 N) 132 = true) by (vm_compute; reflexivity).
  assert (S2 : rsum (M_invert N (ok_m1 N)) 210 = true) by (vm_compute; reflexivity).
  set (A := ok_m1 N : Matrix3 f32) in *. set (A' := M_invert N A : Matrix3 f32) in *. set (B := ok_m2 N : Matrix3 f32) in *. set (B' := M_invert N B : Matrix3 f32) in *.
  clearbody A A' B B'.
  destruct (chk_fused lm A A' t (M_apply N A' y) K1 Ft ltac:(lra)) as (_ & R0 & R1 & R2); [apply (apply_sub A' _ y _ HE1), plain_in|].
  destruct (rsum_ok _ _ S1) as (FA & P0 & P1 & P2). destruct (rsum_ok _ _ S2) as (FA' & Q0 & Q1 & Q2).
  assert (M0 : 0 <= norm3 t) by (apply norm3_pos).
  set (M := norm3 t) in *.
  assert (YY : allV fin y /\ allV (fun x => Rabs (B2R x) <= 1.320001 * M + 4 * eta) y).
  { apply rows_fused in HE1. destruct HE1 as (w0 & w1 & w2). destruct FA as (f0 & f1 & f2 & f3 & f4 & f5 & f6 & f7 & f8). destruct (norm3_ge t) as (g0 & g1 & g2). fold M in g0, g1, g2.
    assert (X : forall (r : Vector3 f32) z, allV fin r -> rowsum r <= 132 / 100 -> ev lm (V_dot E (inV lm r) (inV lm t)) z -> fin z /\ Rabs (B2R z) <= 1.320001 * M + 4 * eta).
    { intros r z Fr HR Hz. destruct (fdot r t M z Fr Ft) as (F1 & _ & F2); [repeat split; assumption|lra|lra|exact Hz|]. split; [exact F1|].
      assert (rowsum r * M <= 1.32 * M) by (apply Rmult_le_compat_r; lra). rewrite U in *. lra. }
    destruct (X (V3 (m0 A) (m1 A) (m2 A)) _ (conj f0 (conj f1 f2)) P0 w0) as [h0 h0'].
    destruct (X (V3 (m3 A) (m4 A) (m5 A)) _ (conj f3 (conj f4 f5)) P1 w1) as [h1 h1'].
    destruct (X (V3 (m6 A) (m7 A) (m8 A)) _ (conj f6 (conj f7 f8)) P2 w2) as [h2 h2'].
    split; repeat split; assumption. }
  destruct YY as [Fy HY]. set (Y := 1.320001 * M + 4 * eta) in *.
  assert (BY : Y <= 1e31) by (unfold Y; lra).
  destruct Fy as (y0f & y1f & y2f). destruct HY as (y0b & y1b & y2b).
  unfold cbF in HE2.
  destruct (HC _ y0f) as [d0f d0e]. destruct (HC _ y1f) as [d1f d1e]. destruct (HC _ y2f) as [d2f d2e].
  set (d0 := lm_cbrtf lm (v0 y)) in *. set (d1 := lm_cbrtf lm (v1 y)) in *. set (d2 := lm_cbrtf lm (v2 y)) in *. clearbody d0 d1 d2.
  set (d := V3 d0 d1 d2 : Vector3 f32). set (D := norm3 d).
  assert (DY : D * D * D <= 1.00001 * Y).
  { destruct (cbrt_rel _ _ d0e) as [_ c0]. destruct (cbrt_rel _ _ d1e) as [_ c1]. destruct (cbrt_rel _ _ d2e) as [_ c2].
    unfold D, norm3, d. cbn [v0 v1 v2]. unfold Rmax. repeat destruct (Rle_dec _ _); (eapply Rle_trans; [first [exact c0|exact c1|exact c2]|apply Rmult_le_compat_l; [lra|assumption]]). }
  assert (D0 : 0 <= D) by (apply norm3_pos).
  assert (DB : D <= 3e10). { destruct (Rle_dec D 3e10); [assumption|]. exfalso. assert (9e20 <= D * D) by nra. nra. }
  destruct (chk_fused lm B B' d e K2 ltac:(repeat split; assumption) ltac:(fold D; lra) (apply_sub B' _ lab _ HE2 HE3)) as ((e0f & e1f & e2f) & e0 & e1 & e2).
  fold D in e0, e1, e2. destruct (norm3_ge d) as (n0 & n1 & n2). fold D in n0, n1, n2.
  cbn [d v0 v1 v2] in e0, e1, e2, n0, n1, n2.
  destruct (back_cube lm (v0 y) d0 (v0 e) D Y e0f d0e n0 e0 y0b DY BY) as [c0f c0].
  destruct (back_cube lm (v1 y) d1 (v1 e) D Y e1f d1e n1 e1 y1b DY BY) as [c1f c1].
  destruct (back_cube lm (v2 y) d2 (v2 e) D Y e2f d2e n2 e2 y2b DY BY) as [c2f c2].
  apply cubes_ev in HE4. set (c := cubeF lm e) in *.
  assert (Fc : allV fin c) by (repeat split; assumption).
  set (de := 168 * u * Y + 1e-38) in *.
  assert (BD : Y + de <= 1e32) by (unfold de; rewrite U in *; lra).
  rewrite apply_rows in R0, R1, R2. apply rows_fused in HE4. destruct HE4 as (x0 & x1 & x2). destruct FA' as (f0 & f1 & f2 & f3 & f4 & f5 & f6 & f7 & f8).
  assert (X : forall (r : Vector3 f32) (x : R) z, allV fin r -> rowsum r <= 210 / 100 -> Rabs (B2R (V_dot N r y) - x) <= 50 * u * M + 128 * eta ->
    ev lm (V_dot E (inV lm r) (inV lm c)) z -> fin z /\ Rabs (B2R z - x) <= 540 * u * M + 1e-37).
  { intros r x z Fr HR Hx Hz. destruct (frow_pert r c y Y de z Fr Fc) as [g h]; [repeat split; assumption|lra|repeat split; assumption|assumption|assumption|assumption|assumption|assumption|].
    split; [exact g|]. replace (B2R z - x) with ((B2R z - B2R (V_dot N r y)) + (B2R (V_dot N r y) - x)) by ring.
    eapply Rle_trans; [apply Rabs_triang|]. unfold de, Y in h. rewrite U in *. lra. }
  cbn [v0 v1 v2] in R0, R1, R2 |- *.
  destruct (X (V3 (m0 A') (m1 A') (m2 A')) _ _ (conj f0 (conj f1 f2)) Q0 R0 x0) as [h0 h0'].
  destruct (X (V3 (m3 A') (m4 A') (m5 A')) _ _ (conj f3 (conj f4 f5)) Q1 R1 x1) as [h1 h1'].
  destruct (X (V3 (m6 A') (m7 A') (m8 A')) _ _ (conj f6 (conj f7 f8)) Q2 R2 x2) as [h2 h2'].
  split; [repeat split; assumption|]. split; [exact h0'|]. split; [exact h1'|exact h2'].
Qed.
(** Without any fused operation the relations give the functions. *)
Lemma oklab_unfused (t lab : Vector3 f32) : to_oklab t (XYZ_to_OKLAB N t) /\ of_oklab lab (OKLAB_to_XYZ N lab).
Proof.
  split; [exists (M_apply N (ok_m1 N) t); split; exact (plain_in _ _)|]. exists (M_apply N (M_invert N (ok_m2 N)) lab). split; [exact (plain_in _ _)|]. cbv zeta.
  set (e := M_apply N (M_invert N (ok_m2 N)) lab).
  refine (apply_sub _ _ (cubeF lm e) _ _ (plain_in (M_invert N (ok_m1 N)) (cubeF lm e))).
  repeat split; repeat constructor.
Qed.
(** The same last line with its first product and sum fused. *)
Definition fused_first (m : Matrix3 f32) (c : Vector3 f32) : Vector3 f32 :=
  let p := M_apply N m c in V3 (@fadd N (fma (m0 m) (v0 c) (@fmul N (m1 m) (v1 c))) (@fmul N (m2 m) (v2 c))) (v1 p) (v2 p).
Lemma fused_first_ev (m : Matrix3 f32) c : evV lm (M_apply E (inM lm m) (inV lm c)) (fused_first m c).
Proof.
  pose proof (plain_in m c) as P. destruct m, c, P as (_ & P1 & P2). split; [|split; [exact P1|exact P2]].
  apply ev_add; [apply ev_fma_l; repeat constructor|repeat constructor].
Qed.
Definition labA : Vector3 f32 := let q k := @fdiv N (@fofZ N k) (@fofZ N 100) in V3 (q 30%Z) (q 5%Z) (q (-7)%Z).
Lemma oklab_matters : exists lab t t', of_oklab lab t /\ of_oklab lab t' /\ B2R (v0 t) <> B2R (v0 t').
Proof.
  set (e := M_apply N (M_invert N (ok_m2 N)) labA : Vector3 f32). exists labA, (OKLAB_to_XYZ N labA), (fused_first (M_invert N (ok_m1 N)) (cubeF lm e)).
  split; [apply (oklab_unfused labA labA)|]. split.
  - exists e. split; [exact (plain_in _ _)|]. cbv zeta. refine (apply_sub _ _ (cubeF lm e) _ _ (fused_first_ev _ _)). repeat split; repeat constructor.
  - set (p := v0 (OKLAB_to_XYZ N labA) : f32). set (q := v0 (fused_first (M_invert N (ok_m1 N)) (cubeF lm e)) : f32).
    assert (Fp : fin p) by (vm_compute; reflexivity). assert (Fq : fin q) by (vm_compute; reflexivity). change (B2R p <> B2R q).
    assert (G : @feqb N p q = false) by (vm_compute; reflexivity). clearbody p q. intros X.
    rewrite (eqb_ok lm p q Fp Fq) in G. rewrite X, Req_bool_true in G by reflexivity. discriminate.
Qed.
End F.
Lemma case164 : exists lm, cbrt_ok lm /\ let t : Vector3 f32 := Illuminant_D65 (FN lm) in allV fin t /\ norm3 t <= 1e30 /\ exists lab t', to_oklab lm t lab /\ of_oklab lm lab t'.
Proof.
  destruct cbrt_ok_exists as [lm H]. exists lm. split; [exact H|]. cbv zeta. destruct (proj2 oklab_case lm) as [F B]. split; [exact F|]. split; [exact B|].
  exists (XYZ_to_OKLAB (FN lm) (Illuminant_D65 (FN lm))), (OKLAB_to_XYZ (FN lm) (XYZ_to_OKLAB (FN lm) (Illuminant_D65 (FN lm)))). apply oklab_unfused.
Qed.
