(** * CIELAB when multiplications and additions are fused. *)
From Coq Require Import ZArith Reals Lra Lia List Bool.
From Flocq Require Import Core IEEE754.BinarySingleNaN.
From Verif Require Import Num NumR NumF MVec MTri MFma SpecMat RTac F32 PMat PLab PHsvF PMatF PLibm PNearF PNearF2 POtf POtfF PLabF PFma PFma7 PFma8.
Local Open Scope R_scope.

Section F.
Context (lm : libm).
Notation N := (FN lm).
Notation E := (EN lm).
Notation L d := (Val (@flit N d%dec)).
(** A fused operation satisfies the bound of the two operations it replaces. *)
Lemma near_fma (x y z : f32) r s t e f g A B M : near x r e -> near y s f -> near z t g -> Rabs r <= A -> Rabs s <= B -> Rabs (r * s + t) <= M ->
  let m := e * B + A * f + e * f + u * ((A + e) * (B + f)) + eta in M + m + g <= 1000000000000 ->
  near (fma x y z) (r * s + t) (m + g + u * (M + m + g)).
Proof.
  intros Nx Ny Nz HA HB HM m Lm. pose proof (near_nonneg _ _ _ Nx) as E0. pose proof (near_nonneg _ _ _ Ny) as F0. pose proof (near_nonneg _ _ _ Nz) as G0.
  destruct Nx as [Fx Hx], Ny as [Fy Hy], Nz as [Fz Hz]. pose proof F32.u_pos as U. pose proof eta16 as Et. pose proof (Rabs_pos r) as R0. pose proof (Rabs_pos s) as S0.
  set (d := e * B + A * f + e * f) in *. assert (D : Rabs (B2R x * B2R y - r * s) <= d).
  { replace (B2R x * B2R y - r * s) with ((B2R x - r) * s + r * (B2R y - s) + (B2R x - r) * (B2R y - s)) by ring.
    eapply Rle_trans; [apply Rabs_triang|]. apply Rplus_le_compat; [eapply Rle_trans; [apply Rabs_triang|]; apply Rplus_le_compat|];
      rewrite Rabs_mult; apply Rmult_le_compat; auto using Rabs_pos. }
  assert (Q : 0 <= u * ((A + e) * (B + f))) by (apply Rmult_le_pos; [lra|apply Rmult_le_pos; lra]).
  set (q := u * ((A + e) * (B + f))) in *. clearbody q. set (v := B2R x * B2R y + B2R z).
  assert (Dv : Rabs (v - (r * s + t)) <= d + g).
  { unfold v. replace (B2R x * B2R y + B2R z - (r * s + t)) with ((B2R x * B2R y - r * s) + (B2R z - t)) by ring. eapply Rle_trans; [apply Rabs_triang|lra]. }
  assert (Mv : Rabs v <= M + d + g). { replace v with ((r * s + t) + (v - (r * s + t))) by ring. eapply Rle_trans; [apply Rabs_triang|lra]. }
  destruct (fma_ok x y z Fx Fy Fz) as [Ff Vf]. { fold v. apply Rle_trans with (bpow radix2 40); [change (bpow radix2 40) with 1099511627776; unfold m in Lm; lra|apply bpow_le; lia]. }
  fold v in Vf. split; [exact Ff|]. rewrite Vf. pose proof (rnd_err_abs v) as Er.
  replace (rnd v - (r * s + t)) with ((rnd v - v) + (v - (r * s + t))) by ring. eapply Rle_trans; [apply Rabs_triang|].
  assert (u * Rabs v <= u * (M + m + g)) by (apply Rmult_le_compat_l; unfold m; lra). unfold m in *. lra.
Qed.
Lemma near_opp (x : f32) r e : near x r e -> near (@fopp N x) (- r) e.
Proof. intros [Fx Hx]. destruct (opp_ok lm x Fx) as [Fo Vo]. split; [exact Fo|]. rewrite Vo. replace (- B2R x - - r) with (- (B2R x - r)) by ring. now rewrite Rabs_Ropp. Qed.

(** Every value of [e] is near [r]. *)
Definition nr (e : exp) (r k : R) : Prop := forall v, ev lm e v -> near v r k.
Lemma nr_le e r k k' : nr e r k -> k <= k' -> nr e r k'.
Proof. intros H K v Hv. exact (near_le _ _ _ _ (H v Hv) K). Qed.
Lemma nr_eq e r r' k : nr e r k -> r = r' -> nr e r' k.
Proof. now intros H <-. Qed.
Lemma nr_det e x r k : det lm e x -> near x r k -> nr e r k.
Proof. intros [_ D] H v Hv. now rewrite (D v Hv). Qed.
Lemma nr_val x r k : near x r k -> nr (Val x) r k.
Proof. apply nr_det, det_val. Qed.
Lemma nr_mul a b r s e f A B : nr a r e -> nr b s f -> Rabs r <= A -> Rabs s <= B -> (A + e) * (B + f) <= 1000000000000 ->
  nr (Mul a b) (r * s) (e * B + A * f + e * f + u * ((A + e) * (B + f)) + eta).
Proof. intros Ha Hb HA HB Lm v Hv. inversion Hv; subst. apply (near_mul lm); auto. Qed.
Lemma nr_sub a b r s e f A : nomul a -> nomul b -> nr a r e -> nr b s f -> Rabs (r - s) <= A -> A + e + f <= 1000000000000 ->
  nr (Sub a b) (r - s) (e + f + u * (A + e + f)).
Proof. intros Na Nb Ha Hb HA Lm v Hv. inversion Hv; subst; [apply (near_sub lm); auto|contradiction|contradiction]. Qed.
Lemma nr_div a b r s e f Q b0 : nr a r e -> nr b s f -> b0 <= Rabs s -> f < b0 -> Rabs (r / s) <= Q ->
  let K := (e + Q * f) / (b0 - f) in Q + K <= 1000000000000 -> nr (Op2 (@fdiv N) a b) (r / s) (K + u * (Q + K) + eta).
Proof. intros Ha Hb H1 H2 H3 K Lm v Hv. inversion Hv; subst. apply (near_div lm); auto. Qed.
Lemma nr_madd a b z r s t e f g A B M : nr a r e -> nr b s f -> near z t g -> Rabs r <= A -> Rabs s <= B -> Rabs (r * s + t) <= M -> (A + e) * (B + f) <= 1000000000000 ->
  let m := e * B + A * f + e * f + u * ((A + e) * (B + f)) + eta in M + m + g <= 1000000000000 ->
  nr (Add (Mul a b) (Val z)) (r * s + t) (m + g + u * (M + m + g)).
Proof.
  intros Ha Hb Hz HA HB HM L1 m L2 v Hv. inversion Hv; subst.
  - match goal with H : ev _ (Mul _ _) _ |- _ => inversion H; subst; clear H end. match goal with H : ev _ (Val _) _ |- _ => apply evVal in H; subst end.
    apply (near_add lm); [apply (near_mul lm); auto|auto|auto|auto].
  - match goal with H : ev _ (Val _) _ |- _ => apply evVal in H; subst end. apply near_fma; auto.
Qed.
Lemma nr_msub a b z r s t e f g A B M : nr a r e -> nr b s f -> near z t g -> Rabs r <= A -> Rabs s <= B -> Rabs (r * s - t) <= M -> (A + e) * (B + f) <= 1000000000000 ->
  let m := e * B + A * f + e * f + u * ((A + e) * (B + f)) + eta in M + m + g <= 1000000000000 ->
  nr (Sub (Mul a b) (Val z)) (r * s - t) (m + g + u * (M + m + g)).
Proof.
  intros Ha Hb Hz HA HB HM L1 m L2 v Hv. inversion Hv; subst.
  - match goal with H : ev _ (Mul _ _) _ |- _ => inversion H; subst; clear H end. match goal with H : ev _ (Val _) _ |- _ => apply evVal in H; subst end.
    apply (near_sub lm); [apply (near_mul lm); auto|auto|auto|auto].
  - match goal with H : ev _ (Val _) _ |- _ => apply evVal in H; subst end. apply near_fma; auto. now apply near_opp.
Qed.

(** ** The two curves *)
Definition linE (e : exp) : exp := Op2 (@fdiv N) (Add (Mul (Op2 (@fdiv N) (L 24389.0) (L 27.0)) e) (L 16)) (L 116).
Lemma curve_E e f : det lm e f -> CIELAB_curve E e =
  if @fltb N (@flit N 1%dec) f then L 1 else if @fltb N (@fdiv N (@flit N 216%dec) (@flit N 24389.0%dec)) f then Op2 (@fpow N) e (Op2 (@fdiv N) (L 1) (L 3)) else linE e.
Proof. intros [P _]. rewrite <- P. reflexivity. Qed.
Lemma curve_nomul e : nomul (CIELAB_curve E e).
Proof. unfold CIELAB_curve. cbv zeta. destruct (@fltb E (@flit E 1%dec) e); [exact Logic.I|]. destruct (@fltb E _ e); exact Logic.I. Qed.
Context (Acc : accurate lm).
Lemma curve_nr e (f : f32) : det lm e f -> fin f -> 0 <= B2R f -> nr (CIELAB_curve E e) (lab_curve (B2R f)) (5 * u).
Proof.
  intros De Ff P. pose proof (curve_near lm Acc f Ff P) as CN. rewrite (curve_E e f De). unfold CIELAB_curve in CN. cbv zeta in CN.
  destruct (@fltb N (@flit N 1%dec) f) eqn:C1; [exact (nr_val _ _ _ CN)|]. destruct (@fltb N (@fdiv N (@flit N 216%dec) (@flit N 24389.0%dec)) f) eqn:C2.
  { refine (nr_det _ _ _ _ _ CN). apply det_op2; [exact De|]. apply det_op2; apply det_val. }
  clear CN. set (v := B2R f) in *. pose proof u16 as U. pose proof eta16 as Et. destruct (l1 lm) as [F1 V1]. destruct (ll_thr lm) as [Ft Vt].
  rewrite ltb_ok in C1, C2 by assumption. rewrite V1 in C1. rewrite Vt in C2. fold v in C1, C2. revert C1 C2.
  case Rlt_bool_spec; intro A; [discriminate|]. intros _. case Rlt_bool_spec; intro B; [discriminate|]. intros _. rewrite curve_eq by lra.
  assert (Nl : nr (linE e) ((24389 / 27 * v + 16) / 116) (0.7 * u)).
  { eapply nr_le; [apply (nr_div _ _ (24389 / 27 * v + 16) 116 (37 * u) 0 0.207 116)|].
    - eapply nr_le; [apply (nr_madd _ e _ (24389 / 27) v 16 (494 * u) 0 0 904 0.00886 24.001)|].
      + apply (nr_det _ _ _ _ (det_op2 lm _ _ _ _ _ (det_val lm _) (det_val lm _))). apply (near_lit _ _ _ _ (ll_K lm)). apply Rabs_le; lra.
      + exact (nr_det _ _ _ _ De (near_self f Ff)).
      + apply near_exact, ll_16.
      + apply Rabs_le; lra.
      + apply Rabs_le; lra.
      + apply Rabs_le; lra.
      + rewrite U in *; lra.
      + rewrite U in *; lra.
      + rewrite U in *; lra.
    - apply nr_val, near_exact, ll_116.
    - rewrite Rabs_pos_eq; lra.
    - lra.
    - apply Rabs_le; lra.
    - rewrite U; lra.
    - rewrite U in *; lra. }
  destruct (Rlt_le_dec ((6 / 29) ^ 3) v) as [T|T].
  - intros w Hw. destruct (Nl w Hw) as [Fn Hn]. split; [exact Fn|]. apply Rabs_le_inv in Hn.
    pose proof (cie_f_lipschitz_le ((6 / 29) ^ 3) v ltac:(lra)) as LP. rewrite (cie_f_lo ((6 / 29) ^ 3)) in LP by lra. rewrite thr_val in *. apply Rabs_le. rewrite U in *. lra.
  - rewrite cie_f_lo by exact T. eapply nr_le; [eapply nr_eq; [exact Nl|lra]|lra].
Qed.
Definition dlinE (e : exp) : exp := let k := Op2 (@fdiv N) (L 3) (L 29) in Mul (Sub (Mul (L 116) e) (L 16)) (Mul (Mul k k) k).
Lemma decurve_E e f : det lm e f -> CIELAB_decurve E e =
  if @fltb N (@flit N 1%dec) f then L 1 else if @fltb N (@fdiv N (@flit N 6%dec) (@flit N 29%dec)) f then Op2 (@fpow N) e (L 3) else dlinE e.
Proof. intros [P _]. rewrite <- P. reflexivity. Qed.
Lemma decurve_nr e (c : f32) : det lm e c -> fin c -> -4 <= B2R c <= 4 -> nr (CIELAB_decurve E e) (lab_dec (B2R c)) (5 * u).
Proof.
  intros De Fc P. pose proof (decurve_near lm Acc c Fc P) as CN. rewrite (decurve_E e c De). unfold CIELAB_decurve in CN. cbv zeta in CN.
  destruct (@fltb N (@flit N 1%dec) c) eqn:C1; [exact (nr_val _ _ _ CN)|]. destruct (@fltb N (@fdiv N (@flit N 6%dec) (@flit N 29%dec)) c) eqn:C2.
  { refine (nr_det _ _ _ _ _ CN). apply det_op2; [exact De|]. apply det_val. }
  clear CN. set (v := B2R c) in *. pose proof u16 as U. pose proof eta16 as Et. destruct (l1 lm) as [F1 V1]. destruct (ll_629 lm) as [Ft Vt].
  rewrite ltb_ok in C1, C2 by assumption. rewrite V1 in C1. rewrite Vt in C2. fold v in C1, C2. revert C1 C2.
  case Rlt_bool_spec; intro A; [discriminate|]. intros _. case Rlt_bool_spec; intro B; [discriminate|]. intros _.
  assert (Nl : nr (dlinE e) ((116 * v - 16) * (27 / 24389)) (2.1 * u)).
  { eapply nr_le; [apply (nr_mul _ _ (116 * v - 16) (27 / 24389) (945 * u) (0.0009 * u) 480 0.00111)|].
    - eapply nr_le; [apply (nr_msub _ e _ 116 v 16 0 0 0 116 4 480)|].
      + apply nr_val, near_exact, ll_116.
      + exact (nr_det _ _ _ _ De (near_self c Fc)).
      + apply near_exact, ll_16.
      + apply Rabs_le; lra.
      + apply Rabs_le; lra.
      + apply Rabs_le; lra.
      + lra.
      + rewrite U in *; lra.
      + rewrite U in *; lra.
    - assert (DK : det lm (Op2 (@fdiv N) (L 3) (L 29)) (@fdiv N (@flit N 3%dec) (@flit N 29%dec))) by (apply det_op2; apply det_val).
      apply (nr_det _ _ _ _ (det_mul lm _ _ _ _ (det_mul lm _ _ _ _ DK DK) DK)). apply (near_lit _ _ _ _ (ll_K3 lm)). apply Rabs_le; lra.
    - apply Rabs_le; lra.
    - apply Rabs_le; lra.
    - rewrite U; lra.
    - rewrite U in *; lra. }
  unfold lab_dec. destruct (Rlt_dec 1 v) as [|_]; [lra|].
  destruct (Rlt_dec (6 / 29) v) as [T|T]; [|eapply nr_le; [exact Nl|lra]].
  intros w Hw. destruct (Nl w Hw) as [Fn Hn]. split; [exact Fn|]. apply Rabs_le_inv in Hn.
  assert (0 <= v * v * v - 6 / 29 * (6 / 29) * (6 / 29) <= 3 * (v - 6 / 29)). { pose proof (lab_dec_lip (6 / 29) v ltac:(lra)) as LP. unfold lab_dec in LP. destruct (Rlt_dec 1 v), (Rlt_dec 1 (6 / 29)), (Rlt_dec (6 / 29) v), (Rlt_dec (6 / 29) (6 / 29)); lra. }
  apply Rabs_le. rewrite U in *. lra.
Qed.
Lemma ratio_nr (t w : f32) : stim_ok t -> white_ok w ->
  nr (CIELAB_curve E (Op2 (@fdiv N) (Val t) (Val w))) (lab_curve (B2R t / B2R w)) (5.4 * u).
Proof.
  intros [Ft Ht] [Fw Hw]. pose proof u16 as U. pose proof eta16 as Et. pose proof (bpow_gt_0 radix2 (-20)) as P.
  set (a := B2R t / B2R w). assert (A : 0 <= a <= bpow radix2 120).
  { unfold a. split; [apply Rmult_le_pos; [lra|apply Rlt_le, Rinv_0_lt_compat; lra]|]. apply Rmult_le_reg_r with (B2R w); [lra|].
    unfold Rdiv. rewrite Rmult_assoc, Rinv_l, Rmult_1_r by lra. apply Rle_trans with (bpow radix2 100); [lra|]. change 100%Z with (120 + -20)%Z. rewrite bpow_plus. apply Rmult_le_compat_l; [apply bpow_ge_0|lra]. }
  destruct (div_ok lm t w Ft ltac:(lra)) as [Fq Vq]. { fold a. rewrite Rabs_pos_eq by lra. apply Rle_trans with (bpow radix2 120); [lra|apply bpow_le; lia]. }
  fold a in Vq. assert (Dq : det lm (Op2 (@fdiv N) (Val t) (Val w)) (@fdiv N t w)) by (apply det_op2; apply det_val).
  set (q := @fdiv N t w) in *. pose proof (rnd_err_abs a) as Er. rewrite <- Vq, (Rabs_pos_eq a) in Er by lra.
  assert (Q : 0 <= B2R q) by (rewrite Vq; apply rnd_ge_fmt; [apply fmt_0|lra]).
  intros v Hv. destruct (curve_nr _ q Dq Fq Q v Hv) as [Fc Hc]. split; [exact Fc|].
  pose proof (curve_close a (B2R q) u eta ltac:(lra) Q Er ltac:(lra) ltac:(lra)) as C.
  apply Rabs_le_inv in C. apply Rabs_le_inv in Hc. apply Rabs_le. lra.
Qed.

(** ** There *)
Lemma toLab_fused (t w r : Vector3 f32) : allV stim_ok t -> allV white_ok w -> evV lm (toCIELAB E (inV lm t) (inV lm w)) r ->
  exists L a b, toCIELAB RN (finV (vR t)) (finV (vR w)) = finV (V3 L a b) /\
    near (v0 r) L (850 * u) /\ near (v1 r) a (6400 * u) /\ near (v2 r) b (2550 * u) /\ 0 <= L <= 100 /\ Rabs a <= 500 /\ Rabs b <= 200.
Proof.
  destruct t as [t0 t1 t2], w as [w0 w1 w2]. intros (T0 & T1 & T2) (W0 & W1 & W2) (H0 & H1 & H2). cbn [v0 v1 v2] in *.
  exists (116 * lab_curve (B2R t1 / B2R w1) - 16), (500 * (lab_curve (B2R t0 / B2R w0) - lab_curve (B2R t1 / B2R w1))), (200 * (lab_curve (B2R t1 / B2R w1) - lab_curve (B2R t2 / B2R w2))).
  split. { apply (toCIELAB_fin (vR (V3 t0 t1 t2)) (vR (V3 w0 w1 w2))). pose proof (bpow_gt_0 radix2 (-20)). destruct W0 as [_ ?], W1 as [_ ?], W2 as [_ ?]. unfold posV, vR; cbn [v0 v1 v2]. lra. }
  pose proof u16 as U. pose proof eta16 as Et.
  pose proof (lab_curve_range _ (ratio_pos t0 w0 T0 W0)) as R0. pose proof (lab_curve_range _ (ratio_pos t1 w1 T1 W1)) as R1. pose proof (lab_curve_range _ (ratio_pos t2 w2 T2 W2)) as R2.
  pose proof (ratio_nr t0 w0 T0 W0) as N0. pose proof (ratio_nr t1 w1 T1 W1) as N1. pose proof (ratio_nr t2 w2 T2 W2) as N2.
  pose proof (curve_nomul (Op2 (@fdiv N) (Val t0) (Val w0))) as M0. pose proof (curve_nomul (Op2 (@fdiv N) (Val t1) (Val w1))) as M1. pose proof (curve_nomul (Op2 (@fdiv N) (Val t2) (Val w2))) as M2.
  unfold toCIELAB, inV in H0, H1, H2. cbn [vref v0 v1 v2] in H0, H1, H2.
  change (@fdiv E) with (Op2 (@fdiv N)) in H0, H1, H2. change (@fsub E) with Sub in H0, H1, H2. change (@fmul E) with Mul in H0, H1, H2.
  set (x := lab_curve (B2R t0 / B2R w0)) in *. set (y := lab_curve (B2R t1 / B2R w1)) in *. set (z := lab_curve (B2R t2 / B2R w2)) in *.
  set (xf := CIELAB_curve E (Op2 (@fdiv N) (Val t0) (Val w0))) in *. set (yf := CIELAB_curve E (Op2 (@fdiv N) (Val t1) (Val w1))) in *. set (zf := CIELAB_curve E (Op2 (@fdiv N) (Val t2) (Val w2))) in *.
  clearbody xf yf zf x y z.
  split; [|split; [|split; [|split; [|split]]]].
  - revert H0. generalize (v0 r). refine (nr_le _ _ _ _ (nr_msub (L 116) yf _ 116 y 16 0 (5.4 * u) 0 116 1 100 _ N1 _ _ _ _ _ _) _).
    + apply nr_val, near_exact, ll_116.
    + apply near_exact, ll_16.
    + apply Rabs_le; lra.
    + apply Rabs_le; lra.
    + apply Rabs_le; lra.
    + rewrite U; lra.
    + rewrite U in *; lra.
    + rewrite U in *; lra.
  - revert H1. generalize (v1 r). refine (nr_le _ _ _ _ (nr_mul (L 500) (Sub xf yf) 500 (x - y) 0 (11.7 * u) 500 (25 / 29) _ _ _ _ _) _).
    + apply nr_val, near_exact, ll_500.
    + eapply nr_le; [apply (nr_sub _ _ x y _ _ (25 / 29) M0 M1 N0 N1)|].
      * apply Rabs_le; lra.
      * rewrite U; lra.
      * rewrite U; lra.
    + apply Rabs_le; lra.
    + apply Rabs_le; lra.
    + rewrite U; lra.
    + rewrite U in *; lra.
  - revert H2. generalize (v2 r). refine (nr_le _ _ _ _ (nr_mul (L 200) (Sub yf zf) 200 (y - z) 0 (11.7 * u) 200 (25 / 29) _ _ _ _ _) _).
    + apply nr_val, near_exact, ll_200.
    + eapply nr_le; [apply (nr_sub _ _ y z _ _ (25 / 29) M1 M2 N1 N2)|].
      * apply Rabs_le; lra.
      * rewrite U; lra.
      * rewrite U; lra.
    + apply Rabs_le; lra.
    + apply Rabs_le; lra.
    + rewrite U; lra.
    + rewrite U in *; lra.
  - lra.
  - apply Rabs_le; lra.
  - apply Rabs_le; lra.
Qed.
(** ** Back *)
Lemma fromLab_fused (t w r : Vector3 f32) : lab_ok t -> allV white_ok w -> evV lm (fromCIELAB E (inV lm t) (inV lm w)) r ->
  exists x y z, fromCIELAB RN (finV (vR t)) (finV (vR w)) = finV (V3 x y z) /\
    near (v0 r) x (22 * u * B2R (v0 w)) /\ near (v1 r) y (22 * u * B2R (v1 w)) /\ near (v2 r) z (22 * u * B2R (v2 w)).
Proof.
  destruct t as [l a b], w as [w0 w1 w2]. intros ((FL & Fa & Fb) & HL & Ha & Hb) (W0 & W1 & W2) (H0 & H1 & H2). cbn [v0 v1 v2] in *.
  apply Rabs_le_inv in Ha as Ha'. apply Rabs_le_inv in Hb as Hb'.
  eexists _, _, _. split; [apply fromCIELAB_fin|]. cbn [v0 v1 v2 vR]. pose proof u16 as U. pose proof eta16 as Et.
  unfold fromCIELAB, inV in H0, H1, H2. cbn [vref v0 v1 v2] in H0, H1, H2.
  assert (NY : near (@fdiv N (@fadd N l (@flit N 16%dec)) (@flit N 116%dec)) ((B2R l + 16) / 116) (2.1 * u)).
  { eapply near_le; [apply (near_div lm _ _ (B2R l + 16) 116 (116.1 * u) 0 1.001 116)|].
    - eapply near_le; [apply (near_add lm _ _ (B2R l) 16 0 0 116.002)|].
      + apply near_self, FL.
      + apply near_exact, ll_16.
      + apply Rabs_le; lra.
      + lra.
      + lra.
    - apply near_exact, ll_116.
    - rewrite Rabs_pos_eq; lra.
    - lra.
    - apply Rabs_le; lra.
    - rewrite U; lra.
    - rewrite U in *; lra. }
  assert (NA : near (@fdiv N a (@flit N 500%dec)) (B2R a / 500) (1.01 * u)).
  { eapply near_le; [apply (near_div lm _ _ (B2R a) 500 0 0 1.001 500)|].
    - apply near_self, Fa.
    - apply near_exact, ll_500.
    - rewrite Rabs_pos_eq; lra.
    - lra.
    - apply Rabs_le; lra.
    - lra.
    - rewrite U in *; lra. }
  assert (NB : near (@fdiv N b (@flit N 200%dec)) (B2R b / 200) (1.01 * u)).
  { eapply near_le; [apply (near_div lm _ _ (B2R b) 200 0 0 1.001 200)|].
    - apply near_self, Fb.
    - apply near_exact, ll_200.
    - rewrite Rabs_pos_eq; lra.
    - lra.
    - apply Rabs_le; lra.
    - lra.
    - rewrite U in *; lra. }
  assert (DY : det lm (Op2 (@fdiv N) (Add (Val l) (L 16)) (L 116)) (@fdiv N (@fadd N l (@flit N 16%dec)) (@flit N 116%dec))).
  { apply det_op2; [|apply det_val]. apply det_add; [exact Logic.I|exact Logic.I|apply det_val|apply det_val]. }
  assert (DA : det lm (Op2 (@fdiv N) (Val a) (L 500)) (@fdiv N a (@flit N 500%dec))) by (apply det_op2; apply det_val).
  assert (DB : det lm (Op2 (@fdiv N) (Val b) (L 200)) (@fdiv N b (@flit N 200%dec))) by (apply det_op2; apply det_val).
  assert (DX := fun n n' => det_add lm _ _ _ _ n n' DY DA). specialize (DX Logic.I Logic.I). assert (DZ := fun n n' => det_sub lm _ _ _ _ n n' DY DB). specialize (DZ Logic.I Logic.I).
  set (fy := @fdiv N (@fadd N l _) _) in *. set (ry := (B2R l + 16) / 116) in *. set (ra := B2R a / 500) in *. set (rb := B2R b / 200) in *.
  assert (RY : 0.13 <= ry <= 1.001) by (unfold ry; lra). assert (RA : Rabs ra <= 1.001) by (apply Rabs_le; unfold ra; lra). assert (RB : Rabs rb <= 1.001) by (apply Rabs_le; unfold rb; lra).
  apply Rabs_le_inv in RA as RA'. apply Rabs_le_inv in RB as RB'.
  assert (K : forall e (c w v : f32) rr, det lm e c -> near c rr (5.14 * u) -> -1 <= rr <= 2.1 -> white_ok w -> ev lm (Mul (CIELAB_decurve E e) (Val w)) v ->
    near v (lab_dec rr * B2R w) (22 * u * B2R w)).
  { intros e c w v rr De [Fc Hc] Hr Hw Hv. apply Rabs_le_inv in Hc as Hc'. inversion Hv as [| | |e1 e2 x y X1 X2| | | | | | |]; subst. apply evVal in X2. subst y.
    apply white_mul; [exact Hw| |apply lab_dec_range; lra]. destruct (decurve_nr e c De Fc ltac:(rewrite U in *; lra) x X1) as [Fd Hd]. split; [exact Fd|].
    pose proof (lab_dec_close _ _ _ Hc) as C. apply Rabs_le_inv in C. apply Rabs_le_inv in Hd. apply Rabs_le. lra. }
  split; [|split].
  - refine (K _ _ w0 _ _ DX _ _ W0 H0); [|lra]. eapply near_le; [apply (near_add lm _ _ ry ra _ _ 2.002 NY NA)|]; [apply Rabs_le; lra|rewrite U; lra|rewrite U; lra].
  - refine (K _ _ w1 _ _ DY _ _ W1 H1); [|lra]. eapply near_le; [exact NY|lra].
  - refine (K _ _ w2 _ _ DZ _ _ W2 H2); [|lra]. eapply near_le; [apply (near_sub lm _ _ ry rb _ _ 2.002 NY NB)|]; [apply Rabs_le; lra|rewrite U; lra|rewrite U; lra].
Qed.
Lemma lab_rt_fused (t w s r : Vector3 f32) : allV stim_ok t -> allV white_ok w ->
  evV lm (toCIELAB E (inV lm t) (inV lm w)) s -> evV lm (fromCIELAB E (inV lm s) (inV lm w)) r ->
  near (v0 r) (Rmin (B2R (v0 t)) (B2R (v0 w))) (83 * u * B2R (v0 w)) /\ near (v1 r) (Rmin (B2R (v1 t)) (B2R (v1 w))) (83 * u * B2R (v1 w)) /\
  near (v2 r) (Rmin (B2R (v2 t)) (B2R (v2 w))) (83 * u * B2R (v2 w)).
Proof.
  intros T W Hs Hr. destruct (toLab_fused t w s T W Hs) as (l & a & b & E1 & NL & Na & Nb & RL & Ra & Rb). pose proof u16 as U. clear Hs.
  destruct s as [sL sa sb]. cbn [v0 v1 v2] in NL, Na, Nb.
  assert (PW : posV (vR w)). { destruct W as ([_ ?] & [_ ?] & [_ ?]). pose proof (bpow_gt_0 radix2 (-20)). unfold posV, vR; destruct w as [wa wb wc]; cbn [v0 v1 v2] in *; lra. }
  pose proof (C17_clip_l (vR t) (vR w) PW) as RT. rewrite E1 in RT.
  destruct NL as [FL HL], Na as [Fa Ha], Nb as [Fb Hb]. apply Rabs_le_inv in HL as HL'. apply Rabs_le_inv in Ha as Ha'. apply Rabs_le_inv in Hb as Hb'. apply Rabs_le_inv in Ra as Ra'. apply Rabs_le_inv in Rb as Rb'.
  assert (OK : lab_ok (V3 sL sa sb)). { unfold lab_ok; cbn [v0 v1 v2]. split; [repeat split; assumption|]. split; [rewrite U in *; lra|]. split; apply Rabs_le; rewrite U in *; lra. }
  destruct (fromLab_fused _ w r OK W Hr) as (x & y & z & E2 & N0 & N1 & N2).
  destruct t as [t0 t1 t2], w as [w0 w1 w2]. destruct W as ([_ W0] & [_ W1] & [_ W2]). cbn [v0 v1 v2 vR] in *.
  pose proof (bpow_gt_0 radix2 (-20)) as P.
  unfold vR in RT, E2. cbn [v0 v1 v2] in RT, E2. rewrite fromCIELAB_fin in RT, E2. injection RT as Q0 Q1 Q2. injection E2 as X0 X1 X2.
  assert (D : forall p q e w r, Rabs (p - q) <= e -> 0 < w -> near r (lab_dec p * w) (22 * u * w) -> e <= 20.2 * u -> near r (lab_dec q * w) (83 * u * w)).
  { intros p q e v r' He Hw [Fr Hr'] Le. split; [exact Fr|]. pose proof (lab_dec_close _ _ _ He) as C. apply Rabs_le_inv in C. apply Rabs_le_inv in Hr'.
    assert (- (60.6 * u) * v <= (lab_dec p - lab_dec q) * v <= 60.6 * u * v) by (split; apply Rmult_le_compat_r; lra). apply Rabs_le. lra. }
  rewrite <- X0 in N0. rewrite <- X1 in N1. rewrite <- X2 in N2. 
  split; [|split].
  - rewrite <- Q0. refine (D _ _ _ _ _ (Rle_refl _) _ N0 _); [lra|]. apply Rabs_le. lra.
  - rewrite <- Q1. refine (D _ _ _ _ _ (Rle_refl _) _ N1 _); [lra|]. apply Rabs_le. lra.
  - rewrite <- Q2. refine (D _ _ _ _ _ (Rle_refl _) _ N2 _); [lra|]. apply Rabs_le. lra.
Qed.
Lemma toLab_fstmt (t w r : Vector3 f32) :
  fin (v0 t) /\ fin (v1 t) /\ fin (v2 t) -> fin (v0 w) /\ fin (v1 w) /\ fin (v2 w) ->
  (forall x, x = B2R (v0 t) \/ x = B2R (v1 t) \/ x = B2R (v2 t) -> 0 <= x <= bpow radix2 100) ->
  (forall x, x = B2R (v0 w) \/ x = B2R (v1 w) \/ x = B2R (v2 w) -> bpow radix2 (-20) <= x <= bpow radix2 20) ->
  evV lm (toCIELAB E (inV lm t) (inV lm w)) r ->
  exists L a b, toCIELAB RN (finV (vR t)) (finV (vR w)) = finV (V3 L a b) /\ near (v0 r) L (850 * u) /\ near (v1 r) a (6400 * u) /\ near (v2 r) b (2550 * u).
Proof.
  intros (A & B & C) (D & E0 & F) G H I. destruct (toLab_fused t w r) as (l & a & b & E1 & NL & Na & Nb & _).
  - repeat split; auto; apply G; auto.
  - repeat split; auto; apply H; auto.
  - exact I.
  - exists l, a, b. auto.
Qed.
Lemma fromLab_fstmt (t w r : Vector3 f32) :
  fin (v0 t) /\ fin (v1 t) /\ fin (v2 t) -> fin (v0 w) /\ fin (v1 w) /\ fin (v2 w) ->
  0 <= B2R (v0 t) <= 100 -> Rabs (B2R (v1 t)) <= 500 -> Rabs (B2R (v2 t)) <= 200 ->
  (forall x, x = B2R (v0 w) \/ x = B2R (v1 w) \/ x = B2R (v2 w) -> bpow radix2 (-20) <= x <= bpow radix2 20) ->
  evV lm (fromCIELAB E (inV lm t) (inV lm w)) r ->
  exists x y z, fromCIELAB RN (finV (vR t)) (finV (vR w)) = finV (V3 x y z) /\
    near (v0 r) x (22 * u * B2R (v0 w)) /\ near (v1 r) y (22 * u * B2R (v1 w)) /\ near (v2 r) z (22 * u * B2R (v2 w)).
Proof.
  intros (A & B & C) (D & E0 & F) G1 G2 G3 H I. apply fromLab_fused; [| |exact I].
  - repeat split; auto; lra.
  - repeat split; auto; apply H; auto.
Qed.
Lemma labrt_fstmt (t w s r : Vector3 f32) :
  fin (v0 t) /\ fin (v1 t) /\ fin (v2 t) -> fin (v0 w) /\ fin (v1 w) /\ fin (v2 w) ->
  (forall x, x = B2R (v0 t) \/ x = B2R (v1 t) \/ x = B2R (v2 t) -> 0 <= x <= bpow radix2 100) ->
  (forall x, x = B2R (v0 w) \/ x = B2R (v1 w) \/ x = B2R (v2 w) -> bpow radix2 (-20) <= x <= bpow radix2 20) ->
  evV lm (toCIELAB E (inV lm t) (inV lm w)) s -> evV lm (fromCIELAB E (inV lm s) (inV lm w)) r ->
  near (v0 r) (Rmin (B2R (v0 t)) (B2R (v0 w))) (83 * u * B2R (v0 w)) /\ near (v1 r) (Rmin (B2R (v1 t)) (B2R (v1 w))) (83 * u * B2R (v1 w)) /\
  near (v2 r) (Rmin (B2R (v2 t)) (B2R (v2 w))) (83 * u * B2R (v2 w)).
Proof.
  intros (A & B & C) (D & E0 & F) G H. apply lab_rt_fused.
  - repeat split; auto; apply G; auto.
  - repeat split; auto; apply H; auto.
Qed.
End F.
Section G.
Context (lm : libm).
Notation N := (FN lm).
Notation E := (EN lm).
Lemma curve_plain e : plain lm (CIELAB_curve E e) = CIELAB_curve N (plain lm e).
Proof.
  unfold CIELAB_curve. cbv zeta. change (@fltb E (@flit E 1%dec) e) with (@fltb N (@flit N 1%dec) (plain lm e)).
  change (@fltb E (@fdiv E (@flit E 216%dec) (@flit E 24389.0%dec)) e) with (@fltb N (@fdiv N (@flit N 216%dec) (@flit N 24389.0%dec)) (plain lm e)).
  destruct (@fltb N (@flit N 1%dec) (plain lm e)); [reflexivity|]. destruct (@fltb N (@fdiv N _ _) (plain lm e)); reflexivity.
Qed.
Lemma decurve_plain e : plain lm (CIELAB_decurve E e) = CIELAB_decurve N (plain lm e).
Proof.
  unfold CIELAB_decurve. cbv zeta. change (@fltb E (@flit E 1%dec) e) with (@fltb N (@flit N 1%dec) (plain lm e)).
  change (@fltb E (@fdiv E (@flit E 6%dec) (@flit E 29%dec)) e) with (@fltb N (@fdiv N (@flit N 6%dec) (@flit N 29%dec)) (plain lm e)).
  destruct (@fltb N (@flit N 1%dec) (plain lm e)); [reflexivity|]. destruct (@fltb N (@fdiv N _ _) (plain lm e)); reflexivity.
Qed.
Lemma evp e x : plain lm e = x -> ev lm e x.
Proof. intros <-. apply plain_ev. Qed.
Lemma lab_plain (t w : Vector3 f32) : evV lm (toCIELAB E (inV lm t) (inV lm w)) (toCIELAB N t w) /\ evV lm (fromCIELAB E (inV lm t) (inV lm w)) (fromCIELAB N t w).
Proof.
  destruct t as [t0 t1 t2], w as [w0 w1 w2].
  pose proof (fun a b => curve_plain (Op2 (@fdiv N) (Val a) (Val b))) as C. cbn [plain] in C.
  split; (split; [|split]); apply evp; unfold toCIELAB, fromCIELAB, inV; cbn [vref v0 v1 v2].
  - change (@fsub N (@fmul N (@flit N 116%dec) (plain lm (CIELAB_curve E (Op2 (@fdiv N) (Val t1) (Val w1))))) (@flit N 16%dec) = @fsub N (@fmul N (@flit N 116%dec) (CIELAB_curve N (@fdiv N t1 w1))) (@flit N 16%dec)). now rewrite C.
  - change (@fmul N (@flit N 500%dec) (@fsub N (plain lm (CIELAB_curve E (Op2 (@fdiv N) (Val t0) (Val w0)))) (plain lm (CIELAB_curve E (Op2 (@fdiv N) (Val t1) (Val w1))))) =
      @fmul N (@flit N 500%dec) (@fsub N (CIELAB_curve N (@fdiv N t0 w0)) (CIELAB_curve N (@fdiv N t1 w1)))). now rewrite !C.
  - change (@fmul N (@flit N 200%dec) (@fsub N (plain lm (CIELAB_curve E (Op2 (@fdiv N) (Val t1) (Val w1)))) (plain lm (CIELAB_curve E (Op2 (@fdiv N) (Val t2) (Val w2))))) =
      @fmul N (@flit N 200%dec) (@fsub N (CIELAB_curve N (@fdiv N t1 w1)) (CIELAB_curve N (@fdiv N t2 w2)))). now rewrite !C.
  - match goal with |- plain _ (@fmul E (CIELAB_decurve E ?e) _) = _ => change (@fmul N (plain lm (CIELAB_decurve E e)) w0 = @fmul N (CIELAB_decurve N (plain lm e)) w0) end. now rewrite decurve_plain.
  - match goal with |- plain _ (@fmul E (CIELAB_decurve E ?e) _) = _ => change (@fmul N (plain lm (CIELAB_decurve E e)) w1 = @fmul N (CIELAB_decurve N (plain lm e)) w1) end. now rewrite decurve_plain.
  - match goal with |- plain _ (@fmul E (CIELAB_decurve E ?e) _) = _ => change (@fmul N (plain lm (CIELAB_decurve E e)) w2 = @fmul N (CIELAB_decurve N (plain lm e)) w2) end. now rewrite decurve_plain.
Qed.
Lemma lab_compared (t w l a b q : f32) : (ev lm (@fdiv E (Val t) (Val w)) q -> q = @fdiv N t w) /\
  let fy (n : Num) (x : F n) := @fdiv n (@fadd n x (@flit n 16%dec)) (@flit n 116%dec) in
  (ev lm (fy E (Val l)) q -> q = fy N l) /\
  (ev lm (@fadd E (fy E (Val l)) (@fdiv E (Val a) (@flit E 500%dec))) q -> q = @fadd N (fy N l) (@fdiv N a (@flit N 500%dec))) /\
  (ev lm (@fsub E (fy E (Val l)) (@fdiv E (Val b) (@flit E 200%dec))) q -> q = @fsub N (fy N l) (@fdiv N b (@flit N 200%dec))).
Proof.
  assert (D : forall x y, det lm (Op2 (@fdiv N) (Val x) (Val y)) (@fdiv N x y)) by (intros; apply det_op2; apply det_val).
  assert (DY : det lm (Op2 (@fdiv N) (Add (Val l) (Val (@flit N 16%dec))) (Val (@flit N 116%dec))) (@fdiv N (@fadd N l (@flit N 16%dec)) (@flit N 116%dec))).
  { apply det_op2; [|apply det_val]. apply det_add; [exact Logic.I|exact Logic.I|apply det_val|apply det_val]. }
  split; [apply D|]. cbv zeta. split; [apply DY|]. split.
  - refine (proj2 (det_add lm _ _ _ _ _ _ DY (D a _)) q); exact Logic.I.
  - refine (proj2 (det_sub lm _ _ _ _ _ _ DY (D b _)) q); exact Logic.I.
Qed.
(** A dark grey, white (1, 1, 1). *)
Definition gA : f32 := @flit N 0.0001%dec.
Definition oA : f32 := @flit N 1%dec.
Definition lA (c : bool) : f32 := let y := CIELAB_curve N (@fdiv N gA oA) in
  if c then fma (@flit N 116%dec) y (@fopp N (@flit N 16%dec)) else @fsub N (@fmul N (@flit N 116%dec) y) (@flit N 16%dec).
Lemma lA_ev c : evV lm (toCIELAB E (inV lm (V3 gA gA gA)) (inV lm (V3 oA oA oA))) (V3 (lA c) (v1 (toCIELAB N (V3 gA gA gA) (V3 oA oA oA))) (v2 (toCIELAB N (V3 gA gA gA) (V3 oA oA oA)))).
Proof.
  destruct (lab_plain (V3 gA gA gA) (V3 oA oA oA)) as [(_ & H1 & H2) _]. split; [|split; [exact H1|exact H2]]. clear H1 H2. unfold lA. generalize gA oA. intros g o.
  assert (Y : ev lm (CIELAB_curve E (Op2 (@fdiv N) (Val g) (Val o))) (CIELAB_curve N (@fdiv N g o))) by (apply evp, curve_plain).
  unfold toCIELAB, inV. cbn [vref v0 v1 v2]. change (@fdiv E) with (Op2 (@fdiv N)).
  revert Y. generalize (CIELAB_curve E (Op2 (@fdiv N) (Val g) (Val o))) (CIELAB_curve N (@fdiv N g o)). intros e y Y.
  destruct c; [apply (ev_fms lm (Val _) e (Val _))|apply (ev_sub lm (Mul (Val _) e) (Val _)); [apply ev_mul|]]; try exact Y; constructor.
Qed.
Lemma lab_matters : exists t w r r', evV lm (toCIELAB E (inV lm t) (inV lm w)) r /\ evV lm (toCIELAB E (inV lm t) (inV lm w)) r' /\ B2R (v0 r) <> B2R (v0 r').
Proof.
  exists (V3 gA gA gA), (V3 oA oA oA). eexists _, _. split; [exact (lA_ev true)|]. split; [exact (lA_ev false)|]. cbn [v0].
  assert (F1 : fin (lA true)) by (vm_compute; reflexivity). assert (F2 : fin (lA false)) by (vm_compute; reflexivity). assert (G : @feqb N (lA true) (lA false) = false) by (vm_compute; reflexivity).
  revert F1 F2 G. generalize (lA true) (lA false). clear. intros p q F1 F2 G X. rewrite (eqb_ok lm p q F1 F2) in G. rewrite X, Req_bool_true in G by reflexivity. discriminate.
Qed.
(** Mid grey, D50. *)
Lemma case168 : accurate lm -> let t := V3 (@flit N 0.5%dec) (@flit N 0.5%dec) (@flit N 0.5%dec) in let w := lab_default_white N in
  exists s r, evV lm (toCIELAB E (inV lm t) (inV lm w)) s /\ evV lm (fromCIELAB E (inV lm s) (inV lm w)) r /\ near (v1 r) 0.5 (83 * u).
Proof.
  intros Acc t w. exists (toCIELAB N t w), (fromCIELAB N (toCIELAB N t w) w). split; [exact (proj1 (lab_plain t w))|]. split; [exact (proj2 (lab_plain (toCIELAB N t w) w))|]. exact (lab_half lm Acc).
Qed.
End G.
