(** * CIELAB in binary32 with an accurate library. *)
From Coq Require Import ZArith QArith Qreals Reals Lra Lia List Bool.
From Flocq Require Import Core IEEE754.BinarySingleNaN.
From Verif Require Import Num NumR NumF MVec MTri SpecMat RTac F32 RPow RExp PMat PLab PHsvF PMatF PLibm PPowF PNearF PNearF2 PRelF POtf POtfF POtfF2.
Local Open Scope R_scope.

(** ** The exact curves under perturbation *)
Lemma curve_incr lo hi k e : 0 <= lo <= hi -> hi - lo <= k * lo + e -> 0 <= k -> 0 <= e ->
  0 <= lab_curve hi - lab_curve lo <= 0.335 * k + 8 * e.
Proof.
  intros H D K E. destruct (curve_lipschitz_le lo hi ltac:(lra)) as [A B]. split; [exact A|].
  destruct (Rle_lt_dec lo 0.043) as [L|L]; [nra|].
  destruct (Rlt_le_dec 1 lo) as [L1|L1].
  { unfold lab_curve. destruct (Rlt_dec 1 lo); [|lra]. destruct (Rlt_dec 1 hi); [|lra]. lra. }
  set (h := Rmin hi 1). assert (Hh : lo <= h /\ h <= 1 /\ h <= hi) by (unfold h, Rmin; destruct (Rle_dec hi 1); lra).
  assert (EQ : lab_curve hi = cie_f h).
  { unfold lab_curve, h, Rmin. destruct (Rlt_dec 1 hi), (Rle_dec hi 1); try lra; try reflexivity. rewrite <- curve_1 at 1. rewrite curve_eq by lra. reflexivity. }
  rewrite EQ, (curve_eq lo) by lra. rewrite EQ, (curve_eq lo) in A by lra.
  destruct (cie_f_hi lo) as [P1 C1]; [rewrite thr_val; lra|]. destruct (cie_f_hi h) as [P2 C2]; [rewrite thr_val; lra|].
  set (x := cie_f lo) in *. set (y := cie_f h) in *.
  assert (X : x <= 1) by (apply cie_f_le1; lra). assert (X2 : 0.35 < x) by (apply cube_lt; lra).
  assert (M : (y - x) * (x * x + x * y + y * y) = h - lo) by (rewrite <- C1, <- C2; ring).
  assert (Q : (y - x) * (3 * (x * x)) <= k * (x * x * x) + e).
  { apply Rle_trans with ((y - x) * (x * x + x * y + y * y)); [apply Rmult_le_compat_l; nra|]. rewrite M, C1. lra. }
  assert (Q2 : 0.1225 < x * x) by nra.
  assert (Q3 : (y - x) * (3 * (x * x)) <= (k / 3 + 8 * e) * (3 * (x * x))).
  { eapply Rle_trans; [exact Q|]. assert (k * (x * x * x) <= k * (x * x)) by (apply Rmult_le_compat_l; nra). assert (e * 1 <= e * (24 * (x * x))) by (apply Rmult_le_compat_l; lra). lra. }
  apply Rmult_le_reg_r in Q3; lra.
Qed.
Lemma curve_close a b k e : 0 <= a -> 0 <= b -> Rabs (b - a) <= k * a + e -> 0 <= k <= / 1000 -> 0 <= e ->
  Rabs (lab_curve b - lab_curve a) <= 0.336 * k + 8.1 * e.
Proof.
  intros A B D K E. apply Rabs_le_inv in D. destruct (Rle_lt_dec a b) as [L|L].
  - destruct (curve_incr a b k e ltac:(lra) ltac:(lra) ltac:(lra) E) as [P Q]. apply Rabs_le. lra.
  - destruct (curve_incr b a (1.0011 * k) (1.0011 * e) ltac:(lra)) as [P Q]; try lra; [|apply Rabs_le; lra].
    assert (a - b <= k * a + e) by lra. nra.
Qed.
Definition lab_dec (c : R) : R := if Rlt_dec 1 c then 1 else if Rlt_dec (6 / 29) c then c * c * c else (116 * c - 16) * (27 / 24389).
Lemma lab_dec_fin c : CIELAB_decurve RN (Some c) = Some (lab_dec c).
Proof.
  unfold lab_dec. destruct (Rlt_dec 1 c) as [H|H].
  - unfold CIELAB_decurve. rn. rewrite !rdiv_ok by lra. rn. rewrite Rlt_bool_true by lra. reflexivity.
  - destruct (Rlt_dec (6 / 29) c); [apply decurve_hi; lra|apply decurve_lo; lra].
Qed.
Lemma lab_dec_lip x y : x <= y -> 0 <= lab_dec y - lab_dec x <= 3 * (y - x).
Proof.
  assert (K1 : forall x y, 6 / 29 <= x -> x <= y -> y <= 1 -> 0 <= y * y * y - x * x * x <= 3 * (y - x)).
  { intros a b A L B. replace (b * b * b - a * a * a) with ((b - a) * (b * b + a * b + a * a)) by ring. assert (0 <= b * b + a * b + a * a <= 3) by nra. split; [apply Rmult_le_pos; lra|]. rewrite (Rmult_comm 3). apply Rmult_le_compat_l; lra. }
  intros L. unfold lab_dec.
  destruct (Rlt_dec 1 x), (Rlt_dec 1 y); try lra.
  - destruct (Rlt_dec (6 / 29) x); [pose proof (K1 x 1); lra|]. pose proof (K1 (6 / 29) 1). lra.
  - destruct (Rlt_dec (6 / 29) x), (Rlt_dec (6 / 29) y); try lra; [apply K1; lra|]. pose proof (K1 (6 / 29) y). lra.
Qed.
Lemma lab_dec_close x y e : Rabs (x - y) <= e -> Rabs (lab_dec x - lab_dec y) <= 3 * e.
Proof.
  intros H. apply Rabs_le_inv in H. apply Rabs_le. destruct (Rle_lt_dec x y) as [L|L].
  - pose proof (lab_dec_lip x y L). lra.
  - pose proof (lab_dec_lip y x ltac:(lra)). lra.
Qed.
Lemma ln_0088 : -4.74 <= ln 0.0088.
Proof. replace (-4.74) with (- Q2R (Qmake 474 100)) by (unfold Q2R; cbn; lra). replace 0.0088 with (Q2R (Qmake 88 10000)) by (unfold Q2R; cbn; lra). apply (ln_ge_neg _ _ 8 10); [vm_compute; reflexivity|unfold Q2R; cbn; lra]. Qed.

Section F.
Context (lm : libm) (Acc : accurate lm).
Notation N := (FN lm).
Lemma ll_thr : fin (@fdiv N (@flit N 216%dec) (@flit N 24389.0%dec)) /\ B2R (@fdiv N (@flit N 216%dec) (@flit N 24389.0%dec)) = 9509543 / 1073741824. Proof. f32_val. Qed.
Lemma ll_K : fin (@fdiv N (@flit N 24389.0%dec) (@flit N 27.0%dec)) /\ B2R (@fdiv N (@flit N 24389.0%dec) (@flit N 27.0%dec)) = 14799607 / 16384. Proof. f32_val. Qed.
Lemma ll_3rd : fin (@fdiv N (@flit N 1%dec) (@flit N 3%dec)) /\ B2R (@fdiv N (@flit N 1%dec) (@flit N 3%dec)) = 11184811 / 33554432. Proof. f32_val. Qed.
Lemma ll_629 : fin (@fdiv N (@flit N 6%dec) (@flit N 29%dec)) /\ B2R (@fdiv N (@flit N 6%dec) (@flit N 29%dec)) = 13884593 / 67108864. Proof. f32_val. Qed.
Lemma ll_K3 : let k := @fdiv N (@flit N 3%dec) (@flit N 29%dec) in fin (@fmul N (@fmul N k k) k) /\ B2R (@fmul N (@fmul N k k) k) = 9509543 / 8589934592. Proof. cbv zeta. f32_val. Qed.
Lemma ll_16 : fin (@flit N 16%dec) /\ B2R (@flit N 16%dec) = 16. Proof. f32_val. Qed.
Lemma ll_116 : fin (@flit N 116%dec) /\ B2R (@flit N 116%dec) = 116. Proof. f32_val. Qed.
Lemma ll_500 : fin (@flit N 500%dec) /\ B2R (@flit N 500%dec) = 500. Proof. f32_val. Qed.
Lemma ll_200 : fin (@flit N 200%dec) /\ B2R (@flit N 200%dec) = 200. Proof. f32_val. Qed.
Lemma ll_3 : fin (@flit N 3%dec) /\ B2R (@flit N 3%dec) = 3. Proof. f32_val. Qed.
Lemma near_exact (x : f32) r : fin x /\ B2R x = r -> near x r 0.
Proof. intros H. apply (near_lit _ _ _ _ H). rewrite Rminus_diag_eq, Rabs_R0 by reflexivity. lra. Qed.

Lemma curve_near (f : f32) : fin f -> 0 <= B2R f -> near (CIELAB_curve N f) (lab_curve (B2R f)) (5 * u).
Proof.
  intros Ff P. set (v := B2R f) in *. pose proof u16 as U. pose proof eta16 as E. destruct (l1 lm) as [F1 V1]. destruct ll_thr as [Ft Vt].
  unfold CIELAB_curve. cbv zeta. rewrite !ltb_ok by assumption. rewrite V1, Vt. fold v.
  case Rlt_bool_spec; intro A. { unfold lab_curve. destruct (Rlt_dec 1 v); [|lra]. eapply near_le; [apply near_exact; split; eassumption|lra]. }
  rewrite curve_eq by lra. case Rlt_bool_spec; intro B.
  - unfold cie_f. rewrite thr_val. destruct (Rlt_dec (216 / 24389) v) as [T|T]; [|lra].
    assert (PR : 0.2 <= Rpower v (1 / 3) <= 1).
    { split; [|apply Rpower_le_1; lra]. apply Rle_trans with (Rpower (216 / 24389) (1 / 3)); [|apply Rpower_le_l; lra]. apply Rlt_le, (Rpower_frac_gt _ _ 1 3); try (cbn; lra); try lra; lia. }
    eapply near_le; [apply (near_pow lm Acc f _ v (1 / 3) 0 (0.168 * u) (4.74 * (0.168 * u)) 1)|].
    + eapply near_le; [apply near_self, Ff|lra].
    + apply (near_lit _ _ _ _ ll_3rd). apply Rabs_le; lra.
    + lra.
    + lra.
    + pose proof (ln_abs 0.0088 (-4.74) v ltac:(lra) ltac:(lra) ln_0088). pose proof (Rabs_pos (ln v)). nra.
    + lra.
    + lra.
    + lra.
    + lra.
    + apply small_100. lra.
    + lra.
  - assert (Nl : near (@fdiv N (@fadd N (@fmul N (@fdiv N (@flit N 24389.0%dec) (@flit N 27.0%dec)) f) (@flit N 16%dec)) (@flit N 116%dec)) ((24389 / 27 * v + 16) / 116) (0.7 * u)).
    { eapply near_le; [apply (near_div lm _ _ (24389 / 27 * v + 16) 116 (37 * u) 0 0.207 116)|].
      - eapply near_le; [apply (near_add lm _ _ (24389 / 27 * v) 16 (12.5 * u) 0 24.001)|].
        + eapply near_le; [apply (near_mul lm _ f (24389 / 27) v (494 * u) 0 904 0.00886)|].
          * apply (near_lit _ _ _ _ ll_K). apply Rabs_le; lra.
          * apply near_self, Ff.
          * apply Rabs_le; lra.
          * apply Rabs_le; lra.
          * lra.
          * rewrite U in *; lra.
        + apply near_exact, ll_16.
        + apply Rabs_le; lra.
        + lra.
        + rewrite U; lra.
      - apply near_exact, ll_116.
      - rewrite Rabs_pos_eq; lra.
      - lra.
      - apply Rabs_le; lra.
      - rewrite U; lra.
      - rewrite U in *; lra. }
    destruct (Rlt_le_dec ((6 / 29) ^ 3) v) as [T|T].
    + destruct Nl as [Fn Hn]. split; [exact Fn|]. apply Rabs_le_inv in Hn.
      pose proof (cie_f_lipschitz_le ((6 / 29) ^ 3) v ltac:(lra)) as LP. rewrite (cie_f_lo ((6 / 29) ^ 3)) in LP by lra. rewrite thr_val in *. apply Rabs_le. rewrite U in *. lra.
    + rewrite cie_f_lo by exact T. eapply near_le; [eapply near_eq; [exact Nl|lra]|lra].
Qed.
Lemma decurve_near (c : f32) : fin c -> -4 <= B2R c <= 4 -> near (CIELAB_decurve N c) (lab_dec (B2R c)) (5 * u).
Proof.
  intros Fc P. set (v := B2R c) in *. pose proof u16 as U. pose proof eta16 as E. destruct (l1 lm) as [F1 V1]. destruct ll_629 as [Ft Vt].
  unfold CIELAB_decurve. cbv zeta. rewrite !ltb_ok by assumption. rewrite V1, Vt. fold v. unfold lab_dec.
  case Rlt_bool_spec; intro A. { destruct (Rlt_dec 1 v); [|lra]. eapply near_le; [apply near_exact; split; eassumption|lra]. }
  destruct (Rlt_dec 1 v) as [|_]; [lra|]. case Rlt_bool_spec; intro B.
  - destruct (Rlt_dec (6 / 29) v) as [T|T]; [|lra]. rewrite <- Rpower_3 by lra.
    assert (PR : 0.008 <= Rpower v 3 <= 1) by (rewrite Rpower_3 by lra; nra).
    eapply near_le; [apply (near_pow lm Acc c _ v 3 0 0 0 1)|].
    + eapply near_le; [apply near_self, Fc|lra].
    + apply near_exact, ll_3.
    + lra.
    + lra.
    + lra.
    + lra.
    + lra.
    + lra.
    + lra.
    + apply small_100. lra.
    + lra.
  - assert (Nl : near (@fmul N (@fsub N (@fmul N (@flit N 116%dec) c) (@flit N 16%dec)) (let k := @fdiv N (@flit N 3%dec) (@flit N 29%dec) in @fmul N (@fmul N k k) k)) ((116 * v - 16) * (27 / 24389)) (2.1 * u)).
    { eapply near_le; [apply (near_mul lm _ _ (116 * v - 16) (27 / 24389) (945 * u) (0.0009 * u) 480 0.00111)|].
      - eapply near_le; [apply (near_sub lm _ _ (116 * v) 16 (464.1 * u) 0 480)|].
        + eapply near_le; [apply (near_mul lm _ c 116 v 0 0 116 4)|].
          * apply near_exact, ll_116.
          * apply near_self, Fc.
          * apply Rabs_le; lra.
          * apply Rabs_le; lra.
          * lra.
          * rewrite U in *; lra.
        + apply near_exact, ll_16.
        + apply Rabs_le; lra.
        + rewrite U; lra.
        + rewrite U; lra.
      - apply (near_lit _ _ _ _ ll_K3). apply Rabs_le; lra.
      - apply Rabs_le; lra.
      - apply Rabs_le; lra.
      - rewrite U; lra.
      - rewrite U in *; lra. }
    destruct (Rlt_dec (6 / 29) v) as [T|T]; [|eapply near_le; [exact Nl|lra]].
    destruct Nl as [Fn Hn]. split; [exact Fn|]. apply Rabs_le_inv in Hn.
    assert (0 <= v * v * v - 6 / 29 * (6 / 29) * (6 / 29) <= 3 * (v - 6 / 29)). { pose proof (lab_dec_lip (6 / 29) v ltac:(lra)) as LP. unfold lab_dec in LP. destruct (Rlt_dec 1 v), (Rlt_dec 1 (6 / 29)), (Rlt_dec (6 / 29) v), (Rlt_dec (6 / 29) (6 / 29)); lra. }
    apply Rabs_le. rewrite U in *. lra.
Qed.

Definition white_ok (w : f32) : Prop := fin w /\ bpow radix2 (-20) <= B2R w <= bpow radix2 20.
Definition stim_ok (t : f32) : Prop := fin t /\ 0 <= B2R t <= bpow radix2 100.
Lemma ratio_near (t w : f32) : stim_ok t -> white_ok w ->
  near (CIELAB_curve N (@fdiv N t w)) (lab_curve (B2R t / B2R w)) (5.4 * u).
Proof.
  intros [Ft Ht] [Fw Hw]. pose proof u16 as U. pose proof eta16 as E. pose proof (bpow_gt_0 radix2 (-20)) as P.
  set (a := B2R t / B2R w). assert (A : 0 <= a <= bpow radix2 120).
  { unfold a. split; [apply Rmult_le_pos; [lra|apply Rlt_le, Rinv_0_lt_compat; lra]|]. apply Rmult_le_reg_r with (B2R w); [lra|].
    unfold Rdiv. rewrite Rmult_assoc, Rinv_l, Rmult_1_r by lra. apply Rle_trans with (bpow radix2 100); [lra|]. change 100%Z with (120 + -20)%Z. rewrite bpow_plus. apply Rmult_le_compat_l; [apply bpow_ge_0|lra]. }
  destruct (div_ok lm t w Ft ltac:(lra)) as [Fq Vq]. { fold a. rewrite Rabs_pos_eq by lra. apply Rle_trans with (bpow radix2 120); [lra|apply bpow_le; lia]. }
  fold a in Vq. set (q := @fdiv N t w) in *. pose proof (rnd_err_abs a) as Er. rewrite <- Vq, (Rabs_pos_eq a) in Er by lra.
  assert (Q : 0 <= B2R q) by (rewrite Vq; apply rnd_ge_fmt; [apply fmt_0|lra]).
  destruct (curve_near q Fq Q) as [Fc Hc]. split; [exact Fc|].
  pose proof (curve_close a (B2R q) u eta ltac:(lra) Q Er ltac:(lra) ltac:(lra)) as C.
  apply Rabs_le_inv in C. apply Rabs_le_inv in Hc. apply Rabs_le. lra.
Qed.
Lemma lab_curve_range x : 0 <= x -> 4 / 29 <= lab_curve x <= 1.
Proof.
  intros H. split; [|apply curve_le1]. pose proof (curve_lipschitz_le 0 x H) as L. rewrite (curve_eq 0), cie_f_lo in L by (rewrite ?thr_val; lra). lra.
Qed.
Lemma ratio_pos (t w : f32) : stim_ok t -> white_ok w -> 0 <= B2R t / B2R w.
Proof. intros [_ Ht] [_ Hw]. pose proof (bpow_gt_0 radix2 (-20)). apply Rmult_le_pos; [lra|apply Rlt_le, Rinv_0_lt_compat; lra]. Qed.

Lemma toLab_near (t w : Vector3 f32) : allV stim_ok t -> allV white_ok w ->
  exists L a b, toCIELAB RN (finV (vR t)) (finV (vR w)) = finV (V3 L a b) /\
    let r := toCIELAB N t w in near (v0 r) L (850 * u) /\ near (v1 r) a (6400 * u) /\ near (v2 r) b (2550 * u) /\
    0 <= L <= 100 /\ Rabs a <= 500 /\ Rabs b <= 200.
Proof.
  destruct t as [t0 t1 t2], w as [w0 w1 w2]. intros (T0 & T1 & T2) (W0 & W1 & W2). cbn [v0 v1 v2] in *.
  exists (116 * lab_curve (B2R t1 / B2R w1) - 16), (500 * (lab_curve (B2R t0 / B2R w0) - lab_curve (B2R t1 / B2R w1))), (200 * (lab_curve (B2R t1 / B2R w1) - lab_curve (B2R t2 / B2R w2))).
  split. { apply (toCIELAB_fin (vR (V3 t0 t1 t2)) (vR (V3 w0 w1 w2))). pose proof (bpow_gt_0 radix2 (-20)). destruct W0 as [_ ?], W1 as [_ ?], W2 as [_ ?]. unfold posV, vR; cbn [v0 v1 v2]. lra. }
  pose proof u16 as U. pose proof eta16 as E.
  pose proof (lab_curve_range _ (ratio_pos t0 w0 T0 W0)) as R0. pose proof (lab_curve_range _ (ratio_pos t1 w1 T1 W1)) as R1. pose proof (lab_curve_range _ (ratio_pos t2 w2 T2 W2)) as R2.
  pose proof (ratio_near t0 w0 T0 W0) as N0. pose proof (ratio_near t1 w1 T1 W1) as N1. pose proof (ratio_near t2 w2 T2 W2) as N2.
  cbv zeta. unfold toCIELAB. cbn [v0 v1 v2]. 
  set (x := lab_curve (B2R t0 / B2R w0)) in *. set (y := lab_curve (B2R t1 / B2R w1)) in *. set (z := lab_curve (B2R t2 / B2R w2)) in *.
  set (xf := CIELAB_curve N (@fdiv N t0 w0)) in *. set (yf := CIELAB_curve N (@fdiv N t1 w1)) in *. set (zf := CIELAB_curve N (@fdiv N t2 w2)) in *.
  split; [|split; [|split; [|split; [|split]]]].
  - eapply near_le; [apply (near_sub lm _ _ (116 * y) 16 (743 * u) 0 100)|].
    + eapply near_le; [apply (near_mul lm _ _ 116 y 0 (5.4 * u) 116 1)|].
      * apply near_exact, ll_116.
      * exact N1.
      * apply Rabs_le; lra.
      * apply Rabs_le; lra.
      * rewrite U; lra.
      * rewrite U in *; lra.
    + apply near_exact, ll_16.
    + apply Rabs_le; lra.
    + rewrite U; lra.
    + rewrite U; lra.
  - eapply near_le; [apply (near_mul lm _ _ 500 (x - y) 0 (11.7 * u) 500 (25 / 29))|].
    + apply near_exact, ll_500.
    + eapply near_le; [apply (near_sub lm _ _ x y _ _ (25 / 29) N0 N1)|].
      * apply Rabs_le; lra.
      * rewrite U; lra.
      * rewrite U; lra.
    + apply Rabs_le; lra.
    + apply Rabs_le; lra.
    + rewrite U; lra.
    + rewrite U in *; lra.
  - eapply near_le; [apply (near_mul lm _ _ 200 (y - z) 0 (11.7 * u) 200 (25 / 29))|].
    + apply near_exact, ll_200.
    + eapply near_le; [apply (near_sub lm _ _ y z _ _ (25 / 29) N1 N2)|].
      * apply Rabs_le; lra.
      * rewrite U; lra.
      * rewrite U; lra.
    + apply Rabs_le; lra.
    + apply Rabs_le; lra.
    + rewrite U; lra.
    + rewrite U in *; lra.
  - lra.
  - apply Rabs_le; lra.
  - apply Rabs_le; lra.
Qed.
(** ** Back *)
Lemma fromCIELAB_fin (L a b w0 w1 w2 : R) :
  fromCIELAB RN (finV (V3 L a b)) (finV (V3 w0 w1 w2)) =
  finV (V3 (lab_dec ((L + 16) / 116 + a / 500) * w0) (lab_dec ((L + 16) / 116) * w1) (lab_dec ((L + 16) / 116 - b / 200) * w2)).
Proof. unfold fromCIELAB. rn. rewrite !rdiv_ok by lra. rn. rewrite !lab_dec_fin. reflexivity. Qed.
Lemma white_mul (d w : f32) r : white_ok w -> near d r (20.5 * u) -> Rabs r <= 1 -> near (@fmul N d w) (r * B2R w) (22 * u * B2R w).
Proof.
  intros [Fw Hw] Nd Hr. pose proof u16 as U. pose proof eta16 as E. pose proof (bpow_gt_0 radix2 (-20)) as P.
  assert (W1 : B2R w <= 2000000). { apply Rle_trans with (bpow radix2 20); [lra|]. change (bpow radix2 20) with 1048576. lra. }
  assert (W2 : / 2000000 <= B2R w). { apply Rle_trans with (bpow radix2 (-20)); [|lra]. change (bpow radix2 (-20)) with (/ 1048576). lra. }
  eapply near_le; [apply (near_mul lm d w r (B2R w) (20.5 * u) 0 1 (B2R w) Nd)|].
  - apply near_self, Fw.
  - exact Hr.
  - rewrite Rabs_pos_eq; lra.
  - rewrite U. nra.
  - rewrite U in *. nra.
Qed.
Lemma lab_dec_range c : -1 <= c -> Rabs (lab_dec c) <= 1.
Proof.
  intros H. unfold lab_dec. destruct (Rlt_dec 1 c); [rewrite Rabs_R1; lra|]. apply Rabs_le. destruct (Rlt_dec (6 / 29) c); [|lra].
  assert (0 <= c * c <= 1) by nra. nra.
Qed.
Definition lab_ok (t : Vector3 f32) : Prop := allV fin t /\ 0 - 0.001 <= B2R (v0 t) <= 100.001 /\ Rabs (B2R (v1 t)) <= 500.001 /\ Rabs (B2R (v2 t)) <= 200.001.
Lemma fromLab_near (t w : Vector3 f32) : lab_ok t -> allV white_ok w ->
  exists x y z, fromCIELAB RN (finV (vR t)) (finV (vR w)) = finV (V3 x y z) /\
    let r := fromCIELAB N t w in
    near (v0 r) x (22 * u * B2R (v0 w)) /\ near (v1 r) y (22 * u * B2R (v1 w)) /\ near (v2 r) z (22 * u * B2R (v2 w)).
Proof.
  destruct t as [L a b], w as [w0 w1 w2]. intros ((FL & Fa & Fb) & HL & Ha & Hb) (W0 & W1 & W2). cbn [v0 v1 v2] in *.
  apply Rabs_le_inv in Ha as Ha'. apply Rabs_le_inv in Hb as Hb'.
  eexists _, _, _. split; [apply fromCIELAB_fin|]. cbn [v0 v1 v2 vR]. pose proof u16 as U. pose proof eta16 as E.
  cbv zeta. unfold fromCIELAB. cbn [v0 v1 v2].
  assert (NY : near (@fdiv N (@fadd N L (@flit N 16%dec)) (@flit N 116%dec)) ((B2R L + 16) / 116) (2.1 * u)).
  { eapply near_le; [apply (near_div lm _ _ (B2R L + 16) 116 (116.1 * u) 0 1.001 116)|].
    - eapply near_le; [apply (near_add lm _ _ (B2R L) 16 0 0 116.002)|].
      + apply near_self, FL.
      + apply near_exact, ll_16.
      + apply Rabs_le; lra.
      + lra.
      + lra.
    - apply near_exact, ll_116.
    - rewrite Rabs_pos_eq; lra.
    - lra.
    - apply Rabs_le; lra.
    - rewrite U; lra.
    - rewrite U in *; lra. }
  assert (NA : near (@fdiv N a (@flit N 500%dec)) (B2R a / 500) (1.01 * u)).
  { eapply near_le; [apply (near_div lm _ _ (B2R a) 500 0 0 1.001 500)|].
    - apply near_self, Fa.
    - apply near_exact, ll_500.
    - rewrite Rabs_pos_eq; lra.
    - lra.
    - apply Rabs_le; lra.
    - lra.
    - rewrite U in *; lra. }
  assert (NB : near (@fdiv N b (@flit N 200%dec)) (B2R b / 200) (1.01 * u)).
  { eapply near_le; [apply (near_div lm _ _ (B2R b) 200 0 0 1.001 200)|].
    - apply near_self, Fb.
    - apply near_exact, ll_200.
    - rewrite Rabs_pos_eq; lra.
    - lra.
    - apply Rabs_le; lra.
    - lra.
    - rewrite U in *; lra. }
  set (fy := @fdiv N (@fadd N L _) _) in *. set (ry := (B2R L + 16) / 116) in *. set (ra := B2R a / 500) in *. set (rb := B2R b / 200) in *.
  assert (RY : 0.13 <= ry <= 1.001) by (unfold ry; lra). assert (RA : Rabs ra <= 1.001) by (apply Rabs_le; unfold ra; lra). assert (RB : Rabs rb <= 1.001) by (apply Rabs_le; unfold rb; lra).
  apply Rabs_le_inv in RA as RA'. apply Rabs_le_inv in RB as RB'.
  assert (K : forall (c : f32) r, near c r (5.14 * u) -> -1 <= r <= 2.1 -> near (CIELAB_decurve N c) (lab_dec r) (20.5 * u)).
  { intros c r [Fc Hc] Hr. apply Rabs_le_inv in Hc as Hc'. destruct (decurve_near c Fc) as [Fd Hd]; [rewrite U in *; lra|]. split; [exact Fd|].
    pose proof (lab_dec_close _ _ _ Hc) as C. apply Rabs_le_inv in C. apply Rabs_le_inv in Hd. apply Rabs_le. lra. }
  split; [|split]; (apply white_mul; [assumption| |apply lab_dec_range; lra]); apply K; try lra.
  - eapply near_le; [apply (near_add lm _ _ ry ra _ _ 2.002 NY NA)|]; [apply Rabs_le; lra|rewrite U; lra|rewrite U; lra].
  - eapply near_le; [exact NY|lra].
  - eapply near_le; [apply (near_sub lm _ _ ry rb _ _ 2.002 NY NB)|]; [apply Rabs_le; lra|rewrite U; lra|rewrite U; lra].
Qed.
Lemma lab_rt_near (t w : Vector3 f32) : allV stim_ok t -> allV white_ok w ->
  let r := fromCIELAB N (toCIELAB N t w) w in
  near (v0 r) (Rmin (B2R (v0 t)) (B2R (v0 w))) (83 * u * B2R (v0 w)) /\ near (v1 r) (Rmin (B2R (v1 t)) (B2R (v1 w))) (83 * u * B2R (v1 w)) /\
  near (v2 r) (Rmin (B2R (v2 t)) (B2R (v2 w))) (83 * u * B2R (v2 w)).
Proof.
  intros T W. destruct (toLab_near t w T W) as (L & a & b & E1 & NL & Na & Nb & RL & Ra & Rb). pose proof u16 as U.
  cbv zeta. set (s := toCIELAB N t w) in *. clearbody s. change (Vector3 f32) in s. destruct s as [sL sa sb]. cbv zeta in NL, Na, Nb. cbn [v0 v1 v2] in NL, Na, Nb.
  assert (PW : posV (vR w)). { destruct W as ([_ ?] & [_ ?] & [_ ?]). pose proof (bpow_gt_0 radix2 (-20)). unfold posV, vR; destruct w as [wa wb wc]; cbn [v0 v1 v2] in *; lra. }
  pose proof (C17_clip_l (vR t) (vR w) PW) as RT. rewrite E1 in RT.
  destruct NL as [FL HL], Na as [Fa Ha], Nb as [Fb Hb]. apply Rabs_le_inv in HL as HL'. apply Rabs_le_inv in Ha as Ha'. apply Rabs_le_inv in Hb as Hb'. apply Rabs_le_inv in Ra as Ra'. apply Rabs_le_inv in Rb as Rb'.
  assert (OK : lab_ok (V3 sL sa sb)). { unfold lab_ok; cbn [v0 v1 v2]. split; [repeat split; assumption|]. split; [rewrite U in *; lra|]. split; apply Rabs_le; rewrite U in *; lra. }
  destruct (fromLab_near _ w OK W) as (x & y & z & E2 & N0 & N1 & N2). cbv zeta in N0, N1, N2.
  destruct t as [t0 t1 t2], w as [w0 w1 w2]. destruct W as ([_ W0] & [_ W1] & [_ W2]). cbn [v0 v1 v2 vR] in *.
  pose proof (bpow_gt_0 radix2 (-20)) as P.
  unfold vR in RT, E2. cbn [v0 v1 v2] in RT, E2. rewrite fromCIELAB_fin in RT, E2. injection RT as Q0 Q1 Q2. injection E2 as X0 X1 X2.
  assert (D : forall p q e w r, Rabs (p - q) <= e -> 0 < w -> near r (lab_dec p * w) (22 * u * w) -> e <= 20.2 * u -> near r (lab_dec q * w) (83 * u * w)).
  { intros p q e v r He Hw [Fr Hr] Le. split; [exact Fr|]. pose proof (lab_dec_close _ _ _ He) as C. apply Rabs_le_inv in C. apply Rabs_le_inv in Hr.
    assert (- (60.6 * u) * v <= (lab_dec p - lab_dec q) * v <= 60.6 * u * v) by (split; apply Rmult_le_compat_r; lra). apply Rabs_le. lra. }
  rewrite <- X0 in N0. rewrite <- X1 in N1. rewrite <- X2 in N2. 
  split; [|split].
  - rewrite <- Q0. refine (D _ _ _ _ _ (Rle_refl _) _ N0 _); [lra|]. apply Rabs_le. lra.
  - rewrite <- Q1. refine (D _ _ _ _ _ (Rle_refl _) _ N1 _); [lra|]. apply Rabs_le. lra.
  - rewrite <- Q2. refine (D _ _ _ _ _ (Rle_refl _) _ N2 _); [lra|]. apply Rabs_le. lra.
Qed.
Lemma toLab_stmt (t w : Vector3 f32) :
  fin (v0 t) /\ fin (v1 t) /\ fin (v2 t) -> fin (v0 w) /\ fin (v1 w) /\ fin (v2 w) ->
  (forall x, x = B2R (v0 t) \/ x = B2R (v1 t) \/ x = B2R (v2 t) -> 0 <= x <= bpow radix2 100) ->
  (forall x, x = B2R (v0 w) \/ x = B2R (v1 w) \/ x = B2R (v2 w) -> bpow radix2 (-20) <= x <= bpow radix2 20) ->
  exists L a b, toCIELAB RN (finV (vR t)) (finV (vR w)) = finV (V3 L a b) /\
    let r := toCIELAB N t w in near (v0 r) L (850 * u) /\ near (v1 r) a (6400 * u) /\ near (v2 r) b (2550 * u).
Proof.
  intros (A & B & C) (D & E & F) G H. destruct (toLab_near t w) as (L & a & b & E1 & NL & Na & Nb & _).
  - repeat split; auto; apply G; auto.
  - repeat split; auto; apply H; auto.
  - exists L, a, b. cbv zeta. auto.
Qed.
Lemma fromLab_stmt (t w : Vector3 f32) :
  fin (v0 t) /\ fin (v1 t) /\ fin (v2 t) -> fin (v0 w) /\ fin (v1 w) /\ fin (v2 w) ->
  0 <= B2R (v0 t) <= 100 -> Rabs (B2R (v1 t)) <= 500 -> Rabs (B2R (v2 t)) <= 200 ->
  (forall x, x = B2R (v0 w) \/ x = B2R (v1 w) \/ x = B2R (v2 w) -> bpow radix2 (-20) <= x <= bpow radix2 20) ->
  exists x y z, fromCIELAB RN (finV (vR t)) (finV (vR w)) = finV (V3 x y z) /\
    let r := fromCIELAB N t w in
    near (v0 r) x (22 * u * B2R (v0 w)) /\ near (v1 r) y (22 * u * B2R (v1 w)) /\ near (v2 r) z (22 * u * B2R (v2 w)).
Proof.
  intros (A & B & C) (D & E & F) G1 G2 G3 H. apply fromLab_near.
  - repeat split; auto; lra.
  - repeat split; auto; apply H; auto.
Qed.
Lemma labrt_stmt (t w : Vector3 f32) :
  fin (v0 t) /\ fin (v1 t) /\ fin (v2 t) -> fin (v0 w) /\ fin (v1 w) /\ fin (v2 w) ->
  (forall x, x = B2R (v0 t) \/ x = B2R (v1 t) \/ x = B2R (v2 t) -> 0 <= x <= bpow radix2 100) ->
  (forall x, x = B2R (v0 w) \/ x = B2R (v1 w) \/ x = B2R (v2 w) -> bpow radix2 (-20) <= x <= bpow radix2 20) ->
  let r := fromCIELAB N (toCIELAB N t w) w in
  near (v0 r) (Rmin (B2R (v0 t)) (B2R (v0 w))) (83 * u * B2R (v0 w)) /\ near (v1 r) (Rmin (B2R (v1 t)) (B2R (v1 w))) (83 * u * B2R (v1 w)) /\
  near (v2 r) (Rmin (B2R (v2 t)) (B2R (v2 w))) (83 * u * B2R (v2 w)).
Proof.
  intros (A & B & C) (D & E & F) G H. apply lab_rt_near.
  - repeat split; auto; apply G; auto.
  - repeat split; auto; apply H; auto.
Qed.
Lemma l_d50_0 : fin (@flit N 0.9642%dec) /\ B2R (@flit N 0.9642%dec) = 16176592 / 16777216. Proof. f32_val. Qed.
Lemma l_d50_1 : fin (@flit N 1.0%dec) /\ B2R (@flit N 1.0%dec) = 1. Proof. f32_val. Qed.
Lemma l_d50_2 : fin (@flit N 0.8249%dec) /\ B2R (@flit N 0.8249%dec) = 13839525 / 16777216. Proof. f32_val. Qed.
Lemma l_half : fin (@flit N 0.5%dec) /\ B2R (@flit N 0.5%dec) = 0.5. Proof. f32_val. Qed.
Lemma lab_half : let t := V3 (@flit N 0.5%dec) (@flit N 0.5%dec) (@flit N 0.5%dec) in let w := lab_default_white N in
  near (v1 (fromCIELAB N (toCIELAB N t w) w)) 0.5 (83 * u).
Proof.
  cbv zeta. destruct l_half as [Fh Vh], l_d50_0 as [F0 V0], l_d50_1 as [F1 V1], l_d50_2 as [F2 V2].
  destruct (labrt_stmt (V3 (@flit N 0.5%dec) (@flit N 0.5%dec) (@flit N 0.5%dec)) (lab_default_white N)) as (_ & K & _).
  - cbn [v0 v1 v2]; auto.
  - unfold lab_default_white; cbn [v0 v1 v2]; auto.
  - cbn [v0 v1 v2]. rewrite Vh. intros x H. assert (bpow radix2 0 <= bpow radix2 100) by (apply bpow_le; lia). change (bpow radix2 0) with 1 in *. lra.
  - unfold lab_default_white; cbn [v0 v1 v2]. rewrite V0, V1, V2. intros x H. change (bpow radix2 20) with 1048576. change (bpow radix2 (-20)) with (/ 1048576). lra.
  - unfold lab_default_white in *; cbn [v0 v1 v2] in *. rewrite Vh, V1, Rmult_1_r, Rmin_left in K by lra. exact K.
Qed.
End F.
