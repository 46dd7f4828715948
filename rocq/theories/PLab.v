(** * CIELAB. *)
From Coq Require Import ZArith Reals Lra Lia List Bool.
From Flocq Require Import Core.Raux.
From Verif Require Import Num NumR MVec MTri SpecMat RTac PMat RPow.
Local Open Scope R_scope.

(** ** Specification: the CIE function [f] and CIE 1976 L*a*b*. *)
Definition cie_f (t : R) : R :=
  if Rlt_dec ((6 / 29) ^ 3) t then Rpower t (1 / 3) else t / (3 * (6 / 29) ^ 2) + 4 / 29.
Definition cie_lab (X Y Z Xn Yn Zn : R) : Vector3 R :=
  V3 (116 * cie_f (Y / Yn) - 16) (500 * (cie_f (X / Xn) - cie_f (Y / Yn)))
     (200 * (cie_f (Y / Yn) - cie_f (Z / Zn))).

(** ** The curve the code computes. *)
Definition lab_curve (t : R) : R := if Rlt_dec 1 t then 1 else cie_f t.
Lemma thr_val : (6 / 29) ^ 3 = 216 / 24389. Proof. lra. Qed.
Lemma curve_fin t : CIELAB_curve RN (Some t) = Some (lab_curve t).
Proof.
  unfold CIELAB_curve, lab_curve, cie_f. rn. rewrite !rdiv_ok by lra. rn. rewrite thr_val.
  destruct (Rlt_dec 1 t) as [H|H]; [rewrite Rlt_bool_true by lra; reflexivity|].
  rewrite Rlt_bool_false by lra. destruct (Rlt_dec (216 / 24389) t) as [K|K].
  - rewrite Rlt_bool_true by lra. rewrite rpow_pos by lra. reflexivity.
  - rewrite Rlt_bool_false by lra. rewrite rdiv_ok by lra. f_equal. field.
Qed.
(** the decoding curve. *)
Lemma decurve_hi c : 6 / 29 < c <= 1 -> CIELAB_decurve RN (Some c) = Some (c * c * c).
Proof.
  intros H. unfold CIELAB_decurve. rn. rewrite !rdiv_ok by lra. rn.
  rewrite Rlt_bool_false, Rlt_bool_true by lra. rewrite rpow_pos by lra. rewrite Rpower_3 by lra. reflexivity.
Qed.
Lemma decurve_lo c : c <= 6 / 29 -> CIELAB_decurve RN (Some c) = Some ((116 * c - 16) * (27 / 24389)).
Proof.
  intros H. unfold CIELAB_decurve. rn. rewrite !rdiv_ok by lra. rn.
  rewrite !Rlt_bool_false by lra. fin_eq. lra.
Qed.
Lemma cie_f_hi t : (6 / 29) ^ 3 < t -> 6 / 29 < cie_f t /\ cie_f t * cie_f t * cie_f t = t.
Proof.
  intros H. unfold cie_f. destruct (Rlt_dec _ _) as [K|K]; [|contradiction].
  assert (P : 0 < t) by (rewrite thr_val in H; lra).
  pose proof (Rpower_third t P) as E. split; [|exact E].
  apply cube_lt; [lra|]. rewrite E. lra.
Qed.
Lemma cie_f_lo t : t <= (6 / 29) ^ 3 -> cie_f t = t * (841 / 108) + 4 / 29.
Proof. intros H. unfold cie_f. destruct (Rlt_dec _ _) as [K|K]; [lra|]. field. Qed.
Lemma cie_f_le1 t : t <= 1 -> cie_f t <= 1.
Proof.
  intros H. destruct (Rlt_le_dec ((6/29)^3) t) as [K|K].
  - destruct (cie_f_hi t K) as [A B]. apply cube_le; try lra.
  - rewrite cie_f_lo by exact K. rewrite thr_val in K. lra.
Qed.
Lemma decurve_curve t : t <= 1 -> CIELAB_decurve RN (Some (cie_f t)) = Some t.
Proof.
  intros H. destruct (Rlt_le_dec ((6/29)^3) t) as [K|K].
  - destruct (cie_f_hi t K) as [A B]. rewrite decurve_hi; [rewrite B; reflexivity|].
    split; [exact A|apply cie_f_le1, H].
  - rewrite cie_f_lo by exact K. rewrite thr_val in K. rewrite decurve_lo by lra. f_equal. lra.
Qed.
Lemma cie_f_lipschitz_le x y : x <= y -> 0 <= cie_f y - cie_f x <= 841 / 108 * (y - x).
Proof.
  intros H. destruct (Rlt_le_dec ((6/29)^3) x) as [Kx|Kx]; destruct (Rlt_le_dec ((6/29)^3) y) as [Ky|Ky]; try lra.
  - destruct (cie_f_hi x Kx) as [A1 B1]. destruct (cie_f_hi y Ky) as [A2 B2].
    assert (L : cie_f x <= cie_f y) by (apply cube_le; lra).
    split; [lra|]. rewrite <- B1 at 2. rewrite <- B2 at 2.
    set (a := cie_f x) in *. set (b := cie_f y) in *.
    replace (b * b * b - a * a * a) with ((b - a) * (b * b + a * b + a * a)) by ring.
    assert (108 / 841 <= b * b + a * b + a * a) by nra. nra.
  - destruct (cie_f_hi y Ky) as [A2 B2]. rewrite (cie_f_lo x Kx). rewrite thr_val in *.
    set (b := cie_f y) in *. split; [lra|].
    assert (E : b - 6/29 <= 841/108 * (b*b*b - (6/29)*(6/29)*(6/29))).
    { replace (b*b*b - (6/29)*(6/29)*(6/29)) with ((b - 6/29)*(b*b + 6/29*b + 36/841)) by field.
      assert (108/841 <= b*b + 6/29*b + 36/841) by nra. nra. }
    rewrite B2 in E. lra.
  - rewrite (cie_f_lo x Kx), (cie_f_lo y Ky). lra.
Qed.
Lemma curve_lipschitz_le x y : x <= y -> 0 <= lab_curve y - lab_curve x <= 841 / 108 * (y - x).
Proof.
  intros H. unfold lab_curve.
  assert (C1 : cie_f 1 = 1).
  { assert (L1 : (6/29)^3 < 1) by (rewrite thr_val; lra).
    destruct (cie_f_hi 1 L1) as [A B]. apply cube_inj; lra. }
  destruct (Rlt_dec 1 x) as [Kx|Kx]; destruct (Rlt_dec 1 y) as [Ky|Ky]; try lra.
  - pose proof (cie_f_lipschitz_le x 1 ltac:(lra)). lra.
  - apply cie_f_lipschitz_le, H.
Qed.
Lemma curve_1 : lab_curve 1 = 1.
Proof.
  unfold lab_curve. destruct (Rlt_dec 1 1) as [K|K]; [lra|].
  assert (L1 : (6/29)^3 < 1) by (rewrite thr_val; lra).
  destruct (cie_f_hi 1 L1) as [A B]. apply cube_inj; lra.
Qed.
Lemma curve_le1 t : lab_curve t <= 1.
Proof. unfold lab_curve. destruct (Rlt_dec 1 t); [lra|]. apply cie_f_le1. lra. Qed.
Lemma curve_eq t : t <= 1 -> lab_curve t = cie_f t.
Proof. intros H. unfold lab_curve. destruct (Rlt_dec 1 t); [lra|reflexivity]. Qed.
Lemma curve_strict x y : x < y <= 1 -> lab_curve x < lab_curve y.
Proof.
  intros H. rewrite !curve_eq by lra. pose proof (cie_f_lipschitz_le x y ltac:(lra)) as [L _].
  destruct (Req_dec (cie_f x) (cie_f y)) as [E|E]; [exfalso|lra].
  pose proof (decurve_curve x ltac:(lra)) as Dx. pose proof (decurve_curve y ltac:(lra)) as Dy.
  rewrite E, Dy in Dx. injection Dx. lra.
Qed.

(** ** [toCIELAB], [fromCIELAB]. *)
Definition posV (w : Vector3 R) : Prop := 0 < v0 w /\ 0 < v1 w /\ 0 < v2 w.
Lemma toCIELAB_fin (t w : Vector3 R) : posV w ->
  toCIELAB RN (finV t) (finV w) =
  finV (V3 (116 * lab_curve (v1 t / v1 w) - 16)
           (500 * (lab_curve (v0 t / v0 w) - lab_curve (v1 t / v1 w)))
           (200 * (lab_curve (v1 t / v1 w) - lab_curve (v2 t / v2 w)))).
Proof.
  intros (A & B & C). unfold toCIELAB. rn. rewrite !rdiv_ok by lra. rewrite !curve_fin. reflexivity.
Qed.
Lemma div_le1 a b : 0 < b -> a <= b -> a / b <= 1.
Proof.
  intros B H. apply Rmult_le_reg_r with b; [exact B|]. unfold Rdiv. rewrite Rmult_assoc, Rinv_l by lra. lra.
Qed.
Lemma C15_l (t w : Vector3 R) : posV w -> v0 t <= v0 w -> v1 t <= v1 w -> v2 t <= v2 w ->
  fromCIELAB RN (toCIELAB RN (finV t) (finV w)) (finV w) = finV t.
Proof.
  intros Hw H0 H1 H2. rewrite toCIELAB_fin by exact Hw. destruct Hw as (A & B & C).
  destruct t as [t0 t1 t2], w as [w0 w1 w2]. cbn [v0 v1 v2] in *.
  pose proof (div_le1 _ _ A H0) as D0. pose proof (div_le1 _ _ B H1) as D1. pose proof (div_le1 _ _ C H2) as D2.
  rewrite !curve_eq by assumption.
  set (fx := cie_f (t0 / w0)). set (fy := cie_f (t1 / w1)). set (fz := cie_f (t2 / w2)).
  unfold fromCIELAB. rn. rewrite !rdiv_ok by lra. rn.
  replace ((116 * fy - 16 + 16) / 116) with fy by lra.
  replace (fy + 500 * (fx - fy) / 500) with fx by lra.
  replace (fy - 200 * (fy - fz) / 200) with fz by lra.
  unfold fx, fy, fz. rewrite !decurve_curve by assumption.
  rn. unfold finV. rn. fin_eq; field; lra.
Qed.
Lemma C16_cie_l (t w : Vector3 R) : posV w -> v0 t <= v0 w -> v1 t <= v1 w -> v2 t <= v2 w ->
  toCIELAB RN (finV t) (finV w) = finV (cie_lab (v0 t) (v1 t) (v2 t) (v0 w) (v1 w) (v2 w)).
Proof.
  intros Hw H0 H1 H2. rewrite toCIELAB_fin by exact Hw. destruct Hw as (A & B & C).
  rewrite !curve_eq by (apply div_le1; assumption). reflexivity.
Qed.
Lemma C16_grey_l (k : R) (w : Vector3 R) : posV w ->
  exists L, toCIELAB RN (finV (V3 (k * v0 w) (k * v1 w) (k * v2 w))) (finV w) = finV (V3 L 0 0) /\
    (k = 1 -> L = 100) /\ (k = 0 -> L = 0).
Proof.
  intros Hw. rewrite toCIELAB_fin by exact Hw. destruct Hw as (A & B & C). cbn [v0 v1 v2].
  replace (k * v0 w / v0 w) with k by (field; lra).
  replace (k * v1 w / v1 w) with k by (field; lra).
  replace (k * v2 w / v2 w) with k by (field; lra).
  exists (116 * lab_curve k - 16). split; [unfold finV; rn; fin_eq; ring|]. split; intros ->.
  - rewrite curve_1. lra.
  - rewrite curve_eq, cie_f_lo by lra. lra.
Qed.
Lemma C16_curve_l : exists c : R -> R,
  (forall f, CIELAB_curve RN (Some f) = Some (c f)) /\
  (forall x y, x < y <= 1 -> c x < c y) /\
  (forall x y, x <= y -> 0 <= c y - c x <= 841 / 108 * (y - x)) /\
  (forall x, c x <= 1) /\
  (forall x, 1 <= x -> c x = 1).
Proof.
  exists lab_curve. repeat split.
  - apply curve_fin.
  - apply curve_strict.
  - apply curve_lipschitz_le. assumption.
  - apply curve_lipschitz_le. assumption.
  - apply curve_le1.
  - intros x [H| <-]; [|apply curve_1]. unfold lab_curve. destruct (Rlt_dec 1 x); [reflexivity|lra].
Qed.
Lemma C16_L_l (t t' w : Vector3 R) : posV w -> v1 t <= v1 t' ->
  exists L a b L' a' b', toCIELAB RN (finV t) (finV w) = finV (V3 L a b) /\
    toCIELAB RN (finV t') (finV w) = finV (V3 L' a' b') /\ L <= L' <= 100.
Proof.
  intros Hw H. rewrite !toCIELAB_fin by exact Hw. do 6 eexists. split; [reflexivity|]. split; [reflexivity|].
  destruct Hw as (A & B & C).
  assert (D : v1 t / v1 w <= v1 t' / v1 w).
  { unfold Rdiv. apply Rmult_le_compat_r; [|exact H]. left. apply Rinv_0_lt_compat. lra. }
  pose proof (curve_lipschitz_le _ _ D). pose proof (curve_le1 (v1 t' / v1 w)). lra.
Qed.
Lemma C17_l : exists t w : Vector3 R, posV w /\
  fromCIELAB RN (toCIELAB RN (finV t) (finV w)) (finV w) <> finV t.
Proof.
  exists (V3 2 2 2), (V3 1 1 1). split; [unfold posV; cbn; lra|].
  rewrite toCIELAB_fin by (unfold posV; cbn; lra). cbn [v0 v1 v2].
  replace (lab_curve (2 / 1)) with 1 by (unfold lab_curve; destruct (Rlt_dec 1 (2/1)); lra).
  unfold fromCIELAB. rn. rewrite !rdiv_ok by lra. rn.
  rewrite !decurve_hi by lra. rn. unfold finV. rn. intros K. injection K. intros. lra.
Qed.
(** what happens above white: the component is clipped to the white's. *)
Lemma C17_clip_l (t w : Vector3 R) : posV w ->
  fromCIELAB RN (toCIELAB RN (finV t) (finV w)) (finV w) =
  finV (V3 (Rmin (v0 t) (v0 w)) (Rmin (v1 t) (v1 w)) (Rmin (v2 t) (v2 w))).
Proof.
  intros Hw.
  assert (E : toCIELAB RN (finV t) (finV w) =
     toCIELAB RN (finV (V3 (Rmin (v0 t) (v0 w)) (Rmin (v1 t) (v1 w)) (Rmin (v2 t) (v2 w)))) (finV w)).
  { rewrite !toCIELAB_fin by exact Hw. destruct Hw as (A & B & C). cbn [v0 v1 v2].
    assert (K : forall a b, 0 < b -> lab_curve (a / b) = lab_curve (Rmin a b / b)).
    { intros a b Hb. unfold Rmin. destruct (Rle_dec a b) as [L|L]; [reflexivity|].
      replace (b / b) with 1 by (field; lra). rewrite curve_1. unfold lab_curve.
      destruct (Rlt_dec 1 (a / b)) as [G|G]; [reflexivity|]. exfalso. apply G.
      apply Rmult_lt_reg_r with b; [exact Hb|]. unfold Rdiv. rewrite Rmult_assoc, Rinv_l by lra. lra. }
    rewrite <- !K by assumption. reflexivity. }
  rewrite E. apply C15_l; [exact Hw| | |]; apply Rmin_r.
Qed.
