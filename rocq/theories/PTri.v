(** * Yxy, Yuv. *)
From Coq Require Import ZArith Reals Lra Lia List Bool.
From Flocq Require Import Core.Raux.
From Verif Require Import Num NumR MVec MTri SpecMat RTac PMat.
Local Open Scope R_scope.

Definition eps8 : R := 1 / 100000000.

Lemma abs_f_fin a : abs_f RN (Some a) = Some (Rabs a).
Proof.
  unfold abs_f. rn. unfold Rabs. case Rlt_bool_spec; intro H; destruct (Rcase_abs a); f_equal; lra.
Qed.
Lemma lit_eps8 : @flit RN 1e-8 = Some eps8. Proof. reflexivity. Qed.

Lemma fromYxy_ok Y x y : eps8 <= Rabs y ->
  fromYxy RN (finV (V3 Y x y)) = finV (V3 (x * Y / y) Y ((1 - x - y) * Y / y)).
Proof.
  intros H. unfold fromYxy, fromYxy3, X_from_Yxy, Y_from_Yxy, Z_from_Yxy, z_from_xy. rn.
  rewrite !abs_f_fin; rn; rewrite Rlt_bool_false by exact H.
  assert (y <> 0) by (intros ->; rewrite Rabs_R0 in H; unfold eps8 in H; lra).
  rewrite !rdiv_ok by assumption. reflexivity.
Qed.
Lemma fromYxy_small Y x y : Rabs y < eps8 -> fromYxy RN (finV (V3 Y x y)) = finV (V3 0 Y 0).
Proof.
  intros H. unfold fromYxy, fromYxy3, X_from_Yxy, Y_from_Yxy, Z_from_Yxy. rn.
  rewrite !abs_f_fin; rn; rewrite Rlt_bool_true by exact H. reflexivity.
Qed.
Lemma toYxy_ok X Y Z : eps8 <= Rabs (X + Y + Z) ->
  toYxy RN (finV (V3 X Y Z)) = finV (V3 Y (X / (X + Y + Z)) (Y / (X + Y + Z))).
Proof.
  intros H. unfold toYxy, toYxy3, x_from_XYZ, y_from_XYZ, Y_from_XYZ. rn.
  rewrite !abs_f_fin; rn; rewrite Rlt_bool_false by exact H.
  assert (X + Y + Z <> 0) by (intros E; rewrite E, Rabs_R0 in H; unfold eps8 in H; lra).
  rewrite !rdiv_ok by assumption. reflexivity.
Qed.
Lemma toYxy_small X Y Z : Rabs (X + Y + Z) < eps8 ->
  toYxy RN (finV (V3 X Y Z)) = finV (V3 Y (3127 / 10000) (3290 / 10000)).
Proof.
  intros H. unfold toYxy, toYxy3, x_from_XYZ, y_from_XYZ, Y_from_XYZ. rn.
  rewrite !abs_f_fin; rn; rewrite Rlt_bool_true by exact H. reflexivity.
Qed.
Lemma div_nz a b : a <> 0 -> b <> 0 -> a / b <> 0.
Proof. intros A B E. apply A. replace a with (a / b * b) by (field; exact B). rewrite E. ring. Qed.
Lemma eps8_nz a : eps8 <= Rabs a -> a <> 0.
Proof. intros H ->. rewrite Rabs_R0 in H. unfold eps8 in H. lra. Qed.

(** ** C08, C09 *)
Lemma C08_l1 X Y Z : eps8 <= Rabs (X + Y + Z) -> eps8 <= Rabs (Y / (X + Y + Z)) ->
  fromYxy RN (toYxy RN (finV (V3 X Y Z))) = finV (V3 X Y Z).
Proof.
  intros H1 H2. rewrite toYxy_ok, fromYxy_ok by assumption.
  pose proof (eps8_nz _ H1) as N1. pose proof (eps8_nz _ H2) as N2.
  assert (Y <> 0) by (intros ->; apply N2; unfold Rdiv; ring).
  unfold finV. rn. fin_eq; field; auto.
Qed.
Lemma C08_l2 Y x y : eps8 <= Rabs y -> eps8 <= Rabs (Y / y) ->
  toYxy RN (fromYxy RN (finV (V3 Y x y))) = finV (V3 Y x y).
Proof.
  intros H1 H2. pose proof (eps8_nz _ H1) as N1. pose proof (eps8_nz _ H2) as N2.
  assert (Y <> 0) by (intros ->; apply N2; unfold Rdiv; ring).
  assert (E : x * Y / y + Y + (1 - x - y) * Y / y = Y / y) by (field; exact N1).
  rewrite fromYxy_ok by assumption. rewrite toYxy_ok by (rewrite E; exact H2). rewrite E.
  unfold finV. rn. fin_eq; field; auto.
Qed.
Lemma C08_l3 (N : Num) (t : Vector3 (F N)) :
  v0 (toYxy N t) = v1 t /\ v1 (fromYxy N t) = v0 t /\ v0 (toYuv N t) = v1 t /\ v1 (fromYuv N t) = v0 t.
Proof. repeat split. Qed.
Lemma C09_l (t : Vector3 R) :
  (exists r, toYxy RN (finV t) = finV r) /\ (exists r, fromYxy RN (finV t) = finV r) /\
  (Rabs (v0 t + v1 t + v2 t) < eps8 -> toYxy RN (finV t) = finV (V3 (v1 t) (3127 / 10000) (3290 / 10000))) /\
  (Rabs (v2 t) < eps8 -> fromYxy RN (finV t) = finV (V3 0 (v0 t) 0)).
Proof.
  destruct t as [a b c]. cbn [v0 v1 v2]. split; [|split; [|split]].
  - destruct (Rlt_le_dec (Rabs (a + b + c)) eps8); eexists; [apply toYxy_small | apply toYxy_ok]; assumption.
  - destruct (Rlt_le_dec (Rabs c) eps8); eexists; [apply fromYxy_small | apply fromYxy_ok]; assumption.
  - apply toYxy_small.
  - apply fromYxy_small.
Qed.

(** ** C10, C11 *)
Lemma YxyToYuv_ok Y x y : - 2 * x + 12 * y + 3 <> 0 ->
  YxyToYuv RN (finV (V3 Y x y)) =
  finV (V3 Y (4 * x / (- 2 * x + 12 * y + 3)) (6 * y / (- 2 * x + 12 * y + 3))).
Proof. intros H. unfold YxyToYuv, u_from_xy, v_from_xy. rn. rewrite !rdiv_ok by exact H. reflexivity. Qed.
Lemma YuvToYxy_ok Y u v : 2 * u - 8 * v + 4 <> 0 ->
  YuvToYxy RN (finV (V3 Y u v)) =
  finV (V3 Y (3 * u / (2 * u - 8 * v + 4)) (2 * v / (2 * u - 8 * v + 4))).
Proof. intros H. unfold YuvToYxy, x_from_uv, y_from_uv. rn. rewrite !rdiv_ok by exact H. reflexivity. Qed.

Lemma toYuv_ok X Y Z : eps8 <= Rabs (X + Y + Z) -> X + 15 * Y + 3 * Z <> 0 ->
  toYuv RN (finV (V3 X Y Z)) =
  finV (V3 Y (4 * X / (X + 15 * Y + 3 * Z)) (6 * Y / (X + 15 * Y + 3 * Z))).
Proof.
  intros H D. pose proof (eps8_nz _ H) as N1. unfold toYuv. rewrite toYxy_ok by exact H.
  assert (E : - 2 * (X / (X + Y + Z)) + 12 * (Y / (X + Y + Z)) + 3 = (X + 15 * Y + 3 * Z) / (X + Y + Z))
    by (field; exact N1).
  rewrite YxyToYuv_ok.
  - rewrite E. unfold finV. rn. fin_eq; field; auto.
  - rewrite E. apply div_nz; assumption.
Qed.
Lemma C10_l X Y Z : eps8 <= Rabs (X + Y + Z) -> eps8 <= Rabs (Y / (X + Y + Z)) ->
  X + 15 * Y + 3 * Z <> 0 ->
  toYuv RN (finV (V3 X Y Z)) =
    finV (V3 Y (4 * X / (X + 15 * Y + 3 * Z)) (6 * Y / (X + 15 * Y + 3 * Z))) /\
  fromYuv RN (toYuv RN (finV (V3 X Y Z))) = finV (V3 X Y Z).
Proof.
  intros H H2 D. rewrite toYuv_ok by assumption. split; [reflexivity|].
  pose proof (eps8_nz _ H) as N1.
  unfold fromYuv.
  assert (E : 2 * (4 * X / (X + 15 * Y + 3 * Z)) - 8 * (6 * Y / (X + 15 * Y + 3 * Z)) + 4 =
     12 * (X + Y + Z) / (X + 15 * Y + 3 * Z)) by (field; exact D).
  rewrite YuvToYxy_ok.
  - rewrite E. 
    replace (3 * (4 * X / (X + 15 * Y + 3 * Z)) / (12 * (X + Y + Z) / (X + 15 * Y + 3 * Z)))
      with (X / (X + Y + Z)) by (field; auto).
    replace (2 * (6 * Y / (X + 15 * Y + 3 * Z)) / (12 * (X + Y + Z) / (X + 15 * Y + 3 * Z)))
      with (Y / (X + Y + Z)) by (field; auto).
    rewrite <- toYxy_ok by exact H. apply C08_l1; assumption.
  - rewrite E. apply div_nz; [lra | exact D].
Qed.
(** Yuv -> XYZ -> Yuv. *)
Lemma C10_l2 Y u v : 2 * u - 8 * v + 4 <> 0 ->
  eps8 <= Rabs (2 * v / (2 * u - 8 * v + 4)) -> eps8 <= Rabs (Y / (2 * v / (2 * u - 8 * v + 4))) ->
  toYuv RN (fromYuv RN (finV (V3 Y u v))) = finV (V3 Y u v).
Proof.
  intros D H1 H2. unfold fromYuv, toYuv. rewrite YuvToYxy_ok by exact D.
  rewrite C08_l2 by assumption.
  assert (E : - 2 * (3 * u / (2 * u - 8 * v + 4)) + 12 * (2 * v / (2 * u - 8 * v + 4)) + 3 =
     12 / (2 * u - 8 * v + 4)) by (field; exact D).
  rewrite YxyToYuv_ok.
  - rewrite E. unfold finV. rn. fin_eq; field; auto.
  - rewrite E. apply div_nz; [lra | exact D].
Qed.
Lemma C11_l : exists X Y Z : R, eps8 <= Rabs (X + Y + Z) /\ 0 < X + 15 * Y + 3 * Z /\
  toYuv RN (finV (V3 X Y Z)) <>
  finV (V3 Y (4 * X / (X + 15 * Y + 3 * Z)) (9 * Y / (X + 15 * Y + 3 * Z))).
Proof.
  exists 1, 1, 1. assert (H : eps8 <= Rabs (1 + 1 + 1)) by (rewrite Rabs_pos_eq; unfold eps8; lra).
  split; [exact H|]. split; [lra|]. rewrite toYuv_ok by (exact H || lra).
  unfold finV. rn. intros K. injection K. intros E. lra.
Qed.
