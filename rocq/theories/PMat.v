(** * Proofs about [Vector3]/[Matrix3]. *)
From Coq Require Import ZArith Reals Lra Lia List.
From Flocq Require Import Core.Raux.
From Verif Require Import Num NumR MVec SpecMat RTac.
Local Open Scope R_scope.

Ltac spec := cbv beta iota zeta delta [ent cmp mkM mkV sum3 mulR addR scaleR applyR transposeR idR diagR detR invR
  nth Nat.add Nat.mul Nat.eqb v0 v1 v2 m0 m1 m2 m3 m4 m5 m6 m7 m8
  Nat.modulo Nat.divmod fst snd Nat.sub].

Ltac dm := repeat match goal with
  | m : Matrix3 R |- _ => destruct m
  | v : Vector3 R |- _ => destruct v
  end.

(** ** The model computes the specification. *)
Lemma M_mul_fin a b : M_mul RN (finM a) (finM b) = finM (mulR a b).
Proof. dm. unfold M_mul. rn. unfold finM. spec. reflexivity. Qed.
Lemma M_add_fin a b : M_add RN (finM a) (finM b) = finM (addR a b).
Proof. dm. reflexivity. Qed.
Lemma M_scale_fin a k : M_scale RN (finM a) (Some k) = finM (scaleR a k).
Proof. dm. reflexivity. Qed.
Lemma M_apply_fin a v : M_apply RN (finM a) (finV v) = finV (applyR a v).
Proof. dm. reflexivity. Qed.
Lemma M_transpose_fin a : M_transpose (finM a) = finM (transposeR a).
Proof. dm. reflexivity. Qed.
Lemma M_diag_fin v : M_diag RN (finV v) = finM (diagR v).
Proof. dm. reflexivity. Qed.
Lemma M_default_fin : M_default RN = finM idR.
Proof. reflexivity. Qed.
Lemma M_det_fin a : M_det RN (finM a) = Some (detR a).
Proof. dm. unfold M_det. rn. spec. f_equal. ring. Qed.

(** ** Algebra of the specification. *)
Ltac mat_eq := unfold finM, finV, mulR, addR, applyR, scaleR, transposeR, idR, diagR, mkM, mkV, sum3; spec;
  repeat match goal with |- _ = _ :> Matrix3 _ => f_equal | |- _ = _ :> Vector3 _ => f_equal end.

Lemma mulR_assoc a b c : mulR a (mulR b c) = mulR (mulR a b) c.
Proof. dm. mat_eq; ring. Qed.
Lemma mulR_id_l a : mulR idR a = a.
Proof. dm. mat_eq; ring. Qed.
Lemma mulR_id_r a : mulR a idR = a.
Proof. dm. mat_eq; ring. Qed.
Lemma mulR_add_l a b c : mulR a (addR b c) = addR (mulR a b) (mulR a c).
Proof. dm. mat_eq; ring. Qed.
Lemma mulR_add_r a b c : mulR (addR a b) c = addR (mulR a c) (mulR b c).
Proof. dm. mat_eq; ring. Qed.
Lemma applyR_mul a b v : applyR (mulR a b) v = applyR a (applyR b v).
Proof. dm. mat_eq; ring. Qed.
Lemma applyR_id v : applyR idR v = v.
Proof. dm. mat_eq; ring. Qed.
Lemma detR_mul a b : detR (mulR a b) = detR a * detR b.
Proof. dm. unfold detR. spec. ring. Qed.
Lemma detR_transpose a : detR (transposeR a) = detR a.
Proof. dm. unfold detR. spec. ring. Qed.
Lemma detR_id : detR idR = 1.
Proof. unfold detR. spec. ring. Qed.
Lemma detR_scale a k : detR (scaleR a k) = k * k * k * detR a.
Proof. dm. unfold detR. spec. ring. Qed.
Lemma detR_diag v : detR (diagR v) = cmp v 0 * cmp v 1 * cmp v 2.
Proof. dm. unfold detR. spec. ring. Qed.

Lemma invR_r a : detR a <> 0 -> mulR a (invR a) = idR.
Proof.
  intro H. dm. unfold invR. cbv zeta. unfold mulR at 1, idR at 1. 
  assert (H' : detR {| m0 := m0; m1 := m1; m2 := m2; m3 := m3; m4 := m4; m5 := m5; m6 := m6; m7 := m7; m8 := m8 |} <> 0) by exact H.
  revert H'. unfold detR. unfold sum3, mkM. spec. intro H'.
  f_equal; field; exact H'.
Qed.
Lemma invR_l a : detR a <> 0 -> mulR (invR a) a = idR.
Proof.
  intro H. dm. unfold invR. cbv zeta. unfold mulR at 1, idR at 1. 
  assert (H' : detR {| m0 := m0; m1 := m1; m2 := m2; m3 := m3; m4 := m4; m5 := m5; m6 := m6; m7 := m7; m8 := m8 |} <> 0) by exact H.
  revert H'. unfold detR. unfold sum3, mkM. spec. intro H'.
  f_equal; field; exact H'.
Qed.
Lemma invR_is_inverse a : detR a <> 0 -> is_inverse a (invR a).
Proof. split; [apply invR_r | apply invR_l]; assumption. Qed.
Lemma inverse_det a b : mulR a b = idR -> detR a <> 0.
Proof.
  intros H E. assert (detR (mulR a b) = 1) by (rewrite H; apply detR_id).
  rewrite detR_mul, E in H0. lra.
Qed.
Lemma inverse_unique a b c : mulR a b = idR -> mulR c a = idR -> b = c.
Proof.
  intros H1 H2. rewrite <- (mulR_id_l b), <- H2, <- mulR_assoc, H1. apply mulR_id_r.
Qed.
Lemma inverse_two_sided a b : mulR a b = idR -> mulR b a = idR.
Proof.
  intro H. pose proof (inverse_det _ _ H) as D.
  rewrite (inverse_unique a b (invR a) H (invR_l a D)). apply invR_l, D.
Qed.
Lemma invR_invR a : detR a <> 0 -> invR (invR a) = a.
Proof.
  intro H. pose proof (invR_l a H) as L.
  pose proof (inverse_det _ _ L) as D.
  apply (inverse_unique (invR a)); [apply invR_r, D | apply invR_r, H].
Qed.
Lemma invR_mul a b : detR a <> 0 -> detR b <> 0 -> invR (mulR a b) = mulR (invR b) (invR a).
Proof.
  intros Ha Hb. symmetry. apply (inverse_unique (mulR a b)).
  - rewrite mulR_assoc, <- (mulR_assoc a b), invR_r, mulR_id_r by assumption. apply invR_r, Ha.
  - apply invR_l. rewrite detR_mul. apply Rmult_integral_contrapositive; auto.
Qed.

(** ** The inverse computed by the model. *)
Lemma M_invert_fin a : detR a <> 0 -> M_invert RN (finM a) = finM (invR a).
Proof.
  intro H. unfold M_invert. rewrite M_det_fin.
  rn. rewrite (rdiv_ok _ _ H). revert H. dm.
  unfold M_scale. rn. unfold finM, invR, mkM. cbv zeta. spec. intro H.
  fin_eq; unfold Rdiv; ring.
Qed.
Lemma M_invert_singular a : detR a = 0 ->
  M_invert RN (finM a) = M3 (None : F RN) None None None None None None None None.
Proof.
  intro H. unfold M_invert. rewrite M_det_fin. rn. rewrite (rdiv_0 _ _ H).
  unfold M_scale. dm. rn. reflexivity.
Qed.

(** ** Crosstalk. *)
Definition crosstalkR (r : R) : Matrix3 R := mkM (fun i j => if Nat.eqb i j then 1 - 2 * r else r).
Lemma M_crosstalk_fin r : M_crosstalk RN (Some r) = finM (crosstalkR r).
Proof. reflexivity. Qed.
Lemma crosstalk_neutral r v : applyR (crosstalkR r) (V3 v v v) = V3 v v v.
Proof. unfold crosstalkR. mat_eq; ring. Qed.
Lemma crosstalkR_det r : detR (crosstalkR r) = (1 - 3 * r) * (1 - 3 * r).
Proof. unfold detR, crosstalkR. spec. ring. Qed.
Lemma M_crosstalkInvert_fin r : r <> 1 / 3 ->
  M_crosstalkInvert RN (Some r) = finM (invR (crosstalkR r)).
Proof.
  intro H. unfold M_crosstalkInvert. rn. rewrite rdiv_ok by lra.
  cbv zeta. rn. unfold finM, invR, mkM. rewrite crosstalkR_det. cbv zeta. unfold crosstalkR. spec.
  fin_eq; field; lra.
Qed.
Lemma M_crosstalkInvert_third :
  M_crosstalkInvert RN (Some (1 / 3)) = M3 (None : F RN) None None None None None None None None.
Proof.
  unfold M_crosstalkInvert. rn. rewrite rdiv_0 by lra. rn. reflexivity.
Qed.
