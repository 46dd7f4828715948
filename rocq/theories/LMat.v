(** * The property statements of C01-C05 as lemmas (assembled from [PMat.v]). *)
From Coq Require Import ZArith Reals Lra Lia List.
From Flocq Require Import Core.Raux BinarySingleNaN.
From Verif Require Import Num NumR NumF MVec SpecMat RTac PMat PVec F32 PMatF.
Local Open Scope R_scope.

Definition noM : Matrix3 (F RN) := M3 (None : F RN) None None None None None None None None.

Lemma C01_l (a b c : Matrix3 R) (v : Vector3 R) :
  M_mul RN (finM a) (M_mul RN (finM b) (finM c)) = M_mul RN (M_mul RN (finM a) (finM b)) (finM c) /\
  M_mul RN (M_default RN) (finM a) = finM a /\
  M_mul RN (finM a) (M_default RN) = finM a /\
  M_mul RN (finM a) (M_add RN (finM b) (finM c)) =
    M_add RN (M_mul RN (finM a) (finM b)) (M_mul RN (finM a) (finM c)) /\
  M_mul RN (M_add RN (finM a) (finM b)) (finM c) =
    M_add RN (M_mul RN (finM a) (finM c)) (M_mul RN (finM b) (finM c)) /\
  M_apply RN (M_mul RN (finM a) (finM b)) (finV v) = M_apply RN (finM a) (M_apply RN (finM b) (finV v)) /\
  M_apply RN (M_default RN) (finV v) = finV v.
Proof.
  rewrite M_default_fin.
  repeat (rewrite M_mul_fin || rewrite M_add_fin || rewrite M_apply_fin).
  rewrite mulR_assoc, mulR_id_l, mulR_id_r, mulR_add_l, mulR_add_r, applyR_mul, applyR_id.
  repeat split.
Qed.
Lemma C02_l (m : Matrix3 R) : detR m <> 0 ->
  exists mi : Matrix3 R, M_invert RN (finM m) = finM mi /\
    M_mul RN (finM m) (M_invert RN (finM m)) = finM idR /\
    M_mul RN (M_invert RN (finM m)) (finM m) = finM idR /\
    M_invert RN (M_invert RN (finM m)) = finM m.
Proof.
  intros H. exists (invR m). rewrite (M_invert_fin m H).
  assert (H' : detR (invR m) <> 0) by (apply (inverse_det _ m), invR_l, H).
  rewrite (M_invert_fin _ H'), !M_mul_fin, invR_r, invR_l, invR_invR by exact H.
  repeat split.
Qed.
Lemma C03_l (a b : Matrix3 R) (k : R) (v : Vector3 R) :
  (exists da db, M_det RN (finM a) = Some da /\ M_det RN (finM b) = Some db /\
     M_det RN (M_mul RN (finM a) (finM b)) = Some (da * db) /\
     M_det RN (M_transpose (finM a)) = Some da /\
     M_det RN (M_scale RN (finM a) (Some k)) = Some (k * k * k * da) /\
     (da <> 0 <-> exists b', M_mul RN (finM a) (finM b') = finM idR)) /\
  M_det RN (M_diag RN (finV v)) = Some (v0 v * v1 v * v2 v) /\
  M_det RN (M_default RN) = Some 1.
Proof.
  split; [exists (detR a), (detR b)|]; rewrite ?M_default_fin, ?M_transpose_fin, ?M_scale_fin, ?M_diag_fin, ?M_mul_fin, ?M_det_fin.
  - rewrite detR_mul, detR_transpose, detR_scale. repeat split.
    + intros H. exists (invR a). rewrite M_mul_fin, invR_r by exact H. reflexivity.
    + intros [b' H]. rewrite M_mul_fin in H. apply (inverse_det a b').
      revert H. unfold finM. destruct (mulR a b'), idR; cbn. intros H. injection H. intros. congruence.
  - rewrite detR_diag, detR_id. split; [destruct v|]; reflexivity.
Qed.
Lemma C05_l (r v : R) :
  M_apply RN (M_crosstalk RN (Some r)) (finV (V3 v v v)) = finV (V3 v v v) /\
  (r <> 1 / 3 -> exists mi : Matrix3 R, M_crosstalkInvert RN (Some r) = finM mi /\
     M_mul RN (M_crosstalk RN (Some r)) (M_crosstalkInvert RN (Some r)) = finM idR /\
     M_mul RN (M_crosstalkInvert RN (Some r)) (M_crosstalk RN (Some r)) = finM idR) /\
  (r = 1 / 3 -> M_crosstalkInvert RN (Some r) = noM).
Proof.
  rewrite M_crosstalk_fin, M_apply_fin, crosstalk_neutral. split; [reflexivity|]. split.
  - intros H. exists (invR (crosstalkR r)). rewrite M_crosstalkInvert_fin by exact H.
    assert (D : detR (crosstalkR r) <> 0) by (rewrite crosstalkR_det; nra).
    rewrite !M_mul_fin, invR_r, invR_l by exact D. repeat split.
  - intros ->. apply M_crosstalkInvert_third.
Qed.
