(** * Properties C01-C06: vectors and matrices. *)
From Coq Require Import ZArith Reals Lra Lia List.
From Flocq Require Import Core BinarySingleNaN.
From Verif Require Import Num NumR NumF MVec SpecMat RTac PMat PVec F32 PMatF LMat.
Local Open Scope R_scope.

(** C01: laws of the product, over the reals. *)
Theorem C01_product_is_composition (a b c : Matrix3 R) (v : Vector3 R) :
  M_mul RN (finM a) (M_mul RN (finM b) (finM c)) = M_mul RN (M_mul RN (finM a) (finM b)) (finM c) /\
  M_mul RN (M_default RN) (finM a) = finM a /\
  M_mul RN (finM a) (M_default RN) = finM a /\
  M_mul RN (finM a) (M_add RN (finM b) (finM c)) =
    M_add RN (M_mul RN (finM a) (finM b)) (M_mul RN (finM a) (finM c)) /\
  M_mul RN (M_add RN (finM a) (finM b)) (finM c) =
    M_add RN (M_mul RN (finM a) (finM c)) (M_mul RN (finM b) (finM c)) /\
  M_apply RN (M_mul RN (finM a) (finM b)) (finV v) = M_apply RN (finM a) (M_apply RN (finM b) (finV v)) /\
  M_apply RN (M_default RN) (finV v) = finV v.
Proof. exact (C01_l a b c v). Qed.
Print Assumptions C01_product_is_composition.

(** C01: each entry of a product, in every arithmetic. *)
Theorem C01_product_entries (N : Num) (a b : Matrix3 (F N)) (i j : Z) :
  (0 <= i < 3)%Z -> (0 <= j < 3)%Z ->
  exists r c, M_row a i = Ret r /\ M_col b j = Ret c /\
    M_index (M_mul N a b) (3 * i + j) = Ret (V_dot N r c).
Proof. exact (M_mul_entry N a b i j). Qed.
Print Assumptions C01_product_entries.
Theorem C01_apply_entries (N : Num) (m : Matrix3 (F N)) (v : Vector3 (F N)) (i : Z) :
  (0 <= i < 3)%Z ->
  exists r, M_row m i = Ret r /\ V_index (M_apply N m v) i = Ret (V_dot N r v).
Proof. exact (M_apply_entry N m v i). Qed.
Print Assumptions C01_apply_entries.
Example C01_nontrivial :
  mulR (M3 1 2 0 0 1 0 0 0 1) (M3 1 0 0 3 1 0 0 0 1) <> mulR (M3 1 0 0 3 1 0 0 0 1) (M3 1 2 0 0 1 0 0 0 1).
Proof. spec. intros H. injection H. intros. lra. Qed.

(** C02: inverse. [detR] is the determinant, [noM] the matrix without finite entries. *)
Theorem C02_inverse (m : Matrix3 R) : detR m <> 0 ->
  exists mi : Matrix3 R, M_invert RN (finM m) = finM mi /\
    M_mul RN (finM m) (M_invert RN (finM m)) = finM idR /\
    M_mul RN (M_invert RN (finM m)) (finM m) = finM idR /\
    M_invert RN (M_invert RN (finM m)) = finM m.
Proof. exact (C02_l m). Qed.
Print Assumptions C02_inverse.
Theorem C02_singular (m : Matrix3 R) : detR m = 0 -> M_invert RN (finM m) = noM.
Proof. exact (M_invert_singular m). Qed.
Print Assumptions C02_singular.
Theorem C02_singular_float (lm : libm) (m : Matrix3 f32) :
  @feqb (FN lm) (M_det (FN lm) m) (fofZ 0) = true ->
  allM (fun x => is_finite x = false) (M_invert (FN lm) m).
Proof. exact (M_invert_det0 lm m). Qed.
Print Assumptions C02_singular_float.
Example C02_regular : detR (M3 2 1 0 0 3 1 1 0 1) <> 0.
Proof. spec. lra. Qed.
Example C02_singular_case : detR (M3 1 2 3 4 5 6 7 8 9) = 0.
Proof. spec. lra. Qed.
Example C02_singular_float_case :
  let N := FN no_libm in
  @feqb N (M_det N (M3 (fofZ 1) (fofZ 2) (fofZ 3) (fofZ 4) (fofZ 5) (fofZ 6) (fofZ 7) (fofZ 8) (fofZ 9)))
        (fofZ 0) = true.
Proof. vm_compute. reflexivity. Qed.

(** C03: determinant. *)
Theorem C03_determinant_laws (a b : Matrix3 R) (k : R) (v : Vector3 R) :
  (exists da db, M_det RN (finM a) = Some da /\ M_det RN (finM b) = Some db /\
     M_det RN (M_mul RN (finM a) (finM b)) = Some (da * db) /\
     M_det RN (M_transpose (finM a)) = Some da /\
     M_det RN (M_scale RN (finM a) (Some k)) = Some (k * k * k * da) /\
     (da <> 0 <-> exists b', M_mul RN (finM a) (finM b') = finM idR)) /\
  M_det RN (M_diag RN (finV v)) = Some (v0 v * v1 v * v2 v) /\
  M_det RN (M_default RN) = Some 1.
Proof. exact (C03_l a b k v). Qed.
Print Assumptions C03_determinant_laws.
Theorem C03_det_is_the_determinant (a : Matrix3 R) : M_det RN (finM a) = Some (detR a).
Proof. exact (M_det_fin a). Qed.
Print Assumptions C03_det_is_the_determinant.
Example C03_nontrivial : M_det RN (finM (M3 2 1 0 0 3 1 1 0 1)) = Some 7.
Proof. rewrite M_det_fin. spec. f_equal. lra. Qed.

(** C04: index conventions, in every arithmetic. *)
Theorem C04_row {A} (m : Matrix3 A) (i : Z) :
  ((0 <= i < 3)%Z -> exists a b c, M_row m i = Ret (V3 a b c) /\
     M_index m (3 * i) = Ret a /\ M_index m (3 * i + 1) = Ret b /\ M_index m (3 * i + 2) = Ret c) /\
  (~ (0 <= i < 3)%Z -> M_row m i = UB).
Proof. exact (M_row_spec m i). Qed.
Print Assumptions C04_row.
Theorem C04_col {A} (m : Matrix3 A) (i : Z) :
  ((0 <= i < 3)%Z -> exists a b c, M_col m i = Ret (V3 a b c) /\
     M_index m i = Ret a /\ M_index m (3 + i) = Ret b /\ M_index m (6 + i) = Ret c) /\
  (~ (0 <= i < 3)%Z -> M_col m i = UB).
Proof. exact (M_col_spec m i). Qed.
Print Assumptions C04_col.
Theorem C04_matrix_index {A} (m : Matrix3 A) (i : Z) :
  ((0 <= i < 9)%Z <-> exists x, M_index m i = Ret x) /\ (~ (0 <= i < 9)%Z <-> M_index m i = UB).
Proof. exact (M_index_spec m i). Qed.
Print Assumptions C04_matrix_index.
Theorem C04_vector_index {A} (v : Vector3 A) (i : Z) :
  ((0 <= i < 3)%Z <-> exists x, V_index v i = Ret x) /\ (~ (0 <= i < 3)%Z <-> V_index v i = UB).
Proof. exact (V_index_spec v i). Qed.
Print Assumptions C04_vector_index.
Theorem C04_transpose {A} (m : Matrix3 A) (i : Z) :
  M_row (M_transpose m) i = M_col m i /\ M_col (M_transpose m) i = M_row m i.
Proof. exact (transpose_row_col m i). Qed.
Print Assumptions C04_transpose.
Theorem C04_transpose_involutive {A} (m : Matrix3 A) : M_transpose (M_transpose m) = m.
Proof. exact (transpose_involutive m). Qed.
Print Assumptions C04_transpose_involutive.
Theorem C04_fromArray {A} (p : list A) :
  (forall m, M_fromArray p = Ret m <->
     (9 <= length p)%nat /\ forall i, (0 <= i < 9)%Z -> exists x,
        M_index m i = Ret x /\ nth_error p (Z.to_nat i) = Some x) /\
  ((length p < 9)%nat -> M_fromArray p = UB).
Proof. exact (fromArray_spec p). Qed.
Print Assumptions C04_fromArray.
Example C04_nontrivial : M_row (M_transpose (M3 0 1 2 3 4 5 6 7 8)%Z) 1 = Ret (V3 1 4 7)%Z.
Proof. reflexivity. Qed.

(** C05: crosstalk. *)
Theorem C05_crosstalk (r v : R) :
  M_apply RN (M_crosstalk RN (Some r)) (finV (V3 v v v)) = finV (V3 v v v) /\
  (r <> 1 / 3 -> exists mi : Matrix3 R, M_crosstalkInvert RN (Some r) = finM mi /\
     M_mul RN (M_crosstalk RN (Some r)) (M_crosstalkInvert RN (Some r)) = finM idR /\
     M_mul RN (M_crosstalkInvert RN (Some r)) (M_crosstalk RN (Some r)) = finM idR) /\
  (r = 1 / 3 -> M_crosstalkInvert RN (Some r) = noM).
Proof. exact (C05_l r v). Qed.
Print Assumptions C05_crosstalk.
Example C05_nontrivial : 1 / 4 <> 1 / 3.
Proof. lra. Qed.

(** C06: rounding error of [apply]; [u] = 2^-24, [eta] = 2^-150; [absdot r v] is
    the sum of the absolute products of row [r] and [v], [dotR r v] their exact sum. *)
Theorem C06_apply_rounding_error (lm : libm) (m : Matrix3 f32) (v : Vector3 f32) (i : Z) :
  allM fin m -> allV fin v -> (0 <= i < 3)%Z ->
  exists r x, M_row m i = Ret r /\ V_index (M_apply (FN lm) m v) i = Ret x /\
    (absdot r v <= bpow radix2 126 ->
     fin x /\ Rabs (B2R x - dotR r v) <= 4 * u * absdot r v + 4 * eta).
Proof. exact (M_apply_error lm m v i). Qed.
Print Assumptions C06_apply_rounding_error.
Example C06_case : let N := FN no_libm in
  let m : Matrix3 f32 := M3 (@flit N 0.1) (@flit N 0.2) (@flit N 0.3) (@flit N 0.4) (@flit N 0.5)
    (@flit N 0.6) (@flit N 0.7) (@flit N 0.8) (@flit N 0.9) in
  allM fin m /\ (B2R (m2 m) <> 3 / 10) /\ absdot (V3 (m0 m) (m0 m) (m0 m)) (V3 (m0 m) (m0 m) (m0 m)) <= bpow radix2 126.
Proof.
  cbv zeta.
  assert (A : fin (@flit (FN no_libm) 0.1) /\ B2R (@flit (FN no_libm) 0.1) = 13421773 / 134217728) by f32_val.
  assert (B : fin (@flit (FN no_libm) 0.3) /\ B2R (@flit (FN no_libm) 0.3) = 10066330 / 33554432) by f32_val.
  destruct A as [_ A], B as [_ B]. repeat split; cbn [m0 m2].
  - rewrite B. lra.
  - unfold absdot. cbn [v0 v1 v2]. rewrite A.
    apply Rle_trans with (bpow radix2 0); [|apply bpow_le; lia]. cbn [bpow].
    rewrite Rabs_pos_eq by lra. lra.
Qed.
