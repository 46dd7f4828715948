(** * Properties C68-C70: what the decomposition, the solver and the corrector compute.

    Over the reals [mat m n A] and [vec n x] are the matrix and vector with entries
    [A i j], [x i]; [orthonormal m n U]: the [n] columns of U are orthonormal;
    [is_svd m n A U w V]: A = U diag(w) V^T with orthonormal columns of U and V;
    [residual2 m n A b x] is |Ax - b|^2, [norm2 n x] is |x|^2 (RLin.v);
    [prod3 n U C V] is U C V^T (RSvd.v); [full_rank m n A]: Ax = 0 only for x = 0
    (PSvd5.v); [frob2] is the squared Frobenius norm (PSvd6.v); [orth_cols m n A]:
    the columns are non-zero and pairwise orthogonal (PSvd7.v); [gram ps a b]: sum
    over the patches of component a times component b; [rv], [rm], [valV], [valM]:
    real values of binary32 vectors and matrices (PSvd8.v). *)
From Coq Require Import ZArith Reals Lra Lia List.
From Flocq Require Import Core BinarySingleNaN.
From Verif Require Import Num NumR NumF MVec MTri MSolver RTac SpecMat RLin RSvd F32 PSolver PSolver2 PSolver3 PSvd5 PSvd6 PSvd7 PSvd8 PSvd9.
Import ListNotations.
Local Open Scope R_scope.

(** C68 is false: for a singular matrix of three columns with entries 0 and 1 the
    factors multiply to a matrix with 0.207 in place of a 0. *)
Theorem C68_decomposition_refuted (lm : libm) : exists a : list (list f32),
  a = [[B754_zero false; Bone; B754_zero false]; [B754_zero false; Bone; Bone]; [B754_zero false; B754_zero false; Bone]] /\
  exists U W V, svdcmp (FN lm) a (newVector (FN lm) 3) (newMatrix (FN lm) 3 3) = Ret (1%Z, U, W, V) /\
  rm a 0 2 = 0 /\ 1 / 5 < bsum 3 (fun p => rm U 0 p * rv W p * rm V 2 p).
Proof. exact (ex_intro _ badA (conj eq_refl (bad_svd lm))). Qed.
Print Assumptions C68_decomposition_refuted.
Theorem C68_two_columns_partial (m n : nat) (A X : nat -> nat -> R) (w0 : nat -> R) : (1 <= n <= 2)%nat -> (n <= m)%nat ->
  exists U w V, svdcmp RN (mat m n A) (vec n w0) (mat n n X) = Ret (1%Z, mat m n U, vec n w, mat n n V) /\
  is_svd m n A U w V /\ (forall p, (p < n)%nat -> 0 <= w p).
Proof. exact (svdcmp_two m n A w0 X). Qed.
Print Assumptions C68_two_columns_partial.
Theorem C68_orthogonal_columns_partial (m n : nat) (A X : nat -> nat -> R) (w0 : nat -> R) :
  (1 <= n)%nat -> (n <= m)%nat -> orth_cols m n A ->
  exists U w V, svdcmp RN (mat m n A) (vec n w0) (mat n n X) = Ret (1%Z, mat m n U, vec n w, mat n n V) /\
  is_svd m n A U w V /\ (forall p, (p < n)%nat -> w p = sqrt (bsum m (fun i => A i p * A i p))).
Proof. exact (svdcmp_orth m n A w0 X). Qed.
Print Assumptions C68_orthogonal_columns_partial.
Theorem C68_full_rank_partial (m n : nat) (A X : nat -> nat -> R) (w0 : nat -> R) :
  (1 <= n)%nat -> (n <= m)%nat -> full_rank m n A ->
  exists U w V C, svdcmp RN (mat m n A) (vec n w0) (mat n n X) = Ret (1%Z, mat m n U, vec n w, mat n n V) /\
  orthonormal m n U /\ orthonormal n n V /\
  (forall i j, (i < m)%nat -> (j < n)%nat -> A i j = prod3 n U C V i j) /\
  (forall p q, (p < n)%nat -> (q < p)%nat -> C p q = 0) /\ (forall p, (p < n)%nat -> C p p = w p).
Proof. exact (fun H1 H2 H3 => svdcmp_triangular m n A w0 X H1 H2 (or_intror H3)). Qed.
Print Assumptions C68_full_rank_partial.
Example C68_case_orthogonal : orth_cols 4 3 (fun i j => nth j (nth i [[1; 1; 0]; [1; -1; 0]; [0; 0; 2]; [0; 0; 1]] []) 0).
Proof. exact orth_cols_ex. Qed.
Example C68_case_full_rank : full_rank 3 3 (fun i j => if Nat.leb i j then 1 else 0).
Proof. exact full_rank_ex. Qed.

(** C69 is false: for the same matrix and the right-hand side (0,1,1), which
    (0,0,1) solves exactly, the solver returns another vector and the code 0. *)
Theorem C69_solve_refuted (lm : libm) : exists (a : list (list f32)) (b : list f32) (y : nat -> R),
  residual2 3 3 (rm a) (rv b) y = 0 /\
  exists x, SOLVER_solve (FN lm) a b (newVector (FN lm) 3) (SOLVER_TOL (FN lm)) = Ret (0%Z, x) /\
  2 / 25 < residual2 3 3 (rm a) (rv b) (rv x).
Proof.
  exact (match bad_solve lm with ex_intro _ x (conj Q (conj Z L)) =>
    ex_intro _ badA (ex_intro _ [bad0; bad1; bad1] (ex_intro _ (fun i => if Nat.eqb i 2 then 1 else 0) (conj Z (ex_intro _ x (conj Q L))))) end).
Qed.
Print Assumptions C69_solve_refuted.
Theorem C69_two_unknowns_partial (m n : nat) (A : nat -> nat -> R) (b x0 : nat -> R) (tol : R) :
  (1 <= n <= 2)%nat -> (n <= m)%nat -> 0 <= tol ->
  exists x A', SOLVER_solve RN (mat m n A) (vec m b) (vec n x0) (Some tol) = Ret (0%Z, vec n x) /\
  frob2 m n (msub A A') <= INR n * (tol * tol) * frob2 m n A /\
  forall y, residual2 m n A' b x <= residual2 m n A' b y /\
            (residual2 m n A' b y = residual2 m n A' b x -> norm2 n x <= norm2 n y).
Proof. exact (solve_two m n A b x0 tol). Qed.
Print Assumptions C69_two_unknowns_partial.
Theorem C69_given_decomposition_partial (m n : nat) (A U V : nat -> nat -> R) (w b x0 : nat -> R) (tol : R) :
  (1 <= n)%nat -> (n <= m)%nat -> 0 <= tol ->
  svdcmp RN (mat m n A) (vec n (fun _ => 0)) (mat n n (fun _ _ => 0)) = Ret (1%Z, mat m n U, vec n w, mat n n V) ->
  is_svd m n A U w V -> (forall p, (p < n)%nat -> 0 <= w p) ->
  exists x A', SOLVER_solve RN (mat m n A) (vec m b) (vec n x0) (Some tol) = Ret (0%Z, vec n x) /\
  frob2 m n (msub A A') <= INR n * (tol * tol) * frob2 m n A /\
  ((forall p, (p < n)%nat -> w p = 0 \/ forall q, (q < n)%nat -> tol * w q <= w p) ->
   forall i j, (i < m)%nat -> (j < n)%nat -> A' i j = A i j) /\
  forall y, residual2 m n A' b x <= residual2 m n A' b y /\
            (residual2 m n A' b y = residual2 m n A' b x -> norm2 n x <= norm2 n y).
Proof. exact (solve_given m n A U w V b x0 tol). Qed.
Print Assumptions C69_given_decomposition_partial.
Example C69_case : exists U w V, svdcmp RN (mat 4 3 rotA) (vec 3 (fun _ => 0)) (mat 3 3 (fun _ _ => 0)) = Ret (1%Z, mat 4 3 U, vec 3 w, mat 3 3 V) /\
  is_svd 4 3 rotA U w V /\ (forall p, (p < 3)%nat -> w p = sqrt (bsum 4 (fun i => rotA i p * rotA i p))).
Proof. exact (svdcmp_orth 4 3 rotA (fun _ => 0) (fun _ _ => 0) (le_S _ _ (le_S _ _ (le_n 1))) (le_S _ _ (le_n 3)) orth_cols_ex). Qed.

(** C70 is false: three patches without a first component, corrected to themselves,
    come out with a total squared error above 2. *)
Theorem C70_corrector_refuted (lm : libm) : exists ps : list (Vector3 f32), length ps = 3%nat /\ exists M : Matrix3 f32,
  Corrector_solve (FN lm) ps ps = Ret M /\ 2 < lsum (fun p => dist2 (applyR (valM M) (valV p)) (valV p)) ps.
Proof. exact (ex_intro _ badP (bad_corrector lm)). Qed.
Print Assumptions C70_corrector_refuted.
Theorem C70_least_squares_partial (ps ts : list (Vector3 R)) : length ps = length ts -> (2 <= length ps)%nat ->
  (forall a b, (a < 3)%nat -> (b < 3)%nat -> a <> b -> gram ps a b = 0) ->
  (forall a b, (a < 3)%nat -> (b < 3)%nat -> 0 < gram ps a a /\ gram ps b b <= 10000000000 * gram ps a a) ->
  exists M, Corrector_solve RN (map finV ps) (map finV ts) = Ret (finM M) /\
  forall M', lsum (fun pt => dist2 (applyR M (fst pt)) (snd pt)) (combine ps ts)
          <= lsum (fun pt => dist2 (applyR M' (fst pt)) (snd pt)) (combine ps ts).
Proof. exact (corrector_orth ps ts). Qed.
Print Assumptions C70_least_squares_partial.
Theorem C70_recovers_matrix_partial (ps : list (Vector3 R)) (M0 : Matrix3 R) : (2 <= length ps)%nat ->
  (forall a b, (a < 3)%nat -> (b < 3)%nat -> a <> b -> gram ps a b = 0) ->
  (forall a b, (a < 3)%nat -> (b < 3)%nat -> 0 < gram ps a a /\ gram ps b b <= 10000000000 * gram ps a a) ->
  Corrector_solve RN (map finV ps) (map finV (map (applyR M0) ps)) = Ret (finM M0).
Proof. exact (corrector_exact_eq ps M0). Qed.
Print Assumptions C70_recovers_matrix_partial.
(** for any patches, provided the decomposition of the corrector's matrix computed on the way is one, with no singular value
    cut off by the threshold 1e-5: the least-squares matrix, the smallest one if several are, and the exact one if there is one. *)
Theorem C70_given_decomposition_partial (ps ts : list (Vector3 R)) (A U V : nat -> nat -> R) (w : nat -> R) : length ps = length ts -> (2 <= length ps)%nat ->
  let m := (3 * (length ps + 1))%nat in corr_matrix RN (map finV ps) = mat m 9 A ->
  svdcmp RN (mat m 9 A) (vec 9 (fun _ => 0)) (mat 9 9 (fun _ _ => 0)) = Ret (1%Z, mat m 9 U, vec 9 w, mat 9 9 V) ->
  is_svd m 9 A U w V -> (forall p, (p < 9)%nat -> 0 <= w p) -> (forall p q, (p < 9)%nat -> (q < 9)%nat -> w p = 0 \/ 1 / 100000 * w q <= w p) ->
  exists M, Corrector_solve RN (map finV ps) (map finV ts) = Ret (finM M) /\
    forall M', let err X := lsum (fun pt => dist2 (applyR X (fst pt)) (snd pt)) (combine ps ts) in
      err M <= err M' /\ (err M' = err M -> lsum sq (entries M) <= lsum sq (entries M')).
Proof. exact (corrector_given ps ts A U w V). Qed.
Print Assumptions C70_given_decomposition_partial.
Theorem C70_recovers_given_decomposition_partial (ps : list (Vector3 R)) (M0 : Matrix3 R) (A U V : nat -> nat -> R) (w : nat -> R) : (2 <= length ps)%nat ->
  let m := (3 * (length ps + 1))%nat in corr_matrix RN (map finV ps) = mat m 9 A ->
  svdcmp RN (mat m 9 A) (vec 9 (fun _ => 0)) (mat 9 9 (fun _ _ => 0)) = Ret (1%Z, mat m 9 U, vec 9 w, mat 9 9 V) ->
  is_svd m 9 A U w V -> (forall p q, (p < 9)%nat -> (q < 9)%nat -> 0 <= w p /\ (w p = 0 \/ 1 / 100000 * w q <= w p)) ->
  (forall d0 d1 d2, (forall p, In p ps -> d0 * v0 p + d1 * v1 p + d2 * v2 p = 0) -> d0 = 0 /\ d1 = 0 /\ d2 = 0) ->
  Corrector_solve RN (map finV ps) (map finV (map (applyR M0) ps)) = Ret (finM M0).
Proof. exact (corrector_given_exact ps M0 A U w V). Qed.
Print Assumptions C70_recovers_given_decomposition_partial.
Example C70_case_given : let ps := [V3 1 1 0; V3 1 (-1) 0; V3 0 0 3] in let m := (3 * (length ps + 1))%nat in (2 <= length ps)%nat /\
  (forall d0 d1 d2, (forall p, In p ps -> d0 * v0 p + d1 * v1 p + d2 * v2 p = 0) -> d0 = 0 /\ d1 = 0 /\ d2 = 0) /\
  exists A U w V, corr_matrix RN (map finV ps) = mat m 9 A /\
  svdcmp RN (mat m 9 A) (vec 9 (fun _ => 0)) (mat 9 9 (fun _ _ => 0)) = Ret (1%Z, mat m 9 U, vec 9 w, mat 9 9 V) /\
  is_svd m 9 A U w V /\ (forall p q, (p < 9)%nat -> (q < 9)%nat -> 0 <= w p /\ (w p = 0 \/ 1 / 100000 * w q <= w p)).
Proof. exact given_case. Qed.
Example C70_case : let ps := [V3 1 1 0; V3 1 (-1) 0; V3 0 0 3] in (2 <= length ps)%nat /\
  (forall a b, (a < 3)%nat -> (b < 3)%nat -> a <> b -> gram ps a b = 0) /\
  (forall a b, (a < 3)%nat -> (b < 3)%nat -> 0 < gram ps a a /\ gram ps b b <= 10000000000 * gram ps a a).
Proof. exact patches3_ok. Qed.
