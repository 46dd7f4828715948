(** * Property C160: a NaN in the right-hand side of the solver, in binary32. *)
From Coq Require Import ZArith Reals List.
From Flocq Require Import Core BinarySingleNaN.
From Verif Require Import Num NumF MVec MTri MSolver F32 PSolver PBksF PNan PBksNan.
Import ListNotations.
Local Open Scope R_scope.

(** C160: if a measured value is NaN, so is the computed solution.  REFUTED: with one patch the corrector returns the zero matrix
    whatever the target, and the solver answers 0 with code 0 for the system 0 x = NaN. *)
Theorem C160_corrector_refuted (lm : libm) : exists p t : Vector3 f32, is_nan3 t /\
  exists M, Corrector_solve (FN lm) [p] [t] = Ret M /\ ~ is_nan9 M.
Proof. exact (corr_refuted lm). Qed.
Print Assumptions C160_corrector_refuted.
Theorem C160_solver_refuted (lm : libm) : SOLVER_solve (FN lm) [[@flit (FN lm) 0%dec]] [(B754_nan : f32) : F (FN lm)] [@flit (FN lm) 0%dec] (SOLVER_TOL (FN lm)) =
  Ret (0%Z, [(B754_zero false : f32) : F (FN lm)]).
Proof. exact (solve_lost lm). Qed.
Print Assumptions C160_solver_refuted.
(** Back-substitution: with a NaN in b and one nonzero (or NaN) singular value every unknown is NaN. *)
Theorem C160_backsubstitution_partial (lm : libm) (m n : nat) (U V : nat -> nat -> f32) (w b x0 : nat -> f32) (i k : nat) :
  (i < m)%nat -> (k < n)%nat -> b i = B754_nan -> is_nan (w k) = true \/ Beqb (w k) (B754_zero false) = false ->
  svbksb (FN lm) (matF m n U) (vecF n w) (matF n n V) (vecF m b) (vecF n x0) = Ret (vecF n (fun _ => B754_nan)).
Proof. exact (bks_nan' lm m n U V w b x0 i k). Qed.
Print Assumptions C160_backsubstitution_partial.
(** The solver: for a system that is not wide, and a tolerance in [0, 1], every unknown is NaN as soon as one computed singular value is
    positive or NaN; the return code is 0 nevertheless. *)
Theorem C160_solver_partial (lm : libm) (m n : nat) (a : list (list f32)) (b x : list f32) (tol : f32) U W V (y : f32) :
  (n <= m)%nat -> shape m n a -> cols a = n -> length b = m -> length x = n -> In B754_nan b -> fin tol -> 0 <= B2R tol <= 1 ->
  svdcmp (FN lm) a (newVector (FN lm) n) (newMatrix (FN lm) n n) = Ret (1%Z, U, W, V) -> In y W -> (y = B754_nan \/ Bltb (B754_zero false) y = true) ->
  SOLVER_solve (FN lm) a b x tol = Ret (0%Z, repeat (B754_nan : f32) n).
Proof. exact (solve_nan lm m n a b x tol U W V y). Qed.
Print Assumptions C160_solver_partial.
(** The corrector: for two patches or more, one NaN in the target of a patch makes the whole matrix NaN. *)
Theorem C160_corrector_partial (lm : libm) (patch target : list (Vector3 f32)) (t : Vector3 f32) U W V (y : f32) :
  (length patch <= length target)%nat -> (2 <= length patch)%nat -> In t (firstn (length patch) target) -> is_nan3 t ->
  svdcmp (FN lm) (corr_matrix (FN lm) patch) (newVector (FN lm) 9) (newMatrix (FN lm) 9 9) = Ret (1%Z, U, W, V) ->
  In y W -> (y = B754_nan \/ Bltb (B754_zero false) y = true) -> Corrector_solve (FN lm) patch target = Ret nan9.
Proof. exact (corr_nan lm patch target t U W V y). Qed.
Print Assumptions C160_corrector_partial.
Example C160_case (lm : libm) : let l := fun d => @flit (FN lm) d in
  (exists U W V y, svdcmp (FN lm) [[l 2%dec]; [l 0%dec]] (newVector (FN lm) 1) (newMatrix (FN lm) 1 1) = Ret (1%Z, U, W, V) /\ In y W /\ Bltb (B754_zero false) y = true) /\
  SOLVER_solve (FN lm) [[l 2%dec]; [l 0%dec]] [l 1%dec; (B754_nan : f32)] [l 0%dec] (SOLVER_TOL (FN lm)) = Ret (0%Z, [(B754_nan : f32) : F (FN lm)]).
Proof. exact (nan_case lm). Qed.
