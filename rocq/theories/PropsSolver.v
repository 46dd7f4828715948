(** * Properties C62-C66: the linear solver and the colour corrector.

    [shape m n a]: [a] has [m] rows of length [n] (PSolver.v).  Over the reals
    [mat m n A] and [vec n x] are the matrix and vector with entries [A i j],
    [x i]; [is_svd m n A U w V] says that A = U diag(w) V^T with orthonormal columns
    of U and V; [residual2 m n A b x] is |Ax - b|^2 and [norm2 n x] is |x|^2 (RLin.v). *)
From Coq Require Import ZArith Reals Lra Lia List.
From Flocq Require Import Core BinarySingleNaN.
From Verif Require Import Num NumR NumF MVec MTri MSpectrum MSolver Tables RTac SpecMat RLin F32 PSolver PSolver2 PSolver3.
Import ListNotations.
Local Open Scope R_scope.

(** C62 *)
Theorem C62_svdcmp_safe_and_total (lm : libm) (m n : nat) (a : list (list f32)) (w : list f32) (v : list (list f32)) :
  (n <= m)%nat -> shape m n a -> cols a = n -> length w = n -> shape n n v ->
  exists a' w' v', svdcmp (FN lm) a w v = Ret (1%Z, a', w', v') /\ shape m n a' /\ length w' = n /\ shape n n v'.
Proof. exact (C62_l lm m n a w v). Qed.
Print Assumptions C62_svdcmp_safe_and_total.
Theorem C62_svdcmp_refuses_wide (lm : libm) (a : list (list f32)) (w : list f32) (v : list (list f32)) :
  (rows a < cols a)%nat -> svdcmp (FN lm) a w v = Ret ((-1)%Z, a, w, v).
Proof. exact (svdcmp_refuses (FN lm) a w v). Qed.
Print Assumptions C62_svdcmp_refuses_wide.
Example C62_case : shape 2 2 bigM /\ cols bigM = 2%nat.
Proof. split; [split; [reflexivity|repeat constructor]|reflexivity]. Qed.

(** C63 is false: the return value is 1 for every matrix that is not wide, also
    when nothing useful was computed. *)
Theorem C63_reports_failure_refuted (lm : libm) : exists a, Forall (Forall (fun x : f32 => is_finite x = true)) a /\
  exists U W V, svdcmp (FN lm) a (newVector (FN lm) 2) (newMatrix (FN lm) 2 2) = Ret (1%Z, U, W, V) /\
  Forall (Forall (fun x : f32 => is_nan x = true)) U /\ Forall (Forall (fun x : f32 => is_nan x = true)) V /\
  Forall (fun x => x = (B754_zero false : f32)) W.
Proof. exact (ex_intro _ bigM (C63_witness lm)). Qed.
Print Assumptions C63_reports_failure_refuted.
Theorem C63_return_value_partial (lm : libm) (m n : nat) (a : list (list f32)) (w : list f32) (v : list (list f32)) :
  (n <= m)%nat -> shape m n a -> cols a = n -> length w = n -> shape n n v ->
  exists a' w' v', svdcmp (FN lm) a w v = Ret (1%Z, a', w', v').
Proof. exact (C63_l lm m n a w v). Qed.
Print Assumptions C63_return_value_partial.
Example C63_case : shape 2 2 bigM /\ B2SF big = SpecFloat.S754_finite false 14791142 104.
Proof. split; [split; [reflexivity|repeat constructor]|reflexivity]. Qed.

(** C64 *)
Theorem C64_least_squares (m n : nat) (A U : nat -> nat -> R) (w : nat -> R) (V : nat -> nat -> R) (b x0 : nat -> R) :
  (0 < m)%nat -> is_svd m n A U w V ->
  exists x, svbksb RN (mat m n U) (vec n w) (mat n n V) (vec m b) (vec n x0) = Ret (vec n x) /\
  forall y, residual2 m n A b x <= residual2 m n A b y /\
            (residual2 m n A b y = residual2 m n A b x -> norm2 n x <= norm2 n y).
Proof. exact (C64_l m n A U w V b x0). Qed.
Print Assumptions C64_least_squares.
Example C64_case : is_svd 3 2 (fun i j => if Nat.eqb i j then INR i + 1 else 0) delta (fun p => INR p + 1) delta.
Proof. exact C64_ex. Qed.

(** C65 *)
Theorem C65_system (ps ts : list (Vector3 R)) : length ps = length ts -> exists A b,
  (forall M, residual2 (3 * (length ps + 1)) 9 A b (fun k => nth k (entries M) 0) =
             lsum (fun pt => dist2 (applyR M (fst pt)) (snd pt)) (combine ps ts)) /\
  Corrector_solve RN (map finV ps) (map finV ts) =
  (let! (r, x) := SOLVER_solve RN (mat (3 * (length ps + 1)) 9 A) (vec (3 * (length ps + 1)) b) (vec 9 (fun _ => 0)) (SOLVER_TOL RN)
   in M_fromArray x).
Proof. exact (C65_system_l ps ts). Qed.
Print Assumptions C65_system.
Theorem C65_total (lm : libm) (patch target : list (Vector3 f32)) :
  (length patch <= length target)%nat -> exists M, Corrector_solve (FN lm) patch target = Ret M.
Proof. exact (C65_safe_l lm patch target). Qed.
Print Assumptions C65_total.
Theorem C65_short_target_undefined (lm : libm) (patch target : list (Vector3 f32)) :
  (length target < length patch)%nat -> Corrector_solve (FN lm) patch target = UB.
Proof. exact (C65_ub_l lm patch target). Qed.
Print Assumptions C65_short_target_undefined.
Theorem C65_too_few_patches (lm : libm) (patch target : list (Vector3 f32)) :
  (length patch <= length target)%nat -> (length patch < 2)%nat ->
  Corrector_solve (FN lm) patch target = Ret (let z := (B754_zero false : f32) in M3 z z z z z z z z z).
Proof. exact (C65_zero_l lm patch target). Qed.
Print Assumptions C65_too_few_patches.
Theorem C65_macbeth_chart (lm : libm) (patch : list (Vector3 f32)) (l : Spectrum (FN lm)) (o : Observer (FN lm)) :
  ((length patch <= 24)%nat -> exists M, Corrector_solve_light (FN lm) (Macbeth_Patch (FN lm)) patch l o = Ret M) /\
  ((24 < length patch)%nat -> Corrector_solve_light (FN lm) (Macbeth_Patch (FN lm)) patch l o = UB).
Proof. exact (C65_light_l lm patch l o). Qed.
Print Assumptions C65_macbeth_chart.
Example C65_case : lsum (fun pt => dist2 (applyR idR (fst pt)) (snd pt)) (combine [V3 1 2 3] [V3 1 2 5]) = 4.
Proof. cbn. unfold dist2, sq, applyR, mkV, sum3, ent, cmp. cbn. ring. Qed.

(** C66 *)
Theorem C66_threshold (lm : libm) (m n : nat) (a : list (list f32)) (b x : list f32) (tol : f32) :
  (n <= m)%nat -> shape m n a -> cols a = n -> (m <= length b)%nat -> (n <= length x)%nat ->
  exists U W V W' mx x', svdcmp (FN lm) a (newVector (FN lm) n) (newMatrix (FN lm) n n) = Ret (1%Z, U, W, V) /\
  (is_nan mx = false /\ (mx = (B754_zero false : f32) \/ In mx W) /\ Bltb mx (B754_zero false) = false /\ forall y, In y W -> Bltb mx y = false) /\
  (length W' = length W /\ forall j y, nth_error W j = Some y ->
     nth_error W' j = Some (if Bltb y (Bmult mode_NE tol mx) then (B754_zero false : f32) else y)) /\
  svbksb (FN lm) U W' V b x = Ret x' /\ SOLVER_solve (FN lm) a b x tol = Ret (0%Z, x').
Proof. exact (C66_thr_l lm m n a b x tol). Qed.
Print Assumptions C66_threshold.
Theorem C66_refused_reports_success (lm : libm) (a : list (list f32)) (b x : list f32) (tol : f32) :
  (rows a < cols a)%nat -> length x = cols a ->
  SOLVER_solve (FN lm) a b x tol = Ret (0%Z, repeat (B754_zero false : f32) (cols a)).
Proof. exact (solve_refused_F lm a b x tol). Qed.
Print Assumptions C66_refused_reports_success.
Example C66_case : oSF (let! (r, x) := SOLVER_solve (FN no_libm) [[@flit (FN no_libm) 2]] [@flit (FN no_libm) 6] [@flit (FN no_libm) 0] (@flit (FN no_libm) 1e-5)
  in vget x 0) = Ret (B2SF (@flit (FN no_libm) 3)).
Proof. vm_compute. reflexivity. Qed.
