(** * Properties C147, C148 and C149: the solver's length, and back-substitution, in binary32. *)
From Coq Require Import ZArith Reals List.
From Flocq Require Import Core BinarySingleNaN.
From Verif Require Import Num NumR NumF MVec MSolver RLin F32 PPythF PBksF.
Local Open Scope R_scope.

(** C147: [u] is 2^-24, [eta] 2^-150. Finite, accurate and at least as long as either side whenever the exact length is not within 4u of overflow. *)
Theorem C147_length (lm : libm) (a b : f32) : is_finite a = true -> is_finite b = true -> let h := sqrt (B2R a * B2R a + B2R b * B2R b) in h <= (1 - 4 * u) * bpow radix2 128 ->
  is_finite (PYTHAG (FN lm) a b) = true /\ Rmax (Rabs (B2R a)) (Rabs (B2R b)) <= B2R (PYTHAG (FN lm) a b) /\ Rabs (B2R (PYTHAG (FN lm) a b) - h) <= 3.2505 * u * h + eta.
Proof. exact (pyth_ok lm a b). Qed.
Print Assumptions C147_length.
(** exactly symmetric, independent of the signs, and exact along the axes. *)
Theorem C147_symmetric (lm : libm) (a b : f32) : is_finite a = true -> is_finite b = true -> PYTHAG (FN lm) a b = PYTHAG (FN lm) b a.
Proof. exact (pyth_sym lm a b). Qed.
Print Assumptions C147_symmetric.
Theorem C147_signs (lm : libm) (a b : f32) : PYTHAG (FN lm) (@fopp (FN lm) a) b = PYTHAG (FN lm) a b /\ PYTHAG (FN lm) a (@fopp (FN lm) b) = PYTHAG (FN lm) a b.
Proof. exact (pyth_signs lm a b). Qed.
Print Assumptions C147_signs.
Theorem C147_axis (lm : libm) (a z : f32) : is_finite a = true -> is_finite z = true -> B2R z = 0 -> PYTHAG (FN lm) a z = @ffabs (FN lm) a /\ PYTHAG (FN lm) z a = @ffabs (FN lm) a.
Proof. exact (pyth_axis lm a z). Qed.
Print Assumptions C147_axis.
(** the sign transfer counts zero as negative. *)
Theorem C147_sign (lm : libm) (a b : f32) : is_finite a = true -> is_finite b = true ->
  is_finite (DSIGN (FN lm) a b) = true /\ B2R (DSIGN (FN lm) a b) = if Rlt_bool 0 (B2R b) then Rabs (B2R a) else - Rabs (B2R a).
Proof. exact (dsign_ok lm a b). Qed.
Print Assumptions C147_sign.
Example C147_case (lm : libm) : let a := @flit (FN lm) 3%dec in let b := @flit (FN lm) (-4)%dec in
  is_finite a = true /\ is_finite b = true /\ B2R a * B2R a + B2R b * B2R b = 25 /\ B2SF (PYTHAG (FN lm) a b) = B2SF (@flit (FN lm) 5%dec).
Proof. exact (pyth_case lm). Qed.

(** C148: a NaN in the second argument is replaced by zero. *)
Theorem C148_refuted (lm : libm) : exists a b : f32, is_nan b = true /\ is_nan (PYTHAG (FN lm) a b) = false.
Proof. exact (pyth_nan_refuted lm). Qed.
Print Assumptions C148_refuted.
Theorem C148_second_lost_partial (lm : libm) (a : f32) : PYTHAG (FN lm) a B754_nan = @flit (FN lm) 0%dec.
Proof. exact (pyth_nan_lost lm a). Qed.
Print Assumptions C148_second_lost_partial.
Theorem C148_first_kept_partial (lm : libm) (b : f32) : is_nan b = false -> B2SF b <> SpecFloat.S754_zero true -> B2SF b <> SpecFloat.S754_zero false -> PYTHAG (FN lm) B754_nan b = B754_nan.
Proof. exact (pyth_nan_kept lm b). Qed.
Print Assumptions C148_first_kept_partial.
Example C148_case (lm : libm) : PYTHAG (FN lm) B754_nan (@flit (FN lm) 2%dec) = B754_nan /\ PYTHAG (FN lm) (@flit (FN lm) 2%dec) B754_nan = @flit (FN lm) 0%dec.
Proof. split; vm_compute; reflexivity. Qed.

(** C149: [vecF n x], [matF m n M]: the vector, matrix of the given elements; [rv], [rm]: their real values; [vec], [mat]: the same over the reals.
    [absT m U w b k] is (sum over i of |U i k * b i|) / |w k|, or 0 if w k = 0. *)
Theorem C149_backsubstitution (lm : libm) (m n : nat) (U V : nat -> nat -> f32) (w b : nat -> f32) :
  INR m <= 65536 -> INR n <= 65536 ->
  (forall i k, (i < m)%nat -> (k < n)%nat -> is_finite (U i k) = true /\ Rabs (B2R (U i k)) <= 2) ->
  (forall j k, (j < n)%nat -> (k < n)%nat -> is_finite (V j k) = true /\ Rabs (B2R (V j k)) <= 2) ->
  (forall i, (i < m)%nat -> is_finite (b i) = true /\ Rabs (B2R (b i)) <= bpow radix2 40) ->
  (forall k, (k < n)%nat -> is_finite (w k) = true /\ (B2R (w k) = 0 \/ bpow radix2 (-40) <= Rabs (B2R (w k)))) ->
  forall x0 y0, (0 < m)%nat -> exists x X,
  svbksb (FN lm) (matF m n U) (vecF n w) (matF n n V) (vecF m b) (vecF n x0) = Ret (vecF n x) /\
  svbksb RN (mat m n (rm U)) (vec n (rv w)) (mat n n (rm V)) (vec m (rv b)) (vec n y0) = Ret (vec n X) /\
  forall j, (j < n)%nat -> is_finite (x j : f32) = true /\
    Rabs (B2R (x j : f32) - X j) <= 1.02 * (INR m + INR n + 3) * (u * bsum n (fun k => Rabs (B2R (V j k)) * absT m (rm U) (rv w) (rv b) k)) + bpow radix2 (-73).
Proof. exact (bks_float lm m n U V w b). Qed.
Print Assumptions C149_backsubstitution.
Example C149_case (lm : libm) : let one := @flit (FN lm) 1%dec in let half := @flit (FN lm) 0.5%dec in
  INR 3 <= 65536 /\ is_finite one = true /\ Rabs (B2R one) <= 2 /\ Rabs (B2R one) <= bpow radix2 40 /\ is_finite half = true /\ bpow radix2 (-40) <= Rabs (B2R half).
Proof. exact (bks_case lm). Qed.
