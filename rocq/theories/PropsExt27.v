(** * Property C151. *)
From Coq Require Import ZArith Reals.
From Verif Require Import Num NumR MVec MTri MDelta RTac PE00d PE00e.
Local Open Scope R_scope.

(** C151: small changes of the colours change the CIE 2000 difference only a little.  False where the two hues are opposite. *)
Theorem C151_E00_continuous_refuted : exists p : Vector3 R, forall eps, 0 < eps -> exists q q' d d',
  Rabs (v0 q - v0 q') < eps /\ Rabs (v1 q - v1 q') < eps /\ Rabs (v2 q - v2 q') < eps /\
  Delta_E00 RN (finV p) (finV q) (Some 1) (Some 1) (Some 1) = Some d /\ Delta_E00 RN (finV p) (finV q') (Some 1) (Some 1) (Some 1) = Some d' /\ 3 < d - d'.
Proof. exact E00_jump. Qed.
Print Assumptions C151_E00_continuous_refuted.
(** It holds at every pair of which one is grey, and at every pair whose (a,b) parts are not opposite and not on the positive a axis. *)
Theorem C151_E00_continuous_partial (x y : nat -> Vector3 R) (p q : Vector3 R) (kl kc kh : R) : 0 < kl -> 0 < kc -> 0 < kh ->
  Un_cv (fun n => v0 (x n)) (v0 p) /\ Un_cv (fun n => v1 (x n)) (v1 p) /\ Un_cv (fun n => v2 (x n)) (v2 p) ->
  Un_cv (fun n => v0 (y n)) (v0 q) /\ Un_cv (fun n => v1 (y n)) (v1 q) /\ Un_cv (fun n => v2 (y n)) (v2 q) ->
  (v1 p = 0 /\ v2 p = 0) \/ (v1 q = 0 /\ v2 q = 0) \/
    ((v2 p <> 0 \/ v1 p < 0) /\ (v2 q <> 0 \/ v1 q < 0) /\ (v1 p * v2 q <> v1 q * v2 p \/ 0 < v1 p * v1 q + v2 p * v2 q)) ->
  exists (d : nat -> R) (l : R), (forall n, Delta_E00 RN (finV (x n)) (finV (y n)) (Some kl) (Some kc) (Some kh) = Some (d n)) /\
    Delta_E00 RN (finV p) (finV q) (Some kl) (Some kc) (Some kh) = Some l /\ Un_cv d l.
Proof. exact (E00_cont x y p q kl kc kh). Qed.
Print Assumptions C151_E00_continuous_partial.
(** And, uniformly, near colours of any hue have a small difference. *)
Theorem C151_E00_near_partial (eps : R) : 0 < eps -> exists del, 0 < del /\ forall p q kl kc kh, 1 <= kl -> 1 <= kc -> 1 <= kh ->
  Rabs (v0 p - v0 q) < del -> Rabs (v1 p - v1 q) < del -> Rabs (v2 p - v2 q) < del ->
  exists d, Delta_E00 RN (finV p) (finV q) (Some kl) (Some kc) (Some kh) = Some d /\ d < eps.
Proof. exact (E00_near eps). Qed.
Print Assumptions C151_E00_near_partial.
Example C151_case : let x := fun n => V3 (50 + / INR (n + 1)) 20 30 in let p := V3 50 20 30 in let q := V3 60 (-20) 10 in
  (Un_cv (fun n => v0 (x n)) (v0 p) /\ Un_cv (fun n => v1 (x n)) (v1 p) /\ Un_cv (fun n => v2 (x n)) (v2 p)) /\
  (Un_cv (fun n => v0 q) (v0 q) /\ Un_cv (fun n => v1 q) (v1 q) /\ Un_cv (fun n => v2 q) (v2 q)) /\
  (v2 p <> 0 \/ v1 p < 0) /\ (v2 q <> 0 \/ v1 q < 0) /\ (v1 p * v2 q <> v1 q * v2 p \/ 0 < v1 p * v1 q + v2 p * v2 q).
Proof. exact E00_cont_case. Qed.
