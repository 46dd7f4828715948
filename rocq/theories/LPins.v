(** * Closed formulas for crosstalk and the Euclidean differences. *)
From Coq Require Import ZArith Reals Lra.
From Verif Require Import Num NumR MVec MTri MOtf MDelta SpecMat RTac PMat POtf PDelta.
Local Open Scope R_scope.

Lemma crosstalk_mix r a b c : M_apply RN (M_crosstalk RN (Some r)) (finV (V3 a b c)) =
  finV (V3 (a + r * (b + c - 2 * a)) (b + r * (a + c - 2 * b)) (c + r * (a + b - 2 * c))).
Proof.
  rewrite M_crosstalk_fin, M_apply_fin. f_equal. unfold crosstalkR. mat_eq; ring.
Qed.
Lemma E76_formula p q : Delta_E76 RN (finV p) (finV q) = Some (sqrt ((v0 p - v0 q) ^ 2 + (v1 p - v1 q) ^ 2 + (v2 p - v2 q) ^ 2)).
Proof. rewrite E76_fin. unfold dE, n3. do 2 f_equal. ring. Qed.
Lemma UV_formula p q : Delta_UV RN (finV p) (finV q) = Some (sqrt ((v1 p - v1 q) ^ 2 + (v2 p - v2 q) ^ 2)).
Proof. rewrite UV_fin. unfold dE, n3. cbn [v0 v1 v2]. do 2 f_equal. ring. Qed.
Lemma dICtCp_formula p q a b : XYZ_to_ICtCp RN (finV p) = finV a -> XYZ_to_ICtCp RN (finV q) = finV b ->
  Delta_ICtCp RN (finV p) (finV q) = Some (sqrt ((v0 a - v0 b) ^ 2 + (0.5 * v1 a - 0.5 * v1 b) ^ 2 + (v2 a - v2 b) ^ 2)).
Proof.
  intros A B. rewrite ictcp_fin in A, B. assert (X : forall x y, finV x = finV y -> x = y).
  { intros [x0 x1 x2] [y0 y1 y2] H. unfold finV in H. cbn in H. injection H. intros. subst. reflexivity. }
  apply X in A, B. rewrite dICtCp_fin, A, B. unfold dE, n3, half1. cbn [v0 v1 v2]. do 2 f_equal. lra.
Qed.
