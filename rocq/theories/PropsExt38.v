(** * Property C163: whether the Euclidean colour differences are distances in binary32.  [close p q]: finite colours whose components
    differ by at most 2^60 (PFma5.v). *)
From Coq Require Import ZArith Reals.
From Flocq Require Import Core BinarySingleNaN.
From Verif Require Import Num NumF MVec MDelta F32 PFma5 PEuclM.
Local Open Scope R_scope.

(** C163: E76 and UV satisfy the triangle inequality and are 0 only for equal colours.  REFUTED: the squares of differences below
    2^-75 vanish, and a rounded difference can be shorter than the exact one. *)
Theorem C163_zero_refuted (lm : libm) : exists a b : Vector3 f32, close a b /\ B2R (v1 a) <> B2R (v1 b) /\
  B2R (Delta_E76 (FN lm) a b) = 0 /\ B2R (Delta_UV (FN lm) a b) = 0.
Proof. exact (E76_zero_refuted lm). Qed.
Print Assumptions C163_zero_refuted.
Theorem C163_triangle_refuted (lm : libm) : exists a b c : Vector3 f32, close a b /\ close b c /\ close a c /\
  B2R (Delta_E76 (FN lm) a b) + B2R (Delta_E76 (FN lm) b c) < B2R (Delta_E76 (FN lm) a c) /\
  B2R (Delta_UV (FN lm) a b) + B2R (Delta_UV (FN lm) b c) < B2R (Delta_UV (FN lm) a c).
Proof. exact (E76_tri_refuted lm). Qed.
Print Assumptions C163_triangle_refuted.
(** Up to rounding both hold: the triangle inequality within 9 half-ulps and 2^-71, and a difference of 0 only for colours that agree
    within 2^-72 in every component. *)
Theorem C163_triangle_partial (lm : libm) (a b c : Vector3 f32) : close a b -> close b c -> close a c ->
  B2R (Delta_E76 (FN lm) a c) <= (1 + 9 * u) * (B2R (Delta_E76 (FN lm) a b) + B2R (Delta_E76 (FN lm) b c)) + bpow radix2 (-71) /\
  B2R (Delta_UV (FN lm) a c) <= (1 + 9 * u) * (B2R (Delta_UV (FN lm) a b) + B2R (Delta_UV (FN lm) b c)) + bpow radix2 (-71).
Proof. exact (fun A B C => conj (E76_tri lm a b c A B C) (UV_tri lm a b c A B C)). Qed.
Print Assumptions C163_triangle_partial.
Theorem C163_zero_partial (lm : libm) (a b : Vector3 f32) : close a b -> B2R (Delta_E76 (FN lm) a b) = 0 ->
  Rabs (B2R (v0 a) - B2R (v0 b)) <= bpow radix2 (-72) /\ Rabs (B2R (v1 a) - B2R (v1 b)) <= bpow radix2 (-72) /\ Rabs (B2R (v2 a) - B2R (v2 b)) <= bpow radix2 (-72).
Proof. exact (E76_zero_near lm a b). Qed.
Print Assumptions C163_zero_partial.
(** 0, 0.75 * 2^-24 and 1 on the second axis. *)
Example C163_case (lm : libm) : close (on lm (@fofZ (FN lm) 0)) (on lm (b34 lm)) /\ close (on lm (b34 lm)) (on lm (@fofZ (FN lm) 1)) /\
  close (on lm (@fofZ (FN lm) 0)) (on lm (@fofZ (FN lm) 1)).
Proof. exact (tri_case lm). Qed.
