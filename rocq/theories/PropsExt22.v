(** * Property C143: colours at a distance from the locus, in binary32. *)
From Coq Require Import ZArith Reals.
From Flocq Require Import Core BinarySingleNaN.
From Verif Require Import Num NumR NumF MVec MTri RTac F32 PCct PCctF.
Local Open Scope R_scope.

(** C143: [fromCCT_sq RN exact_sqrt] is the same computation over the reals (C20).  [chord T] is the distance in the 1960
    diagram between the points of the approximated locus at [T] and at [T - 1] kelvin.
    The claim that the result is as accurate as that of [fromCT] (within 19 units of rounding, C114) is false. *)
Theorem C143_refuted (lm : libm) : exists (T d Y X Z : f32) (rX rZ : R), is_finite T = true /\ is_finite d = true /\ is_finite Y = true /\
  B2R T = 9234 /\ -0.05 <= B2R d <= -0.0499999 /\ B2R Y = 1 /\
  terminates_with (fun n => fromCCT (FN lm) n T d Y) (Ret (V3 X Y Z)) /\
  fromCCT_sq RN exact_sqrt (Some (B2R T)) (Some (B2R d)) (Some (B2R Y)) = Ret (finV (V3 rX (B2R Y) rZ)) /\ 0.01 < B2R Z - rZ.
Proof. exact (C143_loss lm). Qed.
Print Assumptions C143_refuted.
(** what holds: the 1960 coordinates are off by at most 10.3 units of rounding times [dUV / chord T] plus a constant number of units. *)
Theorem C143_accuracy_partial (lm : libm) (T d Y : f32) : is_finite T = true -> is_finite d = true -> is_finite Y = true ->
  1667 <= B2R T <= 10000 -> Rabs (B2R d) <= 0.05 -> 1e-6 <= B2R Y <= 1e6 ->
  exists (X Z : f32) (rX rZ : R), terminates_with (fun n => fromCCT (FN lm) n T d Y) (Ret (V3 X Y Z)) /\ is_finite X = true /\ is_finite Z = true /\
    fromCCT_sq RN exact_sqrt (Some (B2R T)) (Some (B2R d)) (Some (B2R Y)) = Ret (finV (V3 rX (B2R Y) rZ)) /\
    (let S := B2R X + 15 * B2R Y + 3 * B2R Z in let rS := rX + 15 * B2R Y + 3 * rZ in
     Rabs (4 * B2R X / S - 4 * rX / rS) <= 10.3 * / 2 ^ 24 * Rabs (B2R d) / chord (B2R T) + 105 * / 2 ^ 24 /\
     Rabs (6 * B2R Y / S - 6 * B2R Y / rS) <= 10.3 * / 2 ^ 24 * Rabs (B2R d) / chord (B2R T) + 41 * / 2 ^ 24) /\
    3.73e-6 <= chord (B2R T).
Proof. exact (C143_part lm T d Y). Qed.
Print Assumptions C143_accuracy_partial.
Example C143_case (lm : libm) : is_finite (@flit (FN lm) 6500) = true /\ is_finite (@flit (FN lm) 0.01%dec) = true /\ is_finite (@flit (FN lm) 1) = true /\
  1667 <= B2R (@flit (FN lm) 6500) <= 10000 /\ Rabs (B2R (@flit (FN lm) 0.01%dec)) <= 0.05 /\ 1e-6 <= B2R (@flit (FN lm) 1) <= 1e6.
Proof. exact (C143_ex lm). Qed.
