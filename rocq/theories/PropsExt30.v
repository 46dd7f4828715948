(** * Property C154. *)
From Coq Require Import ZArith Reals.
From Flocq Require Import Core BinarySingleNaN.
From Verif Require Import Num NumR NumF MVec MTri MDelta RTac F32 SpecDelta PHsvF PLibm PNearF PE00acc PE00acc7 PE00acc8.
Local Open Scope R_scope.

(** C154: how far the colour difference computed in binary32 is from the published formula, away from the places where the
    formula jumps.  [lab_plain] (PE00acc7.v): L in [0, 100], |a|, |b| at most 128, chroma at least 1/8, b not zero, at least
    1/8 in size when a is not negative.  [hues_apart]: the signs of b agree, or |a1 b2 - a2 b1| >= 1.  [accurate_trig]
    (PE00acc.v): sin, cos, atan2, fmod and exp within a few units in the last place. *)
Theorem C154_E00_binary32_accuracy (lm : libm) (p q : Vector3 f32) : accurate lm -> accurate_trig lm -> lab_plain p -> lab_plain q -> hues_apart p q ->
  let d := Delta_E00 (FN lm) p q (@flit (FN lm) 1%dec) (@flit (FN lm) 1%dec) (@flit (FN lm) 1%dec) in
  let D := CIEDE2000 (tR p) (tR q) 1 1 1 in fin d /\ Rabs (B2R d - D) <= 0.004 + D / 500.
Proof. exact (E00_accurate lm p q). Qed.
Print Assumptions C154_E00_binary32_accuracy.
(** and from what the code computes in exact arithmetic (C41). *)
Theorem C154_E00_rounding_error (lm : libm) (p q : Vector3 f32) : accurate lm -> accurate_trig lm -> lab_plain p -> lab_plain q -> hues_apart p q ->
  exists D, Delta_E00 RN (finV (tR p)) (finV (tR q)) (Some 1) (Some 1) (Some 1) = Some D /\
    near (Delta_E00 (FN lm) p q (@flit (FN lm) 1%dec) (@flit (FN lm) 1%dec) (@flit (FN lm) 1%dec)) D (0.0036 + 0.0015 * D).
Proof. exact (fun A T => E00_close lm A T p q). Qed.
Print Assumptions C154_E00_rounding_error.
Example C154_case : (exists lm, accurate lm /\ accurate_trig lm) /\
  lab_plain (V3 (lit 24 128 p24 p24e 50%dec) (lit 24 128 p24 p24e 2.6772%dec) (lit 24 128 p24 p24e (-79.7751)%dec)) /\
  lab_plain (V3 (lit 24 128 p24 p24e 50%dec) (lit 24 128 p24 p24e 0%dec) (lit 24 128 p24 p24e (-82.7485)%dec)) /\
  hues_apart (V3 (lit 24 128 p24 p24e 50%dec) (lit 24 128 p24 p24e 2.6772%dec) (lit 24 128 p24 p24e (-79.7751)%dec))
    (V3 (lit 24 128 p24 p24e 50%dec) (lit 24 128 p24 p24e 0%dec) (lit 24 128 p24 p24e (-82.7485)%dec)).
Proof. exact E00_acc_case. Qed.
