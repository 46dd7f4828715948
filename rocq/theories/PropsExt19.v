(** * Property C139: black bodies in floating point. *)
From Coq Require Import ZArith Reals Lra Lia List.
From Flocq Require Import Core BinarySingleNaN.
From Verif Require Import Num NumR NumF MVec MTri MSpectrum Tables RTac F32 F64 PSpec PSpecF PObsF PPlanckF.
Import ListNotations.
Local Open Scope R_scope.

(** C139.  [accurate64 lm]: the double functions pow and exp of the C library are within two units in the last place.  The exact
    values are those of the same formula over the reals. *)
Theorem C139_blackbody (lm : libm) (T : f32) : accurate64 lm -> fin T -> 100 <= B2R T <= 1e7 -> exists p : list R,
  length (S_blackbody (FN lm) T) = 400%nat /\ S_blackbody RN (Some (B2R T)) = finS p /\ forall i, (i < 400)%nat -> 0 < smp p i /\
  fin (sm (S_blackbody (FN lm) T) i) /\ Rabs (B2R (sm (S_blackbody (FN lm) T) i) - smp p i) <= 2.01 * / 16777216 * smp p i + bpow radix2 (-149).
Proof. exact (blackbody_acc16 lm T). Qed.
Print Assumptions C139_blackbody.
(** [closeT K e r t t]: each component of [r] is finite and within K 2^-24 relative, plus 2^e, of that of [t]. *)
Theorem C139_tristimulus (lm : libm) (T : f32) : accurate64 lm -> fin T -> 100 <= B2R T <= 1e7 -> Forall (fun o : forall N : Num, Observer N => exists t,
  fromSpectrum RN (o RN) (S_blackbody RN (Some (B2R T))) = finV t /\ (0 <= v0 t /\ 0 <= v1 t /\ 0 <= v2 t) /\
  closeT 808 (-133) (fromSpectrum (FN lm) (o (FN lm)) (S_blackbody (FN lm) T)) t t) [CIE1931; CIE31JV; CIE2012].
Proof. exact (bb_tristimulus lm T). Qed.
Print Assumptions C139_tristimulus.
Example C139_library : exists lm, accurate64 lm.
Proof. exact accurate64_exists. Qed.
Example C139_case (lm : libm) : fin (@flit (FN lm) 2856%dec) /\ 100 <= B2R (@flit (FN lm) 2856%dec) <= 1e7.
Proof. exact (bb_case lm). Qed.
