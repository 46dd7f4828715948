(** * Property C164: Oklab there and back when the compiler fuses multiplications and additions.

    [to_oklab lm t lab], [of_oklab lm lab t] (PFma6.v): [lab] is a value of [XYZ_to_OKLAB] of [t], [t] a value of [OKLAB_to_XYZ] of [lab], for
    some choice of fused operations.  [cbrt_ok lm]: the library's [cbrtf] has relative error at most 4u (POkF.v). *)
From Coq Require Import ZArith Reals.
From Flocq Require Import Core BinarySingleNaN.
From Verif Require Import Num NumF MVec MTri MDelta MFma F32 PMatF PGamF PGamF2 POkF PFma6.
Local Open Scope R_scope.

(** C164: the bound of C120 holds for every choice. *)
Theorem C164_round_trip (lm : libm) (t lab t' : Vector3 f32) : cbrt_ok lm -> allV fin t -> norm3 t <= 1e30 -> to_oklab lm t lab -> of_oklab lm lab t' ->
  allV fin t' /\ Rabs (B2R (v0 t') - B2R (v0 t)) <= 540 * u * norm3 t + 1e-37 /\
  Rabs (B2R (v1 t') - B2R (v1 t)) <= 540 * u * norm3 t + 1e-37 /\ Rabs (B2R (v2 t') - B2R (v2 t)) <= 540 * u * norm3 t + 1e-37.
Proof. exact (oklab_fused lm t lab t'). Qed.
Print Assumptions C164_round_trip.
(** Fusing nothing is one of the choices. *)
Theorem C164_unfused (lm : libm) (t lab : Vector3 f32) : to_oklab lm t (XYZ_to_OKLAB (FN lm) t) /\ of_oklab lm lab (OKLAB_to_XYZ (FN lm) lab).
Proof. exact (oklab_unfused lm t lab). Qed.
Print Assumptions C164_unfused.
(** The choice does change the result. *)
Theorem C164_choice_matters (lm : libm) : exists lab t t', of_oklab lm lab t /\ of_oklab lm lab t' /\ B2R (v0 t) <> B2R (v0 t').
Proof. exact (oklab_matters lm). Qed.
Print Assumptions C164_choice_matters.
(** Such libraries exist, and the D65 white is within the hypotheses. *)
Example C164_case : exists lm, cbrt_ok lm /\ let t : Vector3 f32 := Illuminant_D65 (FN lm) in
  allV fin t /\ norm3 t <= 1e30 /\ exists lab t', to_oklab lm t lab /\ of_oklab lm lab t'.
Proof. exact case164. Qed.
Print Assumptions C164_case.
