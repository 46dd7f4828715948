(** * Property C155. *)
From Coq Require Import ZArith Reals.
From Flocq Require Import Core BinarySingleNaN.
From Verif Require Import Num NumF MVec F32 PMatF PNearF PGamF PCross.
Local Open Scope R_scope.

(** C155: crosstalk matrices in binary32, for 0 <= r <= 0.2001.  Mixing and unmixing, in either order, gives every colour back
    within 50 * 2^-24 of its largest component ([back], PGamF.v; 2^-150 granularity near zero). *)
Theorem C155_crosstalk_round_trip (lm : libm) (r : f32) (t : Vector3 f32) :
  fin r -> 0 <= B2R r <= 0.2001 -> allV fin t -> norm3 t <= bpow radix2 110 ->
  back t (M_apply (FN lm) (M_crosstalkInvert (FN lm) r) (M_apply (FN lm) (M_crosstalk (FN lm) r) t)) /\
  back t (M_apply (FN lm) (M_crosstalk (FN lm) r) (M_apply (FN lm) (M_crosstalkInvert (FN lm) r) t)).
Proof. exact (crosstalk_back lm r t). Qed.
Print Assumptions C155_crosstalk_round_trip.
(** Neutrals move by at most 6 * 2^-24 relative. *)
Theorem C155_crosstalk_neutral (lm : libm) (r g : f32) : fin r -> 0 <= B2R r <= 0.2001 -> fin g -> Rabs (B2R g) <= bpow radix2 110 ->
  allV (fun x => near x (B2R g) (6 * u * Rabs (B2R g) + 4 * eta)) (M_apply (FN lm) (M_crosstalk (FN lm) r) (V3 g g g)).
Proof. exact (crosstalk_grey lm r g). Qed.
Print Assumptions C155_crosstalk_neutral.
(** They do not stay neutral exactly: white comes out with a third component above the first. *)
Theorem C155_neutral_not_exact (lm : libm) : exists r g : f32, fin r /\ 0 <= B2R r <= 0.2001 /\ fin g /\ B2R g = 1 /\
  let t := M_apply (FN lm) (M_crosstalk (FN lm) r) (V3 g g g) in B2R (v0 t) < B2R (v2 t).
Proof. exact (crosstalk_white_split lm). Qed.
Print Assumptions C155_neutral_not_exact.
Example C155_case : let r := lit 24 128 p24 p24e 0.1%dec in let t := V3 (lit 24 128 p24 p24e 0.18%dec) (lit 24 128 p24 p24e (-2.5)%dec) (lit 24 128 p24 p24e 1000%dec) in
  fin r /\ 0 <= B2R r <= 0.2001 /\ allV fin t /\ norm3 t <= bpow radix2 110.
Proof. exact cross_case. Qed.
