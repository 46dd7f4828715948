(** * Property C146: ICtCp and its colour difference in binary32. *)
From Coq Require Import ZArith Reals List.
From Flocq Require Import Core BinarySingleNaN.
From Verif Require Import Num NumF NumR RTac SpecMat MVec MTri MOtf MDelta F32 PLibm PDelta PMat PICtStd PIctF.
Local Open Scope R_scope.

(** [seen3 t]: finite components, and each exact cone response a*X + b*Y + c*Z lies between 2^-48 and 2^100 and is at least a third of |a*X| + |b*Y| + |c*Z|.
    [valV t]: the real numbers held by the components. *)
Theorem C146_accuracy (lm : libm) : accurate lm -> forall t, seen3 t -> exists i, XYZ_to_ICtCp RN (finV (valV t)) = finV i /\ let f := XYZ_to_ICtCp (FN lm) t in finite3 f /\
  Rabs (B2R (v0 f) - v0 i) <= 0.0000264 /\ Rabs (B2R (v1 f) - v1 i) <= 0.000176 /\ Rabs (B2R (v2 f) - v2 i) <= 0.000231.
Proof. exact (ictcp_accuracy lm). Qed.
Print Assumptions C146_accuracy.
Theorem C146_difference (lm : libm) : accurate lm -> forall s t, seen3 s -> seen3 t -> exists d, Delta_ICtCp RN (finV (valV s)) (finV (valV t)) = Some d /\
  is_finite (Delta_ICtCp (FN lm) s t) = true /\ Rabs (B2R (Delta_ICtCp (FN lm) s t) - d) <= 0.000501.
Proof. exact (ictcp_difference lm). Qed.
Print Assumptions C146_difference.
(** The just noticeable difference, 1/720, is told from differences below 0.00088 and above 0.0019. *)
Theorem C146_threshold (lm : libm) : accurate lm -> forall s t d, seen3 s -> seen3 t -> Delta_ICtCp RN (finV (valV s)) (finV (valV t)) = Some d ->
  (d <= 0.00088 -> B2R (Delta_ICtCp (FN lm) s t) < / 720) /\ (0.0019 <= d -> / 720 < B2R (Delta_ICtCp (FN lm) s t)).
Proof. exact (ictcp_jnd lm). Qed.
Print Assumptions C146_threshold.
(** Every colour inside the BT.2020 gamut is seen by the three cones. *)
Theorem C146_Rec2020 (t : Vector3 f32) r g b : finite3 t -> 0 <= r -> 0 <= g -> 0 <= b -> bpow radix2 (-40) <= r + g + b <= bpow radix2 60 ->
  G_toXYZ_t RN (Rec2020 RN) (finV (V3 r g b)) = finV (valV t) -> seen3 t.
Proof. exact (seen_2020 t r g b). Qed.
Print Assumptions C146_Rec2020.
(** Black, and colours beyond 10000 cd/m2 in all cones, are exact with any library. *)
Theorem C146_black (lm : libm) : bitsV (XYZ_to_ICtCp (FN lm) (V3 (@flit (FN lm) 0%dec) (@flit (FN lm) 0%dec) (@flit (FN lm) 0%dec))) =
  V3 (SpecFloat.S754_zero false) (SpecFloat.S754_zero false) (SpecFloat.S754_zero false).
Proof. exact (ictcp_zero lm). Qed.
Print Assumptions C146_black.
Theorem C146_peak (lm : libm) (t : Vector3 f32) : seen3 t -> let c := applyR hpe (valV t) in 101 <= v0 c -> 101 <= v1 c -> 101 <= v2 c ->
  bitsV (XYZ_to_ICtCp (FN lm) t) = V3 (SpecFloat.S754_finite false 8388608 (-23)) (SpecFloat.S754_zero false) (SpecFloat.S754_zero false).
Proof. exact (ictcp_peak lm t). Qed.
Print Assumptions C146_peak.
Example C146_case (lm : libm) : seen3 (V3 (@flit (FN lm) 0.5%dec) (@flit (FN lm) 1%dec) (@flit (FN lm) 0.25%dec)).
Proof. exact (seen_white lm). Qed.
Example C146_peak_case (lm : libm) : let t := V3 (@flit (FN lm) 512%dec) (@flit (FN lm) 512%dec) (@flit (FN lm) 512%dec) in
  seen3 t /\ 101 <= v0 (applyR hpe (valV t)) /\ 101 <= v1 (applyR hpe (valV t)) /\ 101 <= v2 (applyR hpe (valV t)).
Proof. exact (seen_peak lm). Qed.
Example C146_Rec2020_case (lm : libm) : let t := V3 (@flit (FN lm) 512%dec) (@flit (FN lm) 512%dec) (@flit (FN lm) 512%dec) in exists r g b,
  finite3 t /\ 0 <= r /\ 0 <= g /\ 0 <= b /\ bpow radix2 (-40) <= r + g + b <= bpow radix2 60 /\ G_toXYZ_t RN (Rec2020 RN) (finV (V3 r g b)) = finV (valV t).
Proof. exact (seen_2020_case lm). Qed.
