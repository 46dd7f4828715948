(** * Properties C37-C41: Oklab, ICtCp and colour differences. *)
From Coq Require Import ZArith Reals Lra.
From Flocq Require Import Core BinarySingleNaN.
From Verif Require Import Num NumR NumF MVec MTri MOtf MDelta RTac SpecMat PGamut SpecDelta PDelta PDeltaF PE00 PE00b.
Local Open Scope R_scope.

(** C37 *)
Theorem C37_oklab_round_trip (t : Vector3 R) :
  OKLAB_to_XYZ RN (XYZ_to_OKLAB RN (finV t)) = finV t /\
  XYZ_to_OKLAB RN (OKLAB_to_XYZ RN (finV t)) = finV t.
Proof. exact (C37_l t). Qed.
Print Assumptions C37_oklab_round_trip.
Theorem C37_oklab_scaling (t : Vector3 R) (k : R) : exists lab,
  XYZ_to_OKLAB RN (finV t) = finV lab /\
  XYZ_to_OKLAB RN (finV (scaleV (k * k * k) t)) = finV (scaleV k lab).
Proof. exact (C37_scale_l t k). Qed.
Print Assumptions C37_oklab_scaling.
(** a colour with a negative component, scaled by 8 = 2^3. *)
Example C37_case : scaleV (2 * 2 * 2) (V3 (-0.1) 0.5 1) = V3 (-0.8) 4 8.
Proof. unfold scaleV. cbn [v0 v1 v2]. f_equal; lra. Qed.

(** C38: the hypothesis says that the cone responses of [t] are all [k]. *)
Theorem C38_ictcp_neutral (t : Vector3 R) (k : R) :
  G_fromXYZ_t RN (HPE_LMS RN) (finV t) = finV (V3 k k k) ->
  exists i, XYZ_to_ICtCp RN (finV t) = finV (V3 i 0 0) /\
  (0 <= k <= 100 -> ICtCp_to_XYZ RN (XYZ_to_ICtCp RN (finV t)) = finV t).
Proof. exact (C38_l t k). Qed.
Print Assumptions C38_ictcp_neutral.
Theorem C38_ictcp_intensity_range (t : Vector3 R) : exists i ct cp,
  XYZ_to_ICtCp RN (finV t) = finV (V3 i ct cp) /\ 0 <= i <= 1.
Proof. exact (C38_range_l t). Qed.
Print Assumptions C38_ictcp_intensity_range.
Example C38_case (k : R) : exists t, G_fromXYZ_t RN (HPE_LMS RN) (finV t) = finV (V3 k k k).
Proof. exact (C38_ex k). Qed.

(** C39.  [metric d] (PDelta.v): [d] always has a finite value, is non-negative,
    symmetric, zero on equal arguments and satisfies the triangle inequality. *)
Theorem C39_euclidean_differences_are_metrics :
  metric (Delta_E76 RN) /\ metric (Delta_UV RN) /\ metric (Delta_ICtCp RN).
Proof. exact C39_l. Qed.
Print Assumptions C39_euclidean_differences_are_metrics.
Theorem C39_E76_zero_iff_equal (p q : Vector3 R) : Delta_E76 RN (finV p) (finV q) = Some 0 <-> p = q.
Proof. exact (C39_zero_l p q). Qed.
Print Assumptions C39_E76_zero_iff_equal.
(** bit for bit in binary32, NaNs and infinities included. *)
Theorem C39_symmetric_binary32 (lm : libm) (p q : Vector3 f32) :
  Delta_E76 (FN lm) p q = Delta_E76 (FN lm) q p /\ Delta_UV (FN lm) p q = Delta_UV (FN lm) q p /\
  Delta_ICtCp (FN lm) p q = Delta_ICtCp (FN lm) q p.
Proof. exact (C39_f32_l lm p q). Qed.
Print Assumptions C39_symmetric_binary32.
Theorem C39_zero_binary32 (lm : libm) (p : Vector3 f32) :
  is_finite (v0 p) = true -> is_finite (v1 p) = true -> is_finite (v2 p) = true ->
  Delta_E76 (FN lm) p p = B754_zero false /\ Delta_UV (FN lm) p p = B754_zero false.
Proof. exact (C39_f32_zero_l lm p). Qed.
Print Assumptions C39_zero_binary32.
Example C39_case : Delta_E76 RN (finV (V3 50 3 4)) (finV (V3 50 0 0)) = Some 5.
Proof. exact C39_ex. Qed.
Example C39_case_f32 : exists a, is_finite (v0 a) = true /\ is_finite (v1 a) = true /\ is_finite (v2 a) = true /\
  B2SF (Delta_E76 (FN no_libm) a (V3 (B754_zero false) (B754_zero false) (B754_zero true))) <> SpecFloat.S754_zero false.
Proof. exact C39_ex_f32. Qed.

(** C40 *)
Theorem C40_E00_well_defined_symmetric_definite (p q : Vector3 R) (kl kc kh : R) :
  0 < kl -> 0 < kc -> 0 < kh -> exists d,
  Delta_E00 RN (finV p) (finV q) (Some kl) (Some kc) (Some kh) = Some d /\ 0 <= d /\
  Delta_E00 RN (finV q) (finV p) (Some kl) (Some kc) (Some kh) = Some d /\ (d = 0 <-> p = q).
Proof. exact (C40_l p q kl kc kh). Qed.
Print Assumptions C40_E00_well_defined_symmetric_definite.
Example C40_case : 0 < 1 /\ 0 < 2 /\ V3 50 2.6772 (-79.7751) <> V3 50 0 (-82.7485).
Proof. exact C40_ex. Qed.

(** C41.  [CIEDE2000] and [cie_hues] (SpecDelta.v) are the published formula and
    its two hue angles. *)
Theorem C41_E00_is_CIEDE2000_refuted : exists p q : Vector3 R,
  Delta_E00 RN (finV p) (finV q) (Some 1) (Some 1) (Some 1) <> Some (CIEDE2000 p q 1 1 1).
Proof. exact C41_l. Qed.
Print Assumptions C41_E00_is_CIEDE2000_refuted.
Theorem C41_E00_is_CIEDE2000_partial (p q : Vector3 R) (kl kc kh : R) : 0 < kl -> 0 < kc -> 0 < kh ->
  let (h1, h2) := cie_hues p q in Rabs (h1 - h2) <= 180 \/ h1 + h2 < 360 ->
  Delta_E00 RN (finV p) (finV q) (Some kl) (Some kc) (Some kh) = Some (CIEDE2000 p q kl kc kh).
Proof. exact (C41_partial_l p q kl kc kh). Qed.
Print Assumptions C41_E00_is_CIEDE2000_partial.
Theorem C41_E00_close_to_CIEDE2000_partial (p q : Vector3 R) (kl kc kh : R) : 0 < kl -> 0 < kc -> 0 < kh ->
  exists d, Delta_E00 RN (finV p) (finV q) (Some kl) (Some kc) (Some kh) = Some d /\
  Rabs (d - CIEDE2000 p q kl kc kh) <= 3e-5 * CIEDE2000 p q kl kc kh.
Proof. exact (C41_close_l p q kl kc kh). Qed.
Print Assumptions C41_E00_close_to_CIEDE2000_partial.
Example C41_case : let (h1, h2) := cie_hues (V3 50 2 1) (V3 40 1 3) in Rabs (h1 - h2) <= 180 \/ h1 + h2 < 360.
Proof. exact C41_ex. Qed.
