(** * Properties C86-: the predefined gamuts against the standards that define them.

    [finV]: the triple of those real numbers in the model (RTac.v); [xyz p] = (x, y, 1-x-y),
    [white w]: the XYZ of luminance 1 and chromaticity [w], [cone t]: the published Bradford
    matrix applied to [t] (PGamut.v). *)
From Coq Require Import ZArith Reals Lra Lia List.
From Flocq Require Import Core BinarySingleNaN.
From Verif Require Import Num NumR NumF MVec MTri MOtf MSpectrum MDelta Tables SpecMat RTac F32 PMat PTri PMatF PGamut PGamut2 PSpec PTables PMono PD65 PICtCp.
Import ListNotations.
Local Open Scope R_scope.

(** C86: [has_primaries G r g b w]: primaryRed, primaryGreen, primaryBlue and primaryWhite of [G]
    are those of chromaticities r, g, b and white w. *)
Theorem C86_primaries :
  has_primaries (AdobeRGB RN) (0.64, 0.33) (0.21, 0.71) (0.15, 0.06) (0.3127, 0.329) /\
  has_primaries (Rec709 RN) (0.64, 0.33) (0.3, 0.6) (0.15, 0.06) (0.3127, 0.329) /\
  has_primaries (Rec2020 RN) (0.708, 0.292) (0.17, 0.797) (0.131, 0.046) (0.3127, 0.329) /\
  has_primaries (DCI_P3 RN) (0.68, 0.32) (0.265, 0.69) (0.15, 0.06) (0.314, 0.351) /\
  has_primaries (S_Gamut RN) (0.73, 0.28) (0.14, 0.855) (0.1, -0.05) (0.3127, 0.329) /\
  has_primaries (S_Gamut3_Cine RN) (0.766, 0.275) (0.225, 0.8) (0.089, -0.087) (0.3127, 0.329) /\
  has_primaries (ACEScg RN) (0.713, 0.293) (0.165, 0.83) (0.128, 0.044) (0.32168, 0.33767) /\
  has_primaries (ACES2065 RN) (0.7347, 0.2653) (0, 1) (0.0001, -0.077) (0.32168, 0.33767).
Proof. exact predefined_pub. Qed.
Print Assumptions C86_primaries.
(** [luma_near G kr kg kb e]: for all r, g, b the luminance of the linear colour (r,g,b) in [G] is a
    weighted sum of weight 1, with weights within [e] of kr, kg, kb. *)
Theorem C86_luminance :
  luma_near (Rec709 RN) 0.2126 0.7152 0.0722 0.0001 /\
  luma_near (Rec2020 RN) 0.2627 0.6780 0.0593 0.0001 /\
  luma_near (ACEScg RN) 0.2722287168 0.6740817658 0.0536895174 0.0001 /\
  luma_near (ACES2065 RN) 0.3439664498 0.7281660966 (-0.0721325464) 0.0001.
Proof. exact predefined_luma. Qed.
Print Assumptions C86_luminance.
Theorem C86_XYZ_and_LMS (t : Vector3 R) :
  G_toXYZ_t RN (XYZ_gamut RN) (finV t) = finV t /\ G_fromXYZ_t RN (XYZ_gamut RN) (finV t) = finV t /\
  G_fromXYZ_t RN (LMS RN) (finV t) = finV (cone t).
Proof. exact (conj (proj1 (XYZ_same t)) (conj (proj2 (XYZ_same t)) (LMS_is_cone t))). Qed.
Print Assumptions C86_XYZ_and_LMS.
Example C86_case : primaryGreen RN (Rec709 RN) = finV (V3 0.3 0.6 (1 - 0.3 - 0.6)) /\
  cone (V3 1 1 1) = V3 1.0001 1 1.
Proof. exact C86_ex. Qed.

(** C87: every multiple of the tabulated D65 spectrum, seen by the CIE 1931 observer. *)
Theorem C87_D65_spectrum_is_D65 (k : R) : exists t x y,
  fromSpectrum RN (CIE1931 RN) (S_scale RN (CIE_D65 RN) (Some k)) = finV t /\
  Illuminant_D65 RN = finV (V3 0.95047 1 1.08883) /\
  Rabs (v0 t - 0.95047 * v1 t) <= 0.0002 * Rabs (v1 t) /\ Rabs (v2 t - 1.08883 * v1 t) <= 0.0002 * Rabs (v1 t) /\
  Rabs (v1 t - 98.89 * k) <= 0.01 * Rabs k /\
  toYxy RN (finV t) = finV (V3 (v1 t) x y) /\ Rabs (x - 0.3127) <= 0.0001 /\ Rabs (y - 0.3290) <= 0.0001.
Proof. exact (C87_l k). Qed.
Print Assumptions C87_D65_spectrum_is_D65.
Example C87_case : exists t, fromSpectrum RN (CIE1931 RN) (S_scale RN (CIE_D65 RN) (Some 1)) = finV t /\ 98 < v1 t.
Proof. exact C87_ex. Qed.

(** C88, binary32.  [okS s]: 400 finite non-negative samples; [rangeF B s]: 400 finite samples
    between 0 and B; B30 = 2^30; [belowS a b]: every sample of [a] is at most that of [b]. *)
Theorem C88_dot_monotone (lm : libm) (a b x : list f32) : okS a -> okS b -> okS x -> belowS a b ->
  @fleb (FN lm) (S_dot (FN lm) a x) (S_dot (FN lm) b x) = true.
Proof. exact (C88_dot_l lm a b x). Qed.
Print Assumptions C88_dot_monotone.
Theorem C88_reflectance_monotone (lm : libm) (o : Observer (FN lm)) (r r' l : list f32) :
  rangeF B30 (o_X o) -> rangeF B30 (o_Y o) -> rangeF B30 (o_Z o) ->
  allV (fun x : f32 => is_finite x = true /\ 0 <= B2R x) (o_normalize o) ->
  rangeF B30 r -> rangeF B30 r' -> rangeF B30 l -> belowS r r' ->
  let t := fromReflectanceAndLight (FN lm) o r l in let t' := fromReflectanceAndLight (FN lm) o r' l in
  @fleb (FN lm) (v0 t) (v0 t') = true /\ @fleb (FN lm) (v1 t) (v1 t') = true /\ @fleb (FN lm) (v2 t) (v2 t') = true.
Proof. exact (fun X Y Z M => C88_l lm o r r' l (conj X (conj Y (conj Z M)))). Qed.
Print Assumptions C88_reflectance_monotone.
(** the hypotheses on the observer hold for the predefined ones. *)
Theorem C88_predefined_observers (lm : libm) : forall o, In o [CIE1931 (FN lm); CIE31JV (FN lm); CIE2012 (FN lm)] ->
  rangeF B30 (o_X o) /\ rangeF B30 (o_Y o) /\ rangeF B30 (o_Z o) /\
  allV (fun x : f32 => is_finite x = true /\ 0 <= B2R x) (o_normalize o).
Proof. exact (pre_okN lm). Qed.
Print Assumptions C88_predefined_observers.
Example C88_case (lm : libm) : let a := spectrum_of (FN lm) T_Macbeth36 in let b := spectrum_of (FN lm) T_Macbeth31 in
  rangeF B30 a /\ rangeF B30 b /\ belowS a b /\ B2R (nth 100 a (B754_nan : f32)) < B2R (nth 100 b (B754_nan : f32)).
Proof. exact (C88_ex lm). Qed.

(** C89: patches 18 to 23 of the chart are the greys, from white to black. *)
Theorem C89_greys_ordered (X Y Z l : list R) (k : nat) (d : Vector3 (F RN)) :
  obs_ok X Y Z -> nonneg X -> nonneg Y -> nonneg Z -> spectrumR l -> nonneg l -> (k < 5)%nat ->
  let p j := nth (18 + j) (Macbeth_reference RN (Macbeth_Patch RN) (finS l) (observerR X Y Z)) d in
  exists t t', p (S k) = finV t /\ p k = finV t' /\ 0 <= v0 t <= v0 t' /\ 0 <= v1 t <= v1 t' /\ 0 <= v2 t <= v2 t'.
Proof. exact (C89_real_l X Y Z l k d). Qed.
Print Assumptions C89_greys_ordered.
Theorem C89_greys_ordered_binary32 (lm : libm) (o : Observer (FN lm)) (l : list f32) (k : nat) (d : Vector3 f32) :
  In o [CIE1931 (FN lm); CIE31JV (FN lm); CIE2012 (FN lm)] -> rangeF B30 l -> (k < 5)%nat ->
  let p j := nth (18 + j) (Macbeth_reference (FN lm) (Macbeth_Patch (FN lm)) l o) d in
  @fleb (FN lm) (v0 (p (S k))) (v0 (p k)) = true /\ @fleb (FN lm) (v1 (p (S k))) (v1 (p k)) = true /\
  @fleb (FN lm) (v2 (p (S k))) (v2 (p k)) = true.
Proof. exact (fun I => C89_float_l lm o l k d (pre_okN lm o I)). Qed.
Print Assumptions C89_greys_ordered_binary32.
Example C89_case (lm : libm) : length (Macbeth_reference (FN lm) (Macbeth_Patch (FN lm)) (CIE_D65 (FN lm)) (CIE1931 (FN lm))) = 24%nat /\
  rangeF B30 (CIE_D65 (FN lm)).
Proof. exact (C89_ex lm). Qed.

(** C90.  [cones t c]: the cone responses of [t] (the library's own matrix) are [c]. *)
Theorem C90_ictcp_round_trip_refuted :
  (exists t c, cones t c /\ 0 <= v0 c <= 100 /\ 0 <= v1 c <= 100 /\ 0 <= v2 c <= 100 /\
    ICtCp_to_XYZ RN (XYZ_to_ICtCp RN (finV t)) = V3 None None None) /\
  (forall z, 0 < z -> ICtCp_to_XYZ RN (XYZ_to_ICtCp RN (finV (V3 0 0 z))) = V3 None None None).
Proof. exact (conj C90_refuted_l C90_refuted_Z). Qed.
Print Assumptions C90_ictcp_round_trip_refuted.
(** [c] and [c'] are the cone responses before and after, [p] and [p'] their PQ codes. *)
Theorem C90_ictcp_round_trip_partial (t c p : Vector3 R) : cones t c ->
  Y_to_ST2084 RN (Some (v0 c)) = Some (v0 p) -> Y_to_ST2084 RN (Some (v1 c)) = Some (v1 p) ->
  Y_to_ST2084 RN (Some (v2 c)) = Some (v2 p) ->
  2e-6 <= v0 p -> 2e-6 <= v1 p -> 2e-6 <= v2 p ->
  exists t' c' p', ICtCp_to_XYZ RN (XYZ_to_ICtCp RN (finV t)) = finV t' /\ cones t' c' /\
    Y_to_ST2084 RN (Some (v0 c')) = Some (v0 p') /\ Y_to_ST2084 RN (Some (v1 c')) = Some (v1 p') /\
    Y_to_ST2084 RN (Some (v2 c')) = Some (v2 p') /\
    Rabs (v0 p' - v0 p) <= 3e-6 /\ Rabs (v1 p' - v1 p) <= 3e-6 /\ Rabs (v2 p' - v2 p) <= 3e-6.
Proof. exact (C90_partial_l t c p). Qed.
Print Assumptions C90_ictcp_round_trip_partial.
Example C90_case : exists t c, cones t c /\ Y_to_ST2084 RN (Some (v0 c)) = Some 0.5 /\
  Y_to_ST2084 RN (Some (v1 c)) = Some 0.25 /\ Y_to_ST2084 RN (Some (v2 c)) = Some 0.75.
Proof. exact C90_ex. Qed.
