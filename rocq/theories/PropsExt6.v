(** * Properties C105-C108: Oklab, Planck's law and the Planckian approximations. *)
From Coq Require Import ZArith Reals Lra.
From Verif Require Import Num NumR MVec MTri MSpectrum MDelta SpecMat RTac PTri PCct SpecOklab POklab SpecPlanck PPlanck PCt PCt2.
Local Open Scope R_scope.

(** C105: [published_oklab t lab] (SpecOklab.v): [lab] is the published Oklab colour of
    [t].  False: on the X axis the lightness has the wrong sign, and white is not neutral. *)
Theorem C105_oklab_published_refuted : exists (t lab ok : Vector3 R),
  XYZ_to_OKLAB RN (finV t) = finV lab /\ published_oklab t ok /\ v0 lab < - 0.05 /\ 0.4 < v0 ok.
Proof. exact C105_l. Qed.
Print Assumptions C105_oklab_published_refuted.
Theorem C105_oklab_white_refuted : exists (t lab ok : Vector3 R), t = V3 0.95047 1 1.08883 /\
  XYZ_to_OKLAB RN (finV t) = finV lab /\ published_oklab t ok /\
  Rabs (v0 ok - 1) < 0.001 /\ Rabs (v1 ok) < 0.001 /\ Rabs (v2 ok) < 0.001 /\ 0.05 < v1 lab /\ v2 lab < - 0.016.
Proof. exact C105_white_l. Qed.
Print Assumptions C105_oklab_white_refuted.
(** true when X is zero; *)
Theorem C105_oklab_partial (Y Z : R) (lab : Vector3 R) :
  XYZ_to_OKLAB RN (finV (V3 0 Y Z)) = finV lab <-> published_oklab (V3 0 Y Z) lab.
Proof. exact (C105_agree_l Y Z lab). Qed.
Print Assumptions C105_oklab_partial.
(** in general the published formula with the sign of one coefficient changed. *)
Theorem C105_oklab_form_partial (t : Vector3 R) : exists l m s : R,
  l ^ 3 = 0.8189330101 * v0 t + 0.3618667424 * v1 t - 0.1288597137 * v2 t /\
  m ^ 3 = - 0.0329845436 * v0 t + 0.9293118715 * v1 t + 0.0361456387 * v2 t /\
  s ^ 3 = 0.0482003018 * v0 t + 0.2643662691 * v1 t + 0.6338517070 * v2 t /\
  XYZ_to_OKLAB RN (finV t) = finV (V3 (0.2104542553 * l + 0.7936177850 * m - 0.0040720468 * s)
           (1.9779984951 * l - 2.4285922050 * m + 0.4505937099 * s)
           (0.0259040371 * l + 0.7827717662 * m - 0.8086757660 * s)).
Proof. exact (C105_form_l t). Qed.
Print Assumptions C105_oklab_form_partial.
(** a light with X = 0 and its Oklab colour: l = 0, m = 1, s = 1. *)
Example C105_case : exists Y Z : R, 1 < Y /\ 0 < Z /\ 0 ^ 3 = 0.3618667424 * Y - 0.1288597137 * Z.
Proof. exists (1.288597137), (3.618667424). lra. Qed.

(** C106: [planck_law h c k T l] is Planck's law (SpecPlanck.v), [ch], [cc], [ck] the constants declared
    in the code.  The radiance returned is 0.081 % too small. *)
Theorem C106_planck_law_refuted : exists T l p, 0 < T /\ 0 < l /\ planck RN (Some T) (Some l) = Some p /\
  0 < p <= (1 - 0.000810) * (planck_law ch cc ck T l / 1e9).
Proof. exact C106_refuted_l. Qed.
Print Assumptions C106_planck_law_refuted.
Theorem C106_planck_law_partial (T l : R) : 0 < T -> 0 < l -> 0.00001 <= l * T -> exists p,
  planck RN (Some T) (Some l) = Some p /\
  (1 - 0.000813) * (planck_law ch cc ck T l / 1e9) <= p <= (1 - 0.000810) * (planck_law ch cc ck T l / 1e9).
Proof. exact (C106_l T l). Qed.
Print Assumptions C106_planck_law_partial.
Example C106_case : ch = 6.62606896e-34 /\ cc = 2.99792458e8 /\ ck = 1.38064880e-23 /\ 0.00001 <= 0.000000380 * 1000.
Proof. repeat split; lra. Qed.

(** C107 *)
Theorem C107_fromCT_monotone (T1 T2 Y : R) : 0 <= T1 -> T1 < T2 -> T2 <= 13000 -> 0.000001 <= Y -> exists x1 y1 x2 y2,
  toYxy RN (fromCT RN (Some T1) (Some Y)) = finV (V3 Y x1 y1) /\
  toYxy RN (fromCT RN (Some T2) (Some Y)) = finV (V3 Y x2 y2) /\ x2 < x1.
Proof. exact (C107_ct_l T1 T2 Y). Qed.
Print Assumptions C107_fromCT_monotone.
Theorem C107_locus_monotone (T1 T2 Y : R) : 1667 <= T1 -> T1 < T2 -> 0.000001 <= Y -> exists x1 y1 x2 y2,
  toYxy RN (fromPlanckianLocus RN (Some T1) (Some Y)) = finV (V3 Y x1 y1) /\
  toYxy RN (fromPlanckianLocus RN (Some T2) (Some Y)) = finV (V3 Y x2 y2) /\ x2 < x1.
Proof. exact (C107_locus_l T1 T2 Y). Qed.
Print Assumptions C107_locus_monotone.
Theorem C107_approximations_agree (T Y : R) : 1667 <= T <= 10000 -> 0.000001 <= Y -> exists x1 y1 x2 y2,
  toYxy RN (fromCT RN (Some T) (Some Y)) = finV (V3 Y x1 y1) /\
  toYxy RN (fromPlanckianLocus RN (Some T) (Some Y)) = finV (V3 Y x2 y2) /\
  Rabs (x1 - x2) <= 0.00107 /\ Rabs (y1 - y2) <= 0.0043.
Proof. exact (C107_agree_l T Y). Qed.
Print Assumptions C107_approximations_agree.
Example C107_case : 1667 <= 2856 /\ 2856 < 6504 /\ 6504 <= 10000 /\ 0.000001 <= 1.
Proof. lra. Qed.
(** the offset-free call of C20 is [fromCT] at every temperature up to 13000 K. *)
Theorem C20_zero_offset_temperatures (T Y : R) : 1 <= T <= 13000 ->
  fromCCT_sq RN exact_sqrt (Some T) (Some 0) (Some Y) = Ret (fromCT RN (Some T) (Some Y)).
Proof. exact (C20_all_l T Y). Qed.
Print Assumptions C20_zero_offset_temperatures.

(** C108: false at every temperature above T0, between 13073 and 13074 K, for [fromCT]. *)
Theorem C108_realisable_refuted : exists T Y X Z : R, 1667 <= T <= 25000 /\ 0 < Y /\
  fromCT RN (Some T) (Some Y) = finV (V3 X Y Z) /\ X < 0.
Proof. exact C108_refuted_l. Qed.
Print Assumptions C108_realisable_refuted.
Theorem C108_fromCT_partial : exists T0, 13073 < T0 < 13074 /\ forall T Y, 1100 <= T -> 0 < Y -> exists X Z,
  fromCT RN (Some T) (Some Y) = finV (V3 X Y Z) /\ (T < T0 -> 0 < X /\ 0 < Z) /\ (T = T0 -> X = 0) /\ (T0 < T -> X < 0).
Proof. exact ct_threshold. Qed.
Print Assumptions C108_fromCT_partial.
Theorem C108_locus_partial (T Y : R) : 1667 <= T -> 0 < Y -> exists X Z,
  fromPlanckianLocus RN (Some T) (Some Y) = finV (V3 X Y Z) /\ 0 < X /\ 0 < Z.
Proof. exact (C108_locus_l T Y). Qed.
Print Assumptions C108_locus_partial.
Example C108_case : 1100 <= 6504 < 13073 /\ 13074 < 15000 /\ 1667 <= 6504.
Proof. lra. Qed.
