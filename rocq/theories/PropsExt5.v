(** * Properties C102-: coverage and containment of the predefined gamuts.

    [gam n N] is the predefined gamut named [n] in the arithmetic [N] (PCover.v).
    [norm3 t] is the largest absolute component, [u] = 2^-24. *)
From Coq Require Import ZArith Reals Lra Lia List.
From Flocq Require Import Core BinarySingleNaN.
From Verif Require Import Num NumR NumF MVec MTri MSpectrum Tables RTac F32 PMatF PGamF PSpec PTables PCover.
Import ListNotations.
Local Open Scope R_scope.

(** C102.  [mono i] is the light of the single wavelength 380 + i nm. *)
Theorem C102_aces_contains_every_light (o : Observer RN) (s : list R) :
  In o [CIE1931 RN; CIE31JV RN; CIE2012 RN] -> spectrumR s -> nonneg s -> exists t c,
  fromSpectrum RN o (finS s) = finV t /\ G_fromXYZ_t RN (ACES2065 RN) (finV t) = finV c /\ 0 <= v0 c /\ 0 <= v1 c /\ 0 <= v2 c.
Proof. exact (C102_cover_l o s). Qed.
Print Assumptions C102_aces_contains_every_light.
Theorem C102_aces_contains_every_surface (o : Observer RN) (r l : list R) :
  In o [CIE1931 RN; CIE31JV RN; CIE2012 RN] -> spectrumR r -> nonneg r -> spectrumR l -> nonneg l -> exists t c,
  fromReflectanceAndLight RN o (finS r) (finS l) = finV t /\ G_fromXYZ_t RN (ACES2065 RN) (finV t) = finV c /\
  0 <= v0 c /\ 0 <= v1 c /\ 0 <= v2 c.
Proof. exact (C102_reflect_l o r l). Qed.
Print Assumptions C102_aces_contains_every_surface.
Theorem C102_no_other (n : gname) (o : Observer RN) :
  In n [gAdobeRGB; gRec709; gRec2020; gDCI_P3; gS_Gamut; gS_Gamut3_Cine; gACEScg] -> In o [CIE1931 RN; CIE31JV RN; CIE2012 RN] ->
  exists t c, fromSpectrum RN o (finS (mono 120)) = finV t /\ G_fromXYZ_t RN (gam n RN) (finV t) = finV c /\
  (v0 c < 0 \/ v1 c < 0 \/ v2 c < 0).
Proof. exact (C102_others_l n o). Qed.
Print Assumptions C102_no_other.
Example C102_case : spectrumR (mono 120) /\ nonneg (mono 120) /\ smp (mono 120) 120 = 1.
Proof. split; [apply mono_ok|]. split; [apply mono_ok|]. now rewrite mono_smp by lia. Qed.

(** C103 *)
Theorem C103_exact (a b : gname) :
  (forall t, 0 <= v0 t /\ 0 <= v1 t /\ 0 <= v2 t -> exists c,
     M_apply RN (GamutConvert RN (gam a RN) (gam b RN)) (finV t) = finV c /\ 0 <= v0 c /\ 0 <= v1 c /\ 0 <= v2 c) <->
  In b match a with
       | gAdobeRGB => [gAdobeRGB; gRec2020; gS_Gamut; gACEScg; gACES2065; gXYZ; gLMS]
       | gRec709 => [gAdobeRGB; gRec709; gRec2020; gDCI_P3; gS_Gamut; gS_Gamut3_Cine; gACEScg; gACES2065; gXYZ; gLMS]
       | gRec2020 => [gRec2020; gS_Gamut; gACEScg; gACES2065; gXYZ]
       | gDCI_P3 => [gDCI_P3; gS_Gamut; gS_Gamut3_Cine; gACEScg; gACES2065; gXYZ; gLMS]
       | gS_Gamut => [gS_Gamut]
       | gS_Gamut3_Cine => [gS_Gamut3_Cine]
       | gACEScg => [gS_Gamut; gACEScg]
       | gACES2065 => [gACES2065]
       | gXYZ => [gXYZ]
       | gLMS => [gLMS]
       end.
Proof. exact (C103_exact_l a b). Qed.
Print Assumptions C103_exact.
(** in binary32 a conversion of a gamut to itself (other than Rec709, XYZ) and
    Rec709 to AdobeRGB no longer have the property. *)
Theorem C103_binary32 (lm : libm) (a b : gname) :
  (forall t : Vector3 f32, allV fin t -> norm3 t <= bpow radix2 110 -> 0 <= B2R (v0 t) /\ 0 <= B2R (v1 t) /\ 0 <= B2R (v2 t) ->
     let c : Vector3 f32 := M_apply (FN lm) (GamutConvert (FN lm) (gam a (FN lm)) (gam b (FN lm))) t in
     allV fin c /\ 0 <= B2R (v0 c) /\ 0 <= B2R (v1 c) /\ 0 <= B2R (v2 c)) <->
  In b match a with
       | gAdobeRGB => [gRec2020; gS_Gamut; gACEScg; gACES2065; gXYZ; gLMS]
       | gRec709 => [gRec709; gRec2020; gDCI_P3; gS_Gamut; gS_Gamut3_Cine; gACEScg; gACES2065; gXYZ; gLMS]
       | gRec2020 => [gS_Gamut; gACEScg; gACES2065; gXYZ]
       | gDCI_P3 => [gS_Gamut; gS_Gamut3_Cine; gACEScg; gACES2065; gXYZ; gLMS]
       | gS_Gamut => []
       | gS_Gamut3_Cine => []
       | gACEScg => [gS_Gamut]
       | gACES2065 => []
       | gXYZ => [gXYZ]
       | gLMS => []
       end.
Proof. exact (C103_binary32_l lm a b). Qed.
Print Assumptions C103_binary32.
Example C103_case (lm : libm) : let t := unitF lm 2 in
  allV fin t /\ (0 <= B2R (v0 t) /\ 0 <= B2R (v1 t) /\ 0 <= B2R (v2 t)) /\ norm3 t <= bpow radix2 110 /\ vR t = V3 0 0 1.
Proof. exact (unitF_ok lm 2). Qed.

(** C104 *)
Theorem C104_exact (n : gname) :
  (forall t, 0 <= v0 t /\ 0 <= v1 t /\ 0 <= v2 t -> exists c, G_toXYZ_t RN (gam n RN) (finV t) = finV c /\ 0 <= v1 c) <->
  ~ In n [gS_Gamut; gS_Gamut3_Cine; gACES2065].
Proof. exact (C104_exact_l n). Qed.
Print Assumptions C104_exact.
Theorem C104_binary32 (lm : libm) (n : gname) :
  (forall t : Vector3 f32, allV fin t -> norm3 t <= bpow radix2 110 -> 0 <= B2R (v0 t) /\ 0 <= B2R (v1 t) /\ 0 <= B2R (v2 t) ->
     let c : Vector3 f32 := G_toXYZ_t (FN lm) (gam n (FN lm)) t in fin (v1 c) /\ 0 <= B2R (v1 c)) <->
  ~ In n [gS_Gamut; gS_Gamut3_Cine; gACES2065].
Proof. exact (C104_binary32_l lm n). Qed.
Print Assumptions C104_binary32.
Theorem C104_blue_primary : Forall (fun n => exists c,
  G_toXYZ_t RN (gam n RN) (finV (V3 0 0 1)) = finV c /\ v1 c < -1 / 20) [gS_Gamut; gS_Gamut3_Cine; gACES2065].
Proof. exact C104_blue_l. Qed.
Print Assumptions C104_blue_primary.
Example C104_case (lm : libm) : let t := unitF lm 0 in
  allV fin t /\ (0 <= B2R (v0 t) /\ 0 <= B2R (v1 t) /\ 0 <= B2R (v2 t)) /\ norm3 t <= bpow radix2 110 /\ vR t = V3 1 0 0.
Proof. exact (unitF_ok lm 0). Qed.
