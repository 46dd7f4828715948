(** * Property C150: the colour chart and the TM-30 samples under D65, and the gamuts that contain them.

    [surfaces N] is the 24 chart patches followed by the 99 samples, [surfR] the same 123 reflectances as lists of
    real numbers; [gam g N] is the predefined gamut named [g]. Number 17 is the chart's cyan patch; 76, 80, 81, 87, 89 and 90 are
    samples 53, 57, 58, 64, 66 and 67. *)
From Coq Require Import ZArith Reals List.
From Flocq Require Import Core BinarySingleNaN.
From Verif Require Import Num NumR NumF MVec MTri MSpectrum Tables RTac F32 PMatF PSpec PCover PSurf.
Import ListNotations.
Local Open Scope R_scope.

(** every non-negative mixture of the 123 reflectances is inside; for Rec709, when the seven named ones are left out. *)
Theorem C150_mixtures (o : Observer RN) (g : gname) (w : nat -> R) (r : list R) :
  In o [CIE1931 RN; CIE31JV RN; CIE2012 RN] -> In g [gAdobeRGB; gRec709; gRec2020; gDCI_P3; gS_Gamut; gS_Gamut3_Cine; gACEScg; gACES2065] ->
  (forall k, 0 <= w k) -> (g = gRec709 -> forall k, In k [17; 76; 80; 81; 87; 89; 90]%nat -> w k = 0) ->
  spectrumR r -> (forall i, (i < 400)%nat -> nth i r 0 = sum_f_R0 (fun k => w k * nth i (nth k surfR []) 0) 122) ->
  exists t c, fromReflectanceAndLight RN o (finS r) (CIE_D65 RN) = finV t /\ G_fromXYZ_t RN (gam g RN) (finV t) = finV c /\ 0 <= v0 c /\ 0 <= v1 c /\ 0 <= v2 c.
Proof. exact (mixtures o g w r). Qed.
Print Assumptions C150_mixtures.
(** exactly those seven are outside Rec709, with a negative red component. *)
Theorem C150_rec709 (o : Observer RN) (j : nat) (r : list R) : In o [CIE1931 RN; CIE31JV RN; CIE2012 RN] -> nth_error surfR j = Some r ->
  exists t c, fromReflectanceAndLight RN o (finS r) (CIE_D65 RN) = finV t /\ G_fromXYZ_t RN (Rec709 RN) (finV t) = finV c /\
    (if in_dec Nat.eq_dec j [17; 76; 80; 81; 87; 89; 90]%nat then v0 c < 0 else 0 < v0 c) /\ 0 < v1 c /\ 0 < v2 c.
Proof. exact (outside o j r). Qed.
Print Assumptions C150_rec709.
(** the same verdicts in binary32. *)
Theorem C150_inside_binary32 (lm : libm) (o : forall N : Num, Observer N) (g : gname) (j : nat) (r : Spectrum (FN lm)) :
  In o [CIE1931; CIE31JV; CIE2012] -> In g [gAdobeRGB; gRec2020; gDCI_P3; gS_Gamut; gS_Gamut3_Cine; gACEScg; gACES2065] -> nth_error (surfaces (FN lm)) j = Some r ->
  let c := G_fromXYZ_t (FN lm) (gam g (FN lm)) (fromReflectanceAndLight (FN lm) (o (FN lm)) r (CIE_D65 (FN lm))) in allV fin c /\ T_hasNegative (FN lm) c = false.
Proof. exact (surf_in lm o g j r). Qed.
Print Assumptions C150_inside_binary32.
Theorem C150_rec709_binary32 (lm : libm) (o : forall N : Num, Observer N) (j : nat) (r : Spectrum (FN lm)) :
  In o [CIE1931; CIE31JV; CIE2012] -> nth_error (surfaces (FN lm)) j = Some r ->
  let c := G_fromXYZ_t (FN lm) (Rec709 (FN lm)) (fromReflectanceAndLight (FN lm) (o (FN lm)) r (CIE_D65 (FN lm))) in
  allV fin c /\ (T_hasNegative (FN lm) c = true <-> In j [17; 76; 80; 81; 87; 89; 90]%nat).
Proof. exact (surf_709 lm o j r). Qed.
Print Assumptions C150_rec709_binary32.
Example C150_case (lm : libm) : length (surfaces (FN lm)) = 123%nat /\ nth_error (surfaces (FN lm)) 17 = Some (spectrum_of (FN lm) T_Macbeth26) /\
  nth_error (surfaces (FN lm)) 76 = Some (spectrum_of (FN lm) TablesCES.T_CES53) /\ surfaces RN = map finS surfR /\ length surfR = 123%nat.
Proof. exact (surf_case lm). Qed.
Example C150_mix_case : let w := fun k => if Nat.eqb k 0 then / 2 else 0 in let r := map (Rmult (/ 2)) (nth 0 surfR []) in
  (forall k, 0 <= w k) /\ (forall k, In k [17; 76; 80; 81; 87; 89; 90]%nat -> w k = 0) /\ spectrumR r /\
  (forall i, (i < 400)%nat -> nth i r 0 = sum_f_R0 (fun k => w k * nth i (nth k surfR []) 0) 122).
Proof. exact mix_case. Qed.
