(** * Property C140: greys stay grey in binary32. *)
From Coq Require Import ZArith Reals List.
From Flocq Require Import Core BinarySingleNaN.
From Verif Require Import Num NumR NumF MVec MTri MOtf RTac F32 PMatF PLibm PPowF PNearF PLab PCodes PGamF PGamF2 PGamF3 PImg PGrey.
Import ListNotations.
Local Open Scope R_scope.

(** C140: between gamuts with the same white; [near_app K f e M]: [f] finite, each component within [K u M + 4 eta] of [e]. *)
Theorem C140_same_white (lm : libm) (L : list (forall N : Num, Gamut (F N))) (G H : forall N : Num, Gamut (F N)) (g : f32) :
  L = [AdobeRGB; Rec709; Rec2020; S_Gamut; S_Gamut3_Cine] \/ L = [ACEScg; ACES2065] ->
  In G L -> In H L -> is_finite g = true -> Rabs (B2R g) <= bpow radix2 110 ->
  near_app 32 (M_apply (FN lm) (GamutConvert (FN lm) (G (FN lm)) (H (FN lm))) (V3 g g g)) (V3 (B2R g) (B2R g) (B2R g)) (Rabs (B2R g)).
Proof. exact (grey_conv lm L G H g). Qed.
Print Assumptions C140_same_white.
(** a grey pixel of code [k] out of [M], decoded, converted and encoded, has the same three codes. *)
Theorem C140_grey_codes (lm : libm) (L : list (forall N : Num, Gamut (F N))) (G H : forall N : Num, Gamut (F N)) (M k : Z) (a b : f32) : accurate lm ->
  L = [AdobeRGB; Rec709; Rec2020; S_Gamut; S_Gamut3_Cine] \/ L = [ACEScg; ACES2065] ->
  In G L -> In H L -> (0 <= k <= M)%Z -> (0 < M <= 13000)%Z ->
  same_codes M (V3 k k k) (toScreen (FN lm) SRGB (M_apply (FN lm) (GamutConvert (FN lm) (G (FN lm)) (H (FN lm)))
    (toScene (FN lm) SRGB (pixel lm M (V3 k k k)) a)) b).
Proof. exact (grey_codes lm L G H M k a b). Qed.
Print Assumptions C140_grey_codes.
(** CIELAB against the gamut's own white: L* is the exact lightness of the level, a* and b* vanish. *)
Theorem C140_lab (lm : libm) (G : forall N : Num, Gamut (F N)) (g : f32) : accurate lm ->
  In G [AdobeRGB; Rec709; Rec2020; DCI_P3; S_Gamut; S_Gamut3_Cine; ACEScg; ACES2065; LMS; XYZ_gamut] ->
  is_finite g = true -> B2R g = 0 \/ 1e-30 <= B2R g <= 1 ->
  let one := @flit (FN lm) 1%dec in
  let r := toCIELAB (FN lm) (G_toXYZ_t (FN lm) (G (FN lm)) (V3 g g g)) (G_toXYZ_t (FN lm) (G (FN lm)) (V3 one one one)) in
  near (v0 r) (116 * cie_f (B2R g) - 16) 0.00012 /\ near (v1 r) 0 0.001 /\ near (v2 r) 0 0.0004.
Proof. exact (grey_lab_dec lm G g). Qed.
Print Assumptions C140_lab.
(** HSV: hue and saturation are zero, the value is the level, and the way back is exact. *)
Theorem C140_hsv (lm : libm) (g : f32) : is_finite g = true -> Rabs (B2R g) <= bpow radix2 127 -> exists h s v t,
  terminates_with (fun n => toHSV (FN lm) n (V3 g g g)) (Ret (V3 h s v)) /\ B2R (h : f32) = 0 /\ is_finite s = true /\ B2R (s : f32) = 0 /\ v = g /\
  terminates_with (fun n => let! x := toHSV (FN lm) n (V3 g g g) in fromHSV (FN lm) n x) (Ret t) /\
  allV fin t /\ vR t = V3 (B2R g) (B2R g) (B2R g).
Proof. exact (grey_hsv_all lm g). Qed.
Print Assumptions C140_hsv.
(** Gamuts with different whites turn grey into a colour: the white of Rec.709 in DCI-P3 has green more than 0.1 below red. *)
Example C140_other_white (lm : libm) : let N := FN lm in let w := V3 (@flit N 1%dec) (@flit N 1%dec) (@flit N 1%dec) in
  let r := M_apply N (GamutConvert N (Rec709 N) (DCI_P3 N)) w in @fltb N (@flit N 0.1%dec) (@fsub N (v0 r) (v1 r)) = true.
Proof. vm_compute. reflexivity. Qed.
(** 18% grey satisfies the hypotheses; in Rec.2020 it is not exactly grey any more. *)
Example C140_case (lm : libm) : let N := FN lm in let g : f32 := @flit N 0.18%dec in (exists lm, accurate lm) /\ is_finite g = true /\ 0.17 <= B2R g <= 0.19 /\ B2SF g = SpecFloat.S754_finite false 12079596 (-26) /\
  vSF (M_apply N (GamutConvert N (Rec709 N) (Rec2020 N)) (V3 g g g)) = V3 (SpecFloat.S754_finite false 12079594 (-26)) (SpecFloat.S754_finite false 12079595 (-26)) (SpecFloat.S754_finite false 12079597 (-26)).
Proof. exact (grey_case lm). Qed.
