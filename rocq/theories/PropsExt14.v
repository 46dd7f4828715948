(** * Properties C130 onwards. *)
From Coq Require Import ZArith Reals Lra Lia List.
From Flocq Require Import Core BinarySingleNaN.
From Verif Require Import Num NumR NumF MVec MTri MSpectrum MDefault Tables RTac F32 PMatF PTri PGamut PSpec PDefault PInside.
Import ListNotations.
Local Open Scope R_scope.

(** C130.  [not_m0 x]: [x] is not the negative zero. *)
Theorem C130_default_neutral_float (lm : libm) (t : Vector3 f32) : allV not_m0 t ->
  T_add (FN lm) t (T_zero (FN lm)) = t /\ T_add (FN lm) (T_zero (FN lm)) t = t.
Proof. exact (zero_F lm t). Qed.
Print Assumptions C130_default_neutral_float.
Theorem C130_default_real (t : Vector3 R) (m : Matrix3 R) (s : R) : let z := T_zero RN in z = finV (V3 0 0 0) /\
  T_add RN (finV t) z = finV t /\ T_scale RN z (Some s) = z /\ M_apply RN (finM m) z = z /\ T_mul RN z (finV t) = z /\ T_dot RN z (finV t) = Some 0.
Proof. exact (zero_R t m s). Qed.
Print Assumptions C130_default_real.
Theorem C130_index (N : Num) (s : Spectrum N) (i : Z) : length s = 400%nat ->
  ((0 <= i < 400)%Z -> exists x, S_index N s i = Ret x) /\ (~ (0 <= i < 400)%Z -> S_index N s i = UB).
Proof. exact (index_ok N s i). Qed.
Print Assumptions C130_index.
Theorem C130_elementwise (N : Num) (a b : Spectrum N) (k : F N) (i : Z) (x y : F N) : (0 <= i < 400)%Z ->
  S_index N a i = Ret x -> S_index N b i = Ret y ->
  S_index N (S_add N a b) i = Ret (fadd x y) /\ S_index N (S_mul N a b) i = Ret (fmul x y) /\ S_index N (S_scale N a k) i = Ret (fmul x k) /\
  S_index N (S_E N k) i = Ret k /\ S_index N (S_default N) i = Ret (fofZ 0).
Proof. exact (ops_index N a b k i x y). Qed.
Print Assumptions C130_elementwise.
Theorem C130_default_is_black_float (lm : libm) : Forall (fun o : forall N : Num, Observer N =>
  vSF (fromSpectrum (FN lm) (o (FN lm)) (S_default (FN lm))) = V3 (SpecFloat.S754_zero false) (SpecFloat.S754_zero false) (SpecFloat.S754_zero false))
  [CIE1931; CIE31JV; CIE2012].
Proof. exact (default_black lm). Qed.
Print Assumptions C130_default_is_black_float.
Theorem C130_default_is_black_real (X Y Z : list R) : obs_ok X Y Z -> fromSpectrum RN (observerR X Y Z) (S_default RN) = T_zero RN.
Proof. exact (default_black_R X Y Z). Qed.
Print Assumptions C130_default_is_black_real.
Example C130_case (lm : libm) : length (CIE_D65 (FN lm)) = 400%nat /\ allV not_m0 (V3 (@flit (FN lm) 0.25) B754_nan (B754_infinity true)) /\
  S_index RN (S_default RN) 399 = Ret (Some 0) /\ S_index RN (S_default RN) 400 = UB.
Proof. exact (default_case lm). Qed.

(** C131.  [inside r g b p]: [p] is a mixture of the three chromaticities with non-negative weights; [interior]: with positive ones. *)
Theorem C131_in_gamut_iff_inside (r g b w : pt) : area r g b <> 0 -> eps8 <= snd w -> interior r g b w -> forall X Y Z, 0 < X + Y + Z ->
  exists c, G_fromXYZ_t RN (gamut_of r g b w) (finV (V3 X Y Z)) = finV c /\
    (T_hasNegative RN (finV c) = false <-> inside r g b (X / (X + Y + Z), Y / (X + Y + Z))).
Proof. exact (C131_l r g b w). Qed.
Print Assumptions C131_in_gamut_iff_inside.
Theorem C131_predefined : Forall (fun G => exists r g b : pt,
  (primaryRed RN G = finV (xyz r) /\ primaryGreen RN G = finV (xyz g) /\ primaryBlue RN G = finV (xyz b) /\ area r g b <> 0) /\
  forall X Y Z, 0 < X + Y + Z -> exists c, G_fromXYZ_t RN G (finV (V3 X Y Z)) = finV c /\
    (T_hasNegative RN (finV c) = false <-> inside r g b (X / (X + Y + Z), Y / (X + Y + Z))))
  (AdobeRGB RN :: Rec709 RN :: Rec2020 RN :: DCI_P3 RN :: S_Gamut RN :: S_Gamut3_Cine RN :: ACEScg RN :: ACES2065 RN :: nil).
Proof. exact C131_predef. Qed.
Print Assumptions C131_predefined.
Example C131_case : let r := (0.64, 0.33) in let g := (0.3, 0.6) in let b := (0.15, 0.06) in let w := (0.3127, 0.329) in
  area r g b <> 0 /\ eps8 <= snd w /\ interior r g b w /\ inside r g b w /\ ~ inside r g b (0.7, 0.29).
Proof. exact C131_ex. Qed.
