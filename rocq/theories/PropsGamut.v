(** * Properties C22-C27: gamuts, chromatic adaptation, illuminants. *)
From Coq Require Import ZArith Reals Lra Lia List.
From Flocq Require Import Core.Raux.
From Verif Require Import Num NumR MVec MTri SpecMat RTac PMat PTri PGamut.
Local Open Scope R_scope.

(** C22: [area] is twice the signed area of a chromaticity triangle (zero iff
    collinear); [xyz p = (x, y, 1-x-y)]; [white w] has luminance 1; [e_ i] is a unit vector.
    Each primary appears scaled by the barycentric weight of the white. *)
Theorem C22_white_and_primaries (r g b w : pt) : area r g b <> 0 -> eps8 <= Rabs (snd w) ->
  let G := gamut_of r g b w in
  G_toXYZ_t RN G (finV (V3 1 1 1)) = finV (white w) /\
  exists s : Vector3 R,
    cmp s 0 = area w g b / (snd w * area r g b) /\
    cmp s 1 = area r w b / (snd w * area r g b) /\
    cmp s 2 = area r g w / (snd w * area r g b) /\
    forall i, (i < 3)%nat -> let p := nth i (r :: g :: b :: nil) r in
      G_toXYZ_t RN G (finV (e_ i)) = finV (scaleV (cmp s i) (xyz p)) /\
      (eps8 <= Rabs (cmp s i) ->
       toYxy RN (G_toXYZ_t RN G (finV (e_ i))) = finV (V3 (cmp s i * snd p) (fst p) (snd p))).
Proof. exact (C22_l r g b w). Qed.
Print Assumptions C22_white_and_primaries.
Example C22_case : let r := (0.64, 0.33) in let g := (0.3, 0.6) in let b := (0.15, 0.06) in
  let w := (0.3127, 0.329) in
  area r g b <> 0 /\ eps8 <= Rabs (snd w) /\ area w g b <> 0 /\ area r w b <> 0 /\ area r g w <> 0 /\
  eps8 <= Rabs (area w g b / (snd w * area r g b)).
Proof.
  cbv zeta. unfold area. cbn [fst snd]. rewrite (Rabs_pos_eq 0.329) by lra.
  replace ((0.3 - 0.64) * (0.06 - 0.33) - (0.15 - 0.64) * (0.6 - 0.33)) with 0.2241 by lra.
  replace ((0.3 - 0.3127) * (0.06 - 0.329) - (0.15 - 0.3127) * (0.6 - 0.329)) with 0.047508 by lra.
  replace (0.329 * 0.2241) with 0.0737289 by lra.
  rewrite Rabs_pos_eq by lra. unfold eps8. lra.
Qed.

(** C23: [good_gamut G a b]: the two matrices of [G] are the finite real matrices [a], [b],
    and these are inverse to each other. *)
Theorem C23_round_trip (G : Gamut (F RN)) (a b : Matrix3 R) : good_gamut G a b -> forall t,
  G_fromXYZ_t RN G (G_toXYZ_t RN G (finV t)) = finV t /\
  G_toXYZ_t RN G (G_fromXYZ_t RN G (finV t)) = finV t.
Proof. exact (good_round G a b). Qed.
Print Assumptions C23_round_trip.
Theorem C23_from_primaries (r g b w : pt) : area r g b <> 0 -> eps8 <= Rabs (snd w) ->
  area w g b <> 0 -> area r w b <> 0 -> area r g w <> 0 ->
  exists m, detR m <> 0 /\ good_gamut (gamut_of r g b w) m (invR m).
Proof. exact (C23_prim_l r g b w). Qed.
Print Assumptions C23_from_primaries.
Theorem C23_from_matrix (m : Matrix3 R) : detR m <> 0 ->
  good_gamut (Gamut_of_fromXYZ RN (finM m)) (invR m) m.
Proof. exact (good_fromXYZ m). Qed.
Print Assumptions C23_from_matrix.
(** the ten predefined gamuts. *)
Theorem C23_predefined : Forall (fun G => exists a b, good_gamut G a b)
  (AdobeRGB RN :: Rec709 RN :: Rec2020 RN :: DCI_P3 RN :: S_Gamut RN :: S_Gamut3_Cine RN :: ACEScg RN ::
   ACES2065 RN :: LMS RN :: XYZ_gamut RN :: nil).
Proof. exact predefined_good. Qed.
Print Assumptions C23_predefined.
(** the Rec. 709 chromaticities meet the guards. *)
Example C23_case : let r := (0.64, 0.33) in let g := (0.3, 0.6) in let b := (0.15, 0.06) in let w := (0.3127, 0.329) in
  area r g b <> 0 /\ eps8 <= Rabs (snd w) /\ area w g b <> 0 /\ area r w b <> 0 /\ area r g w <> 0.
Proof. destruct C22_case as (A & B & C & D & E & _). repeat split; assumption. Qed.

(** C24 *)
Theorem C24_read_back (r g b w : pt) : area r g b <> 0 -> eps8 <= Rabs (snd w) ->
  area w g b <> 0 -> area r w b <> 0 -> area r g w <> 0 ->
  let G := gamut_of r g b w in
  primaryRed RN G = finV (xyz r) /\ primaryGreen RN G = finV (xyz g) /\
  primaryBlue RN G = finV (xyz b) /\ primaryWhite RN G = finV (white w).
Proof. exact (C24_l r g b w). Qed.
Print Assumptions C24_read_back.
(** the Rec. 709 chromaticities meet the guards. *)
Example C24_case : let r := (0.64, 0.33) in let g := (0.3, 0.6) in let b := (0.15, 0.06) in let w := (0.3127, 0.329) in
  area r g b <> 0 /\ eps8 <= Rabs (snd w) /\ area w g b <> 0 /\ area r w b <> 0 /\ area r g w <> 0.
Proof. destruct C22_case as (A & B & C & D & E & _). repeat split; assumption. Qed.

(** C25 *)
Theorem C25_convert (A B C : Gamut (F RN)) (a a' b b' c c' : Matrix3 R) :
  good_gamut A a a' -> good_gamut B b b' -> good_gamut C c c' ->
  (exists m, GamutConvert RN A B = finM m /\
     forall t, M_apply RN (GamutConvert RN A B) (finV t) = G_fromXYZ_t RN B (G_toXYZ_t RN A (finV t))) /\
  GamutConvert RN A A = finM idR /\
  M_mul RN (GamutConvert RN B C) (GamutConvert RN A B) = GamutConvert RN A C /\
  M_mul RN (GamutConvert RN A B) (GamutConvert RN B A) = finM idR.
Proof. exact (C25_l A B C a a' b b' c c'). Qed.
Print Assumptions C25_convert.
Theorem C25_white (r g b r' g' b' w : pt) :
  area r g b <> 0 -> area r' g' b' <> 0 -> eps8 <= Rabs (snd w) ->
  area w g' b' <> 0 -> area r' w b' <> 0 -> area r' g' w <> 0 ->
  M_apply RN (GamutConvert RN (gamut_of r g b w) (gamut_of r' g' b' w)) (finV (V3 1 1 1)) = finV (V3 1 1 1).
Proof. exact (C25_white_l r g b r' g' b' w). Qed.
Print Assumptions C25_white.
Example C25_case : exists a a' b b', good_gamut (LMS RN) a a' /\ good_gamut (XYZ_gamut RN) b b'.
Proof. do 4 eexists. split; [exact LMS_good | exact XYZ_good]. Qed.

(** C26: [cone w] is the published Bradford matrix applied to [w]. *)
Theorem C26_bradford (a b c : Vector3 R) : nzV (cone a) -> nzV (cone b) ->
  Bradford RN (finV a) (finV a) = finM idR /\
  M_apply RN (Bradford RN (finV a) (finV b)) (finV a) = finV b /\
  M_mul RN (Bradford RN (finV b) (finV a)) (Bradford RN (finV a) (finV b)) = finM idR /\
  M_mul RN (Bradford RN (finV b) (finV c)) (Bradford RN (finV a) (finV b)) = Bradford RN (finV a) (finV c).
Proof. exact (C26_l a b c). Qed.
Print Assumptions C26_bradford.
(** it is von Kries scaling of the cone responses. *)
Theorem C26_cone_scaling (s d t : Vector3 R) : nzV (cone s) ->
  exists u, M_apply RN (Bradford RN (finV s) (finV d)) (finV t) = finV u /\
  cone u = V3 (v0 (cone d) / v0 (cone s) * v0 (cone t)) (v1 (cone d) / v1 (cone s) * v1 (cone t))
              (v2 (cone d) / v2 (cone s) * v2 (cone t)).
Proof. exact (C26_scale_l s d t). Qed.
Print Assumptions C26_cone_scaling.
Example C26_case : nzV (cone (V3 0.95047 1 1.08883)) /\ nzV (cone (V3 0.96422 1 0.82521)).
Proof. exact C26_ex. Qed.

(** C27: [near t x y]: the constant has Y = 1 and X, Z within 0.0015 of the tristimulus values of
    chromaticity [(x, y)]. *)
Theorem C27_illuminants_refuted : ~ near (Illuminant_B RN) 0.34842 0.35161 /\
  exists X Z, Illuminant_B RN = finV (V3 X 1 Z) /\ X - 0.34842 / 0.35161 > 0.99.
Proof. exact C27_l. Qed.
Print Assumptions C27_illuminants_refuted.
Theorem C27_illuminants_partial :
  near (Illuminant_A RN) 0.44757 0.40745 /\ near (Illuminant_C RN) 0.31006 0.31616 /\
  near (Illuminant_D50 RN) 0.34567 0.35850 /\ near (Illuminant_D55 RN) 0.33242 0.34743 /\
  near (Illuminant_D60 RN) 0.32168 0.33767 /\ near (Illuminant_D65 RN) 0.31271 0.32902 /\
  near (Illuminant_D75 RN) 0.29902 0.31485 /\ near (Illuminant_E RN) (1 / 3) (1 / 3) /\
  near (Illuminant_F2 RN) 0.37208 0.37529 /\ near (Illuminant_F7 RN) 0.31292 0.32933 /\
  near (Illuminant_F11 RN) 0.38052 0.37713.
Proof. exact C27_others_l. Qed.
Print Assumptions C27_illuminants_partial.
