(** * Properties C123 onwards. *)
From Coq Require Import ZArith Reals List.
From Flocq Require Import Core BinarySingleNaN.
From Verif Require Import Num NumR NumF MVec MTri MOtf MDelta RTac F32 PLibm PNearF PRelF PPqF PGamF POkF PImg PImg2 PImg3.
Import ListNotations.
Local Open Scope R_scope.

(** C123: ST 2084 decoding in binary32; [rel x r k]: x is finite and within k*r of r > 0; [u] = 2^-24; [accurate lm]: the C
    library's functions are within 4 units of 2^-24 relative. *)
Theorem C123_pq_decode (lm : libm) (t : Vector3 f32) (g : f32) : accurate lm -> each (fun x => fin x /\ 1e-5 <= B2R x <= 1) t ->
  exists a b c, toScene RN ST2084 (V3 (Some (B2R (v0 t))) (Some (B2R (v1 t))) (Some (B2R (v2 t)))) (Some 1) = V3 (Some a) (Some b) (Some c) /\
    let r := toScene (FN lm) ST2084 t g in rel (v0 r) a (4200 * u) /\ rel (v1 r) b (4200 * u) /\ rel (v2 r) c (4200 * u).
Proof. exact (pq_dec_pixel lm t g). Qed.
Print Assumptions C123_pq_decode.
Theorem C123_pq_roundtrip (lm : libm) (t : Vector3 f32) (g g' : f32) : accurate lm -> each (fun x => fin x /\ 1e-10 <= B2R x <= 100) t ->
  let r := toScene (FN lm) ST2084 (toScreen (FN lm) ST2084 t g) g' in
  rel (v0 r) (B2R (v0 t)) (8600 * u) /\ rel (v1 r) (B2R (v1 t)) (8600 * u) /\ rel (v2 r) (B2R (v2 t)) (8600 * u).
Proof. exact (pq_round_pixel lm t g g'). Qed.
Print Assumptions C123_pq_roundtrip.
Example C123_case (lm : libm) : let h := @flit (FN lm) 0.5%dec in
  each (fun x => fin x /\ 1e-5 <= B2R x <= 1) (V3 h h h) /\ each (fun x => fin x /\ 1e-10 <= B2R x <= 100) (V3 h h h).
Proof. exact (pq_case lm). Qed.

(** C124: images of integer codes through another colour space and back in binary32.  [pixel lm M k]: the codes k of 0..M as the floats
    k/M; [same_codes M k t]: t is finite and the nearest integers of M t are k; [codes_of M k]: the codes are in 0..M; [gams lm]: the
    predefined gamuts. *)
Theorem C124_through_xyz (lm : libm) (G : Gamut f32) M k g g' : accurate lm -> In G (gams lm) -> codes_of M k -> (0 < M <= 9000)%Z ->
  same_codes M k (toScreen (FN lm) SRGB (G_fromXYZ_t (FN lm) G (G_toXYZ_t (FN lm) G (toScene (FN lm) SRGB (pixel lm M k) g))) g').
Proof. exact (fun A => img_xyz lm A G M k g g'). Qed.
Print Assumptions C124_through_xyz.
Theorem C124_through_gamut (lm : libm) (G H : Gamut f32) M k g g' : accurate lm -> In G (gams lm) -> In H (gams lm) -> codes_of M k -> (0 < M <= 9000)%Z ->
  same_codes M k (toScreen (FN lm) SRGB (M_apply (FN lm) (GamutConvert (FN lm) H G) (M_apply (FN lm) (GamutConvert (FN lm) G H)
    (toScene (FN lm) SRGB (pixel lm M k) g))) g').
Proof. exact (fun A => img_conv lm A G H M k g g'). Qed.
Print Assumptions C124_through_gamut.
Theorem C124_through_hsv (lm : libm) M k g g' : accurate lm -> codes_of M k -> (0 < M <= 15000)%Z ->
  exists t', terminates_with (fun n => let! h := toHSV (FN lm) n (toScene (FN lm) SRGB (pixel lm M k) g) in fromHSV (FN lm) n h) (Ret t') /\
    same_codes M k (toScreen (FN lm) SRGB t' g').
Proof. exact (fun A => img_hsv lm A M k g g'). Qed.
Print Assumptions C124_through_hsv.
Example C124_case (lm : libm) : codes_of 255 (V3 12 200 255)%Z /\ (0 < 255 <= 9000)%Z /\ In (Rec709 (FN lm)) (gams lm) /\ In (Rec2020 (FN lm)) (gams lm).
Proof. exact (img_case lm). Qed.

(** C125: images of integer codes through CIELAB, Yxy and Yuv and back in binary32; the gamuts and the white are spelled out. *)
Theorem C125_through_cielab (lm : libm) (G : Gamut f32) M k g g' : accurate lm ->
  In G [AdobeRGB (FN lm); Rec709 (FN lm); Rec2020 (FN lm); DCI_P3 (FN lm)] -> codes_of M k -> (0 < M <= 1050)%Z ->
  let one := @flit (FN lm) 1.0%dec in let w := G_toXYZ_t (FN lm) G (V3 one one one) in
  same_codes M k (toScreen (FN lm) SRGB (G_fromXYZ_t (FN lm) G (fromCIELAB (FN lm)
    (toCIELAB (FN lm) (G_toXYZ_t (FN lm) G (toScene (FN lm) SRGB (pixel lm M k) g)) w) w)) g').
Proof. exact (fun A => img_lab lm A G M k g g'). Qed.
Print Assumptions C125_through_cielab.
Theorem C125_through_yxy (lm : libm) (G : Gamut f32) M k g g' : accurate lm ->
  In G [AdobeRGB (FN lm); Rec709 (FN lm); Rec2020 (FN lm); DCI_P3 (FN lm)] -> codes_of M k -> (0 < M <= 4300)%Z ->
  same_codes M k (toScreen (FN lm) SRGB (G_fromXYZ_t (FN lm) G (fromYxy (FN lm)
    (toYxy (FN lm) (G_toXYZ_t (FN lm) G (toScene (FN lm) SRGB (pixel lm M k) g))))) g').
Proof. exact (fun A => img_yxy lm A G M k g g'). Qed.
Print Assumptions C125_through_yxy.
Theorem C125_through_yuv (lm : libm) (G : Gamut f32) M k g g' : accurate lm ->
  In G [AdobeRGB (FN lm); Rec709 (FN lm); Rec2020 (FN lm); DCI_P3 (FN lm)] -> codes_of M k -> (0 < M <= 1040)%Z ->
  same_codes M k (toScreen (FN lm) SRGB (G_fromXYZ_t (FN lm) G (fromYuv (FN lm)
    (toYuv (FN lm) (G_toXYZ_t (FN lm) G (toScene (FN lm) SRGB (pixel lm M k) g))))) g').
Proof. exact (fun A => img_yuv lm A G M k g g'). Qed.
Print Assumptions C125_through_yuv.
Example C125_case (lm : libm) : codes_of 1023 (V3 12 200 1023)%Z /\ (0 < 1023 <= 1040)%Z /\
  In (Rec709 (FN lm)) [AdobeRGB (FN lm); Rec709 (FN lm); Rec2020 (FN lm); DCI_P3 (FN lm)].
Proof. exact (img2_case lm). Qed.

(** C126: images of integer codes through Oklab and back in binary32; [cbrt_ok lm]: the library's [cbrtf] has relative error at most 4u. *)
Theorem C126_through_oklab (lm : libm) (G : Gamut f32) M k g g' : accurate lm -> cbrt_ok lm ->
  In G [AdobeRGB (FN lm); Rec709 (FN lm); Rec2020 (FN lm); DCI_P3 (FN lm)] -> codes_of M k -> (0 < M <= 375)%Z ->
  same_codes M k (toScreen (FN lm) SRGB (G_fromXYZ_t (FN lm) G (OKLAB_to_XYZ (FN lm)
    (XYZ_to_OKLAB (FN lm) (G_toXYZ_t (FN lm) G (toScene (FN lm) SRGB (pixel lm M k) g))))) g').
Proof. exact (fun A C => img_oklab lm A C G M k g g'). Qed.
Print Assumptions C126_through_oklab.
(** Such libraries exist, and an 8 bit pixel is within the hypotheses. *)
Example C126_case : (exists lm, accurate lm /\ cbrt_ok lm) /\ codes_of 255 (V3 12 200 255)%Z /\ (0 < 255 <= 375)%Z /\
  forall lm, In (Rec709 (FN lm)) [AdobeRGB (FN lm); Rec709 (FN lm); Rec2020 (FN lm); DCI_P3 (FN lm)].
Proof. exact img3_case. Qed.
