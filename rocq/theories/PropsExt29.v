(** * Property C153. *)
From Coq Require Import ZArith Reals List.
From Flocq Require Import Core BinarySingleNaN.
From Verif Require Import Num NumR NumF MVec MTri MOtf MFma RTac F32 PLibm PMatF PNearF PGamF PImg PFma4.
Import ListNotations.
Local Open Scope R_scope.

(** C153: round trips and images whichever multiplications and additions the compiler fuses ([evV], [ev]: the values of an
    expression under some choice, MFma.v).  The two matrix products of a round trip are one expression, so the choice may
    differ between the uses of an intermediate value.  The gamut matrices are compile-time constants. *)
Theorem C153_gamut_round_trip (lm : libm) (G : Gamut f32) (t t' : Vector3 f32) : In G (gams lm) -> allV fin t -> norm3 t <= bpow radix2 110 ->
  (evV lm (M_apply (EN lm) (inM lm (g_fromXYZ G)) (M_apply (EN lm) (inM lm (g_toXYZ G)) (inV lm t))) t' -> back t t') /\
  (evV lm (M_apply (EN lm) (inM lm (g_toXYZ G)) (M_apply (EN lm) (inM lm (g_fromXYZ G)) (inV lm t))) t' -> back t t').
Proof. exact (gam_round_fused lm G t t'). Qed.
Print Assumptions C153_gamut_round_trip.
Theorem C153_convert_round_trip (lm : libm) (G H : Gamut f32) (t t' : Vector3 f32) : In G (gams lm) -> In H (gams lm) -> allV fin t -> norm3 t <= bpow radix2 110 ->
  evV lm (M_apply (EN lm) (inM lm (GamutConvert (FN lm) H G)) (M_apply (EN lm) (inM lm (GamutConvert (FN lm) G H)) (inV lm t))) t' -> back t t'.
Proof. exact (gam_conv_fused lm G H t t'). Qed.
Print Assumptions C153_convert_round_trip.
(** the decoders contain no product to fuse; the encoders keep the bounds of C98 and C99. *)
Theorem C153_decoders (lm : libm) (C r : f32) :
  (ev lm (sRGB_to_Y (EN lm) (Val C)) r -> r = sRGB_to_Y (FN lm) C) /\ (ev lm (BT709_to_Y (EN lm) (Val C)) r -> r = BT709_to_Y (FN lm) C).
Proof. exact (conj (srgb_dec_fused lm C r) (bt_dec_fused lm C r)). Qed.
Print Assumptions C153_decoders.
Theorem C153_srgb_encoder (lm : libm) (C r : f32) : accurate lm -> fin C -> ev lm (Y_to_sRGB (EN lm) (Val C)) r ->
  exists e, Y_to_sRGB RN (Some (B2R C)) = Some e /\ near r e (9 * u).
Proof. exact (srgb_enc_fused_stmt lm C r). Qed.
Print Assumptions C153_srgb_encoder.
Theorem C153_bt709_encoder (lm : libm) (C r : f32) : accurate lm -> fin C -> B2R C <> B2R (@flit (FN lm) 0.018%dec) -> ev lm (Y_to_BT709 (EN lm) (Val C)) r ->
  exists e, Y_to_BT709 RN (Some (B2R C)) = Some e /\ near r e (9 * u).
Proof. exact (bt_enc_fused_stmt lm C r). Qed.
Print Assumptions C153_bt709_encoder.
(** images of integer codes (the claims of C124). *)
Theorem C153_image_through_xyz (lm : libm) (G : Gamut f32) M k g g' (s t' o : Vector3 f32) : accurate lm -> In G (gams lm) -> codes_of M k -> (0 < M <= 9000)%Z ->
  evV lm (toScene (EN lm) SRGB (inV lm (pixel lm M k)) g) s ->
  evV lm (M_apply (EN lm) (inM lm (g_fromXYZ G)) (M_apply (EN lm) (inM lm (g_toXYZ G)) (inV lm s))) t' ->
  evV lm (toScreen (EN lm) SRGB (inV lm t') g') o -> same_codes M k o.
Proof. exact (img_xyz_fused lm G M k g g' s t' o). Qed.
Print Assumptions C153_image_through_xyz.
Theorem C153_image_through_gamut (lm : libm) (G H : Gamut f32) M k g g' (s t' o : Vector3 f32) : accurate lm -> In G (gams lm) -> In H (gams lm) -> codes_of M k -> (0 < M <= 9000)%Z ->
  evV lm (toScene (EN lm) SRGB (inV lm (pixel lm M k)) g) s ->
  evV lm (M_apply (EN lm) (inM lm (GamutConvert (FN lm) H G)) (M_apply (EN lm) (inM lm (GamutConvert (FN lm) G H)) (inV lm s))) t' ->
  evV lm (toScreen (EN lm) SRGB (inV lm t') g') o -> same_codes M k o.
Proof. exact (img_conv_fused lm G H M k g g' s t' o). Qed.
Print Assumptions C153_image_through_gamut.
Example C153_case (lm : libm) : let k := (V3 12 200 255)%Z in let G := Rec709 (FN lm) in let H := Rec2020 (FN lm) in let g : F (EN lm) := @flit (EN lm) 1%dec in
  codes_of 255 k /\ (0 < 255 <= 9000)%Z /\ In G (gams lm) /\ In H (gams lm) /\ exists s t' o, evV lm (toScene (EN lm) SRGB (inV lm (pixel lm 255 k)) g) s /\
  evV lm (M_apply (EN lm) (inM lm (GamutConvert (FN lm) H G)) (M_apply (EN lm) (inM lm (GamutConvert (FN lm) G H)) (inV lm s))) t' /\ evV lm (toScreen (EN lm) SRGB (inV lm t') g) o.
Proof. exact (img_fused_case lm). Qed.
