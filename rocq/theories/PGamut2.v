(** * The predefined gamuts have the published primaries and white (C86). *)
From Coq Require Import ZArith Reals Lra Lia List.
From Flocq Require Import Core.Raux.
From Verif Require Import Num NumR MVec MTri SpecMat RTac PMat PTri PGamut.
Local Open Scope R_scope.

(** What a caller reads back from a gamut. *)
Definition has_primaries (G : Gamut (F RN)) (r g b w : pt) : Prop :=
  primaryRed RN G = finV (xyz r) /\ primaryGreen RN G = finV (xyz g) /\
  primaryBlue RN G = finV (xyz b) /\ primaryWhite RN G = finV (white w).

Ltac published r g b w :=
  match goal with |- has_primaries ?G _ _ _ _ =>
    replace G with (gamut_of r g b w)
      by (unfold gamut_of; f_equal; cbn [fst snd]; rl; fin_eq; qn; lra)
  end;
  apply C24_l; unfold area; cbn [fst snd]; rewrite ?Rabs_pos_eq by lra; unfold eps8; lra.

Definition D65xy : pt := (0.3127, 0.329).
Definition ACESxy : pt := (0.32168, 0.33767).

Lemma AdobeRGB_pub : has_primaries (AdobeRGB RN) (0.64, 0.33) (0.21, 0.71) (0.15, 0.06) D65xy.
Proof. unfold AdobeRGB, D65xy. published (0.64, 0.33) (0.21, 0.71) (0.15, 0.06) (0.3127, 0.329). Qed.
Lemma Rec709_pub : has_primaries (Rec709 RN) (0.64, 0.33) (0.3, 0.6) (0.15, 0.06) D65xy.
Proof. unfold Rec709, D65xy. published (0.64, 0.33) (0.3, 0.6) (0.15, 0.06) (0.3127, 0.329). Qed.
Lemma Rec2020_pub : has_primaries (Rec2020 RN) (0.708, 0.292) (0.17, 0.797) (0.131, 0.046) D65xy.
Proof. unfold Rec2020, D65xy. published (0.708, 0.292) (0.17, 0.797) (0.131, 0.046) (0.3127, 0.329). Qed.
Lemma DCI_P3_pub : has_primaries (DCI_P3 RN) (0.68, 0.32) (0.265, 0.69) (0.15, 0.06) (0.314, 0.351).
Proof. unfold DCI_P3. published (0.68, 0.32) (0.265, 0.69) (0.15, 0.06) (0.314, 0.351). Qed.
Lemma S_Gamut_pub : has_primaries (S_Gamut RN) (0.73, 0.28) (0.14, 0.855) (0.1, -0.05) D65xy.
Proof. unfold S_Gamut, D65xy. published (0.73, 0.28) (0.14, 0.855) (0.1, -0.05) (0.3127, 0.329). Qed.
Lemma S_Gamut3_Cine_pub : has_primaries (S_Gamut3_Cine RN) (0.766, 0.275) (0.225, 0.8) (0.089, -0.087) D65xy.
Proof. unfold S_Gamut3_Cine, D65xy. published (0.766, 0.275) (0.225, 0.8) (0.089, -0.087) (0.3127, 0.329). Qed.
Lemma ACEScg_pub : has_primaries (ACEScg RN) (0.713, 0.293) (0.165, 0.83) (0.128, 0.044) ACESxy.
Proof. unfold ACEScg, ACESxy. published (0.713, 0.293) (0.165, 0.83) (0.128, 0.044) (0.32168, 0.33767). Qed.
Lemma ACES2065_pub : has_primaries (ACES2065 RN) (0.7347, 0.2653) (0, 1) (0.0001, -0.077) ACESxy.
Proof. unfold ACES2065, ACESxy. published (0.7347, 0.2653) (0, 1) (0.0001, -0.077) (0.32168, 0.33767). Qed.

(** The luminance a gamut gives to a linear colour is the published weighted sum, to four digits. *)
Definition luma_near (G : Gamut (F RN)) (kr kg kb e : R) : Prop :=
  exists a b c, (forall r g bl, exists x z, G_toXYZ_t RN G (finV (V3 r g bl)) = finV (V3 x (a * r + b * g + c * bl) z)) /\
  Rabs (a - kr) <= e /\ Rabs (b - kg) <= e /\ Rabs (c - kb) <= e /\ a + b + c = 1.
Lemma luma_gen (r g b w : pt) kr kg kb e : area r g b <> 0 -> eps8 <= Rabs (snd w) ->
  let s := area r g b * snd w in
  Rabs (area w g b * snd r / s - kr) <= e -> Rabs (area r w b * snd g / s - kg) <= e ->
  Rabs (area r g w * snd b / s - kb) <= e -> luma_near (gamut_of r g b w) kr kg kb e.
Proof.
  intros A Y s H1 H2 H3. pose proof (eps8_nz _ Y) as Y0.
  exists (area w g b * snd r / s), (area r w b * snd g / s), (area r g w * snd b / s).
  split; [|repeat split; try assumption].
  - intros x y z. unfold gamut_of, Gamut_of_primaries, G_toXYZ_t. cbn [g_toXYZ].
    rewrite fromPrimaries_fin by assumption. rewrite M_apply_fin.
    unfold applyR, gmat, mulR, pmat, diagR, xyz, svec, sR, sG, sB. spec.
    do 2 eexists. apply f_equal. refine (f_equal (fun y => V3 _ y _) _).
    unfold s. clear s H1 H2 H3. destruct r as [rx ry], g as [gx gy], b as [bx by_], w as [wx wy]. cbn [snd] in *.
    field. auto.
  - unfold s, area. field. split; [exact Y0|]. exact A.
Qed.

Ltac luma r g b w :=
  match goal with |- luma_near ?G _ _ _ _ =>
    replace G with (gamut_of r g b w)
      by (unfold gamut_of; f_equal; cbn [fst snd]; rl; fin_eq; qn; lra)
  end;
  apply luma_gen; [unfold area; cbn [fst snd]; lra|cbn [snd]; rewrite Rabs_pos_eq; unfold eps8; lra|..];
  unfold area; cbn [fst snd]; apply Rabs_le; lra.
Lemma Rec709_luma : luma_near (Rec709 RN) 0.2126 0.7152 0.0722 0.0001.
Proof. unfold Rec709. luma (0.64, 0.33) (0.3, 0.6) (0.15, 0.06) (0.3127, 0.329). Qed.
Lemma Rec2020_luma : luma_near (Rec2020 RN) 0.2627 0.6780 0.0593 0.0001.
Proof. unfold Rec2020. luma (0.708, 0.292) (0.17, 0.797) (0.131, 0.046) (0.3127, 0.329). Qed.
Lemma ACEScg_luma : luma_near (ACEScg RN) 0.2722287168 0.6740817658 0.0536895174 0.0001.
Proof. unfold ACEScg. luma (0.713, 0.293) (0.165, 0.83) (0.128, 0.044) (0.32168, 0.33767). Qed.
Lemma ACES2065_luma : luma_near (ACES2065 RN) 0.3439664498 0.7281660966 (-0.0721325464) 0.0001.
Proof. unfold ACES2065. luma (0.7347, 0.2653) (0, 1) (0.0001, -0.077) (0.32168, 0.33767). Qed.
Lemma XYZ_same (t : Vector3 R) : G_toXYZ_t RN (XYZ_gamut RN) (finV t) = finV t /\ G_fromXYZ_t RN (XYZ_gamut RN) (finV t) = finV t.
Proof.
  destruct (XYZ_good) as (A & B & _). unfold G_toXYZ_t, G_fromXYZ_t. rewrite A, B, !M_apply_fin. split; apply f_equal.
  - unfold invR, applyR, idR, detR. destruct t. spec. f_equal; field.
  - apply applyR_id.
Qed.
Lemma LMS_is_cone (t : Vector3 R) : G_fromXYZ_t RN (LMS RN) (finV t) = finV (cone t).
Proof. destruct LMS_good as (_ & B & _). unfold G_fromXYZ_t. rewrite B, M_apply_fin. reflexivity. Qed.
Lemma predefined_pub :
  has_primaries (AdobeRGB RN) (0.64, 0.33) (0.21, 0.71) (0.15, 0.06) (0.3127, 0.329) /\
  has_primaries (Rec709 RN) (0.64, 0.33) (0.3, 0.6) (0.15, 0.06) (0.3127, 0.329) /\
  has_primaries (Rec2020 RN) (0.708, 0.292) (0.17, 0.797) (0.131, 0.046) (0.3127, 0.329) /\
  has_primaries (DCI_P3 RN) (0.68, 0.32) (0.265, 0.69) (0.15, 0.06) (0.314, 0.351) /\
  has_primaries (S_Gamut RN) (0.73, 0.28) (0.14, 0.855) (0.1, -0.05) (0.3127, 0.329) /\
  has_primaries (S_Gamut3_Cine RN) (0.766, 0.275) (0.225, 0.8) (0.089, -0.087) (0.3127, 0.329) /\
  has_primaries (ACEScg RN) (0.713, 0.293) (0.165, 0.83) (0.128, 0.044) (0.32168, 0.33767) /\
  has_primaries (ACES2065 RN) (0.7347, 0.2653) (0, 1) (0.0001, -0.077) (0.32168, 0.33767).
Proof.
  exact (conj AdobeRGB_pub (conj Rec709_pub (conj Rec2020_pub (conj DCI_P3_pub (conj S_Gamut_pub
        (conj S_Gamut3_Cine_pub (conj ACEScg_pub ACES2065_pub))))))).
Qed.
Lemma predefined_luma :
  luma_near (Rec709 RN) 0.2126 0.7152 0.0722 0.0001 /\
  luma_near (Rec2020 RN) 0.2627 0.6780 0.0593 0.0001 /\
  luma_near (ACEScg RN) 0.2722287168 0.6740817658 0.0536895174 0.0001 /\
  luma_near (ACES2065 RN) 0.3439664498 0.7281660966 (-0.0721325464) 0.0001.
Proof. exact (conj Rec709_luma (conj Rec2020_luma (conj ACEScg_luma ACES2065_luma))). Qed.
Lemma C86_ex : primaryGreen RN (Rec709 RN) = finV (V3 0.3 0.6 (1 - 0.3 - 0.6)) /\
  cone (V3 1 1 1) = V3 1.0001 1 1.
Proof. split; [exact (proj1 (proj2 Rec709_pub))|]. unfold cone, applyR, bradR. spec. f_equal; lra. Qed.
