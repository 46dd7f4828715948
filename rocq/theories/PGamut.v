(** * Gamuts, Bradford adaptation, illuminants. *)
From Coq Require Import ZArith Reals Lra Lia List Bool.
From Flocq Require Import Core.Raux.
From Verif Require Import Num NumR MVec MTri SpecMat RTac PMat PTri.
Local Open Scope R_scope.

(** ** Chromaticities.  A chromaticity is a point [(x, y)]. *)
Definition pt : Type := (R * R)%type.
(** twice the signed area of a triangle; zero iff the points are collinear. *)
Definition area (p q r : pt) : R :=
  (fst q - fst p) * (snd r - snd p) - (fst r - fst p) * (snd q - snd p).
Definition xyz (p : pt) : Vector3 R := V3 (fst p) (snd p) (1 - fst p - snd p).
Definition white (w : pt) : Vector3 R :=
  V3 (fst w / snd w) 1 ((1 - fst w - snd w) / snd w).
Definition scaleV (k : R) (v : Vector3 R) : Vector3 R := V3 (k * v0 v) (k * v1 v) (k * v2 v).
Definition e_ (i : nat) : Vector3 R := mkV (fun j => if Nat.eqb i j then 1 else 0).
(** The gamut built from three primaries and a white. *)
Definition gamut_of (r g b w : pt) : Gamut (F RN) :=
  Gamut_of_primaries RN (Some (fst r)) (Some (snd r)) (Some (fst g)) (Some (snd g))
    (Some (fst b)) (Some (snd b)) (Some (fst w)) (Some (snd w)).

Definition pmat (r g b : pt) : Matrix3 R := mkM (fun i j => cmp (xyz (nth j (r :: g :: b :: nil) r)) i).
Lemma pmat_det r g b : detR (pmat r g b) = area r g b.
Proof. destruct r, g, b. unfold detR, pmat, area, xyz. spec. cbn [fst snd]. ring. Qed.
Lemma primMat_fin r g b : primMat RN (Some (fst r)) (Some (snd r)) (Some (fst g)) (Some (snd g))
    (Some (fst b)) (Some (snd b)) = finM (pmat r g b).
Proof. reflexivity. Qed.
(** how much of each primary makes the white. *)
Definition sR (r g b w : pt) : R := area w g b / (snd w * area r g b).
Definition sG (r g b w : pt) : R := area r w b / (snd w * area r g b).
Definition sB (r g b w : pt) : R := area r g w / (snd w * area r g b).
Definition svec r g b w : Vector3 R := V3 (sR r g b w) (sG r g b w) (sB r g b w).
Lemma svec_eq r g b w : area r g b <> 0 -> snd w <> 0 -> applyR (invR (pmat r g b)) (white w) = svec r g b w.
Proof.
  intros A Y. unfold applyR, invR. rewrite pmat_det. unfold svec, sR, sG, sB, pmat, white, xyz.
  set (d := area r g b) in *. spec. cbn [fst snd v0 v1 v2].
  destruct r as [rx ry], g as [gx gy], b as [bx by_], w as [wx wy]. unfold area. cbn [fst snd] in *.
  apply V3_eq; field; auto.
Qed.
Lemma svec_sum r g b w : area r g b <> 0 -> snd w <> 0 ->
  applyR (pmat r g b) (svec r g b w) = white w.
Proof.
  intros A Y. rewrite <- svec_eq by assumption. rewrite <- applyR_mul, invR_r, applyR_id; [reflexivity|].
  rewrite pmat_det. exact A.
Qed.
Definition gmat r g b w : Matrix3 R := mulR (pmat r g b) (diagR (svec r g b w)).
Lemma fromPrimaries_fin r g b w : area r g b <> 0 -> eps8 <= Rabs (snd w) ->
  fromPrimaries RN (Some (fst r)) (Some (snd r)) (Some (fst g)) (Some (snd g))
    (Some (fst b)) (Some (snd b)) (Some (fst w)) (Some (snd w)) = finM (gmat r g b w).
Proof.
  intros A Y. unfold fromPrimaries, mulDiag. rewrite primMat_fin.
  pose proof (fromYxy_ok 1 (fst w) (snd w) Y) as E. unfold fromYxy, finV in E. rn in E.
  assert (W : fromYxy3 RN (@flit RN 1) (Some (fst w)) (Some (snd w)) = finV (white w)).
  { transitivity (V3 (Some (fst w * 1 / snd w) : F RN) (Some 1) (Some ((1 - fst w - snd w) * 1 / snd w))).
    - exact E.
    - unfold finV, white. cbn [v0 v1 v2]. rewrite !Rmult_1_r. reflexivity. }
  rewrite W.
  rewrite M_invert_fin by (rewrite pmat_det; exact A). rewrite M_apply_fin.
  rewrite svec_eq by (try exact A; apply eps8_nz, Y).
  change (G_diag RN (finV (svec r g b w))) with (M_diag RN (finV (svec r g b w))).
  rewrite M_diag_fin, M_mul_fin. reflexivity.
Qed.
Lemma gmat_det r g b w : detR (gmat r g b w) = area r g b * (sR r g b w * sG r g b w * sB r g b w).
Proof. unfold gmat. rewrite detR_mul, detR_diag, pmat_det. reflexivity. Qed.
Lemma gmat_col r g b w i : (i < 3)%nat ->
  applyR (gmat r g b w) (e_ i) = scaleV (cmp (svec r g b w) i) (xyz (nth i (r :: g :: b :: nil) r)).
Proof.
  intros H. destruct i as [|[|[|i]]]; [| | |lia];
  unfold gmat, applyR, mulR, pmat, diagR, e_, scaleV, svec; spec; unfold xyz; cbn [v0 v1 v2 nth fst snd];
  apply V3_eq; ring.
Qed.
Lemma gmat_one r g b w : area r g b <> 0 -> snd w <> 0 ->
  applyR (gmat r g b w) (V3 1 1 1) = white w.
Proof.
  intros A Y. rewrite <- (svec_sum r g b w A Y). unfold gmat. rewrite applyR_mul. f_equal.
  unfold applyR, diagR. spec. destruct (svec r g b w) as [a0 a1 a2]. cbn [v0 v1 v2]. apply V3_eq; ring.
Qed.
Lemma s_nz a b c : a <> 0 -> b <> 0 -> c <> 0 -> a / (b * c) <> 0.
Proof. intros A B C. apply div_nz; [exact A|]. apply Rmult_integral_contrapositive; auto. Qed.

(** ** C22 *)
Lemma C22_l (r g b w : pt) : area r g b <> 0 -> eps8 <= Rabs (snd w) ->
  let G := gamut_of r g b w in
  G_toXYZ_t RN G (finV (V3 1 1 1)) = finV (white w) /\
  exists s : Vector3 R,
    cmp s 0 = area w g b / (snd w * area r g b) /\
    cmp s 1 = area r w b / (snd w * area r g b) /\
    cmp s 2 = area r g w / (snd w * area r g b) /\
    forall i, (i < 3)%nat -> let p := nth i (r :: g :: b :: nil) r in
      G_toXYZ_t RN G (finV (e_ i)) = finV (scaleV (cmp s i) (xyz p)) /\
      (eps8 <= Rabs (cmp s i) ->
       toYxy RN (G_toXYZ_t RN G (finV (e_ i))) = finV (V3 (cmp s i * snd p) (fst p) (snd p))).
Proof.
  intros A Y G. unfold G, gamut_of, Gamut_of_primaries, G_toXYZ_t. cbn [g_toXYZ].
  rewrite fromPrimaries_fin by assumption. split.
  { rewrite M_apply_fin, gmat_one; auto. apply eps8_nz, Y. }
  exists (svec r g b w). split; [reflexivity|]. split; [reflexivity|]. split; [reflexivity|].
  intros i Hi. set (p := nth i (r :: g :: b :: nil) r). rewrite M_apply_fin, gmat_col by exact Hi. fold p. split; [reflexivity|].
  intros S. set (s := cmp (svec r g b w) i) in *. unfold scaleV, xyz. cbn [v0 v1 v2].
  assert (E : s * fst p + s * snd p + s * (1 - fst p - snd p) = s) by ring.
  rewrite toYxy_ok by (rewrite E; exact S). rewrite E. pose proof (eps8_nz _ S).
  unfold finV. rn. fin_eq; field; assumption.
Qed.

(** ** C23: a gamut whose two matrices are finite and inverse. *)
Definition good_gamut (G : Gamut (F RN)) (a b : Matrix3 R) : Prop :=
  g_toXYZ G = finM a /\ g_fromXYZ G = finM b /\ is_inverse a b.
Lemma good_primaries r g b w : area r g b <> 0 -> eps8 <= Rabs (snd w) ->
  area w g b <> 0 -> area r w b <> 0 -> area r g w <> 0 ->
  good_gamut (gamut_of r g b w) (gmat r g b w) (invR (gmat r g b w)).
Proof.
  intros A Y A1 A2 A3. pose proof (eps8_nz _ Y) as Y0. assert (D : detR (gmat r g b w) <> 0).
  { rewrite gmat_det.
    assert (S0 : sR r g b w <> 0) by (apply s_nz; auto).
    assert (S1 : sG r g b w <> 0) by (apply s_nz; auto).
    assert (S2 : sB r g b w <> 0) by (apply s_nz; auto).
    apply Rmult_integral_contrapositive_currified; [exact A|].
    apply Rmult_integral_contrapositive_currified; [|exact S2].
    apply Rmult_integral_contrapositive_currified; assumption. }
  unfold good_gamut, gamut_of, Gamut_of_primaries. cbn [g_toXYZ g_fromXYZ].
  rewrite fromPrimaries_fin by assumption. split; [reflexivity|]. split; [apply M_invert_fin, D|].
  apply invR_is_inverse, D.
Qed.
Lemma good_fromXYZ m : detR m <> 0 -> good_gamut (Gamut_of_fromXYZ RN (finM m)) (invR m) m.
Proof.
  intros D. unfold good_gamut, Gamut_of_fromXYZ. cbn [g_toXYZ g_fromXYZ].
  rewrite M_invert_fin by exact D. repeat split; [apply invR_l|apply invR_r]; exact D.
Qed.
Lemma good_round G a b : good_gamut G a b -> forall t,
  G_fromXYZ_t RN G (G_toXYZ_t RN G (finV t)) = finV t /\ G_toXYZ_t RN G (G_fromXYZ_t RN G (finV t)) = finV t.
Proof.
  intros (A & B & I1 & I2) t. unfold G_fromXYZ_t, G_toXYZ_t. rewrite A, B, !M_apply_fin, <- !applyR_mul, I1, I2, applyR_id. auto.
Qed.
Definition predefined : list (Gamut (F RN)) :=
  AdobeRGB RN :: Rec709 RN :: Rec2020 RN :: DCI_P3 RN :: S_Gamut RN :: S_Gamut3_Cine RN :: ACEScg RN ::
  ACES2065 RN :: LMS RN :: XYZ_gamut RN :: nil.
Ltac predef := match goal with |- exists a b, good_gamut ?G a b =>
  match G with Gamut_of_primaries RN ?xr ?yr ?xg ?yg ?xb ?yb ?xw ?yw =>
    let f x := (let v := eval cbv beta iota zeta delta [flit fopp RN rx1] in x in
                match v with Some ?u => u end) in
    let xr := f xr in let yr := f yr in let xg := f xg in let yg := f yg in
    let xb := f xb in let yb := f yb in let xw := f xw in let yw := f yw in
    do 2 eexists; apply (good_primaries (xr, yr) (xg, yg) (xb, yb) (xw, yw));
    unfold area; cbn [fst snd]; qn; rewrite ?Rabs_pos_eq by lra; unfold eps8; lra
  end end.
Definition bradR : Matrix3 R :=
  M3 0.8951 0.2664 (- 0.1614) (- 0.7502) 1.7135 0.0367 0.0389 (- 0.0685) 1.0296.
Lemma LMS_fin : LMS RN = Gamut_of_fromXYZ RN (finM bradR).
Proof. unfold LMS, bradR. rl. do 2 f_equal; unfold finM; rl; apply M3_eq; fin_eq; qn; lra. Qed.
Lemma bradR_det : detR bradR <> 0.
Proof. unfold detR, bradR. spec. lra. Qed.
Lemma LMS_good : good_gamut (LMS RN) (invR bradR) bradR.
Proof. rewrite LMS_fin. apply good_fromXYZ, bradR_det. Qed.
Lemma XYZ_good : good_gamut (XYZ_gamut RN) (invR idR) idR.
Proof. apply (good_fromXYZ idR). rewrite detR_id. lra. Qed.
Lemma predefined_good : Forall (fun G => exists a b, good_gamut G a b) predefined.
Proof.
  unfold predefined. repeat apply Forall_cons; [..|apply Forall_nil].
  9: exact (ex_intro _ _ (ex_intro _ _ LMS_good)).
  9: exact (ex_intro _ _ (ex_intro _ _ XYZ_good)).
  - unfold AdobeRGB. predef.
  - unfold Rec709. predef.
  - unfold Rec2020. predef.
  - unfold DCI_P3. predef.
  - unfold S_Gamut. predef.
  - unfold S_Gamut3_Cine. predef.
  - unfold ACEScg. predef.
  - unfold ACES2065. predef.
Qed.

(** ** C24 *)
Lemma C24_l (r g b w : pt) : area r g b <> 0 -> eps8 <= Rabs (snd w) ->
  area w g b <> 0 -> area r w b <> 0 -> area r g w <> 0 ->
  let G := gamut_of r g b w in
  primaryRed RN G = finV (xyz r) /\ primaryGreen RN G = finV (xyz g) /\ primaryBlue RN G = finV (xyz b) /\
  primaryWhite RN G = finV (white w).
Proof.
  intros A Y A1 A2 A3 G. pose proof (eps8_nz _ Y) as Y0.
  assert (S0 : sR r g b w <> 0) by (apply s_nz; auto).
  assert (S1 : sG r g b w <> 0) by (apply s_nz; auto).
  assert (S2 : sB r g b w <> 0) by (apply s_nz; auto).
  assert (V : primaryVector RN G = finV (svec r g b w)).
  { unfold primaryVector, G, gamut_of, Gamut_of_primaries. cbn [g_toXYZ]. rewrite fromPrimaries_fin by assumption.
    unfold gmat, svec, mulR, pmat, diagR, xyz. spec. rn. unfold finV. rn. fin_eq; ring. }
  assert (P : primaryMatrix RN G = finM (pmat r g b)).
  { unfold primaryMatrix. rewrite V. unfold G, gamut_of, Gamut_of_primaries. cbn [g_toXYZ]. rewrite fromPrimaries_fin by assumption.
    unfold gmat, svec, mulR, diagR. spec. rn. rewrite !rdiv_ok by assumption.
    unfold pmat, xyz. spec. cbn [fst snd]. unfold finM. rn. fin_eq; field; assumption. }
  unfold primaryRed, primaryGreen, primaryBlue, primaryWhite. rewrite P, V. repeat split.
  rewrite M_apply_fin, svec_sum; auto.
Qed.

(** ** C25 *)
Lemma C25_l (A B C : Gamut (F RN)) (a a' b b' c c' : Matrix3 R) :
  good_gamut A a a' -> good_gamut B b b' -> good_gamut C c c' ->
  (exists m, GamutConvert RN A B = finM m /\
     forall t, M_apply RN (GamutConvert RN A B) (finV t) = G_fromXYZ_t RN B (G_toXYZ_t RN A (finV t))) /\
  GamutConvert RN A A = finM idR /\
  M_mul RN (GamutConvert RN B C) (GamutConvert RN A B) = GamutConvert RN A C /\
  M_mul RN (GamutConvert RN A B) (GamutConvert RN B A) = finM idR.
Proof.
  intros (A1 & A2 & IA1 & IA2) (B1 & B2 & IB1 & IB2) (C1 & C2 & IC1 & IC2).
  unfold GamutConvert, G_fromXYZ_t, G_toXYZ_t. rewrite A1, A2, B1, B2, C2, !M_mul_fin. split; [|split; [|split]].
  - eexists. split; [reflexivity|]. intros t. rewrite !M_apply_fin, applyR_mul. reflexivity.
  - rewrite IA2. reflexivity.
  - f_equal. rewrite <- (mulR_assoc c'), (mulR_assoc b b'), IB1, mulR_id_l. reflexivity.
  - f_equal. rewrite <- (mulR_assoc b'), (mulR_assoc a a'), IA1, mulR_id_l. exact IB2.
Qed.
Lemma C25_white_l (r g b r' g' b' w : pt) :
  area r g b <> 0 -> area r' g' b' <> 0 -> eps8 <= Rabs (snd w) ->
  area w g' b' <> 0 -> area r' w b' <> 0 -> area r' g' w <> 0 ->
  M_apply RN (GamutConvert RN (gamut_of r g b w) (gamut_of r' g' b' w)) (finV (V3 1 1 1)) = finV (V3 1 1 1).
Proof.
  intros A A' Y A1 A2 A3. pose proof (eps8_nz _ Y) as Y0.
  destruct (good_primaries r' g' b' w A' Y A1 A2 A3) as (B1 & B2 & I1 & I2).
  unfold GamutConvert. rewrite B2. unfold gamut_of at 1, Gamut_of_primaries. cbn [g_toXYZ].
  rewrite fromPrimaries_fin by assumption. rewrite M_mul_fin, M_apply_fin, applyR_mul, gmat_one by assumption.
  rewrite <- (gmat_one r' g' b' w) by assumption. rewrite <- applyR_mul, I2, applyR_id. reflexivity.
Qed.

(** ** C26: the cone response of a white is the Bradford matrix applied to it. *)
Definition cone (w : Vector3 R) : Vector3 R := applyR bradR w.
Definition nzV (v : Vector3 R) : Prop := v0 v <> 0 /\ v1 v <> 0 /\ v2 v <> 0.
Definition ratioV (a b : Vector3 R) : Vector3 R := V3 (v0 a / v0 b) (v1 a / v1 b) (v2 a / v2 b).
Definition bradford (s d : Vector3 R) : Matrix3 R :=
  mulR (mulR (invR bradR) (diagR (ratioV (cone d) (cone s)))) bradR.
Lemma Bradford_fin s d : nzV (cone s) -> Bradford RN (finV s) (finV d) = finM (bradford s d).
Proof.
  intros (A & B & C). destruct LMS_good as (L1 & L2 & _). unfold Bradford, G_fromXYZ_t.
  rewrite L1, L2, !M_apply_fin. fold (cone s) (cone d). unfold finV. rn.
  rewrite !rdiv_ok by assumption.
  change (V3 (Some (v0 (cone d) / v0 (cone s))) (Some (v1 (cone d) / v1 (cone s))) (Some (v2 (cone d) / v2 (cone s))))
    with (finV (ratioV (cone d) (cone s))).
  rewrite M_diag_fin, !M_mul_fin. reflexivity.
Qed.
Lemma diag_mul u v : mulR (diagR u) (diagR v) = diagR (V3 (v0 u * v0 v) (v1 u * v1 v) (v2 u * v2 v)).
Proof. destruct u as [a b c], v as [a' b' c']. unfold mulR, diagR. spec. apply M3_eq; ring. Qed.
Lemma diag_one : diagR (V3 1 1 1) = idR. Proof. reflexivity. Qed.
Lemma brad_comp s d e : nzV (cone s) -> nzV (cone d) -> mulR (bradford d e) (bradford s d) = bradford s e.
Proof.
  intros (A & B & C) (A' & B' & C'). unfold bradford.
  set (P := invR bradR). set (X := diagR (ratioV (cone e) (cone d))). set (Y := diagR (ratioV (cone d) (cone s))).
  replace (mulR (mulR (mulR P X) bradR) (mulR (mulR P Y) bradR))
    with (mulR (mulR P (mulR X (mulR (mulR bradR P) Y))) bradR).
  2: { rewrite !mulR_assoc. reflexivity. }
  unfold P. rewrite invR_r, mulR_id_l by apply bradR_det. unfold X, Y. rewrite diag_mul.
  do 3 f_equal. unfold ratioV. cbn [v0 v1 v2]. apply V3_eq; field; auto.
Qed.
Lemma brad_self s : nzV (cone s) -> bradford s s = idR.
Proof.
  intros (A & B & C). unfold bradford. replace (ratioV (cone s) (cone s)) with (V3 1 1 1).
  - rewrite diag_one, mulR_id_r. apply invR_l, bradR_det.
  - unfold ratioV. apply V3_eq; field; assumption.
Qed.
Lemma brad_maps s d : nzV (cone s) -> applyR (bradford s d) s = d.
Proof.
  intros (A & B & C). unfold bradford. rewrite !applyR_mul. fold (cone s).
  replace (applyR (diagR (ratioV (cone d) (cone s))) (cone s)) with (cone d).
  - unfold cone. rewrite <- applyR_mul, invR_l, applyR_id; [reflexivity|apply bradR_det].
  - unfold ratioV. destruct (cone d) as [a b c], (cone s) as [a' b' c']. cbn [v0 v1 v2] in *.
    unfold applyR, diagR. spec. apply V3_eq; field; assumption.
Qed.
Lemma C26_l (a b c : Vector3 R) : nzV (cone a) -> nzV (cone b) ->
  Bradford RN (finV a) (finV a) = finM idR /\
  M_apply RN (Bradford RN (finV a) (finV b)) (finV a) = finV b /\
  M_mul RN (Bradford RN (finV b) (finV a)) (Bradford RN (finV a) (finV b)) = finM idR /\
  M_mul RN (Bradford RN (finV b) (finV c)) (Bradford RN (finV a) (finV b)) = Bradford RN (finV a) (finV c).
Proof.
  intros A B. rewrite !Bradford_fin by assumption. rewrite M_apply_fin, !M_mul_fin.
  rewrite brad_self, brad_maps, !brad_comp by assumption. rewrite brad_self by exact A. auto.
Qed.

(** ** C27: published chromaticity coordinates of the illuminants (CIE 1931 2-degree). *)
Definition near (t : Vector3 (F RN)) (x y : R) : Prop :=
  exists X Z, t = finV (V3 X 1 Z) /\ Rabs (X - x / y) < 0.0015 /\ Rabs (Z - (1 - x - y) / y) < 0.0015.
Lemma near_i X Y Z x y : Y = 1 -> Rabs (X - x / y) < 0.0015 -> Rabs (Z - (1 - x - y) / y) < 0.0015 ->
  near (V3 (Some X : F RN) (Some Y) (Some Z)) x y.
Proof. intros -> A B. exists X, Z. auto. Qed.
Ltac near := refine (near_i _ _ _ _ _ _ _ _); qn; try apply Rabs_def1; lra.
Lemma C27_others_l :
  near (Illuminant_A RN) 0.44757 0.40745 /\ near (Illuminant_C RN) 0.31006 0.31616 /\
  near (Illuminant_D50 RN) 0.34567 0.35850 /\ near (Illuminant_D55 RN) 0.33242 0.34743 /\
  near (Illuminant_D60 RN) 0.32168 0.33767 /\ near (Illuminant_D65 RN) 0.31271 0.32902 /\
  near (Illuminant_D75 RN) 0.29902 0.31485 /\ near (Illuminant_E RN) (1 / 3) (1 / 3) /\
  near (Illuminant_F2 RN) 0.37208 0.37529 /\ near (Illuminant_F7 RN) 0.31292 0.32933 /\
  near (Illuminant_F11 RN) 0.38052 0.37713.
Proof. split; [near|]. do 9 (split; [near|]). near. Qed.
Lemma C27_l : ~ near (Illuminant_B RN) 0.34842 0.35161 /\
  exists X Z, Illuminant_B RN = finV (V3 X 1 Z) /\ X - 0.34842 / 0.35161 > 0.99.
Proof.
  assert (E : Illuminant_B RN = finV (V3 1.99072 1 0.85223)).
  { unfold Illuminant_B, finV. rl. fin_eq; qn; lra. }
  rewrite E. split.
  - intros (X & Z & K & L & _). unfold finV in K. injection K. intros. subst. cbn [v0] in L. apply Rabs_def2 in L. lra.
  - do 2 eexists. split; [reflexivity|]. lra.
Qed.

Lemma C23_prim_l (r g b w : pt) : area r g b <> 0 -> eps8 <= Rabs (snd w) ->
  area w g b <> 0 -> area r w b <> 0 -> area r g w <> 0 ->
  exists m, detR m <> 0 /\ good_gamut (gamut_of r g b w) m (invR m).
Proof.
  intros. pose proof (good_primaries r g b w) as G. exists (gmat r g b w). split; [|apply G; assumption].
  destruct G as (_ & _ & I & _); try assumption. exact (inverse_det _ _ I).
Qed.
Lemma C26_scale_l (s d t : Vector3 R) : nzV (cone s) ->
  exists u, M_apply RN (Bradford RN (finV s) (finV d)) (finV t) = finV u /\
  cone u = V3 (v0 (cone d) / v0 (cone s) * v0 (cone t)) (v1 (cone d) / v1 (cone s) * v1 (cone t))
              (v2 (cone d) / v2 (cone s) * v2 (cone t)).
Proof.
  intros H. exists (applyR (bradford s d) t). split; [rewrite Bradford_fin by exact H; apply M_apply_fin|].
  unfold bradford, cone at 1. rewrite !applyR_mul. rewrite <- (applyR_mul bradR), invR_r, applyR_id by apply bradR_det.
  fold (cone t). destruct (cone t) as [a b c]. unfold applyR, diagR, ratioV. spec. apply V3_eq; ring.
Qed.
Lemma C26_ex : nzV (cone (V3 0.95047 1 1.08883)) /\ nzV (cone (V3 0.96422 1 0.82521)).
Proof. unfold nzV, cone, bradR, applyR. spec. lra. Qed.
