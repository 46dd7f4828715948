(** * A gamut reproduces exactly the colours inside its triangle. *)
From Coq Require Import ZArith Reals Lra Lia List Bool.
From Flocq Require Import Core.Raux.
From Verif Require Import Num NumR MVec MTri SpecMat RTac PMat PTri PGamut.
Local Open Scope R_scope.

(** [p] is a mixture of the three points, with non-negative weights. *)
Definition inside (r g b p : pt) : Prop := exists i j k, 0 <= i /\ 0 <= j /\ 0 <= k /\ i + j + k = 1 /\
  fst p = i * fst r + j * fst g + k * fst b /\ snd p = i * snd r + j * snd g + k * snd b.
(** the same mixture with positive weights. *)
Definition interior (r g b p : pt) : Prop := exists i j k, 0 < i /\ 0 < j /\ 0 < k /\ i + j + k = 1 /\
  fst p = i * fst r + j * fst g + k * fst b /\ snd p = i * snd r + j * snd g + k * snd b.
Lemma bary r g b p i j k : i + j + k = 1 -> fst p = i * fst r + j * fst g + k * fst b -> snd p = i * snd r + j * snd g + k * snd b ->
  area p g b = i * area r g b /\ area r p b = j * area r g b /\ area r g p = k * area r g b.
Proof. intros S X Y. assert (i = 1 - j - k) as -> by lra. unfold area. rewrite X, Y. repeat split; ring. Qed.
Lemma hasNeg a b c : T_hasNegative RN (finV (V3 a b c)) = false <-> 0 <= a /\ 0 <= b /\ 0 <= c.
Proof.
  unfold T_hasNegative, isNegative, finV. cbn [v0 v1 v2]. rn.
  rewrite !orb_false_iff. replace (Rdec 0) with 0 by reflexivity.
  assert (E : forall x y, Rlt_bool x y = false <-> y <= x).
  { intros x y. destruct (Rlt_bool_spec x y); split; intros; try discriminate; try lra; try reflexivity. }
  rewrite !E. tauto.
Qed.
Lemma interior_s r g b w : area r g b <> 0 -> 0 < snd w -> interior r g b w -> 0 < sR r g b w /\ 0 < sG r g b w /\ 0 < sB r g b w.
Proof.
  intros A W (i & j & k & I & J & K & S & X & Y). destruct (bary r g b w i j k S X Y) as (E1 & E2 & E3).
  unfold sR, sG, sB. rewrite E1, E2, E3.
  assert (Q : forall z, z * area r g b / (snd w * area r g b) = z / snd w) by (intros; field; lra).
  rewrite !Q. repeat split; apply Rdiv_lt_0_compat; assumption.
Qed.
Lemma interior_nz r g b w : area r g b <> 0 -> interior r g b w -> area w g b <> 0 /\ area r w b <> 0 /\ area r g w <> 0.
Proof.
  intros A (i & j & k & I & J & K & S & X & Y). destruct (bary r g b w i j k S X Y) as (E1 & E2 & E3). rewrite E1, E2, E3.
  repeat split; apply Rmult_integral_contrapositive_currified; lra || exact A.
Qed.
Lemma gmat_app r g b w c0 c1 c2 : let sr := sR r g b w * c0 in let sg := sG r g b w * c1 in let sb := sB r g b w * c2 in
  applyR (gmat r g b w) (V3 c0 c1 c2) = V3 (sr * fst r + sg * fst g + sb * fst b) (sr * snd r + sg * snd g + sb * snd b)
    (sr * (1 - fst r - snd r) + sg * (1 - fst g - snd g) + sb * (1 - fst b - snd b)).
Proof.
  cbv zeta. unfold gmat, svec.   assert (E : forall a c d, applyR (mulR (pmat r g b) (diagR (V3 a c d))) (V3 c0 c1 c2) = V3 (a * c0 * fst r + c * c1 * fst g + d * c2 * fst b)
    (a * c0 * snd r + c * c1 * snd g + d * c2 * snd b) (a * c0 * (1 - fst r - snd r) + c * c1 * (1 - fst g - snd g) + d * c2 * (1 - fst b - snd b))).
  { intros a c d. destruct r as [r0 r1], g as [g0 g1], b as [b0 b1]. unfold applyR, mulR, pmat, diagR. spec. unfold xyz. cbn [v0 v1 v2 nth fst snd]. apply V3_eq; ring. }
  apply E.
Qed.
Lemma C131_l r g b w : area r g b <> 0 -> eps8 <= snd w -> interior r g b w -> forall X Y Z, 0 < X + Y + Z ->
  exists c, G_fromXYZ_t RN (gamut_of r g b w) (finV (V3 X Y Z)) = finV c /\
    (T_hasNegative RN (finV c) = false <-> inside r g b (X / (X + Y + Z), Y / (X + Y + Z))).
Proof.
  intros A W I X Y Z S. assert (E8 : 0 < eps8) by (unfold eps8; lra).
  destruct (interior_nz r g b w A I) as (N1 & N2 & N3). destruct (interior_s r g b w A ltac:(lra) I) as (P1 & P2 & P3).
  pose proof (good_primaries r g b w A ltac:(rewrite Rabs_pos_eq; lra) N1 N2 N3) as G. set (a := gmat r g b w) in *.
  pose proof (good_round _ _ _ G (V3 X Y Z)) as [_ RT]. destruct G as (G1 & G2 & _). unfold G_toXYZ_t, G_fromXYZ_t in *. rewrite G1, G2 in *. rewrite M_apply_fin in *.
  exists (applyR (invR a) (V3 X Y Z)). split; [reflexivity|]. rewrite M_apply_fin in RT. destruct (applyR (invR a) (V3 X Y Z)) as [c0 c1 c2].
  rewrite hasNeg. unfold a in RT. rewrite gmat_app in RT. unfold finV in RT. cbn [v0 v1 v2] in RT. injection RT as EX EY EZ.
  set (s0 := sR r g b w) in *. set (s1 := sG r g b w) in *. set (s2 := sB r g b w) in *.
  set (sr := s0 * c0) in *. set (sg := s1 * c1) in *. set (sb := s2 * c2) in *.
  assert (ES : sr + sg + sb = X + Y + Z) by (rewrite <- EX, <- EY, <- EZ; ring). set (T := X + Y + Z) in *.
  assert (ND : forall s c, 0 < s -> (0 <= c <-> 0 <= s * c)) by (intros; split; intros; nra).
  rewrite (ND s0 c0 P1), (ND s1 c1 P2), (ND s2 c2 P3). fold sr sg sb. unfold inside. cbn [fst snd]. split.
  - intros (H0 & H1 & H2). exists (sr / T), (sg / T), (sb / T).
    assert (D : forall x, 0 <= x -> 0 <= x / T) by (intros; apply Rmult_le_pos; [assumption|left; now apply Rinv_0_lt_compat]).
    repeat split; [now apply D|now apply D|now apply D|rewrite <- ES at 1 2 3; field; lra| |]; [rewrite <- EX|rewrite <- EY]; field; lra.
  - intros (i & j & k & I0 & I1 & I2 & S1 & EX' & EY').
    (* the weights are unique *)
    destruct (bary r g b (X / T, Y / T) i j k S1 EX' EY') as (B0 & B1 & B2).
    destruct (bary r g b (X / T, Y / T) (sr / T) (sg / T) (sb / T)) as (B0' & B1' & B2'); cbn [fst snd].
    + rewrite <- ES. field. lra.
    + rewrite <- EX. field. lra.
    + rewrite <- EY. field. lra.
    + rewrite B0 in B0'. rewrite B1 in B1'. rewrite B2 in B2'. apply Rmult_eq_reg_r in B0', B1', B2'; try exact A.
      assert (Q : forall x y, 0 <= x -> x = y / T -> 0 <= y). { intros x y Hx Hy. replace y with (x * T) by (rewrite Hy; field; lra). nra. }
      split; [now apply (Q i)|]. split; [now apply (Q j)|now apply (Q k)].
Qed.
Definition reproduces (G : Gamut (F RN)) : Prop := exists r g b : pt,
  (primaryRed RN G = finV (xyz r) /\ primaryGreen RN G = finV (xyz g) /\ primaryBlue RN G = finV (xyz b) /\ area r g b  <> 0) /\
  forall X Y Z, 0 < X + Y + Z -> exists c, G_fromXYZ_t RN G (finV (V3 X Y Z)) = finV c /\
    (T_hasNegative RN (finV c) = false <-> inside r g b (X / (X + Y + Z), Y / (X + Y + Z))).
Lemma in_sub r g b w : area r g b <> 0 -> 0 < area w g b / area r g b -> 0 < area r w b / area r g b -> 0 < area r g w / area r g b -> interior r g b w.
Proof.
  intros A P1 P2 P3. exists (area w g b / area r g b), (area r w b / area r g b), (area r g w / area r g b). repeat split; try assumption.
  all: apply Rmult_eq_reg_r with (area r g b); [|exact A]; unfold Rdiv.
  - rewrite !Rmult_plus_distr_r, !Rmult_assoc, Rinv_l, !Rmult_1_r by exact A. unfold area. ring.
  - replace ((area w g b * / area r g b * fst r + area r w b * / area r g b * fst g + area r g w * / area r g b * fst b) * area r g b)
      with (area w g b * fst r + area r w b * fst g + area r g w * fst b) by (field; exact A). unfold area. ring.
  - replace ((area w g b * / area r g b * snd r + area r w b * / area r g b * snd g + area r g w * / area r g b * snd b) * area r g b)
      with (area w g b * snd r + area r w b * snd g + area r g w * snd b) by (field; exact A). unfold area. ring.
Qed.
Lemma rep_of r g b w : 0 < area r g b -> eps8 <= snd w -> 0 < area w g b -> 0 < area r w b -> 0 < area r g w -> reproduces (gamut_of r g b w).
Proof.
  intros A W P1 P2 P3. assert (0 < eps8) by (unfold eps8; lra). exists r, g, b.
  destruct (C24_l r g b w ltac:(lra) ltac:(rewrite Rabs_pos_eq; lra) ltac:(lra) ltac:(lra) ltac:(lra)) as (E1 & E2 & E3 & _).
  split; [repeat split; try assumption; lra|]. apply C131_l; [lra|exact W|]. apply in_sub; [lra|..]; apply Rdiv_lt_0_compat; assumption.
Qed.
Ltac prep := match goal with |- reproduces ?G =>
  match G with Gamut_of_primaries RN ?xr ?yr ?xg ?yg ?xb ?yb ?xw ?yw =>
    let f x := (let v := eval cbv beta iota zeta delta [flit fopp RN rx1] in x in
                match v with Some ?u => u end) in
    let xr := f xr in let yr := f yr in let xg := f xg in let yg := f yg in
    let xb := f xb in let yb := f yb in let xw := f xw in let yw := f yw in
    apply (rep_of (xr, yr) (xg, yg) (xb, yb) (xw, yw)); unfold area; cbn [fst snd]; qn; unfold eps8; lra
  end end.
Lemma C131_predef : Forall reproduces
  (AdobeRGB RN :: Rec709 RN :: Rec2020 RN :: DCI_P3 RN :: S_Gamut RN :: S_Gamut3_Cine RN :: ACEScg RN :: ACES2065 RN :: nil).
Proof.
  repeat apply Forall_cons; [..|apply Forall_nil].
  - unfold AdobeRGB. prep.
  - unfold Rec709. prep.
  - unfold Rec2020. prep.
  - unfold DCI_P3. prep.
  - unfold S_Gamut. prep.
  - unfold S_Gamut3_Cine. prep.
  - unfold ACEScg. prep.
  - unfold ACES2065. prep.
Qed.
Lemma C131_ex : let r := (0.64, 0.33) in let g := (0.3, 0.6) in let b := (0.15, 0.06) in let w := (0.3127, 0.329) in
  area r g b <> 0 /\ eps8 <= snd w /\ interior r g b w /\ inside r g b w /\ ~ inside r g b (0.7, 0.29).
Proof.
  cbv zeta. assert (A : area (0.64, 0.33) (0.3, 0.6) (0.15, 0.06) = 0.2241) by (unfold area; cbn [fst snd]; lra).
  assert (I : interior (0.64, 0.33) (0.3, 0.6) (0.15, 0.06) (0.3127, 0.329)).
  { apply in_sub; rewrite A; [lra|..]; unfold area; cbn [fst snd]; lra. }
  repeat split.
  - rewrite A. lra.
  - unfold eps8. cbn [snd]. lra.
  - exact I.
  - destruct I as (i & j & k & I & J & K & Q). exists i, j, k. repeat split; lra || apply Q.
  - intros (i & j & k & I0 & J & K & S & X & Y). cbn [fst snd] in *. lra.
Qed.
