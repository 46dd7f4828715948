(** * Greys in binary32: through gamut conversions, in CIELAB and in HSV. *)
From Coq Require Import ZArith QArith Qreals Reals Lra Lia List Bool.
From Flocq Require Import Core IEEE754.BinarySingleNaN.
From Verif Require Import Num NumR NumF MVec MTri MOtf RTac SpecMat PMat PTri PGamut F32 PMatF PHsvF PLibm PPowF PNearF PNearF2 PRelF POtf POtf2 POtfF POtfF2 PCodes PGamF PGamF2 PGamF3 PImg PLab PLabF PHexcone.
Import ListNotations.
Local Open Scope R_scope.

Definition greyF (g : f32) : Vector3 f32 := V3 g g g.
Lemma norm3_grey g : norm3 (greyF g) = Rabs (B2R g).
Proof. unfold norm3, greyF. cbn [v0 v1 v2]. rewrite !Rmax_left by (try rewrite Rmax_left; apply Rle_refl). reflexivity. Qed.
(** ** Gamuts with the same white. *)
Definition grey_rows (a : qmat) : bool :=
  let n := qn a in ((m0 n + m1 n + m2 n =? qd0 a) && (m3 n + m4 n + m5 n =? qd1 a) && (m6 n + m7 n + m8 n =? qd2 a))%Z.
Lemma grey_rows_ok a g : qok a = true -> grey_rows a = true -> applyR (qR a) (V3 g g g) = V3 g g g.
Proof.
  destruct a as [[n0 n1 n2 n3 n4 n5 n6 n7 n8] d0 d1 d2]. intros Q H. apply qok_ok in Q. cbn [qd0 qd1 qd2] in Q. destruct Q as (D0 & D1 & D2). unfold grey_rows in H. rewrite !andb_true_iff, !Z.eqb_eq in H. cbn [qn qd0 qd1 qd2 m0 m1 m2 m3 m4 m5 m6 m7 m8] in H. destruct H as [[H0 H1] H2].
  unfold applyR, qR. spec. cbn [qn qd0 qd1 qd2 m0 m1 m2 m3 m4 m5 m6 m7 m8 v0 v1 v2].
  apply (f_equal IZR) in H0, H1, H2. rewrite !plus_IZR in H0, H1, H2. rewrite <- H0 in D0 |- *. rewrite <- H1 in D1 |- *. rewrite <- H2 in D2 |- *. f_equal; field; auto.
Qed.
Definition d65 : list (gamut_fun * (qmat * qmat)) := firstn 3 named ++ firstn 2 (skipn 4 named).
Definition aces : list (gamut_fun * (qmat * qmat)) := firstn 2 (skipn 6 named).
Definition white_chk (p q : qmat * qmat) : bool := qok (snd q) && qok (fst p) && qok (qmul (snd q) (fst p)) && grey_rows (qmul (snd q) (fst p)).
Lemma d65_chk : all_pairs white_chk (map snd d65) = true. Proof. vm_compute. reflexivity. Qed.
Lemma aces_chk : all_pairs white_chk (map snd aces) = true. Proof. vm_compute. reflexivity. Qed.
Lemma in_named L p : (L = d65 \/ L = aces) -> In p L -> In p named.
Proof. unfold d65, aces, named. cbn [firstn skipn app]. intros [->| ->]; cbn [In]; tauto. Qed.
Lemma same_white L p q : (L = d65 \/ L = aces) -> In p L -> In q L -> white_chk (snd p) (snd q) = true.
Proof.
  intros HL P Q. assert (H : all_pairs white_chk (map snd L) = true) by (destruct HL as [->| ->]; [exact d65_chk|exact aces_chk]).
  unfold all_pairs in H. rewrite forallb_forall in H. specialize (H _ (in_map snd L p P)). rewrite forallb_forall in H. exact (H _ (in_map snd L q Q)).
Qed.
Lemma grey_conv_q lm L p q (g : f32) : (L = d65 \/ L = aces) -> In p L -> In q L -> fin g -> Rabs (B2R g) <= bpow radix2 110 ->
  near_app 32 (M_apply (FN lm) (GamutConvert (FN lm) (fst p (FN lm)) (fst q (FN lm))) (greyF g)) (V3 (B2R g) (B2R g) (B2R g)) (Rabs (B2R g)).
Proof.
  intros HL P Q Fg Hg. destruct (convert_near lm named p q (greyF g) (conv_all lm) named_exact (in_named L p HL P) (in_named L q HL Q)) as (e & E & Ne).
  - repeat split; exact Fg.
  - now rewrite norm3_grey.
  - rewrite norm3_grey in Ne. pose proof (proj1 (Forall_forall _ _) named_exact) as X. rewrite (X p), (X q) in E by eauto using in_named.
    pose proof (same_white L p q HL P Q) as W. unfold white_chk in W. rewrite !andb_true_iff in W. destruct W as [[[A B] C] D].
    unfold GamutConvert in E. cbn [g_toXYZ g_fromXYZ] in E. rewrite M_mul_fin, qmul_ok, M_apply_fin in E by assumption.
    apply finV_inj in E. unfold vR, greyF in E. cbn [v0 v1 v2] in E. rewrite grey_rows_ok in E by assumption. rewrite E. exact Ne.
Qed.

Lemma grey_conv lm (L : list gamut_fun) (G H : gamut_fun) (g : f32) :
  (L = [AdobeRGB : gamut_fun; Rec709 : gamut_fun; Rec2020 : gamut_fun; S_Gamut : gamut_fun; S_Gamut3_Cine : gamut_fun] \/ L = [ACEScg : gamut_fun; ACES2065 : gamut_fun]) ->
  In G L -> In H L -> fin g -> Rabs (B2R g) <= bpow radix2 110 ->
  near_app 32 (M_apply (FN lm) (GamutConvert (FN lm) (G (FN lm)) (H (FN lm))) (greyF g)) (V3 (B2R g) (B2R g) (B2R g)) (Rabs (B2R g)).
Proof.
  intros HL IG IH Fg Hg. assert (X : exists M, (M = d65 \/ M = aces) /\ map fst M = L) by (destruct HL as [->| ->]; [exists d65|exists aces]; split; auto).
  destruct X as (M & HM & <-). apply in_map_iff in IG, IH. destruct IG as (p & <- & P), IH as (q & <- & Q). now apply (grey_conv_q lm M).
Qed.
(** A grey of integer codes, decoded, converted and encoded, is the same grey. *)
Lemma grey_codes lm (L : list gamut_fun) (G H : gamut_fun) (M k : Z) (a b : f32) : accurate lm ->
  (L = [AdobeRGB : gamut_fun; Rec709 : gamut_fun; Rec2020 : gamut_fun; S_Gamut : gamut_fun; S_Gamut3_Cine : gamut_fun] \/ L = [ACEScg : gamut_fun; ACES2065 : gamut_fun]) ->
  In G L -> In H L -> (0 <= k <= M)%Z -> (0 < M <= 13000)%Z ->
  same_codes M (V3 k k k) (toScreen (FN lm) SRGB (M_apply (FN lm) (GamutConvert (FN lm) (G (FN lm)) (H (FN lm))) (toScene (FN lm) SRGB (pixel lm M (V3 k k k)) a)) b).
Proof.
  intros Acc HL IG IH K HM. assert (KV : codes_of M (V3 k k k)) by (unfold codes_of; cbn [v0 v1 v2]; lia).
  set (d := sRGB_to_Y (FN lm) (code lm k M) : f32). destruct (srgb_dec_range lm Acc k M K ltac:(lia)) as [Fd Rd']. assert (Rd : 0 <= B2R (d : f32) <= 1 + 16 * u) by exact Rd'. clear Rd'.
  change (toScene (FN lm) SRGB (pixel lm M (V3 k k k)) a) with (greyF d). pose proof u16 as U. pose proof eta16 as E.
  destruct (grey_conv lm L G H d HL IG IH Fd) as (F & H0 & H1 & H2).
  { rewrite (Rabs_pos_eq (B2R d)) by apply Rd. apply big110. rewrite U in Rd. lra. }
  cbn [v0 v1 v2] in H0, H1, H2. rewrite (Rabs_pos_eq (B2R d)) in H0, H1, H2 by apply Rd.
  assert (Le : 32 * u * B2R d + 4 * eta <= 32.1 * u) by (rewrite U in *; lra).
  apply (pixel_back lm Acc M (V3 k k k) b _ (32.1 * u) KV ltac:(lia) F); try (eapply Rle_trans; [eassumption|exact Le]).
  assert (M0 : 0 < IZR M) by (apply IZR_lt; lia). assert (M1 : IZR M <= 13000) by (apply IZR_le; lia).
  apply Rle_lt_trans with (13000 * (640 * u)); [apply Rmult_le_compat; rewrite U in *; lra|rewrite U; lra].
Qed.
(** ** Greys in CIELAB. *)
Lemma eta_small : eta <= 1e-40.
Proof. unfold eta. change (bpow radix2 (-150)) with (/ IZR (2 ^ 150)). cbv -[Rinv IZR Rle Rdiv Q2R]. lra. Qed.

Definition white_ch (n0 n1 n2 d : Z) : bool := ((0 <? d) && (8 * d <=? 10 * (n0 + n1 + n2)) && (10 * (n0 + n1 + n2) <=? 11 * d) || (d <? 0) && (10 * (n0 + n1 + n2) <=? 8 * d) && (11 * d <=? 10 * (n0 + n1 + n2)))%Z.
Lemma white_ch_ok n0 n1 n2 d g : white_ch n0 n1 n2 d = true -> exists W, 0.8 <= W <= 1.1 /\ IZR n0 / IZR d * g + IZR n1 / IZR d * g + IZR n2 / IZR d * g = W * g.
Proof.
  unfold white_ch. rewrite orb_true_iff, !andb_true_iff, !Z.ltb_lt, !Z.leb_le. intros H. exists ((IZR n0 + IZR n1 + IZR n2) / IZR d).
  assert (D : IZR d <> 0) by (apply not_0_IZR; lia). split; [|field; exact D].
  assert (X : forall a b, 0 < b -> 8 * b <= 10 * a -> 10 * a <= 11 * b -> 0.8 <= a / b <= 1.1).
  { intros a b B L R. split; [apply Rmult_le_reg_r with b; [exact B|]|apply Rmult_le_reg_r with b; [exact B|]]; unfold Rdiv; rewrite Rmult_assoc, Rinv_l by lra; lra. }
  destruct H as [[[A B] C]|[[A B] C]]; apply IZR_lt in A; apply IZR_le in B, C; rewrite !mult_IZR, !plus_IZR in B, C.
  - apply X; lra.
  - replace ((IZR n0 + IZR n1 + IZR n2) / IZR d) with ((- (IZR n0 + IZR n1 + IZR n2)) / (- IZR d)) by (field; lra). apply X; lra.
Qed.
Definition white_rows (a : qmat) : bool :=
  let n := qn a in white_ch (m0 n) (m1 n) (m2 n) (qd0 a) && white_ch (m3 n) (m4 n) (m5 n) (qd1 a) && white_ch (m6 n) (m7 n) (m8 n) (qd2 a).
Lemma white_rows_all : forallb (fun p => white_rows (fst (snd p))) named = true.
Proof. vm_compute. reflexivity. Qed.
Lemma white_rows_ok a : white_rows a = true -> exists W0 W1 W2, 0.8 <= W0 <= 1.1 /\ 0.8 <= W1 <= 1.1 /\ 0.8 <= W2 <= 1.1 /\
  forall g, applyR (qR a) (V3 g g g) = V3 (W0 * g) (W1 * g) (W2 * g).
Proof.
  destruct a as [[n0 n1 n2 n3 n4 n5 n6 n7 n8] d0 d1 d2]. unfold white_rows. cbn [qn qd0 qd1 qd2 m0 m1 m2 m3 m4 m5 m6 m7 m8]. rewrite !andb_true_iff. intros [[A B] C].
  destruct (white_ch_ok _ _ _ _ 1 A) as (W0 & R0 & E0). destruct (white_ch_ok _ _ _ _ 1 B) as (W1 & R1 & E1). destruct (white_ch_ok _ _ _ _ 1 C) as (W2 & R2 & E2).
  exists W0, W1, W2. do 3 (split; [assumption|]). intros g. unfold applyR, qR. spec. cbn [qn qd0 qd1 qd2 m0 m1 m2 m3 m4 m5 m6 m7 m8].
  rewrite !Rmult_1_r in E0, E1, E2. rewrite <- E0, <- E1, <- E2. f_equal; ring.
Qed.
Section F.
Context (lm : libm).
Notation N := (FN lm).
Definition mat_fin (m : Matrix3 f32) : bool := match zM m with Some _ => true | None => false end.
Lemma mat_fin_all : forallb (fun p : gamut_fun * (qmat * qmat) => mat_fin (g_toXYZ (fst p N))) named = true.
Proof. vm_compute. reflexivity. Qed.
Lemma dot_zero (a z : f32) (b c : f32) : fin a -> fin b -> fin c -> fin z -> B2R z = 0 -> B2R (V_dot N (V3 a b c) (V3 z z z)) = 0.
Proof.
  intros Fa Fb Fc Fz Z. unfold V_dot. cbn [v0 v1 v2 vref].
  assert (X : forall x : f32, fin x -> fin (@fmul N x z) /\ B2R (@fmul N x z) = 0).
  { intros x Fx. destruct (mul_ok lm x z Fx Fz) as [F V]; rewrite Z, Rmult_0_r in *; [rewrite Rabs_R0; apply bpow_ge_0|]. split; [exact F|]. rewrite V. apply rnd_0. }
  assert (Y : forall x y : f32, fin x /\ B2R x = 0 -> fin y /\ B2R y = 0 -> fin (@fadd N x y) /\ B2R (@fadd N x y) = 0).
  { intros x y [Fx Vx] [Fy Vy]. destruct (add_ok lm x y Fx Fy) as [F V]; rewrite Vx, Vy, Rplus_0_r in *; [rewrite Rabs_R0; apply bpow_ge_0|]. split; [exact F|]. rewrite V. apply rnd_0. }
  exact (proj2 (Y _ _ (Y _ _ (X a Fa) (X b Fb)) (X c Fc))).
Qed.
Lemma zero_xyz p (z : f32) : In p named -> fin z -> B2R z = 0 -> vR (G_toXYZ_t N (fst p N) (greyF z)) = V3 0 0 0.
Proof.
  intros P Fz Z. pose proof mat_fin_all as A. rewrite forallb_forall in A. specialize (A p P). unfold mat_fin in A.
  destruct (zM (g_toXYZ (fst p N))) as [f|] eqn:E; [|discriminate]. apply zM_ok in E. destruct E as (FA & _). unfold G_toXYZ_t. rewrite (apply_rows lm). unfold allM in FA.
  destruct FA as (A0 & A1 & A2 & A3 & A4 & A5 & A6 & A7 & A8). unfold vR. cbn [v0 v1 v2]. unfold greyF. rewrite !dot_zero by assumption. reflexivity.
Qed.
Lemma near_move (x : f32) r r' e e' : near x r e -> Rabs (r - r') <= e' - e -> near x r' e'.
Proof. intros [F H] D. split; [exact F|]. replace (B2R x - r') with ((B2R x - r) + (r - r')) by ring. eapply Rle_trans; [apply Rabs_triang|]. lra. Qed.
Lemma grey_ratio W g t w : 0.8 <= W <= 1.1 -> 0 <= g <= 1 -> Rabs (t - W * g) <= 10 * u * g + 4 * eta -> Rabs (w - W) <= 10 * u + 4 * eta ->
  0.79 <= w <= 1.11 /\ Rabs (t / w - g) <= 26 * u * g + 11 * eta.
Proof.
  intros HW Hg Ht Hw. pose proof u16 as U. pose proof eta16 as E.
  assert (Bw : 0.79 <= w <= 1.11) by (apply Rabs_le_inv in Hw; rewrite U in *; lra). split; [exact Bw|].
  replace (t / w - g) with (((t - W * g) + g * (W - w)) * / w) by (field; lra).
  assert (I : 0 < / w <= 1.27). { split; [apply Rinv_0_lt_compat; lra|]. apply Rmult_le_reg_r with w; [lra|]. rewrite Rinv_l by lra. lra. }
  assert (Q : Rabs ((t - W * g) + g * (W - w)) <= 20 * u * g + 8 * eta).
  { eapply Rle_trans; [apply Rabs_triang|]. rewrite Rabs_mult, (Rabs_pos_eq g), (Rabs_minus_sym W w) by lra.
    assert (g * Rabs (w - W) <= g * (10 * u + 4 * eta)) by (apply Rmult_le_compat_l; lra). nra. }
  rewrite Rabs_mult, (Rabs_pos_eq (/ w)) by lra.
  apply Rle_trans with ((20 * u * g + 8 * eta) * 1.27); [apply Rmult_le_compat; try lra; apply Rabs_pos|].
  assert (0 <= u * g) by (apply Rmult_le_pos; lra). nra.
Qed.
Lemma grey_pos W g t : 0.8 <= W <= 1.1 -> 1e-30 <= g <= 1 -> Rabs (t - W * g) <= 10 * u * g + 4 * eta -> 0 <= t.
Proof.
  intros HW Hg H. pose proof u16 as U. pose proof eta_small as Es. apply Rabs_le_inv in H.
  assert (0.8 * g <= W * g) by (apply Rmult_le_compat_r; lra). rewrite U in *. lra.
Qed.
Lemma grey_curve W g t w : 0.8 <= W <= 1.1 -> 0 <= g <= 1 -> 0 <= t -> Rabs (t - W * g) <= 10 * u * g + 4 * eta -> Rabs (w - W) <= 10 * u + 4 * eta ->
  Rabs (lab_curve (t / w) - lab_curve g) <= 8.8 * u.
Proof.
  intros HW Hg Pt Ht Hw. destruct (grey_ratio W g t w HW Hg Ht Hw) as [Bw Q]. pose proof u16 as U. pose proof eta16 as E.
  eapply Rle_trans; [apply (curve_close g (t / w) (26 * u) (11 * eta)); try lra|rewrite U in *; lra].
  apply Rmult_le_pos; [exact Pt|apply Rlt_le, Rinv_0_lt_compat; lra].
Qed.
Context (Acc : accurate lm).
Lemma one_fin : fin (@flit N 1%dec) /\ B2R (@flit N 1%dec) = 1. Proof. f32_val. Qed.
Lemma grey_lab_q p (g : f32) : In p named -> fin g -> B2R g = 0 \/ 1e-30 <= B2R g <= 1 ->
  let r := toCIELAB N (G_toXYZ_t N (fst p N) (greyF g)) (G_toXYZ_t N (fst p N) (greyF (@flit N 1%dec))) in
  near (v0 r) (116 * cie_f (B2R g) - 16) (1900 * u) /\ near (v1 r) 0 (15300 * u) /\ near (v2 r) 0 (6100 * u).
Proof.
  intros P Fg Hg. pose proof u16 as U. pose proof eta16 as E. pose proof eta_small as Es.
  assert (AG : agrees lm (fst p)).
  { pose proof (proj1 (Forall_forall _ _) (all_agree lm)) as A. apply A. change (In (fst p) named_gamuts). rewrite <- named_fst. now apply in_map. }
  destruct one_fin as [F1 V1]. pose proof (proj1 (Forall_forall _ _) named_exact p P) as X.
  pose proof white_rows_all as WA. rewrite forallb_forall in WA. destruct (white_rows_ok _ (WA p P)) as (W0 & W1 & W2 & H0 & H1 & H2 & HE).
  assert (G01 : 0 <= B2R g <= 1) by lra.
  assert (TT : forall x : f32, fin x -> 0 <= B2R x <= 1 -> near_app 10 (G_toXYZ_t N (fst p N) (greyF x)) (V3 (W0 * B2R x) (W1 * B2R x) (W2 * B2R x)) (B2R x)).
  { intros x Fx Hx. destruct (AG (greyF x)) as [(e & Ee & Ne) _]; [repeat split; exact Fx| |].
    - rewrite norm3_grey, Rabs_pos_eq by lra. apply big110. lra.
    - rewrite norm3_grey, (Rabs_pos_eq (B2R x)) in Ne by lra. rewrite X in Ee. unfold G_toXYZ_t in Ee. cbn [g_toXYZ] in Ee. rewrite M_apply_fin in Ee. apply finV_inj in Ee.
      unfold vR, greyF in Ee. cbn [v0 v1 v2] in Ee. rewrite HE in Ee. rewrite Ee. exact Ne. }
  pose proof (TT _ F1 ltac:(rewrite V1; lra)) as (Fw & Dw0 & Dw1 & Dw2). pose proof (TT _ Fg G01) as (Ft & Dt0 & Dt1 & Dt2). rewrite V1 in Dw0, Dw1, Dw2. rewrite !Rmult_1_r in Dw0, Dw1, Dw2. cbn [v0 v1 v2] in Dw0, Dw1, Dw2, Dt0, Dt1, Dt2.
  assert (POS : 0 <= B2R (v0 (G_toXYZ_t N (fst p N) (greyF g))) /\ 0 <= B2R (v1 (G_toXYZ_t N (fst p N) (greyF g))) /\ 0 <= B2R (v2 (G_toXYZ_t N (fst p N) (greyF g)))).
  { destruct Hg as [Z|Hg].
    - pose proof (zero_xyz p g P Fg Z) as V. assert (V0 := f_equal v0 V). assert (V1' := f_equal v1 V). assert (V2 := f_equal v2 V). split; [|split]; apply Req_le; symmetry; [exact V0|exact V1'|exact V2].
    - split; [exact (grey_pos W0 _ _ H0 Hg Dt0)|split; [exact (grey_pos W1 _ _ H1 Hg Dt1)|exact (grey_pos W2 _ _ H2 Hg Dt2)]]. }
  set (t := G_toXYZ_t N (fst p N) (greyF g)) in *. set (w := G_toXYZ_t N (fst p N) (greyF (@flit N 1%dec))) in *. clearbody t w.
  destruct t as [t0 t1 t2], w as [w0 w1 w2]. destruct Fw as (Fw0 & Fw1 & Fw2), Ft as (Ft0 & Ft1 & Ft2). destruct POS as (P0 & P1 & P2). cbn [v0 v1 v2] in *.
  destruct (grey_ratio W0 (B2R g) (B2R t0) (B2R w0) H0 G01 Dt0 Dw0) as [Bw0 _]. destruct (grey_ratio W1 (B2R g) (B2R t1) (B2R w1) H1 G01 Dt1 Dw1) as [Bw1 _]. destruct (grey_ratio W2 (B2R g) (B2R t2) (B2R w2) H2 G01 Dt2 Dw2) as [Bw2 _].
  pose proof (grey_curve W0 (B2R g) (B2R t0) (B2R w0) H0 G01 P0 Dt0 Dw0) as C0. pose proof (grey_curve W1 (B2R g) (B2R t1) (B2R w1) H1 G01 P1 Dt1 Dw1) as C1. pose proof (grey_curve W2 (B2R g) (B2R t2) (B2R w2) H2 G01 P2 Dt2 Dw2) as C2.
  assert (TB : forall x W : R, 0.8 <= W <= 1.1 -> Rabs (x - W * B2R g) <= 10 * u * B2R g + 4 * eta -> x <= bpow radix2 100).
  { intros x W HW Hx. apply Rle_trans with (bpow radix2 1); [|apply bpow_le; lia]. change (bpow radix2 1) with 2. apply Rabs_le_inv in Hx. rewrite U in *. nra. }
  assert (WB : forall x : R, 0.79 <= x <= 1.11 -> bpow radix2 (-20) <= x <= bpow radix2 20).
  { intros x Hx. split; [apply Rle_trans with (bpow radix2 (-1)); [apply bpow_le; lia|change (bpow radix2 (-1)) with (/ 2); lra]|apply Rle_trans with (bpow radix2 1); [change (bpow radix2 1) with 2; lra|apply bpow_le; lia]]. }
  destruct (toLab_near lm Acc (V3 t0 t1 t2) (V3 w0 w1 w2)) as (L & a & b & EL & NL & Na & Nb & _).
  - repeat split; cbn [v0 v1 v2]; eauto.
  - repeat split; cbn [v0 v1 v2]; try assumption; apply WB; assumption.
  - rewrite toCIELAB_fin in EL by (unfold posV, vR; cbn [v0 v1 v2]; lra). apply finV_inj in EL. unfold vR in EL. cbn [v0 v1 v2] in EL. injection EL as EL Ea Eb.
    rewrite (curve_eq (B2R g)) in C0, C1, C2 by lra. apply Rabs_le_inv in C0, C1, C2.
    cbv zeta. split; [|split].
    + apply (near_move _ L _ (850 * u)); [exact NL|]. apply Rabs_le. rewrite <- EL. lra.
    + apply (near_move _ a _ (6400 * u)); [exact Na|]. apply Rabs_le. rewrite <- Ea. lra.
    + apply (near_move _ b _ (2550 * u)); [exact Nb|]. apply Rabs_le. rewrite <- Eb. lra.
Qed.
End F.
(** ** Greys in HSV. *)
Section H.
Context (lm : libm).
Notation N := (FN lm).
Notation Z0 := (@flit N 0%dec : f32).
Lemma zero_lit : fin Z0 /\ B2R Z0 = 0. Proof. f32_val. Qed.
Lemma c360 : fin (@flit N 360%dec) /\ B2R (@flit N 360%dec) = 360. Proof. f32_val. Qed.
Lemma mod0 n : mod360 N (S n) Z0 = Ret Z0.
Proof. cbn [mod360]. destruct zero_lit as [F V]. destruct c360 as [F' V']. rewrite (ltb_ok lm _ _ F F), (ltb_ok lm _ _ F' F), V, V', !Rlt_bool_false by lra. reflexivity. Qed.
Definition sat0 (g : f32) : f32 := if @feqb N g Z0 then Z0 else @fdiv N (@fsub N g g) g.
Lemma sat0_ok g : fin g -> fin (sat0 g) /\ B2R (sat0 g) = 0.
Proof.
  intros Fg. destruct zero_lit as [F V]. unfold sat0. rewrite eqb_ok by assumption. rewrite V. destruct (Req_bool_spec (B2R g) 0) as [E|E]; [split; assumption|].
  destruct (sub_ok lm g g Fg Fg) as [Fd Vd]; [rewrite Rminus_eq_0, Rabs_R0; apply bpow_ge_0|]. rewrite Rminus_eq_0, rnd_0 in Vd.
  destruct (div_ok lm _ g Fd E) as [Fq Vq]; rewrite Vd in *; unfold Rdiv in *; rewrite Rmult_0_l in *; [rewrite Rabs_R0; apply bpow_ge_0|]. split; [exact Fq|]. rewrite Vq. apply rnd_0.
Qed.
Lemma grey_hsv n g : fin g -> toHSV N (S n) (greyF g) = Ret (V3 Z0 (sat0 g) g).
Proof.
  intros Fg. assert (MX : maxi N (maxi N g g) g = g) by (unfold maxi; repeat destruct (@fltb N _ _); reflexivity).
  assert (MN : mini N (mini N g g) g = g) by (unfold mini; repeat destruct (@fltb N _ _); reflexivity).
  unfold toHSV, hsv_hue_raw. unfold greyF. cbn [v0 v1 v2 vref]. rewrite MX, MN.
  rewrite (eqb_ok lm g g) by assumption. rewrite Req_bool_true by reflexivity. rewrite mod0. reflexivity.
Qed.
Lemma one_mul0 (v x : f32) : fin v -> fin x -> B2R x = 0 -> Rabs (B2R v) <= bpow radix2 127 -> let p := @fmul N v (@fsub N (@flit N 1%dec) x) in fin p /\ B2R p = B2R v.
Proof.
  intros Fv Fm Vm Hv. destruct (one_fin lm) as [F1 V1].
  destruct (sub_ok lm _ _ F1 Fm) as [Fd Vd]; rewrite Vm, V1, Rminus_0_r in *; [rewrite Rabs_R1; apply (bpow_le radix2 0 127); lia|]. rewrite <- V1 in Vd. rewrite rnd_id in Vd by apply fmt_B2R. rewrite V1 in Vd.
  destruct (mul_ok lm v _ Fv Fd) as [Fp Vp]; rewrite Vd, Rmult_1_r in *; [exact Hv|]. cbv zeta. split; [exact Fp|]. rewrite Vp. apply rnd_id, fmt_B2R.
Qed.
Lemma one_mul (v s y : f32) : fin v -> fin s -> fin y -> B2R s = 0 -> Rabs (B2R v) <= bpow radix2 127 -> let p := @fmul N v (@fsub N (@flit N 1%dec) (@fmul N s y)) in fin p /\ B2R p = B2R v.
Proof.
  intros Fv Fs Fy S0 Hv. destruct (mul_ok lm s y Fs Fy) as [Fm Vm]; rewrite S0, Rmult_0_l in *; [rewrite Rabs_R0; apply bpow_ge_0|]. rewrite rnd_0 in Vm. now apply one_mul0.
Qed.
Lemma grey_back n g s : fin g -> fin s -> B2R s = 0 -> Rabs (B2R g) <= bpow radix2 127 ->
  exists t, fromHSV N (S n) (V3 Z0 s g) = Ret t /\ allV fin t /\ vR t = V3 (B2R g) (B2R g) (B2R g).
Proof.
  intros Fg Fs S0 Hg. unfold fromHSV. cbn [v0 v1 v2 vref]. rewrite mod0. cbn [bind].
  assert (D : @ftoint N (@fdiv N Z0 (@flit N 60%dec)) = Some 0%Z) by (vm_compute; reflexivity). rewrite D. cbn [bind of_option].
  change (Z.rem 0 6) with 0%Z. cbn [Z.eqb]. 
  set (r := @fsub N (@fdiv N Z0 (@flit N 60%dec)) (@fofZ N 0)). assert (Fr : fin (@fsub N (@flit N 1%dec) r)) by (vm_compute; reflexivity).
  destruct (one_mul g s _ Fg Fs Fr S0 Hg) as [Fp Vp]. destruct (one_mul0 g s Fg Fs S0 Hg) as [Fm Vm].
  eexists. split; [reflexivity|]. split; [exact (conj Fg (conj Fp Fm))|].
  unfold vR. f_equal; [exact Vp|exact Vm].
Qed.
Lemma grey_hsv_all g : fin g -> Rabs (B2R g) <= bpow radix2 127 -> exists h s v t,
  terminates_with (fun n => toHSV N n (greyF g)) (Ret (V3 h s v)) /\ B2R (h : f32) = 0 /\ fin s /\ B2R (s : f32) = 0 /\ v = g /\
  terminates_with (fun n => let! x := toHSV N n (greyF g) in fromHSV N n x) (Ret t) /\ allV fin t /\ vR t = V3 (B2R g) (B2R g) (B2R g).
Proof.
  intros Fg Hg. destruct (sat0_ok g Fg) as [Fs Vs]. destruct (grey_back 0 g (sat0 g) Fg Fs Vs Hg) as (t & E & Ft & Vt).
  exists Z0, (sat0 g), g, t. split; [exists 1%nat; intros m Hm; split; [destruct m; [lia|apply grey_hsv, Fg]|discriminate]|].
  split; [apply zero_lit|]. split; [exact Fs|]. split; [exact Vs|]. split; [reflexivity|]. split; [|split; assumption].
  exists 1%nat. intros m Hm. split; [|discriminate]. destruct m; [lia|]. rewrite grey_hsv by exact Fg. cbn [bind].
  rewrite <- E. unfold fromHSV. cbn [v0 v1 v2 vref]. rewrite !mod0. reflexivity.
Qed.
End H.
Lemma grey_lab lm (G : gamut_fun) (g : f32) : accurate lm -> In G named_gamuts -> fin g -> B2R g = 0 \/ 1e-30 <= B2R g <= 1 ->
  let r := toCIELAB (FN lm) (G_toXYZ_t (FN lm) (G (FN lm)) (greyF g)) (G_toXYZ_t (FN lm) (G (FN lm)) (greyF (@flit (FN lm) 1%dec))) in
  near (v0 r) (116 * cie_f (B2R g) - 16) (1900 * u) /\ near (v1 r) 0 (15300 * u) /\ near (v2 r) 0 (6100 * u).
Proof. intros Acc HG. rewrite <- named_fst in HG. apply in_map_iff in HG. destruct HG as (p & <- & P). now apply grey_lab_q. Qed.
Lemma grey_lab_dec lm (G : gamut_fun) (g : f32) : accurate lm -> In G named_gamuts -> fin g -> B2R g = 0 \/ 1e-30 <= B2R g <= 1 ->
  let r := toCIELAB (FN lm) (G_toXYZ_t (FN lm) (G (FN lm)) (greyF g)) (G_toXYZ_t (FN lm) (G (FN lm)) (greyF (@flit (FN lm) 1%dec))) in
  near (v0 r) (116 * cie_f (B2R g) - 16) 0.00012 /\ near (v1 r) 0 0.001 /\ near (v2 r) 0 0.0004.
Proof.
  intros Acc HG Fg Hg r. destruct (grey_lab lm G g Acc HG Fg Hg) as (A & B & C). pose proof u16 as U.
  split; [|split]; (eapply near_le; [eassumption|rewrite U; lra]).
Qed.

Lemma grey_case (lm : libm) : let N := FN lm in let g : f32 := @flit N 0.18%dec in (exists lm, accurate lm) /\ fin g /\ 0.17 <= B2R g <= 0.19 /\ B2SF g = SpecFloat.S754_finite false 12079596 (-26) /\
  vSF (M_apply N (GamutConvert N (Rec709 N) (Rec2020 N)) (V3 g g g)) = V3 (SpecFloat.S754_finite false 12079594 (-26)) (SpecFloat.S754_finite false 12079595 (-26)) (SpecFloat.S754_finite false 12079597 (-26)).
Proof.
  cbv zeta. assert (G : fin (@flit (FN lm) 0.18%dec) /\ B2R (@flit (FN lm) 0.18%dec) = 12079596 / 67108864) by f32_val. destruct G as [F V].
  split; [exact accurate_exists|]. split; [exact F|]. split; [change (0.17 <= B2R (@flit (FN lm) 0.18%dec : f32) <= 0.19); rewrite V; lra|]. split; vm_compute; reflexivity.
Qed.
