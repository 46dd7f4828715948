(** * Images of integer code values sent through another colour space and back, in binary32. *)
From Coq Require Import ZArith QArith Qreals Reals Lra Lia List Bool.
From Flocq Require Import Core IEEE754.BinarySingleNaN.
From Verif Require Import Num NumR NumF MVec MTri MOtf RTac F32 RPow RExp PHsvF PLibm PPowF PNearF PNearF2 PRelF POtf POtf2 POtfF POtfF2 PCodes PMat PMatF PGamF.
Local Open Scope R_scope.

(** A pixel of three code values of [M], as floats; [same_codes M k t]: rounding [M t] gives [k] again. *)
Definition pixel (lm : libm) (M : Z) (k : Vector3 Z) : Vector3 f32 := V3 (code lm (v0 k) M) (code lm (v1 k) M) (code lm (v2 k) M).
Definition same_codes (M : Z) (k : Vector3 Z) (t : Vector3 f32) : Prop :=
  allV fin t /\ Rabs (IZR M * B2R (v0 t) - IZR (v0 k)) < / 2 /\ Rabs (IZR M * B2R (v1 t) - IZR (v1 k)) < / 2 /\ Rabs (IZR M * B2R (v2 t) - IZR (v2 k)) < / 2.
Definition codes_of (M : Z) (k : Vector3 Z) : Prop := (0 <= v0 k <= M /\ 0 <= v1 k <= M /\ 0 <= v2 k <= M)%Z.

Section F.
Context (lm : libm) (Acc : accurate lm).
Notation N := (FN lm).
(** One channel: a light value within [E] of the decoded code encodes to the code. *)
Lemma srgb_channel k M (x : f32) E : (0 <= k <= M)%Z -> (0 < M <= 2 ^ 15)%Z -> fin x -> Rabs (B2R x - B2R (sRGB_to_Y N (code lm k M))) <= E ->
  IZR M * (12.92 * E + 225 * u) < / 2 -> fin (Y_to_sRGB N x) /\ Rabs (IZR M * B2R (Y_to_sRGB N x) - IZR k) < / 2.
Proof.
  intros K HM Fx Hx Hb. destruct (code_ok lm k M K ltac:(lia)) as (Fc & _ & Q & C & Ec). set (c := code lm k M) in *. pose proof u16 as U.
  destruct (srgb_dec_near lm Acc c Fc) as [Fd Hd]. destruct (srgb_enc_near lm Acc x Fx) as [Fe He]. set (d := sRGB_to_Y N c) in *.
  pose proof (s_enc_lip (B2R x) (s_dec (B2R c))) as L. pose proof (s_rt2_err (B2R c) C) as R0.
  assert (T : Rabs (B2R x - s_dec (B2R c)) <= E + 16 * u).
  { replace (B2R x - s_dec (B2R c)) with ((B2R x - B2R d) + (B2R d - s_dec (B2R c))) by ring. eapply Rle_trans; [apply Rabs_triang|]. lra. }
  split; [exact Fe|]. apply (code_half _ _ _ (12.92 * E + 225 * u)); [lia| |exact Hb].
  apply Rabs_le_inv in He. apply Rabs_le_inv in L. apply Rabs_le_inv in R0. apply Rabs_le_inv in Ec. apply Rabs_le. rewrite U in *. lra.
Qed.
(** Decoded codes are between 0 and 1. *)
Lemma srgb_dec_range k M : (0 <= k <= M)%Z -> (0 < M <= 2 ^ 15)%Z -> let d := sRGB_to_Y N (code lm k M) in fin d /\ 0 <= B2R d <= 1 + 16 * u.
Proof.
  intros K HM d. destruct (code_ok lm k M K ltac:(lia)) as (Fc & _ & Q & C & Ec). set (c := code lm k M) in *. pose proof u16 as U.
  destruct (srgb_dec_near lm Acc c Fc) as [Fd Hd]. fold d in Fd, Hd. split; [exact Fd|]. apply Rabs_le_inv in Hd. pose proof (s_dec_range (B2R c)) as R0.
  split; [|lra]. destruct (l0 lm) as [F0 V0]. destruct (l1 lm) as [F1 V1]. destruct (sl_g lm) as [Fg Vg]. destruct (sl_b lm) as [Fb Vb].
  destruct (Rlt_dec (B2R c) (B2R (@flit N 0.04045%dec))) as [L|L].
  - unfold d, sRGB_to_Y. rewrite !ltb_ok by assumption. rewrite V0, V1. rewrite (Rlt_bool_false _ 0), (Rlt_bool_false 1), Rlt_bool_true by lra.
    destruct (div_ok lm c _ Fc ltac:(rewrite Vb; lra)) as [_ V]; [rewrite Vb; pose proof b127_big; apply Rabs_le; lra|].
    rewrite V, Vb. apply (rnd_01 (B2R c / _)). lra.
  - rewrite Vg in L. assert (0.003 <= s_dec (B2R c)).
    { apply Rle_trans with (s_dec 0.04); [rewrite s_dec_lo by lra; lra|]. apply s_dec_mono. lra. }
    rewrite U in *. lra.
Qed.
Lemma pixel_dec M k : codes_of M k -> (0 < M <= 2 ^ 15)%Z -> let t := toScene N SRGB (pixel lm M k) (@flit N 1.0%dec) in
  allV fin t /\ allV (fun x => 0 <= B2R x <= 1 + 16 * u) t /\ norm3 t <= 1 + 16 * u.
Proof.
  intros (K0 & K1 & K2) HM. destruct (srgb_dec_range _ _ K0 HM) as [F0 R0]. destruct (srgb_dec_range _ _ K1 HM) as [F1 R1]. destruct (srgb_dec_range _ _ K2 HM) as [F2 R2].
  repeat split; try assumption; try apply R0; try apply R1; try apply R2.
  unfold norm3. cbn [toScene v0 v1 v2 vref pixel]. rewrite !Rabs_pos_eq; [|apply R2|apply R1|apply R0]. repeat apply Rmax_lub; [apply R0|apply R1|apply R2].
Qed.
Lemma pixel_back M k g (t' : Vector3 f32) E : codes_of M k -> (0 < M <= 2 ^ 15)%Z -> let t := toScene N SRGB (pixel lm M k) (@flit N 1.0%dec) in
  allV fin t' -> Rabs (B2R (v0 t') - B2R (v0 t)) <= E -> Rabs (B2R (v1 t') - B2R (v1 t)) <= E -> Rabs (B2R (v2 t') - B2R (v2 t)) <= E ->
  IZR M * (12.92 * E + 225 * u) < / 2 -> same_codes M k (toScreen N SRGB t' g).
Proof.
  intros (K0 & K1 & K2) HM t (F0 & F1 & F2) H0 H1 H2 B.
  destruct (srgb_channel (v0 k) M (v0 t') E K0 HM F0 H0 B) as [G0 C0]. destruct (srgb_channel (v1 k) M (v1 t') E K1 HM F1 H1 B) as [G1 C1]. destruct (srgb_channel (v2 k) M (v2 t') E K2 HM F2 H2 B) as [G2 C2].
  repeat split; assumption.
Qed.
Lemma bound_50 M : (0 < M <= 9000)%Z -> IZR M * (12.92 * (50 * u * (1 + 16 * u) + 128 * eta) + 225 * u) < / 2.
Proof.
  intros H. pose proof u16 as U. pose proof eta16 as E. assert (M0 : 0 < IZR M) by (apply IZR_lt; lia). assert (M1 : IZR M <= 9000) by (apply IZR_le; lia).
  apply Rle_lt_trans with (9000 * (872 * u)); [apply Rmult_le_compat; rewrite U in *; lra|rewrite U; lra].
Qed.
Lemma back_codes M k g (t' : Vector3 f32) : codes_of M k -> (0 < M <= 9000)%Z -> let t := toScene N SRGB (pixel lm M k) (@flit N 1.0%dec) in
  back t t' -> same_codes M k (toScreen N SRGB t' g).
Proof.
  intros K HM t (F & H0 & H1 & H2). destruct (pixel_dec M k K ltac:(lia)) as (_ & _ & B). fold t in B. pose proof u16 as U.
  assert (Le : 50 * u * norm3 t + 128 * eta <= 50 * u * (1 + 16 * u) + 128 * eta) by (apply Rplus_le_compat_r, Rmult_le_compat_l; [rewrite U; lra|exact B]).
  apply (pixel_back M k g t' _ K ltac:(lia) F (Rle_trans _ _ _ H0 Le) (Rle_trans _ _ _ H1 Le) (Rle_trans _ _ _ H2 Le)). apply bound_50, HM.
Qed.
Lemma big110 x : x <= 2 -> x <= bpow radix2 110.
Proof. intros H. apply Rle_trans with (bpow radix2 1); [exact H|apply bpow_le; lia]. Qed.
Lemma img_xyz (G : Gamut f32) M k g g' : In G (gams lm) -> codes_of M k -> (0 < M <= 9000)%Z ->
  same_codes M k (toScreen N SRGB (G_fromXYZ_t N G (G_toXYZ_t N G (toScene N SRGB (pixel lm M k) g))) g').
Proof.
  intros HG K HM. change (toScene N SRGB (pixel lm M k) g) with (toScene N SRGB (pixel lm M k) (@flit N 1.0%dec)).
  destruct (pixel_dec M k K ltac:(lia)) as (F & _ & B). pose proof u16 as U.
  apply back_codes; [exact K|exact HM|]. apply gam_round; [exact HG|exact F|]. apply big110. rewrite U in B. lra.
Qed.
Lemma img_conv (G H : Gamut f32) M k g g' : In G (gams lm) -> In H (gams lm) -> codes_of M k -> (0 < M <= 9000)%Z ->
  same_codes M k (toScreen N SRGB (M_apply N (GamutConvert N H G) (M_apply N (GamutConvert N G H) (toScene N SRGB (pixel lm M k) g))) g').
Proof.
  intros HG HH K HM. change (toScene N SRGB (pixel lm M k) g) with (toScene N SRGB (pixel lm M k) (@flit N 1.0%dec)).
  destruct (pixel_dec M k K ltac:(lia)) as (F & _ & B). pose proof u16 as U.
  apply back_codes; [exact K|exact HM|]. apply gam_conv; [exact HG|exact HH|exact F|]. apply big110. rewrite U in B. lra.
Qed.
Lemma img_hsv M k g g' : codes_of M k -> (0 < M <= 15000)%Z ->
  exists t', terminates_with (fun n => let! h := toHSV N n (toScene N SRGB (pixel lm M k) g) in fromHSV N n h) (Ret t') /\ same_codes M k (toScreen N SRGB t' g').
Proof.
  intros K HM. change (toScene N SRGB (pixel lm M k) g) with (toScene N SRGB (pixel lm M k) (@flit N 1.0%dec)).
  destruct (pixel_dec M k K ltac:(lia)) as (F & R0 & B). set (t := toScene N SRGB (pixel lm M k) (@flit N 1.0%dec)) in *. pose proof u16 as U. pose proof eta16 as Et.
  assert (R1 : allV (fun x => 0 <= B2R x <= bpow radix2 120) t).
  { destruct R0 as (A & A' & A''). assert (X : 2 <= bpow radix2 120) by (apply (bpow_le radix2 1 120); lia). repeat split; rewrite U in *; lra. }
  destruct (hsv_rt_F lm t F R1) as (t' & T & F' & Hm). cbv zeta in Hm. destruct Hm as (H0 & H1 & H2). exists t'. split; [exact T|].
  set (X := Rmax (Rmax (B2R (v0 t)) (B2R (v1 t))) (B2R (v2 t))) in *.
  assert (XB : X <= 1 + 16 * u) by (destruct R0 as (A & A' & A''); repeat apply Rmax_lub; [apply A|apply A'|apply A'']).
  assert (Le : 24 * u * X + eta <= 24.1 * u) by (rewrite U in *; lra).
  apply (pixel_back M k g' t' (24.1 * u) K ltac:(lia) F' (Rle_trans _ _ _ H0 Le) (Rle_trans _ _ _ H1 Le) (Rle_trans _ _ _ H2 Le)).
  assert (M0 : 0 < IZR M) by (apply IZR_lt; lia). assert (M1 : IZR M <= 15000) by (apply IZR_le; lia).
  apply Rle_lt_trans with (15000 * (537 * u)); [apply Rmult_le_compat; rewrite U in *; lra|rewrite U; lra].
Qed.
End F.
Lemma img_case (lm : libm) : codes_of 255 (V3 12 200 255)%Z /\ (0 < 255 <= 9000)%Z /\ In (Rec709 (FN lm)) (gams lm) /\ In (Rec2020 (FN lm)) (gams lm).
Proof. unfold codes_of. cbn [v0 v1 v2]. repeat split; try lia; unfold gams; cbn [In]; tauto. Qed.
