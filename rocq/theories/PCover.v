(** * Which conversions between the predefined gamuts keep colours non-negative,
      and which gamuts contain every spectrum. *)
From Coq Require Import ZArith Reals Lra Lia List Bool.
From Flocq Require Import Core BinarySingleNaN.
From Verif Require Import Num NumR NumF MVec MTri MSpectrum Tables RTac SpecMat PMat PTri PGamut F32 PMatF PHsvF PGamF PGamF2 PSpec PTables PD65.
Import ListNotations.
Local Open Scope R_scope.

(** ** The ten gamuts by name. *)
Inductive gname := gAdobeRGB | gRec709 | gRec2020 | gDCI_P3 | gS_Gamut | gS_Gamut3_Cine | gACEScg | gACES2065 | gXYZ | gLMS.
Definition gam (n : gname) (N : Num) : Gamut (F N) :=
  match n with
  | gAdobeRGB => AdobeRGB N | gRec709 => Rec709 N | gRec2020 => Rec2020 N | gDCI_P3 => DCI_P3 N | gS_Gamut => S_Gamut N
  | gS_Gamut3_Cine => S_Gamut3_Cine N | gACEScg => ACEScg N | gACES2065 => ACES2065 N | gXYZ => XYZ_gamut N | gLMS => LMS N
  end.
Definition gnames : list gname := [gAdobeRGB; gRec709; gRec2020; gDCI_P3; gS_Gamut; gS_Gamut3_Cine; gACEScg; gACES2065; gXYZ; gLMS].
Lemma gnames_all n : In n gnames. Proof. destruct n; cbn [gnames In]; tauto. Qed.
Definition gq (n : gname) : qmat * qmat :=
  let prim a b c d e f g h := (to_q a b c d e f g h, from_q a b c d e f g h) in
  match n with
  | gAdobeRGB => prim 64000 33000 21000 71000 15000 6000 31270 32900
  | gRec709 => prim 64000 33000 30000 60000 15000 6000 31270 32900
  | gRec2020 => prim 70800 29200 17000 79700 13100 4600 31270 32900
  | gDCI_P3 => prim 68000 32000 26500 69000 15000 6000 31400 35100
  | gS_Gamut => prim 73000 28000 14000 85500 10000 (-5000) 31270 32900
  | gS_Gamut3_Cine => prim 76600 27500 22500 80000 8900 (-8700) 31270 32900
  | gACEScg => prim 71300 29300 16500 83000 12800 4400 32168 33767
  | gACES2065 => prim 73470 26530 0 100000 10 (-7700) 32168 33767
  | gXYZ => (id_q, id_q)
  | gLMS => (brad_inv_q, brad_q)
  end%Z.
Lemma gq_ok n : gam n RN = mkGamut (finM (qR (fst (gq n)))) (finM (qR (snd (gq n)))).
Proof.
  destruct n; cbn [gq gam fst snd].
  1: unfold AdobeRGB; prim_rn.
  1: unfold Rec709; prim_rn.
  1: unfold Rec2020; prim_rn.
  1: unfold DCI_P3; prim_rn.
  1: unfold S_Gamut; prim_rn.
  1: unfold S_Gamut3_Cine; prim_rn.
  1: unfold ACEScg; prim_rn.
  1: unfold ACES2065; prim_rn.
  - destruct XYZ_good as (A & B & _). destruct (XYZ_gamut RN) as [x y]. cbn [g_toXYZ g_fromXYZ] in A, B. rewrite A, B. f_equal; f_equal;
      unfold invR, qR, detR, idR, id_q; cbn [qn qd0 qd1 qd2 m0 m1 m2 m3 m4 m5 m6 m7 m8]; spec; apply M3_eq; field; lra.
  - rewrite <- brad_qR, <- brad_inv_qR. destruct LMS_good as (A & B & _). destruct (LMS RN) as [x y]. cbn in A, B. now rewrite A, B.
Qed.

(** ** Signs of rows of quotients. *)
Definition nn3 (v : Vector3 R) : Prop := 0 <= v0 v /\ 0 <= v1 v /\ 0 <= v2 v.
Lemma quot_nn n d : (0 <= n * d)%Z -> 0 <= IZR n / IZR d.
Proof.
  intros H. destruct (Z.eq_dec d 0) as [->|D]; [unfold Rdiv; rewrite Rinv_0; lra|]. apply IZR_le in H. rewrite mult_IZR in H.
  replace (IZR n / IZR d) with (IZR n * IZR d * (/ IZR d * / IZR d)) by (field; now apply not_0_IZR).
  apply Rmult_le_pos; [lra|]. apply Rle_0_sqr.
Qed.
Lemma quot_neg n d : (n * d < 0)%Z -> IZR n / IZR d < 0.
Proof.
  intros H. assert (D : d <> 0%Z) by nia. apply IZR_lt in H. rewrite mult_IZR in H. apply not_0_IZR in D.
  replace (IZR n / IZR d) with (- ((- (IZR n * IZR d)) * (/ IZR d * / IZR d))) by (now field).
  assert (0 < / IZR d * / IZR d). { apply Rlt_0_sqr. now apply Rinv_neq_0_compat. }
  assert (0 < - (IZR n * IZR d) * (/ IZR d * / IZR d)) by (apply Rmult_lt_0_compat; lra). lra.
Qed.
(** the product of two quotient matrices when the second has one denominator. *)
Definition zmul (a b : Matrix3 Z) : Matrix3 Z :=
  (M3 (m0 a * m0 b + m1 a * m3 b + m2 a * m6 b) (m0 a * m1 b + m1 a * m4 b + m2 a * m7 b) (m0 a * m2 b + m1 a * m5 b + m2 a * m8 b)
      (m3 a * m0 b + m4 a * m3 b + m5 a * m6 b) (m3 a * m1 b + m4 a * m4 b + m5 a * m7 b) (m3 a * m2 b + m4 a * m5 b + m5 a * m8 b)
      (m6 a * m0 b + m7 a * m3 b + m8 a * m6 b) (m6 a * m1 b + m7 a * m4 b + m8 a * m7 b) (m6 a * m2 b + m7 a * m5 b + m8 a * m8 b))%Z.
Definition qmul (p q : qmat) : qmat := mkq (zmul (qn p) (qn q)) (qd0 p * qd0 q) (qd1 p * qd0 q) (qd2 p * qd0 q).
Definition one_den (q : qmat) : bool := (Z.eqb (qd0 q) (qd1 q) && Z.eqb (qd0 q) (qd2 q) && negb (Z.eqb (qd0 q) 0))%bool.
Definition nz_den (q : qmat) : bool := (negb (Z.eqb (qd0 q) 0) && negb (Z.eqb (qd1 q) 0) && negb (Z.eqb (qd2 q) 0))%bool.
Lemma qmul_ok p q : one_den q = true -> nz_den p = true -> mulR (qR p) (qR q) = qR (qmul p q).
Proof.
  unfold one_den, nz_den. rewrite !andb_true_iff, !Z.eqb_eq, !negb_true_iff, !Z.eqb_neq. intros ((A & B) & C) ((D & E) & F).
  destruct p as [[a0 a1 a2 a3 a4 a5 a6 a7 a8] p0 p1 p2], q as [[b0 b1 b2 b3 b4 b5 b6 b7 b8] q0 q1 q2]. cbn [qn qd0 qd1 qd2] in *. subst q1 q2.
  apply not_0_IZR in C, D, E, F.
  unfold qmul, zmul, qR, mulR. cbn [qn qd0 qd1 qd2 m0 m1 m2 m3 m4 m5 m6 m7 m8]. repeat rewrite ?plus_IZR, ?mult_IZR.
  spec. apply M3_eq; field; auto.
Qed.
Definition rows_nn (q : qmat) : bool :=
  let n := qn q in
  forallb (fun z => 0 <=? z)%Z [m0 n * qd0 q; m1 n * qd0 q; m2 n * qd0 q; m3 n * qd1 q; m4 n * qd1 q; m5 n * qd1 q; m6 n * qd2 q; m7 n * qd2 q; m8 n * qd2 q]%Z.
Lemma dot_nn a b c x y z : 0 <= a -> 0 <= b -> 0 <= c -> 0 <= x -> 0 <= y -> 0 <= z -> 0 <= a * x + b * y + c * z.
Proof. intros. repeat apply Rplus_le_le_0_compat; now apply Rmult_le_pos. Qed.
Lemma applyR_eq m v : applyR m v =
  V3 (m0 m * v0 v + m1 m * v1 v + m2 m * v2 v) (m3 m * v0 v + m4 m * v1 v + m5 m * v2 v) (m6 m * v0 v + m7 m * v1 v + m8 m * v2 v).
Proof. destruct m, v. unfold applyR. spec. reflexivity. Qed.
Lemma rows_yes q t : rows_nn q = true -> nn3 t -> nn3 (applyR (qR q) t).
Proof.
  unfold rows_nn. cbn [forallb]. rewrite !andb_true_iff, !Z.leb_le. intros H (T0 & T1 & T2).
  destruct H as (H0 & H1 & H2 & H3 & H4 & H5 & H6 & H7 & H8 & _). rewrite applyR_eq. unfold nn3, qR. cbn [v0 v1 v2 m0 m1 m2 m3 m4 m5 m6 m7 m8].
  split; [|split]; apply dot_nn; auto using quot_nn.
Qed.
Definition unit3 (j : nat) : Vector3 R := match j with O => V3 1 0 0 | 1%nat => V3 0 1 0 | _ => V3 0 0 1 end.
Lemma unit3_nn j : nn3 (unit3 j). Proof. destruct j as [|[|j]]; unfold nn3; cbn; lra. Qed.
Lemma rows_no q : rows_nn q = false -> exists j, ~ nn3 (applyR (qR q) (unit3 j)).
Proof.
  intros H. unfold rows_nn in H. cbn [forallb] in H. rewrite !andb_false_iff, !Z.leb_gt in H.
  assert (K : forall j, (let c := applyR (qR q) (unit3 j) in v0 c < 0 \/ v1 c < 0 \/ v2 c < 0) -> exists j, ~ nn3 (applyR (qR q) (unit3 j))).
  { intros j K. exists j. cbv zeta in K. unfold nn3. intros (A & B & C). lra. }
  destruct H as [H|[H|[H|[H|[H|[H|[H|[H|[H|H]]]]]]]]]; [| | | | | | | | |discriminate H]; apply quot_neg in H;
    [apply (K 0%nat)|apply (K 1%nat)|apply (K 2%nat)|apply (K 0%nat)|apply (K 1%nat)|apply (K 2%nat)|apply (K 0%nat)|apply (K 1%nat)|apply (K 2%nat)];
    rewrite applyR_eq; unfold qR, unit3; cbn [v0 v1 v2 m0 m1 m2 m3 m4 m5 m6 m7 m8]; lra.
Qed.
(** ** The classification over the reals. *)
Definition keeps_nonneg (m : Matrix3 (F RN)) : Prop :=
  forall t, nn3 t -> exists c, M_apply RN m (finV t) = finV c /\ nn3 c.
(** destinations whose triangle contains that of the source. *)
Definition inside (n : gname) : list gname :=
  match n with
  | gAdobeRGB => [gAdobeRGB; gRec2020; gS_Gamut; gACEScg; gACES2065; gXYZ; gLMS]
  | gRec709 => [gAdobeRGB; gRec709; gRec2020; gDCI_P3; gS_Gamut; gS_Gamut3_Cine; gACEScg; gACES2065; gXYZ; gLMS]
  | gRec2020 => [gRec2020; gS_Gamut; gACEScg; gACES2065; gXYZ]
  | gDCI_P3 => [gDCI_P3; gS_Gamut; gS_Gamut3_Cine; gACEScg; gACES2065; gXYZ; gLMS]
  | gS_Gamut => [gS_Gamut]
  | gS_Gamut3_Cine => [gS_Gamut3_Cine]
  | gACEScg => [gS_Gamut; gACEScg]
  | gACES2065 => [gACES2065]
  | gXYZ => [gXYZ]
  | gLMS => [gLMS]
  end.
Definition geqb (a b : gname) : bool :=
  match a, b with
  | gAdobeRGB, gAdobeRGB | gRec709, gRec709 | gRec2020, gRec2020 | gDCI_P3, gDCI_P3 | gS_Gamut, gS_Gamut | gS_Gamut3_Cine, gS_Gamut3_Cine
  | gACEScg, gACEScg | gACES2065, gACES2065 | gXYZ, gXYZ | gLMS, gLMS => true
  | _, _ => false
  end.
Lemma geqb_ok a b : geqb a b = true <-> a = b.
Proof. split; [destruct a, b; (reflexivity || discriminate)|intros ->; destruct b; reflexivity]. Qed.
Definition inb (b : gname) (l : list gname) : bool := existsb (geqb b) l.
Lemma inb_ok b l : inb b l = true <-> In b l.
Proof.
  unfold inb. rewrite existsb_exists. split.
  - intros (x & I & E). apply geqb_ok in E. now subst.
  - intros I. exists b. split; [exact I|]. now apply geqb_ok.
Qed.
Lemma inside_chk : forallb (fun a => forallb (fun b =>
  one_den (fst (gq a)) && nz_den (snd (gq b)) && Bool.eqb (rows_nn (qmul (snd (gq b)) (fst (gq a)))) (inb b (inside a))) gnames) gnames = true.
Proof. vm_compute. reflexivity. Qed.
Lemma inside_at a b : one_den (fst (gq a)) = true /\ nz_den (snd (gq b)) = true /\ rows_nn (qmul (snd (gq b)) (fst (gq a))) = inb b (inside a).
Proof.
  pose proof (proj1 (forallb_forall _ _) inside_chk a (gnames_all a)) as H. apply (fun H => proj1 (forallb_forall _ _) H b (gnames_all b)) in H.
  rewrite !andb_true_iff in H. destruct H as ((A & B) & C). apply Bool.eqb_prop in C. auto.
Qed.
Lemma conv_q a b : GamutConvert RN (gam a RN) (gam b RN) = finM (qR (qmul (snd (gq b)) (fst (gq a)))).
Proof. destruct (inside_at a b) as (A & B & _). rewrite !gq_ok. unfold GamutConvert. cbn [g_toXYZ g_fromXYZ]. now rewrite M_mul_fin, qmul_ok. Qed.
Lemma C103_exact_l a b : keeps_nonneg (GamutConvert RN (gam a RN) (gam b RN)) <-> In b (inside a).
Proof.
  rewrite conv_q, <- inb_ok. destruct (inside_at a b) as (_ & _ & <-). split.
  - intros H. destruct (rows_nn _) eqn:E; [reflexivity|]. apply rows_no in E as (j & E). destruct (H (unit3 j) (unit3_nn j)) as (c & C & P).
    rewrite M_apply_fin in C. apply finV_inj in C. rewrite C in E. contradiction.
  - intros H t T. eexists. split; [apply M_apply_fin|]. now apply rows_yes.
Qed.
(** ** The classification in binary32. *)
Definition nn3F (v : Vector3 f32) : Prop := 0 <= B2R (v0 v) /\ 0 <= B2R (v1 v) /\ 0 <= B2R (v2 v).
Definition keeps_nonnegF (lm : libm) (m : Matrix3 f32) : Prop :=
  forall t : Vector3 f32, allV fin t -> norm3 t <= bpow radix2 110 -> nn3F t -> allV fin (M_apply (FN lm) m t) /\ nn3F (M_apply (FN lm) m t).
(** the identity conversions, and Rec709 to AdobeRGB, have entries rounded below zero. *)
Definition insideF (n : gname) : list gname :=
  match n with
  | gAdobeRGB => [gRec2020; gS_Gamut; gACEScg; gACES2065; gXYZ; gLMS]
  | gRec709 => [gRec709; gRec2020; gDCI_P3; gS_Gamut; gS_Gamut3_Cine; gACEScg; gACES2065; gXYZ; gLMS]
  | gRec2020 => [gS_Gamut; gACEScg; gACES2065; gXYZ]
  | gDCI_P3 => [gS_Gamut; gS_Gamut3_Cine; gACEScg; gACES2065; gXYZ; gLMS]
  | gS_Gamut => []
  | gS_Gamut3_Cine => []
  | gACEScg => [gS_Gamut]
  | gACES2065 => []
  | gXYZ => [gXYZ]
  | gLMS => []
  end.
Definition entries {A} (m : Matrix3 A) : list A := [m0 m; m1 m; m2 m; m3 m; m4 m; m5 m; m6 m; m7 m; m8 m].
Definition smallM (z : Matrix3 Z) : bool := forallb (fun e => Z.abs e <=? 24 * 2 ^ 80)%Z (entries z).
Definition nnM (z : Matrix3 Z) : bool := forallb (fun e => 0 <=? e)%Z (entries z).
Definition chkF (lm : libm) (a b : gname) : bool :=
  match zM (GamutConvert (FN lm) (gam a (FN lm)) (gam b (FN lm))) with
  | Some z => smallM z && Bool.eqb (nnM z) (inb b (insideF a))
  | None => false
  end.
Lemma insideF_chk lm : forallb (fun a => forallb (chkF lm a) gnames) gnames = true.
Proof. vm_compute. reflexivity. Qed.
Section F.
Context (lm : libm).
Notation N := (FN lm).
Lemma s80_pos : 0 < s80. Proof. apply bpow_gt_0. Qed.
Lemma small_ok e : (Z.abs e <= 24 * 2 ^ 80)%Z -> Rabs (IZR e * s80) <= 32.
Proof. intros H. pose proof (sum_le_Z e 0 0) as S. rewrite !Rmult_0_l, Rabs_R0 in S. assert (A : Rabs (IZR e * s80) + 0 + 0 <= 24) by (apply S; cbn [Z.abs]; lia). lra. Qed.
Lemma rnd_nn x : 0 <= x -> 0 <= rnd x.
Proof. intros H. apply rnd_ge_fmt; [apply fmt_0|exact H]. Qed.
Lemma row_fin (p q r x y z : f32) : fin p -> fin q -> fin r -> fin x -> fin y -> fin z ->
  Rabs (B2R p) <= 32 -> Rabs (B2R q) <= 32 -> Rabs (B2R r) <= 32 ->
  Rabs (B2R x) <= bpow radix2 110 -> Rabs (B2R y) <= bpow radix2 110 -> Rabs (B2R z) <= bpow radix2 110 ->
  let d := @fadd N (@fadd N (@fmul N p x) (@fmul N q y)) (@fmul N r z) in
  fin d /\ B2R d = rnd (rnd (rnd (B2R p * B2R x) + rnd (B2R q * B2R y)) + rnd (B2R r * B2R z)).
Proof.
  intros Fp Fq Fr Fx Fy Fz Hp Hq Hr Hx Hy Hz.
  assert (B : forall s t, Rabs s <= 32 -> Rabs t <= bpow radix2 110 -> Rabs (s * t) <= bpow radix2 115).
  { intros s t S T. rewrite Rabs_mult. change 115%Z with (5 + 110)%Z. rewrite bpow_plus. change (bpow radix2 5) with 32. apply Rmult_le_compat; auto using Rabs_pos. }
  assert (L : bpow radix2 116 <= bpow radix2 127) by (apply bpow_le; lia). assert (L1 : bpow radix2 117 <= bpow radix2 127) by (apply bpow_le; lia).
  assert (L2 : bpow radix2 115 <= bpow radix2 127) by (apply bpow_le; lia).
  assert (E1 : bpow radix2 116 = 2 * bpow radix2 115) by (change 116%Z with (1 + 115)%Z; rewrite bpow_plus; reflexivity).
  assert (E2 : bpow radix2 117 = 4 * bpow radix2 115) by (change 117%Z with (2 + 115)%Z; rewrite bpow_plus; reflexivity).
  pose proof (bpow_gt_0 radix2 115) as P115.
  destruct (mul_ok lm p x Fp Fx) as (F1 & V1); [specialize (B _ _ Hp Hx); lra|].
  destruct (mul_ok lm q y Fq Fy) as (F2 & V2); [specialize (B _ _ Hq Hy); lra|].
  destruct (mul_ok lm r z Fr Fz) as (F3 & V3); [specialize (B _ _ Hr Hz); lra|].
  assert (R : forall s t, Rabs s <= 32 -> Rabs t <= bpow radix2 110 -> Rabs (rnd (s * t)) <= bpow radix2 115).
  { intros s t S T. apply rnd_abs_le; [apply fmt_bpow; lia|auto]. }
  pose proof (R _ _ Hp Hx) as R1. pose proof (R _ _ Hq Hy) as R2. pose proof (R _ _ Hr Hz) as R3.
  assert (S1 : Rabs (rnd (B2R p * B2R x) + rnd (B2R q * B2R y)) <= bpow radix2 116) by (eapply Rle_trans; [apply Rabs_triang|lra]).
  destruct (add_ok lm _ _ F1 F2) as (F4 & V4); [rewrite V1, V2; lra|].
  assert (S2 : Rabs (rnd (rnd (B2R p * B2R x) + rnd (B2R q * B2R y))) <= bpow radix2 116) by (apply rnd_abs_le; [apply fmt_bpow; lia|exact S1]).
  rewrite V1, V2 in V4.
  destruct (add_ok lm _ _ F4 F3) as (F5 & V5); [rewrite V4, V3; eapply Rle_trans; [apply Rabs_triang|lra]|].
  rewrite V4, V3 in V5. auto.
Qed.
Lemma applyF (m : Matrix3 f32) z (t : Vector3 f32) : zM m = Some z -> smallM z = true -> allV fin t -> norm3 t <= bpow radix2 110 ->
  let c : Vector3 f32 := M_apply N m t in
  let row p q r := rnd (rnd (rnd (IZR p * s80 * B2R (v0 t)) + rnd (IZR q * s80 * B2R (v1 t))) + rnd (IZR r * s80 * B2R (v2 t))) in
  allV fin c /\ B2R (v0 c) = row (m0 z) (m1 z) (m2 z) /\ B2R (v1 c) = row (m3 z) (m4 z) (m5 z) /\ B2R (v2 c) = row (m6 z) (m7 z) (m8 z).
Proof.
  intros E S Ft HM. apply zM_ok in E. destruct E as (FA & A0 & A1 & A2 & A3 & A4 & A5 & A6 & A7 & A8).
  unfold smallM, entries in S. cbn [forallb] in S. rewrite !andb_true_iff, !Z.leb_le in S. destruct S as (S0 & S1 & S2 & S3 & S4 & S5 & S6 & S7 & S8 & _).
  apply small_ok in S0, S1, S2, S3, S4, S5, S6, S7, S8. rewrite <- ?A0, <- ?A1, <- ?A2, <- ?A3, <- ?A4, <- ?A5, <- ?A6, <- ?A7, <- ?A8 in *.
  destruct (norm3_ge t) as (N0 & N1 & N2). cbv zeta. rewrite apply_rows. rewrite <- A0, <- A1, <- A2, <- A3, <- A4, <- A5, <- A6, <- A7, <- A8.
  destruct m as [a0 a1 a2 a3 a4 a5 a6 a7 a8], t as [x y w]. unfold allM in FA. cbn [m0 m1 m2 m3 m4 m5 m6 m7 m8 v0 v1 v2] in *.
  destruct FA as (F0 & F1 & F2 & F3 & F4 & F5 & F6 & F7 & F8). destruct Ft as (Fx & Fy & Fw). cbn [v0 v1 v2] in Fx, Fy, Fw.
  assert (W : forall p q r : f32, fin p -> fin q -> fin r -> Rabs (B2R p) <= 32 -> Rabs (B2R q) <= 32 -> Rabs (B2R r) <= 32 ->
    let d := V_dot N (V3 p q r) (V3 x y w) in fin d /\ B2R d = rnd (rnd (rnd (B2R p * B2R x) + rnd (B2R q * B2R y)) + rnd (B2R r * B2R w))).
  { intros. apply row_fin; try assumption; lra. }
  destruct (W a0 a1 a2) as (G0 & W0), (W a3 a4 a5) as (G1 & W1), (W a6 a7 a8) as (G2 & W2); try assumption.
  split; [repeat split; assumption|]. auto.
Qed.
Lemma keepsF_yes m z : zM m = Some z -> smallM z = true -> nnM z = true -> keeps_nonnegF lm m.
Proof.
  intros E S P t Ft HM (T0 & T1 & T2). destruct (applyF m z t E S Ft HM) as (F & V0 & V1 & V2). cbv zeta in *. split; [exact F|].
  unfold nn3F. rewrite V0, V1, V2. unfold nnM, entries in P. cbn [forallb] in P. rewrite !andb_true_iff, !Z.leb_le in P.
  destruct P as (P0 & P1 & P2 & P3 & P4 & P5 & P6 & P7 & P8 & _). pose proof s80_pos.
  assert (Q : forall e t, (0 <= e)%Z -> 0 <= t -> 0 <= rnd (IZR e * s80 * t)).
  { intros e r He Hr. apply rnd_nn. apply Rmult_le_pos; [apply Rmult_le_pos; [now apply IZR_le|lra]|exact Hr]. }
  repeat split; apply rnd_nn; apply Rplus_le_le_0_compat; auto; apply rnd_nn; apply Rplus_le_le_0_compat; auto.
Qed.
Definition unitF (j : nat) : Vector3 f32 :=
  let o := @flit N 1 in let z := @flit N 0 in match j with O => V3 o z z | 1%nat => V3 z o z | _ => V3 z z o end.
Lemma unitF_ok j : allV fin (unitF j) /\ nn3F (unitF j) /\ norm3 (unitF j) <= bpow radix2 110 /\
  vR (unitF j) = unit3 j.
Proof.
  destruct (l1 lm) as (F1 & V1), (l0 lm) as (F0 & V0).
  assert (L : 1 <= bpow radix2 110) by (change 1 with (bpow radix2 0); apply bpow_le; lia).
  assert (A1 : Rabs 1 = 1) by (apply Rabs_pos_eq; lra). assert (A0 : Rabs 0 = 0) by apply Rabs_R0.
  destruct j as [|[|j]]; unfold unitF, unit3, nn3F, norm3, vR; cbn [v0 v1 v2];
    (split; [repeat split; assumption|]); rewrite !V0, !V1, ?A0, ?A1; (split; [lra|]; split; [|reflexivity]);
    repeat apply Rmax_lub; lra.
Qed.
Lemma rnd1 e : fmt (IZR e * s80) -> rnd (IZR e * s80 * 1) = IZR e * s80.
Proof. intros H. rewrite Rmult_1_r. now apply rnd_id. Qed.
Lemma keepsF_no m z : zM m = Some z -> smallM z = true -> nnM z = false -> ~ keeps_nonnegF lm m.
Proof.
  intros E S P K. pose proof s80_pos as Ps.
  assert (Fm : Forall (fun e => fmt (IZR e * s80)) (entries z)).
  { apply zM_ok in E. destruct E as (FA & A0 & A1 & A2 & A3 & A4 & A5 & A6 & A7 & A8).
    unfold entries. repeat apply Forall_cons; rewrite <- ?A0, <- ?A1, <- ?A2, <- ?A3, <- ?A4, <- ?A5, <- ?A6, <- ?A7, <- ?A8; try apply Forall_nil; apply generic_format_B2R. }
  unfold entries in Fm. repeat (apply Forall_cons_iff in Fm; destruct Fm as (? & Fm)). clear Fm.
  assert (Z0 : forall e, rnd (IZR e * s80 * 0) = 0) by (intros e; rewrite Rmult_0_r; apply rnd_0).
  assert (G : forall j, nn3F (M_apply N m (unitF j)) /\ allV fin (unitF j) /\ norm3 (unitF j) <= bpow radix2 110 /\ vR (unitF j) = unit3 j).
  { intros j. destruct (unitF_ok j) as (A & B & C & D). split; [now apply K|auto]. }
  assert (Q : forall j, let u := unit3 j in
    let row p q r := rnd (rnd (rnd (IZR p * s80 * v0 u) + rnd (IZR q * s80 * v1 u)) + rnd (IZR r * s80 * v2 u)) in
    0 <= row (m0 z) (m1 z) (m2 z) /\ 0 <= row (m3 z) (m4 z) (m5 z) /\ 0 <= row (m6 z) (m7 z) (m8 z)).
  { intros j. destruct (G j) as (A & B & C & D). destruct (applyF m z (unitF j) E S B C) as (_ & V0 & V1 & V2).
    unfold nn3F in A. rewrite V0, V1, V2 in A. rewrite <- D. exact A. }
  clear G. pose proof (Q 0%nat) as Q0. pose proof (Q 1%nat) as Q1. pose proof (Q 2%nat) as Q2. clear Q. cbn [unit3 v0 v1 v2] in Q0, Q1, Q2.
  rewrite !Z0 in Q0, Q1, Q2. rewrite !rnd1 in Q0, Q1, Q2 by assumption. repeat rewrite ?Rplus_0_r, ?Rplus_0_l, ?rnd_0 in Q0; repeat rewrite ?Rplus_0_r, ?Rplus_0_l, ?rnd_0 in Q1; repeat rewrite ?Rplus_0_r, ?Rplus_0_l, ?rnd_0 in Q2.
  repeat (rewrite rnd_id in Q0 by (first [assumption | apply generic_format_round; typeclasses eauto])).
  repeat (rewrite rnd_id in Q1 by (first [assumption | apply generic_format_round; typeclasses eauto])).
  rewrite !rnd_id in Q2 by assumption.
  unfold nnM, entries in P. cbn [forallb] in P. rewrite !andb_false_iff, !Z.leb_gt in P.
  assert (Y : forall e, (e < 0)%Z -> IZR e * s80 < 0).
  { intros e He. apply IZR_lt in He. apply Rmult_lt_compat_r with (r := s80) in He; lra. }
  destruct P as [P|[P|[P|[P|[P|[P|[P|[P|[P|P]]]]]]]]]; [| | | | | | | | |discriminate P]; apply Y in P; destruct Q0 as (? & ? & ?), Q1 as (? & ? & ?), Q2 as (? & ? & ?); lra.
Qed.
Lemma C103_binary32_l a b : keeps_nonnegF lm (GamutConvert N (gam a N) (gam b N)) <-> In b (insideF a).
Proof.
  assert (H : chkF lm a b = true).
  { pose proof (proj1 (forallb_forall (fun a => forallb (chkF lm a) gnames) gnames) (insideF_chk lm) a (gnames_all a)) as H. cbv beta in H.
    exact (proj1 (forallb_forall (chkF lm a) gnames) H b (gnames_all b)). }
  unfold chkF in H. destruct (zM _) as [z|] eqn:E; [|discriminate]. apply andb_true_iff in H as (S & P). apply Bool.eqb_prop in P.
  rewrite <- inb_ok, <- P. destruct (nnM z) eqn:Q; split; intros H; try reflexivity; try discriminate.
  - now apply (keepsF_yes _ z).
  - exfalso. now apply (keepsF_no _ z E S Q).
Qed.
End F.

(** ** Every spectrum is a non-negative ACES2065 colour. *)
Definition zn (t : list dec) (i : nat) : Z := dm (nth i t (mkdec 0 0)).
Lemma smp_z p t i : exps (Zneg p) t = true -> smp (tabR t) i = IZR (zn t i) / p10 p.
Proof.
  pose proof (p10_pos p). revert i. induction t as [|[m e] t IH]; intros i E.
  - unfold smp, zn, tabR. cbn [map]. destruct i; cbn [nth dm]; field; lra.
  - apply exps_cons in E as [D E]. cbn [de] in D. subst e. destruct i as [|i]; [reflexivity|]. exact (IH i E).
Qed.
Definition obsT := (list dec * list dec * list dec)%type.
Section Obs.
Context (tX tY tZ : list dec) (pX pY pZ : positive).
Let SX := zsum tX. Let SY := zsum tY. Let SZ := zsum tZ.
Definition okT : bool := (Nat.eqb (length tX) 400 && Nat.eqb (length tY) 400 && Nat.eqb (length tZ) 400 &&
  exps (Zneg pX) tX && exps (Zneg pY) tY && exps (Zneg pZ) tZ && (0 <? zsum tX)%Z && (0 <? zsum tY)%Z && (0 <? zsum tZ)%Z)%bool.
(** the numerator of one output channel for the light of one wavelength. *)
Definition wl (n0 n1 n2 d : Z) (i : nat) : Z := ((n0 * zn tX i * (zsum tY * zsum tZ) + n1 * zn tY i * (zsum tX * zsum tZ) + n2 * zn tZ i * (zsum tX * zsum tY)) * d)%Z.
Context (OK : okT = true).
Lemma ok_parts : length tX = 400%nat /\ length tY = 400%nat /\ length tZ = 400%nat /\ exps (Zneg pX) tX = true /\ exps (Zneg pY) tY = true /\ exps (Zneg pZ) tZ = true /\
  0 < IZR SX /\ 0 < IZR SY /\ 0 < IZR SZ.
Proof.
  unfold okT in OK. rewrite !andb_true_iff, !Nat.eqb_eq, !Z.ltb_lt in OK. destruct OK as ((((((((A & B) & C) & D) & E) & G) & H) & I) & J).
  apply IZR_lt in H, I, J. tauto.
Qed.
Lemma chan s n0 n1 n2 d : d <> 0%Z ->
  IZR n0 / IZR d * (dotR s (tabR tX) / sumR (tabR tX)) + IZR n1 / IZR d * (dotR s (tabR tY) / sumR (tabR tY)) + IZR n2 / IZR d * (dotR s (tabR tZ) / sumR (tabR tZ)) =
  sum_f_R0 (fun i => smp s i * (IZR (wl n0 n1 n2 d i) / (IZR d * IZR d * (IZR SX * IZR SY * IZR SZ)))) 399.
Proof.
  intros Hd. apply not_0_IZR in Hd. destruct ok_parts as (LX & LY & LZ & EX & EY & EZ & PX & PY & PZ).
  rewrite (sumR_z pX tX), (sumR_z pY tY), (sumR_z pZ tZ) by assumption. fold SX SY SZ. unfold dotR.
  pose proof (p10_pos pX). pose proof (p10_pos pY). pose proof (p10_pos pZ).
  generalize 399%nat. intros n. induction n as [|n IH]; cbn [sum_f_R0].
  - rewrite (smp_z pX tX), (smp_z pY tY), (smp_z pZ tZ) by assumption. unfold wl. fold SX SY SZ. rewrite !mult_IZR, !plus_IZR, !mult_IZR. field. repeat split; try lra; assumption.
  - rewrite <- IH. rewrite (smp_z pX tX), (smp_z pY tY), (smp_z pZ tZ) by assumption. unfold wl. fold SX SY SZ. rewrite !mult_IZR, !plus_IZR, !mult_IZR. field. repeat split; try lra; assumption.
Qed.
Lemma den_pos d : d <> 0%Z -> 0 < / (IZR d * IZR d * (IZR SX * IZR SY * IZR SZ)).
Proof.
  intros Hd. apply not_0_IZR in Hd. destruct ok_parts as (_ & _ & _ & _ & _ & _ & PX & PY & PZ). apply Rinv_0_lt_compat.
  apply Rmult_lt_0_compat; [now apply Rlt_0_sqr|]. repeat apply Rmult_lt_0_compat; assumption.
Qed.
Lemma sum_nn f n : (forall i, (i <= n)%nat -> 0 <= f i) -> 0 <= sum_f_R0 f n.
Proof. intros H. induction n; cbn [sum_f_R0]; [apply H; lia|]. apply Rplus_le_le_0_compat; [apply IHn; intros; apply H; lia|apply H; lia]. Qed.
Lemma chan_nn s n0 n1 n2 d : nonneg s -> d <> 0%Z -> forallb (fun i => 0 <=? wl n0 n1 n2 d i)%Z (seq 0 400) = true ->
  0 <= IZR n0 / IZR d * (dotR s (tabR tX) / sumR (tabR tX)) + IZR n1 / IZR d * (dotR s (tabR tY) / sumR (tabR tY)) + IZR n2 / IZR d * (dotR s (tabR tZ) / sumR (tabR tZ)).
Proof.
  intros P Hd C. rewrite chan by exact Hd. apply sum_nn. intros i Hi. apply Rmult_le_pos; [now apply nonneg_smp|].
  rewrite forallb_forall in C. specialize (C i ltac:(apply in_seq; lia)). apply Z.leb_le, IZR_le in C.
  apply Rmult_le_pos; [exact C|]. pose proof (den_pos d Hd). lra.
Qed.
End Obs.
(** the light of a single wavelength [380 + i] nm. *)
Definition mono (i : nat) : list R := map (fun j => if Nat.eqb j i then 1 else 0) (seq 0 400).
Lemma mono_ok i : spectrumR (mono i) /\ nonneg (mono i).
Proof.
  split; [unfold spectrumR, mono; now rewrite map_length, seq_length|]. unfold nonneg, mono. apply Forall_map, Forall_forall. intros j _. destruct (Nat.eqb j i); lra.
Qed.
Lemma mono_smp i j : (j < 400)%nat -> smp (mono i) j = if Nat.eqb j i then 1 else 0.
Proof. intros H. unfold smp, mono. now rewrite (nth_tab (fun j => if Nat.eqb j i then 1 else 0)). Qed.
Lemma mono_sum i f n : (n < 400)%nat -> sum_f_R0 (fun j => smp (mono i) j * f j) n = if Nat.leb i n then f i else 0.
Proof.
  induction n as [|n IH]; intros H; cbn [sum_f_R0].
  - rewrite mono_smp by exact H. destruct i as [|i]; cbn [Nat.eqb Nat.leb]; ring.
  - rewrite IH, mono_smp by lia. destruct (Nat.leb_spec i n), (Nat.leb_spec i (S n)), (Nat.eqb_spec (S n) i); try lia; try subst i; ring.
Qed.
Definition T1931 := (T_CIE1931_X, T_CIE1931_Y, T_CIE1931_Z).
Definition T31JV := (T_CIE1931_JuddVos_X, T_CIE1931_JuddVos_Y, T_CIE1931_JuddVos_Z).
Definition T2012 := (T_CIE2012_X, T_CIE2012_Y, T_CIE2012_Z).
Definition tabs (k : nat) : obsT * (positive * positive) := match k with O => (T1931, (11, 11)%positive) | 1%nat => (T31JV, (10, 14)%positive) | _ => (T2012, (10, 10)%positive) end.
Definition obs_of_tabs (t : obsT) : Observer RN := let '(x, y, z) := t in observerR (tabR x) (tabR y) (tabR z).
Lemma obs_names o : In o [CIE1931 RN; CIE31JV RN; CIE2012 RN] -> exists k, o = obs_of_tabs (fst (tabs k)).
Proof. intros [<-|[<-|[<-|[]]]]; [exists 0%nat|exists 1%nat|exists 2%nat]; symmetry; symmetry; apply obs_of. Qed.
Definition tabs_chk (k : nat) : bool := let '((x, y, z), (p, r)) := tabs k in okT x y z p p r.
Lemma tabs_okT k : tabs_chk k = true.
Proof. destruct k as [|[|k]]; vm_compute; reflexivity. Qed.
Fixpoint all3 (f : Z -> Z -> Z -> bool) (x y z : list dec) : bool :=
  match x, y, z with
  | a :: x, b :: y, c :: z => f (dm a) (dm b) (dm c) && all3 f x y z
  | _, _, _ => true
  end.
Lemma all3_ok f x y z n : length x = n -> length y = n -> length z = n -> all3 f x y z = true -> forall i, (i < n)%nat -> f (zn x i) (zn y i) (zn z i) = true.
Proof.
  revert x y z. induction n as [|n IH]; intros x y z Lx Ly Lz H i Hi; [lia|].
  destruct x as [|a x], y as [|b y], z as [|c z]; try discriminate. cbn [all3] in H. apply andb_true_iff in H as (H & K).
  destruct i as [|i]; [exact H|]. apply (IH x y z); try (cbn in *; lia). exact K.
Qed.
Definition cover_chk (q : qmat) (k : nat) : bool :=
  let '((x, y, z), (p, r)) := tabs k in let n := qn q in
  (fun yz xz xy => nz_den q &&
    all3 (fun a b c => (0 <=? (m0 n * a * yz + m1 n * b * xz + m2 n * c * xy) * qd0 q) &&
      (0 <=? (m3 n * a * yz + m4 n * b * xz + m5 n * c * xy) * qd1 q) && (0 <=? (m6 n * a * yz + m7 n * b * xz + m8 n * c * xy) * qd2 q))%Z x y z)
    (zsum y * zsum z)%Z (zsum x * zsum z)%Z (zsum x * zsum y)%Z.
Lemma ok_obs x y z p r : okT x y z p p r = true -> obs_ok (tabR x) (tabR y) (tabR z).
Proof.
  intros H. destruct (ok_parts _ _ _ _ _ _ H) as (LX & LY & LZ & EX & EY & EZ & PX & PY & PZ). pose proof p10_pos as PP.
  assert (Q : forall t p, length t = 400%nat -> exps (Zneg p) t = true -> 0 < IZR (zsum t) -> sumR (tabR t) <> 0).
  { intros t e L E P. rewrite (sumR_z e) by assumption. assert (0 < IZR (zsum t) / p10 e) by (now apply Rdiv_lt_0_compat). lra. }
  repeat split; try (unfold spectrumR, tabR; rewrite map_length; assumption); eauto.
Qed.
Lemma cover_ok q k s : cover_chk q k = true -> spectrumR s -> nonneg s ->
  exists t, fromSpectrum RN (obs_of_tabs (fst (tabs k))) (finS s) = finV t /\ nn3 (applyR (qR q) t).
Proof.
  intros C L P. pose proof (tabs_okT k) as T. unfold cover_chk, tabs_chk in *. destruct (tabs k) as [[[x y] z] [p r]]. cbn [fst obs_of_tabs].
  eexists. split; [apply fromSpectrum_fin; [exact (ok_obs _ _ _ _ _ T)|exact L]|].
  rewrite andb_true_iff in C. destruct C as (D & C).
  assert (CC : forall i, In i (seq 0 400) -> (0 <=? wl x y z (m0 (qn q)) (m1 (qn q)) (m2 (qn q)) (qd0 q) i)%Z = true /\
    (0 <=? wl x y z (m3 (qn q)) (m4 (qn q)) (m5 (qn q)) (qd1 q) i)%Z = true /\ (0 <=? wl x y z (m6 (qn q)) (m7 (qn q)) (m8 (qn q)) (qd2 q) i)%Z = true).
  { intros i Hi. apply in_seq in Hi. destruct (ok_parts _ _ _ _ _ _ T) as (LX & LY & LZ & _). pose proof (all3_ok _ x y z 400 LX LY LZ C i ltac:(lia)) as A.
    cbv beta in A. rewrite !andb_true_iff in A. unfold wl. tauto. }
  unfold nz_den in D. rewrite !andb_true_iff, !negb_true_iff, !Z.eqb_neq in D. destruct D as ((D0 & D1) & D2).
  rewrite applyR_eq. unfold nn3, qR, triR. cbn [v0 v1 v2 m0 m1 m2 m3 m4 m5 m6 m7 m8].
  repeat split; apply (chan_nn x y z p p r T); try assumption; apply forallb_forall; intros i Hi; apply (CC i Hi).
Qed.
Lemma aces_chk k : cover_chk (snd (gq gACES2065)) k = true.
Proof. destruct k as [|[|k]]; vm_compute; reflexivity. Qed.
Lemma C102_cover_l o s : In o [CIE1931 RN; CIE31JV RN; CIE2012 RN] -> spectrumR s -> nonneg s ->
  exists t c, fromSpectrum RN o (finS s) = finV t /\ G_fromXYZ_t RN (ACES2065 RN) (finV t) = finV c /\ 0 <= v0 c /\ 0 <= v1 c /\ 0 <= v2 c.
Proof.
  intros I L P. destruct (obs_names o I) as (k & ->). destruct (cover_ok _ k s (aces_chk k) L P) as (t & E & C).
  exists t, (applyR (qR (snd (gq gACES2065))) t). split; [exact E|]. split; [|exact C].
  change (ACES2065 RN) with (gam gACES2065 RN). rewrite gq_ok. unfold G_fromXYZ_t. cbn [g_fromXYZ]. apply M_apply_fin.
Qed.
Lemma C102_reflect_l o r l : In o [CIE1931 RN; CIE31JV RN; CIE2012 RN] -> spectrumR r -> nonneg r -> spectrumR l -> nonneg l ->
  exists t c, fromReflectanceAndLight RN o (finS r) (finS l) = finV t /\ G_fromXYZ_t RN (ACES2065 RN) (finV t) = finV c /\ 0 <= v0 c /\ 0 <= v1 c /\ 0 <= v2 c.
Proof.
  intros I R Pr L Pl. rewrite C57_l, S_mul_fin by assumption. apply C102_cover_l; [exact I|apply pw_len|].
  unfold nonneg, mulS, pointwise. apply Forall_map, Forall_forall. intros i _. apply Rmult_le_pos; now apply nonneg_smp.
Qed.
(** ... and no other predefined RGB gamut has this property: light of 500 nm. *)
Definition neg_chk (q : qmat) (k i : nat) : bool :=
  let '((x, y, z), (p, r)) := tabs k in let n := qn q in
  nz_den q && ((wl x y z (m0 n) (m1 n) (m2 n) (qd0 q) i <? 0)%Z || (wl x y z (m3 n) (m4 n) (m5 n) (qd1 q) i <? 0)%Z || (wl x y z (m6 n) (m7 n) (m8 n) (qd2 q) i <? 0)%Z).
Lemma neg_ok q k i : (i < 400)%nat -> neg_chk q k i = true ->
  exists t, fromSpectrum RN (obs_of_tabs (fst (tabs k))) (finS (mono i)) = finV t /\ ~ nn3 (applyR (qR q) t).
Proof.
  intros Hi C. pose proof (tabs_okT k) as T. unfold neg_chk, tabs_chk in *. destruct (tabs k) as [[[x y] z] [p r]]. cbn [fst obs_of_tabs].
  eexists. split; [apply fromSpectrum_fin; [exact (ok_obs _ _ _ _ _ T)|apply mono_ok]|].
  rewrite !andb_true_iff in C. destruct C as (D & C).
  unfold nz_den in D. rewrite !andb_true_iff, !negb_true_iff, !Z.eqb_neq in D. destruct D as ((D0 & D1) & D2).
  rewrite applyR_eq. unfold nn3, qR, triR. cbn [v0 v1 v2 m0 m1 m2 m3 m4 m5 m6 m7 m8]. rewrite !(chan x y z p p r T) by assumption.
  rewrite !mono_sum by lia. replace (Nat.leb i 399) with true by (symmetry; apply Nat.leb_le; lia).
  assert (Q : forall w d, d <> 0%Z -> (w < 0)%Z -> IZR w / (IZR d * IZR d * (IZR (zsum x) * IZR (zsum y) * IZR (zsum z))) < 0).
  { intros w d Hd Hw. apply IZR_lt in Hw. pose proof (den_pos x y z p p r T d Hd) as P. unfold Rdiv. apply Rmult_lt_compat_r with (1 := P) in Hw. lra. }
  rewrite !orb_true_iff, !Z.ltb_lt in C. intros (A & B & E). destruct C as [[C|C]|C].
  - specialize (Q _ _ D0 C). lra.
  - specialize (Q _ _ D1 C). lra.
  - specialize (Q _ _ D2 C). lra.
Qed.
Definition rgb_others : list gname := [gAdobeRGB; gRec709; gRec2020; gDCI_P3; gS_Gamut; gS_Gamut3_Cine; gACEScg].
Lemma others_chk : forallb (fun n => forallb (fun k => neg_chk (snd (gq n)) k 120) [0; 1; 2]%nat) rgb_others = true.
Proof. vm_compute. reflexivity. Qed.
Lemma obs_names3 o : In o [CIE1931 RN; CIE31JV RN; CIE2012 RN] -> exists k, In k [0; 1; 2]%nat /\ o = obs_of_tabs (fst (tabs k)).
Proof. intros [<-|[<-|[<-|[]]]]; [exists 0%nat|exists 1%nat|exists 2%nat]; (split; [cbn [In]; tauto|]); apply obs_of. Qed.
Lemma C102_others_l n o : In n rgb_others -> In o [CIE1931 RN; CIE31JV RN; CIE2012 RN] ->
  exists t c, fromSpectrum RN o (finS (mono 120)) = finV t /\ G_fromXYZ_t RN (gam n RN) (finV t) = finV c /\ (v0 c < 0 \/ v1 c < 0 \/ v2 c < 0).
Proof.
  intros I O. destruct (obs_names3 o O) as (k & K & ->).
  pose proof (proj1 (forallb_forall (fun n => forallb (fun k => neg_chk (snd (gq n)) k 120) [0; 1; 2]%nat) rgb_others) others_chk n I) as C.
  pose proof (proj1 (forallb_forall (fun k => neg_chk (snd (gq n)) k 120) [0; 1; 2]%nat) C k K) as C'. cbv beta in C'.
  destruct (neg_ok _ k 120 ltac:(lia) C') as (t & E & H). exists t, (applyR (qR (snd (gq n))) t). split; [exact E|]. split.
  - rewrite gq_ok. unfold G_fromXYZ_t. cbn [g_fromXYZ]. apply M_apply_fin.
  - unfold nn3 in H. lra.
Qed.

(** ** Luminance of non-negative colours. *)
Definition lum_nonneg (n : gname) : Prop := forall t, nn3 t -> exists c, G_toXYZ_t RN (gam n RN) (finV t) = finV c /\ 0 <= v1 c.
Definition lum_ok (n : gname) : bool := negb (inb n [gS_Gamut; gS_Gamut3_Cine; gACES2065]).
Lemma lum_chk n : nz_den (fst (gq n)) = true /\
  (let q := fst (gq n) in forallb (fun z => 0 <=? z)%Z [m3 (qn q) * qd1 q; m4 (qn q) * qd1 q; m5 (qn q) * qd1 q]%Z) = lum_ok n.
Proof. destruct n; vm_compute; split; reflexivity. Qed.
Lemma C104_exact_l n : lum_nonneg n <-> ~ In n [gS_Gamut; gS_Gamut3_Cine; gACES2065].
Proof.
  destruct (lum_chk n) as (_ & C). cbv zeta in C. cbn [forallb] in C.
  assert (E : forall t, G_toXYZ_t RN (gam n RN) (finV t) = finV (applyR (qR (fst (gq n))) t)).
  { intros t. rewrite gq_ok. unfold G_toXYZ_t. cbn [g_toXYZ]. apply M_apply_fin. }
  rewrite <- inb_ok. change (inb n _ = true) with (inb n [gS_Gamut; gS_Gamut3_Cine; gACES2065] = true). unfold lum_ok in C.
  destruct (inb n _) eqn:B; cbn [negb] in C.
  - split; [|intros H; now destruct H]. intros H. exfalso. rewrite !andb_false_iff, !Z.leb_gt in C.
    assert (K : forall j, 0 <= v1 (applyR (qR (fst (gq n))) (unit3 j))).
    { intros j. destruct (H _ (unit3_nn j)) as (c & D & P). rewrite E in D. apply finV_inj in D. now rewrite D. }
    pose proof (K 0%nat) as K0. pose proof (K 1%nat) as K1. pose proof (K 2%nat) as K2. rewrite applyR_eq in K0, K1, K2.
    unfold qR, unit3 in K0, K1, K2. cbn [v0 v1 v2 m0 m1 m2 m3 m4 m5 m6 m7 m8] in K0, K1, K2.
    destruct C as [C|[C|[C|C]]]; [apply quot_neg in C; lra..|discriminate C].
  - split; [discriminate|]. intros _ t (T0 & T1 & T2). eexists. split; [apply E|]. rewrite !andb_true_iff, !Z.leb_le in C. destruct C as (C0 & C1 & C2 & _).
    rewrite applyR_eq. unfold qR. cbn [v0 v1 v2 m0 m1 m2 m3 m4 m5 m6 m7 m8]. apply dot_nn; auto using quot_nn.
Qed.
Definition lum_nonnegF (lm : libm) (n : gname) : Prop := forall t : Vector3 f32, allV fin t -> norm3 t <= bpow radix2 110 -> nn3F t ->
  let c : Vector3 f32 := G_toXYZ_t (FN lm) (gam n (FN lm)) t in fin (v1 c) /\ 0 <= B2R (v1 c).
Definition lum_chkF (lm : libm) (n : gname) : bool :=
  match zM (g_toXYZ (gam n (FN lm))) with
  | Some z => smallM z && Bool.eqb ((0 <=? m3 z) && (0 <=? m4 z) && (0 <=? m5 z))%Z (lum_ok n) &&
      (lum_ok n || (0 <=? m3 z) && (0 <=? m4 z) && (m5 z <? 0))%Z
  | None => false
  end.
Lemma lum_chkF_ok lm n : lum_chkF lm n = true.
Proof. destruct n; vm_compute; reflexivity. Qed.
Lemma C104_binary32_l lm n : lum_nonnegF lm n <-> ~ In n [gS_Gamut; gS_Gamut3_Cine; gACES2065].
Proof.
  pose proof (lum_chkF_ok lm n) as H. unfold lum_chkF in H. destruct (zM _) as [z|] eqn:E; [|discriminate].
  rewrite !andb_true_iff in H. destruct H as ((S & P) & Q). apply Bool.eqb_prop in P.
  rewrite <- inb_ok. change (inb n _ = true) with (inb n [gS_Gamut; gS_Gamut3_Cine; gACES2065] = true). unfold lum_ok in P, Q.
  pose proof s80_pos as Ps. destruct (inb n _) eqn:B; cbn [negb] in P, Q.
  - split; [|intros H; now destruct H]. intros H. exfalso. rewrite orb_false_l, !andb_true_iff, !Z.leb_le, Z.ltb_lt in Q. destruct Q as (_ & Q).
    destruct (unitF_ok lm 2) as (A & A' & C & D). destruct (H _ A C A') as (_ & G).
    destruct (applyF lm _ z (unitF lm 2) E S A C) as (_ & _ & V1 & _). cbv zeta in V1, G. unfold G_toXYZ_t in G. rewrite V1 in G.
    assert (D0 : B2R (v0 (unitF lm 2)) = 0 /\ B2R (v1 (unitF lm 2)) = 0 /\ B2R (v2 (unitF lm 2)) = 1).
    { unfold vR, unit3 in D. injection D. auto. }
    destruct D0 as (D0 & D1 & D2). rewrite D0, D1, D2, !Rmult_0_r, rnd_0, Rplus_0_r, rnd_0, Rplus_0_l, Rmult_1_r in G.
    assert (Fm : fmt (IZR (m5 z) * s80)).
    { apply zM_ok in E. destruct E as (FA & A0 & A1 & A2 & A3 & A4 & A5 & A6 & A7 & A8). rewrite <- A5. apply generic_format_B2R. }
    rewrite !rnd_id in G by (try assumption; rewrite rnd_id by assumption; assumption).
    apply IZR_lt in Q. apply Rmult_lt_compat_r with (r := s80) in Q; lra.
  - split; [discriminate|]. intros _ t Ft HM (T0 & T1 & T2). rewrite !andb_true_iff, !Z.leb_le in P. destruct P as ((P0 & P1) & P2).
    destruct (applyF lm _ z t E S Ft HM) as ((_ & F1 & _) & _ & V1 & _). cbv zeta in *. unfold G_toXYZ_t. split; [exact F1|]. rewrite V1.
    assert (K : forall e t, (0 <= e)%Z -> 0 <= t -> 0 <= rnd (IZR e * s80 * t)).
    { intros e r He Hr. apply rnd_nn. apply Rmult_le_pos; [apply Rmult_le_pos; [now apply IZR_le|lra]|exact Hr]. }
    apply rnd_nn; apply Rplus_le_le_0_compat; auto; apply rnd_nn; apply Rplus_le_le_0_compat; auto.
Qed.
(** the luminance of the blue primary. *)
Lemma C104_blue_l : Forall (fun n => exists c, G_toXYZ_t RN (gam n RN) (finV (V3 0 0 1)) = finV c /\ v1 c < -1 / 20) [gS_Gamut; gS_Gamut3_Cine; gACES2065].
Proof.
  repeat apply Forall_cons; try apply Forall_nil; (eexists; split; [rewrite gq_ok; unfold G_toXYZ_t; cbn [g_toXYZ]; apply M_apply_fin|]);
    rewrite applyR_eq; match goal with |- context [gq ?n] => let q := eval vm_compute in (fst (gq n)) in change (fst (gq n)) with q end;
    unfold qR; cbn [qn qd0 qd1 qd2 v0 v1 v2 m0 m1 m2 m3 m4 m5 m6 m7 m8]; lra.
Qed.
