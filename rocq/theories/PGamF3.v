(** * Conversion between the predefined gamuts in binary32 against its exact value. *)
From Coq Require Import ZArith Reals Lra Lia List Bool.
From Flocq Require Import Core IEEE754.BinarySingleNaN.
From Verif Require Import Num NumR NumF MVec MTri RTac SpecMat PMat PTri PGamut F32 PMatF PHsvF PGamF PGamF2.
Import ListNotations.
Local Open Scope R_scope.

Definition qdot (a0 a1 a2 b0 b1 b2 d0 d1 d2 : Z) : Z := (a0 * b0 * (d1 * d2) + a1 * b1 * (d0 * d2) + a2 * b2 * (d0 * d1))%Z.
Definition qmul (a b : qmat) : qmat :=
  let p := qn a in let q := qn b in let d0 := qd0 b in let d1 := qd1 b in let d2 := qd2 b in let d := (d0 * d1 * d2)%Z in
  mkq (M3 (qdot (m0 p) (m1 p) (m2 p) (m0 q) (m3 q) (m6 q) d0 d1 d2) (qdot (m0 p) (m1 p) (m2 p) (m1 q) (m4 q) (m7 q) d0 d1 d2) (qdot (m0 p) (m1 p) (m2 p) (m2 q) (m5 q) (m8 q) d0 d1 d2)
          (qdot (m3 p) (m4 p) (m5 p) (m0 q) (m3 q) (m6 q) d0 d1 d2) (qdot (m3 p) (m4 p) (m5 p) (m1 q) (m4 q) (m7 q) d0 d1 d2) (qdot (m3 p) (m4 p) (m5 p) (m2 q) (m5 q) (m8 q) d0 d1 d2)
          (qdot (m6 p) (m7 p) (m8 p) (m0 q) (m3 q) (m6 q) d0 d1 d2) (qdot (m6 p) (m7 p) (m8 p) (m1 q) (m4 q) (m7 q) d0 d1 d2) (qdot (m6 p) (m7 p) (m8 p) (m2 q) (m5 q) (m8 q) d0 d1 d2))
      (qd0 a * d) (qd1 a * d) (qd2 a * d).
Definition qok (a : qmat) : bool := negb (qd0 a =? 0)%Z && negb (qd1 a =? 0)%Z && negb (qd2 a =? 0)%Z.
Lemma qok_ok a : qok a = true -> IZR (qd0 a) <> 0 /\ IZR (qd1 a) <> 0 /\ IZR (qd2 a) <> 0.
Proof. unfold qok. rewrite !andb_true_iff, !negb_true_iff, !Z.eqb_neq. intros [[A B] C]. repeat split; now apply not_0_IZR. Qed.
Lemma qmul_ok a b : qok a = true -> qok b = true -> mulR (qR a) (qR b) = qR (qmul a b).
Proof.
  intros A B. apply qok_ok in A, B. destruct A as (A0 & A1 & A2), B as (B0 & B1 & B2). destruct a as [[p0 p1 p2 p3 p4 p5 p6 p7 p8] a0 a1 a2], b as [[q0 q1 q2 q3 q4 q5 q6 q7 q8] b0 b1 b2].
  cbn [qd0 qd1 qd2] in *. unfold mulR, qR, qmul, qdot. spec. cbn [qn qd0 qd1 qd2 m0 m1 m2 m3 m4 m5 m6 m7 m8]. rewrite !plus_IZR, !mult_IZR.
  apply M3_eq; field; auto.
Qed.
Definition named : list (gamut_fun * (qmat * qmat)) :=
  (AdobeRGB : gamut_fun, (to_q 64000 33000 21000 71000 15000 6000 31270 32900, from_q 64000 33000 21000 71000 15000 6000 31270 32900)) ::
  (Rec709 : gamut_fun, (to_q 64000 33000 30000 60000 15000 6000 31270 32900, from_q 64000 33000 30000 60000 15000 6000 31270 32900)) ::
  (Rec2020 : gamut_fun, (to_q 70800 29200 17000 79700 13100 4600 31270 32900, from_q 70800 29200 17000 79700 13100 4600 31270 32900)) ::
  (DCI_P3 : gamut_fun, (to_q 68000 32000 26500 69000 15000 6000 31400 35100, from_q 68000 32000 26500 69000 15000 6000 31400 35100)) ::
  (S_Gamut : gamut_fun, (to_q 73000 28000 14000 85500 10000 (-5000) 31270 32900, from_q 73000 28000 14000 85500 10000 (-5000) 31270 32900)) ::
  (S_Gamut3_Cine : gamut_fun, (to_q 76600 27500 22500 80000 8900 (-8700) 31270 32900, from_q 76600 27500 22500 80000 8900 (-8700) 31270 32900)) ::
  (ACEScg : gamut_fun, (to_q 71300 29300 16500 83000 12800 4400 32168 33767, from_q 71300 29300 16500 83000 12800 4400 32168 33767)) ::
  (ACES2065 : gamut_fun, (to_q 73470 26530 0 100000 10 (-7700) 32168 33767, from_q 73470 26530 0 100000 10 (-7700) 32168 33767)) ::
  (LMS : gamut_fun, (brad_inv_q, brad_q)) ::
  (XYZ_gamut : gamut_fun, (id_q, id_q)) :: nil.
Definition exactly (p : gamut_fun * (qmat * qmat)) : Prop := fst p RN = mkGamut (finM (qR (fst (snd p)))) (finM (qR (snd (snd p)))).
Lemma LMS_exact : LMS RN = mkGamut (finM (qR brad_inv_q)) (finM (qR brad_q)).
Proof. rewrite <- brad_qR, <- brad_inv_qR. destruct LMS_good as (A & B & _). destruct (LMS RN) as [x y]. cbn in A, B. now rewrite A, B. Qed.
Lemma XYZ_exact : XYZ_gamut RN = mkGamut (finM (qR id_q)) (finM (qR id_q)).
Proof.
  destruct XYZ_good as (A & B & _). destruct (XYZ_gamut RN) as [x y]. cbn [g_toXYZ g_fromXYZ] in A, B. rewrite A, B. f_equal; f_equal;
    unfold invR, qR, detR, idR, id_q; cbn [qn qd0 qd1 qd2 m0 m1 m2 m3 m4 m5 m6 m7 m8]; spec; apply M3_eq; field; lra.
Qed.
Lemma named_exact : Forall exactly named.
Proof.
  unfold named. repeat apply Forall_cons; try apply Forall_nil; unfold exactly; cbn [fst snd].
  - unfold AdobeRGB; prim_rn.
  - unfold Rec709; prim_rn.
  - unfold Rec2020; prim_rn.
  - unfold DCI_P3; prim_rn.
  - unfold S_Gamut; prim_rn.
  - unfold S_Gamut3_Cine; prim_rn.
  - unfold ACEScg; prim_rn.
  - unfold ACES2065; prim_rn.
  - apply LMS_exact.
  - apply XYZ_exact.
Qed.
(** ** All hundred pairs, each float gamut evaluated once. *)
Section F.
Context (lm : libm).
Definition conv_chk (K : Z) (p q : Gamut f32 * (qmat * qmat)) : bool :=
  qok (snd (snd q)) && qok (fst (snd p)) && qchk K (GamutConvert (FN lm) (fst p) (fst q)) (qmul (snd (snd q)) (fst (snd p))).
Definition all_pairs {A} (f : A -> A -> bool) (l : list A) : bool := forallb (fun p => forallb (f p) l) l.
Lemma conv_all : all_pairs (conv_chk 32) (map (fun p => (fst p (FN lm), snd p)) named) = true.
Proof. vm_compute. reflexivity. Qed.
Lemma convert_near (L : list (gamut_fun * (qmat * qmat))) (p q : gamut_fun * (qmat * qmat)) (t : Vector3 f32) :
  all_pairs (conv_chk 32) (map (fun p => (fst p (FN lm), snd p)) L) = true -> Forall exactly L -> In p L -> In q L -> allV fin t -> norm3 t <= bpow radix2 110 ->
  exists e, M_apply RN (GamutConvert RN (fst p RN) (fst q RN)) (finV (vR t)) = finV e /\
    near_app 32 (M_apply (FN lm) (GamutConvert (FN lm) (fst p (FN lm)) (fst q (FN lm))) t) e (norm3 t).
Proof.
  intros H X P Q Ft HM. unfold all_pairs in H. rewrite forallb_forall in H.
  specialize (H _ (in_map (fun p => (fst p (FN lm), snd p)) L p P)). rewrite forallb_forall in H.
  specialize (H _ (in_map (fun p => (fst p (FN lm), snd p)) L q Q)). unfold conv_chk in H. cbn [fst snd] in H.
  rewrite !andb_true_iff in H. destruct H as [[A B] C].
  pose proof (proj1 (Forall_forall _ _) X) as E. rewrite (E p P), (E q Q). unfold GamutConvert at 1. cbn [g_toXYZ g_fromXYZ].
  rewrite M_mul_fin, qmul_ok by assumption. rewrite M_apply_fin. eexists. split; [reflexivity|]. now apply (qchk_ok lm 32).
Qed.
Definition named_gamuts : list gamut_fun := AdobeRGB :: Rec709 :: Rec2020 :: DCI_P3 :: S_Gamut :: S_Gamut3_Cine :: ACEScg :: ACES2065 :: LMS :: XYZ_gamut :: nil.
Lemma named_fst : map fst named = named_gamuts. Proof. reflexivity. Qed.
Lemma convert_named (G H : gamut_fun) (t : Vector3 f32) : In G named_gamuts -> In H named_gamuts -> allV fin t -> norm3 t <= bpow radix2 110 ->
  exists e, M_apply RN (GamutConvert RN (G RN) (H RN)) (finV (vR t)) = finV e /\
    near_app 32 (M_apply (FN lm) (GamutConvert (FN lm) (G (FN lm)) (H (FN lm))) t) e (norm3 t).
Proof.
  rewrite <- named_fst. rewrite !in_map_iff. intros (p & <- & P) (q & <- & Q). exact (fun A B => convert_near named p q t conv_all named_exact P Q A B).
Qed.
End F.
