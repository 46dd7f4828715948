(** * Sign symmetry of binary32 arithmetic, and of the colour differences. *)
From Coq Require Import ZArith Reals Lra Lia Bool.
From Flocq Require Import Core BinarySingleNaN.
From Verif Require Import Num NumF MVec MTri MOtf MDelta.
Local Open Scope Z_scope.

Definition SFopp (x : SpecFloat.spec_float) : SpecFloat.spec_float :=
  match x with
  | SpecFloat.S754_zero s => SpecFloat.S754_zero (negb s)
  | SpecFloat.S754_infinity s => SpecFloat.S754_infinity (negb s)
  | SpecFloat.S754_nan => SpecFloat.S754_nan
  | SpecFloat.S754_finite s m e => SpecFloat.S754_finite (negb s) m e
  end.
Lemma B2SF_opp (x : f32) : B2SF (Bopp x) = SFopp (B2SF x).
Proof. destruct x; reflexivity. Qed.
Lemma round_aux_opp s m e l :
  binary_round_aux 24 128 mode_NE (negb s) m e l = SFopp (binary_round_aux 24 128 mode_NE s m e l).
Proof.
  unfold binary_round_aux. destruct (SpecFloat.shr_fexp 24 128 m e l) as [r e'].
  cbn [choice_mode]. destruct (SpecFloat.shr_fexp 24 128 _ e' _) as [r' e'']. destruct (SpecFloat.shr_m r'); try reflexivity.
  unfold binary_fit_aux. destruct (e'' <=? 128 - 24); reflexivity.
Qed.
Lemma normalize_opp m e z : m <> 0 ->
  binary_normalize 24 128 p24 p24e mode_NE (- m) e z = Bopp (binary_normalize 24 128 p24 p24e mode_NE m e z).
Proof.
  intros H. apply B2SF_inj. rewrite B2SF_opp.
  destruct m as [|m|m]; [lia| |]; cbn [Z.opp binary_normalize]; rewrite !B2SF_SF2B; unfold binary_round;
    destruct (shl_align_fexp 24 128 m e) as [a b].
  - apply (round_aux_opp false).
  - apply (round_aux_opp true).
Qed.

Section Ops.
Context (lm : libm).
Notation N := (FN lm).

(** [y] is [x] up to sign. *)
Definition upto (x y : f32) : Prop := y = x \/ y = Bopp x.
Lemma sub_swap (a b : f32) : upto (@fsub N a b) (@fsub N b a).
Proof.
  unfold upto. cbn [fsub FN]. destruct a as [s|s| |s m e B], b as [t|t| |t n g C]; try (left; reflexivity);
    cbn [Bminus]; try (destruct s, t; cbn; auto; fail).
  - rewrite (Z.min_comm g e). set (z := Z.min e g).
    replace (Fplus_naive t n g (negb s) m e z) with (- Fplus_naive s m e (negb t) n g z).
    2:{ unfold Fplus_naive. destruct s, t; cbn [negb SpecFloat.cond_Zopp]; lia. }
    destruct (Z.eq_dec (Fplus_naive s m e (negb t) n g z) 0) as [E|E].
    + left. now rewrite E.
    + right. now apply normalize_opp.
Qed.
Lemma sq_opp (a : f32) : @fmul N (Bopp a) (Bopp a) = @fmul N a a.
Proof.
  cbn [fmul FN]. destruct a as [s|s| |s m e B]; cbn [Bopp Bmult]; try reflexivity; try (destruct s; reflexivity).
  apply B2SF_inj. rewrite !B2SF_SF2B. destruct s; reflexivity.
Qed.
Lemma sq_upto (a b : f32) : upto a b -> @fmul N b b = @fmul N a a.
Proof. intros [->| ->]; [reflexivity|apply sq_opp]. Qed.
Lemma sq_sub (a b : F N) : @fmul N (@fsub N b a) (@fsub N b a) = @fmul N (@fsub N a b) (@fsub N a b).
Proof. apply sq_upto, sub_swap. Qed.

Lemma C39_f32_l (p q : Vector3 (F N)) :
  Delta_E76 N p q = Delta_E76 N q p /\ Delta_UV N p q = Delta_UV N q p /\ Delta_ICtCp N p q = Delta_ICtCp N q p.
Proof.
  unfold Delta_E76, Delta_UV, Delta_ICtCp. repeat split.
  - rewrite (sq_sub (q.[0]) (p.[0])), (sq_sub (q.[1]) (p.[1])), (sq_sub (q.[2]) (p.[2])). reflexivity.
  - rewrite (sq_sub (q.[1]) (p.[1])), (sq_sub (q.[2]) (p.[2])). reflexivity.
  - set (a := XYZ_to_ICtCp N p). set (b := XYZ_to_ICtCp N q).
    rewrite (sq_sub (b.[0]) (a.[0])), (sq_sub (b.[1]) (a.[1])), (sq_sub (b.[2]) (a.[2])). reflexivity.
Qed.
Lemma sub_self (a : f32) : is_finite a = true -> @fsub N a a = B754_zero false.
Proof.
  intros H. cbn [fsub FN]. destruct a as [s|s| |s m e B]; try discriminate; cbn [Bminus].
  - destruct s; reflexivity.
  - replace (Fplus_naive s m e (negb s) m e (Z.min e e)) with 0; [reflexivity|].
    unfold Fplus_naive. destruct s; cbn [negb SpecFloat.cond_Zopp]; lia.
Qed.
Lemma C39_f32_zero_l (p : Vector3 f32) : is_finite (v0 p) = true -> is_finite (v1 p) = true -> is_finite (v2 p) = true ->
  Delta_E76 N p p = B754_zero false /\ Delta_UV N p p = B754_zero false.
Proof.
  intros A B C. unfold Delta_E76, Delta_UV. cbn [vref]. rewrite !sub_self by assumption. split; reflexivity.
Qed.
End Ops.
Lemma C39_ex_f32 : exists a, is_finite (v0 a) = true /\ is_finite (v1 a) = true /\ is_finite (v2 a) = true /\
  B2SF (Delta_E76 (FN no_libm) a (V3 (B754_zero false) (B754_zero false) (B754_zero true))) <> SpecFloat.S754_zero false.
Proof.
  exists (V3 (@flit (FN no_libm) 50) (@flit (FN no_libm) 3) (@flit (FN no_libm) (-4))).
  repeat split; [vm_compute; reflexivity..|]. vm_compute. discriminate.
Qed.
