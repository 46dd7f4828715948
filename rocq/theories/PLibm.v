(** * C library functions of bounded error.

    [accurate lm]: the float functions of [lm] are within [4 u] (two units in the last place)
    of the real function wherever its value is neither tiny nor huge.  [accurate_exists]
    shows that such a library exists; the choice is over a finite type, so it needs no axiom
    of choice. *)
From Coq Require Import ZArith Reals Lra Lia List Bool.
From Flocq Require Import Core IEEE754.BinarySingleNaN.
From Verif Require Import Num NumF F32.
Import ListNotations.
Local Open Scope R_scope.

(** [x] is finite and within [4 u] of [r], relatively, unless [r] is out of the normal range. *)
Definition approx (x : f32) (r : R) : Prop :=
  bpow radix2 (-126) <= Rabs r <= bpow radix2 127 -> fin x /\ Rabs (B2R x - r) <= 4 * u * Rabs r.
Definition log10R (x : R) : R := ln x / ln 10.
Record accurate (lm : libm) : Prop := {
  acc_pow : forall x y, fin x -> fin y -> 0 < B2R x -> approx (lm_powf lm x y) (Rpower (B2R x) (B2R y));
  acc_exp : forall x, fin x -> approx (lm_expf lm x) (exp (B2R x));
  acc_log : forall x, fin x -> 0 < B2R x -> approx (lm_logf lm x) (ln (B2R x));
  acc_log10 : forall x, fin x -> 0 < B2R x -> approx (lm_log10f lm x) (log10R (B2R x));
  pow_zero : forall x y, fin x -> fin y -> B2R x = 0 -> 0 < B2R y -> fin (lm_powf lm x y) /\ B2R (lm_powf lm x y) = 0;
  log_one : forall x, fin x -> B2R x = 1 -> fin (lm_logf lm x) /\ B2R (lm_logf lm x) = 0;
  log10_one : forall x, fin x -> B2R x = 1 -> fin (lm_log10f lm x) /\ B2R (lm_log10f lm x) = 0 }.

(** ** Every real in the format and range is the value of a float. *)
Lemma f32_surj r : fmt r -> Rabs r < bpow radix2 128 -> exists x : f32, fin x /\ B2R x = r.
Proof.
  intros Fr Hr. set (m := Ztrunc (scaled_mantissa radix2 (FLT_exp (-149) 24) r)). set (e := cexp radix2 (FLT_exp (-149) 24) r).
  assert (E : r = F2R (Float radix2 m e)) by exact Fr.
  exists (binary_normalize 24 128 p24 p24e mode_NE m e false).
  pose proof (binary_normalize_correct 24 128 p24 p24e mode_NE m e false) as H. cbv zeta in H.
  replace (F2R _) with r in H.
  assert (I : round radix2 (SpecFloat.fexp 24 128) (round_mode mode_NE) r = r) by exact (rnd_id r Fr). rewrite I in H.
  rewrite Rlt_bool_true in H by exact Hr. destruct H as (A & B & _). split; [exact B|exact A].
Qed.
Lemma approx_exists r : exists x, approx x r.
Proof.
  destruct (Rle_dec (bpow radix2 (-126)) (Rabs r)) as [L|L].
  2:{ exists (B754_zero false). intros [A _]. contradiction. }
  destruct (Rle_dec (Rabs r) (bpow radix2 127)) as [H|H].
  2:{ exists (B754_zero false). intros [_ A]. contradiction. }
  destruct (f32_surj (rnd r)) as (x & Fx & Vx).
  - apply generic_format_round; auto with typeclass_instances.
  - apply rnd_lt_128, H.
  - exists x. intros _. split; [exact Fx|]. rewrite Vx. eapply Rle_trans; [apply rnd_err_abs|].
    assert (eta <= u * Rabs r). { apply Rle_trans with (u * bpow radix2 (-126)); [|apply Rmult_le_compat_l; [apply Rlt_le, u_pos|exact L]]. unfold u, eta. rewrite <- bpow_plus. apply Rle_refl. }
    pose proof u_pos. pose proof (Rabs_pos r). assert (0 <= u * Rabs r) by (apply Rmult_le_pos; lra). lra.
Qed.

(** ** Choice over the finite type of floats. *)
Lemma pos_list (k : nat) : exists l : list positive, forall m, (Zpos m < 2 ^ Z.of_nat k)%Z -> In m l.
Proof.
  induction k as [|k [l IH]].
  - exists []. intros m H. cbn in H. lia.
  - exists (1%positive :: map xO l ++ map xI l). intros m H. rewrite Nat2Z.inj_succ, Z.pow_succ_r in H by lia.
    destruct m as [m|m|]; [right; apply in_or_app; right; apply in_map, IH; lia|right; apply in_or_app; left; apply in_map, IH; lia|now left].
Qed.
Lemma all_SF : exists l : list SpecFloat.spec_float, forall x : f32, In (B2SF x) l.
Proof.
  destruct (pos_list 24) as [ms Hms].
  exists ([SpecFloat.S754_zero false; SpecFloat.S754_zero true; SpecFloat.S754_infinity false; SpecFloat.S754_infinity true; SpecFloat.S754_nan] ++
    flat_map (fun e => flat_map (fun m => [SpecFloat.S754_finite false m (Z.of_nat e - 149); SpecFloat.S754_finite true m (Z.of_nat e - 149)]) ms) (seq 0 300)).
  intros x. apply in_or_app. destruct x as [s|s| |s m e B]; cbn [B2SF].
  1,2: left; destruct s; cbn; tauto.
  1: left; cbn; tauto.
  right. pose proof B as B'. unfold SpecFloat.bounded in B'. apply andb_true_iff in B'. destruct B' as [C E]. apply Z.leb_le in E.
  unfold SpecFloat.canonical_mantissa in C. apply Zeq_bool_eq in C. unfold SpecFloat.fexp, SpecFloat.emin in C.
  assert (L : (-149 <= e)%Z) by lia.
  assert (D : (Zpos (SpecFloat.digits2_pos m) <= 24)%Z) by lia.
  assert (M : (Zpos m < 2 ^ 24)%Z).
  { rewrite Digits.Zpos_digits2_pos in D. pose proof (Digits.Zpower_gt_Zdigits radix2 24 (Zpos m) D) as K. rewrite Z.abs_eq in K by lia. exact K. }
  apply in_flat_map. exists (Z.to_nat (e + 149)). split.
  - apply in_seq. lia.
  - apply in_flat_map. exists m. split.
    + apply Hms. exact M.
    + rewrite Z2Nat.id by lia. replace (e + 149 - 149)%Z with e by lia. destruct s; cbn; tauto.
Qed.
Lemma SF_eq_dec (x y : SpecFloat.spec_float) : {x = y} + {x <> y}.
Proof. decide equality; (apply Bool.bool_dec || apply Pos.eq_dec || apply Z.eq_dec). Qed.
Lemma choice_list {B : Type} (b0 : B) (P : SpecFloat.spec_float -> B -> Prop) (l : list SpecFloat.spec_float) :
  (forall x, In x l -> exists y, P x y) -> exists f, forall x, In x l -> P x (f x).
Proof.
  induction l as [|a l IH]; intros H.
  - exists (fun _ => b0). intros x [].
  - destruct IH as [f Hf]; [intros x Hx; apply H; now right|]. destruct (H a) as [y Hy]; [now left|].
    exists (fun x => if SF_eq_dec x a then y else f x). intros x Hx. destruct (SF_eq_dec x a) as [->|N]; [exact Hy|].
    apply Hf. destruct Hx as [E|E]; [congruence|exact E].
Qed.
Lemma choice1 {B : Type} (b0 : B) (P : f32 -> B -> Prop) : (forall x, exists y, P x y) -> exists f : f32 -> B, forall x, P x (f x).
Proof.
  intros H. destruct all_SF as [l Hl]. destruct (choice_list b0 (fun s y => forall x, B2SF x = s -> P x y) l) as [f Hf].
  - intros s _. destruct (Bool.bool_dec (SpecFloat.valid_binary 24 128 s) true) as [V|V].
    + destruct (H (SF2B s V)) as [y Hy]. exists y. intros x E. replace x with (SF2B s V : f32); [exact Hy|]. apply B2SF_inj. now rewrite B2SF_SF2B.
    + exists b0. intros x E. exfalso. apply V. rewrite <- E. apply valid_binary_B2SF.
  - exists (fun x => f (B2SF x)). intros x. apply Hf; [apply Hl|reflexivity].
Qed.
Lemma choice2 (P : f32 -> f32 -> f32 -> Prop) : (forall x y, exists z, P x y z) -> exists f : f32 -> f32 -> f32, forall x y, P x y (f x y).
Proof.
  intros H. apply (choice1 (fun y : f32 => y) (fun x f => forall y, P x y (f y))). intros x. apply (choice1 (B754_zero false)), H.
Qed.
Lemma accurate_exists : exists lm, accurate lm.
Proof.
  destruct (choice2 (fun x y z => (0 < B2R x -> approx z (Rpower (B2R x) (B2R y))) /\ (B2R x = 0 -> fin z /\ B2R z = 0))) as [pw Hp].
  { intros x y. destruct (approx_exists (Rpower (B2R x) (B2R y))) as [z Hz]. destruct (Req_dec (B2R x) 0) as [E|E].
    - exists (B754_zero false). split; [intros; lra|intros _; split; reflexivity].
    - exists z. split; [intros _; exact Hz|intros; contradiction]. }
  destruct (choice1 (B754_zero false) (fun x z => approx z (exp (B2R x)))) as [ex He]; [intros x; apply approx_exists|].
  assert (L : forall g : R -> R, exists f : f32 -> f32, forall x, (B2R x <> 1 -> approx (f x) (g (B2R x))) /\ (B2R x = 1 -> fin (f x) /\ B2R (f x) = 0)).
  { intros g. apply (choice1 (B754_zero false) (fun x z => (B2R x <> 1 -> approx z (g (B2R x))) /\ (B2R x = 1 -> fin z /\ B2R z = 0))).
    intros x. destruct (approx_exists (g (B2R x))) as [z Hz]. destruct (Req_dec (B2R x) 1) as [E|E].
    - exists (B754_zero false). split; [intros; contradiction|intros _; split; reflexivity].
    - exists z. split; [intros _; exact Hz|intros; contradiction]. }
  destruct (L ln) as [lg Hl]. destruct (L log10R) as [l10 Hl10].
  assert (Z0 : forall r, r = 0 -> forall z : f32, approx z r).
  { intros r -> z [A _]. rewrite Rabs_R0 in A. pose proof (bpow_gt_0 radix2 (-126)). lra. }
  exists (mkLibm pw ex lg l10 (lm_sinf no_libm) (lm_cosf no_libm) (lm_atan2f no_libm) (lm_fmodf no_libm) (lm_cbrtf no_libm) (lm_pow no_libm) (lm_exp no_libm)).
  constructor; cbn [lm_powf lm_expf lm_logf lm_log10f].
  - intros x y _ _ H. now apply Hp.
  - intros x _. apply He.
  - intros x _ _. destruct (Req_dec (B2R x) 1) as [E|E]; [|now apply Hl]. apply Z0. rewrite E. apply ln_1.
  - intros x _ _. destruct (Req_dec (B2R x) 1) as [E|E]; [|now apply Hl10]. apply Z0. unfold log10R. rewrite E, ln_1. lra.
  - intros x y _ _ H _. now apply Hp.
  - intros x _ H. now apply Hl.
  - intros x _ H. now apply Hl10.
Qed.
