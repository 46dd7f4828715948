(** * Facts about binary32 arithmetic, from Flocq's correctness theorems. *)
From Coq Require Import ZArith Reals Lra Lia Bool.
From Flocq Require Import Core BinarySingleNaN Relative Plus_error Sterbenz.
From Verif Require Import Num NumF MVec.
Local Open Scope R_scope.

Notation fe := (FLT_exp (-149) 24).
Notation rnd := (round radix2 fe ZnearestE).
Notation fmt := (generic_format radix2 fe).
Definition fin (x : f32) : Prop := is_finite x = true.

#[global] Instance fe_valid : Valid_exp fe := FLT_exp_valid (-149) 24.
#[global] Instance fe_mono : Monotone_exp fe := FLT_exp_monotone (-149) 24.

Lemma fmt_B2R (x : f32) : fmt (B2R x).
Proof. exact (generic_format_B2R 24 128 x). Qed.
#[global] Hint Resolve fmt_B2R : core.

Lemma rnd_id x : fmt x -> rnd x = x.
Proof. intros H. apply round_generic; [typeclasses eauto | exact H]. Qed.
Lemma rnd_le x y : x <= y -> rnd x <= rnd y.
Proof. intros H. apply round_le; typeclasses eauto || exact H. Qed.
Lemma rnd_ge_fmt x y : fmt x -> x <= y -> x <= rnd y.
Proof. intros H L. rewrite <- (rnd_id x H). apply rnd_le, L. Qed.
Lemma rnd_le_fmt x y : fmt y -> x <= y -> rnd x <= y.
Proof. intros H L. rewrite <- (rnd_id y H). apply rnd_le, L. Qed.
Lemma rnd_0 : rnd 0 = 0.
Proof. apply round_0; typeclasses eauto. Qed.
Lemma rnd_opp x : rnd (- x) = - rnd x.
Proof. apply round_NE_opp. Qed.
Lemma fmt_opp x : fmt x -> fmt (- x).
Proof. apply generic_format_opp. Qed.
Lemma fmt_0 : fmt 0.
Proof. apply generic_format_0. Qed.
Lemma fmt_bpow e : (-149 <= e)%Z -> fmt (bpow radix2 e).
Proof. intros H. apply generic_format_bpow. unfold FLT_exp. lia. Qed.
Lemma rnd_abs_le x y : fmt y -> Rabs x <= y -> Rabs (rnd x) <= y.
Proof.
  intros H L. apply Rabs_le. apply Rabs_le_inv in L. split.
  - apply rnd_ge_fmt; [apply fmt_opp, H | lra].
  - apply rnd_le_fmt; [exact H | lra].
Qed.

(** An integer of at most 24 bits times a power of two. *)
Lemma fmt_F2R (m e : Z) : (Z.abs m <= 2 ^ 24)%Z -> (-149 <= e)%Z -> fmt (IZR m * bpow radix2 e).
Proof.
  intros Hm He. destruct (Z.eq_dec (Z.abs m) (2 ^ 24)) as [E|E].
  - assert (K : fmt (bpow radix2 (24 + e))) by (apply fmt_bpow; lia).
    rewrite bpow_plus in K. change (bpow radix2 24) with (IZR (2 ^ 24)) in K.
    destruct (Z.abs_eq_or_opp m) as [A|A]; rewrite A in E.
    + rewrite E. exact K.
    + replace m with (- 2 ^ 24)%Z by lia. rewrite opp_IZR, Ropp_mult_distr_l_reverse.
      apply fmt_opp, K.
  - apply generic_format_FLT. exists (Float radix2 m e); [reflexivity | cbn; lia | cbn; lia].
Qed.
Lemma fmt_IZR m : (Z.abs m <= 2 ^ 24)%Z -> fmt (IZR m).
Proof. intros H. rewrite <- (Rmult_1_r (IZR m)). apply (fmt_F2R m 0); lia. Qed.

Lemma big_127_lt : bpow radix2 127 < bpow radix2 128.
Proof. apply bpow_lt. lia. Qed.

(** ** Operations on finite floats. *)
Section Ops.
Context (lm : libm).
Notation N := (FN lm).

Lemma add_gen (x y : f32) : fin x -> fin y -> Rabs (rnd (B2R x + B2R y)) < bpow radix2 128 ->
  fin (@fadd N x y) /\ B2R (@fadd N x y) = rnd (B2R x + B2R y).
Proof.
  intros Hx Hy H. pose proof (Bplus_correct 24 128 _ _ mode_NE x y Hx Hy) as C.
  change (SpecFloat.fexp 24 128) with fe in C. cbn [round_mode] in C.
  rewrite Rlt_bool_true in C by exact H. destruct C as (A & B & _). split; assumption.
Qed.
Lemma sub_gen (x y : f32) : fin x -> fin y -> Rabs (rnd (B2R x - B2R y)) < bpow radix2 128 ->
  fin (@fsub N x y) /\ B2R (@fsub N x y) = rnd (B2R x - B2R y).
Proof.
  intros Hx Hy H. pose proof (Bminus_correct 24 128 _ _ mode_NE x y Hx Hy) as C.
  change (SpecFloat.fexp 24 128) with fe in C. cbn [round_mode] in C.
  rewrite Rlt_bool_true in C by exact H. destruct C as (A & B & _). split; assumption.
Qed.
Lemma mul_gen (x y : f32) : fin x -> fin y -> Rabs (rnd (B2R x * B2R y)) < bpow radix2 128 ->
  fin (@fmul N x y) /\ B2R (@fmul N x y) = rnd (B2R x * B2R y).
Proof.
  intros Hx Hy H. pose proof (Bmult_correct 24 128 _ _ mode_NE x y) as C.
  change (SpecFloat.fexp 24 128) with fe in C. cbn [round_mode] in C.
  rewrite Rlt_bool_true in C by exact H. destruct C as (A & B & _).
  unfold fin in *. rewrite Hx, Hy in B. split; assumption.
Qed.
Lemma div_gen (x y : f32) : fin x -> B2R y <> 0 -> Rabs (rnd (B2R x / B2R y)) < bpow radix2 128 ->
  fin (@fdiv N x y) /\ B2R (@fdiv N x y) = rnd (B2R x / B2R y).
Proof.
  intros Hx Hy H. pose proof (Bdiv_correct 24 128 _ _ mode_NE x y Hy) as C.
  change (SpecFloat.fexp 24 128) with fe in C. cbn [round_mode] in C.
  rewrite Rlt_bool_true in C by exact H. destruct C as (A & B & _).
  unfold fin in *. rewrite Hx in B. split; assumption.
Qed.

Lemma rnd_lt_128 z : Rabs z <= bpow radix2 127 -> Rabs (rnd z) < bpow radix2 128.
Proof.
  intros H. apply Rle_lt_trans with (bpow radix2 127); [|apply big_127_lt].
  apply rnd_abs_le; [apply fmt_bpow; lia | exact H].
Qed.
Lemma rnd_fmt_lt z (x : f32) : rnd z = B2R x -> Rabs (rnd z) < bpow radix2 128.
Proof. intros ->. exact (abs_B2R_lt_emax 24 128 x). Qed.

Lemma add_ok (x y : f32) : fin x -> fin y -> Rabs (B2R x + B2R y) <= bpow radix2 127 ->
  fin (@fadd N x y) /\ B2R (@fadd N x y) = rnd (B2R x + B2R y).
Proof. intros. apply add_gen; auto using rnd_lt_128. Qed.
Lemma sub_ok (x y : f32) : fin x -> fin y -> Rabs (B2R x - B2R y) <= bpow radix2 127 ->
  fin (@fsub N x y) /\ B2R (@fsub N x y) = rnd (B2R x - B2R y).
Proof. intros. apply sub_gen; auto using rnd_lt_128. Qed.
Lemma mul_ok (x y : f32) : fin x -> fin y -> Rabs (B2R x * B2R y) <= bpow radix2 127 ->
  fin (@fmul N x y) /\ B2R (@fmul N x y) = rnd (B2R x * B2R y).
Proof. intros. apply mul_gen; auto using rnd_lt_128. Qed.
Lemma div_ok (x y : f32) : fin x -> B2R y <> 0 -> Rabs (B2R x / B2R y) <= bpow radix2 127 ->
  fin (@fdiv N x y) /\ B2R (@fdiv N x y) = rnd (B2R x / B2R y).
Proof. intros. apply div_gen; auto using rnd_lt_128. Qed.

Lemma opp_ok (x : f32) : fin x -> fin (@fopp N x) /\ B2R (@fopp N x) = - B2R x.
Proof. intros H. split; [cbn; unfold fin; rewrite is_finite_Bopp; exact H | apply B2R_Bopp]. Qed.
Lemma abs_ok (x : f32) : fin x -> fin (@ffabs N x) /\ B2R (@ffabs N x) = Rabs (B2R x).
Proof. intros H. split; [cbn; unfold fin; rewrite is_finite_Babs; exact H | apply B2R_Babs]. Qed.

Lemma ltb_ok (x y : f32) : fin x -> fin y -> @fltb N x y = Rlt_bool (B2R x) (B2R y).
Proof. exact (Bltb_correct 24 128 x y). Qed.
Lemma leb_ok (x y : f32) : fin x -> fin y -> @fleb N x y = Rle_bool (B2R x) (B2R y).
Proof. exact (Bleb_correct 24 128 x y). Qed.
Lemma eqb_ok (x y : f32) : fin x -> fin y -> @feqb N x y = Req_bool (B2R x) (B2R y).
Proof. exact (Beqb_correct 24 128 x y). Qed.

Lemma sqrt_ok (x : f32) : fin x -> 0 <= B2R x ->
  fin (@fsqrt N x) /\ B2R (@fsqrt N x) = rnd (sqrt (B2R x)).
Proof.
  intros H P. destruct (Bsqrt_correct 24 128 _ _ mode_NE x) as (A & B & _).
  split; [|exact A]. unfold fin. cbn. rewrite B.
  destruct x as [s|s| |s m e E]; try discriminate; auto.
  destruct s; auto. exfalso. cbn in P.
  assert (F2R (Float radix2 (Z.neg m) e) < 0) by (apply F2R_lt_0; reflexivity). lra.
Qed.

(** int -> float conversion is exact up to 2^24. *)
Lemma ofZ_ok z : (Z.abs z <= 2 ^ 24)%Z -> fin (@fofZ N z) /\ B2R (@fofZ N z) = IZR z.
Proof.
  intros H. pose proof (binary_normalize_correct 24 128 p24 p24e mode_NE z 0 false) as C.
  cbv zeta in C. change (SpecFloat.fexp 24 128) with fe in C. cbn [round_mode] in C.
  replace (F2R (Float radix2 z 0)) with (IZR z) in C by (unfold F2R; cbn; lra).
  rewrite (rnd_id (IZR z)) in C by (apply fmt_IZR, H).
  rewrite Rlt_bool_true in C.
  - destruct C as (A & B & _). split; [exact B | exact A].
  - rewrite <- abs_IZR. apply Rle_lt_trans with (IZR (2 ^ 24)); [apply IZR_le, H|].
    change (IZR (2 ^ 24)) with (bpow radix2 24). apply bpow_lt. lia.
Qed.
End Ops.

(** Value of a float known by computation. *)
Lemma val_SF (x : f32) s m e : B2SF x = SpecFloat.S754_finite s m e ->
  fin x /\ B2R x = F2R (Float radix2 (SpecFloat.cond_Zopp s (Zpos m)) e).
Proof.
  intros H. split.
  - unfold fin. destruct x; cbn in H; congruence || reflexivity.
  - rewrite <- SF2R_B2SF, H. reflexivity.
Qed.
Lemma val_SF0 (x : f32) s : B2SF x = SpecFloat.S754_zero s -> fin x /\ B2R x = 0.
Proof. destruct x; cbn; intro H; try discriminate. split; reflexivity. Qed.
(** [f32_val] proves [fin x /\ B2R x = r] for a closed [x] and rational [r]. *)
Ltac bpow_val e := lazymatch e with
  | Z0 => change (bpow radix2 e) with 1
  | Zpos ?p => let v := eval vm_compute in (Z.pow_pos 2 p) in change (bpow radix2 e) with (IZR v)
  | Zneg ?p => let v := eval vm_compute in (Z.pow_pos 2 p) in change (bpow radix2 e) with (/ IZR v)
  end.
Ltac f32_val := lazymatch goal with
  |- fin ?x /\ B2R ?x = ?r =>
    let sf := eval vm_compute in (B2SF x) in
    lazymatch sf with
    | SpecFloat.S754_finite ?s ?m ?e =>
        let H := fresh in assert (H : B2SF x = SpecFloat.S754_finite s m e) by (vm_compute; reflexivity);
        let A := fresh in let B := fresh in
        destruct (val_SF x s m e H) as [A B]; split; [exact A|]; rewrite B; clear;
        unfold F2R; cbn [Fnum Fexp SpecFloat.cond_Zopp Z.opp]; bpow_val e; try lra
    | SpecFloat.S754_zero ?s =>
        let H := fresh in assert (H : B2SF x = SpecFloat.S754_zero s) by (vm_compute; reflexivity);
        exact (val_SF0 x s H)
    end
  end.

(** ** Rounding errors. *)
Definition u : R := bpow radix2 (-24).
Definition eta : R := bpow radix2 (-150).
Lemma u_val : u = / IZR (2 ^ 24). Proof. reflexivity. Qed.
Lemma u_pos : 0 < u. Proof. apply bpow_gt_0. Qed.
Lemma eta_pos : 0 < eta. Proof. apply bpow_gt_0. Qed.
Lemma half_bpow e : / 2 * bpow radix2 e = bpow radix2 (e - 1).
Proof. replace (e - 1)%Z with (-1 + e)%Z by lia. rewrite bpow_plus. reflexivity. Qed.
Lemma rnd_err z : exists d e, Rabs d <= u /\ Rabs e <= eta /\ d * e = 0 /\ rnd z = z * (1 + d) + e.
Proof.
  destruct (error_N_FLT radix2 (-149) 24 ltac:(lia) (fun x => negb (Z.even x)) z)
    as (d & e & Hd & He & Hz & E).
  exists d, e. repeat split; auto.
  - rewrite half_bpow in Hd. exact Hd.
  - rewrite half_bpow in He. exact He.
Qed.
Lemma rnd_err_abs z : Rabs (rnd z - z) <= u * Rabs z + eta.
Proof.
  destruct (rnd_err z) as (d & e & Hd & He & _ & E). rewrite E.
  replace (z * (1 + d) + e - z) with (d * z + e) by ring.
  apply Rle_trans with (1 := Rabs_triang _ _). rewrite Rabs_mult.
  apply Rplus_le_compat; [|exact He]. apply Rmult_le_compat_r; [apply Rabs_pos | exact Hd].
Qed.
Lemma rnd_add_err x y : fmt x -> fmt y -> Rabs (rnd (x + y) - (x + y)) <= u * Rabs (x + y).
Proof.
  intros Hx Hy.
  destruct (FLT_plus_error_N_ex radix2 (-149) 24 (fun x => negb (Z.even x)) x y Hx Hy)
    as (d & Hd & E). rewrite E.
  replace ((x + y) * (1 + d) - (x + y)) with (d * (x + y)) by ring.
  rewrite Rabs_mult. apply Rmult_le_compat_r; [apply Rabs_pos|].
  apply Rle_trans with (1 := Hd). unfold u_ro, u.
  assert (P : / 2 * bpow radix2 (-24 + 1) = bpow radix2 (-24)).
  { rewrite half_bpow. reflexivity. }
  change (- (24) + 1)%Z with (-24 + 1)%Z. rewrite P. pose proof (bpow_gt_0 radix2 (-24)).
  apply Rmult_le_reg_r with (1 + bpow radix2 (-24)); [lra|].
  unfold Rdiv. rewrite Rmult_assoc, Rinv_l by lra. nra.
Qed.

(** ** Comparisons with special values. *)
Lemma eqb_zero (lm : libm) (x : f32) (z : f32) :
  fin z -> B2R z = 0 -> @feqb (FN lm) x z = true -> fin x /\ B2R x = 0.
Proof.
  intros Hz Vz H. destruct x as [s|s| |s m e E].
  - split; reflexivity.
  - destruct z as [[]|[]| |[]]; destruct s; cbn in *; discriminate.
  - destruct z; discriminate.
  - assert (Fx : fin (B754_finite s m e E)) by reflexivity.
    rewrite (eqb_ok lm _ _ Fx Hz) in H. rewrite Vz in H.
    split; [exact Fx|]. revert H. case Req_bool_spec; [auto|discriminate].
Qed.
Lemma zero_inv (x : f32) : fin x -> B2R x = 0 -> exists s, x = B754_zero s.
Proof.
  destruct x as [s|s| |s m e E]; intros H V; try discriminate; eauto.
  exfalso. cbn in V. apply eq_0_F2R in V. destruct s; discriminate.
Qed.

(** ** Half an ulp. *)
Lemma rnd_half_err e z : (-125 <= e)%Z -> Rabs z < bpow radix2 e ->
  Rabs (rnd z - z) <= bpow radix2 (e - 25).
Proof.
  intros He Hz. destruct (Req_dec z 0) as [->|Nz].
  { rewrite rnd_0, Rminus_0_r, Rabs_R0. apply bpow_ge_0. }
  apply Rle_trans with (1 := error_le_half_ulp radix2 fe (fun x => negb (Z.even x)) z).
  rewrite ulp_neq_0 by exact Nz. rewrite half_bpow. apply bpow_le.
  unfold cexp, FLT_exp. pose proof (mag_le_bpow radix2 z e Nz Hz). lia.
Qed.
(** Above [2^e] neighbouring floats are at least [2^(e-23)] apart. *)
Lemma succ_gap e x : (-126 <= e)%Z -> fmt x -> bpow radix2 e <= x ->
  x + bpow radix2 (e - 23) <= succ radix2 fe x.
Proof.
  intros He Hx H. pose proof (bpow_gt_0 radix2 e).
  rewrite succ_eq_pos by lra. apply Rplus_le_compat_l.
  replace (bpow radix2 (e - 23)) with (ulp radix2 fe (bpow radix2 e)).
  - apply ulp_le_pos; [typeclasses eauto|typeclasses eauto| lra | exact H].
  - rewrite ulp_bpow. unfold FLT_exp. f_equal. lia.
Qed.
Lemma pred_gap e x : (-126 <= e)%Z -> fmt x -> bpow radix2 e < x ->
  pred radix2 fe x + bpow radix2 (e - 23) <= x.
Proof.
  intros He Hx H. pose proof (bpow_gt_0 radix2 e).
  assert (Fe : fmt (bpow radix2 e)) by (apply fmt_bpow; lia).
  assert (P : bpow radix2 e <= pred radix2 fe x) by (apply pred_ge_gt; auto; typeclasses eauto).
  pose proof (succ_gap e (pred radix2 fe x) He (generic_format_pred radix2 fe x Hx) P) as K.
  rewrite (succ_pred radix2 fe x Hx) in K. exact K.
Qed.

(** An outcome as plain data (sign, mantissa, exponent), for running examples. *)
Definition oSF (o : outcome f32) : outcome SpecFloat.spec_float :=
  let! x := o in Ret (B2SF x).
Definition vSF (v : MVec.Vector3 f32) : MVec.Vector3 SpecFloat.spec_float :=
  MVec.V3 (B2SF (MVec.v0 v)) (B2SF (MVec.v1 v)) (B2SF (MVec.v2 v)).
