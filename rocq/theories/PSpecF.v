(** * Spectra in binary32. *)
From Coq Require Import ZArith Reals Lra Lia List Bool.
From Flocq Require Import Core BinarySingleNaN Plus_error.
From Verif Require Import Num NumF MVec MTri MSpectrum F32 PSpec.
Import ListNotations.
Local Open Scope R_scope.

(** ** Truncation. *)
Lemma Btrunc_Ztrunc (x : f32) : Btrunc x = Ztrunc (B2R x).
Proof.
  apply eq_IZR. rewrite (Btrunc_correct 24 128 ltac:(reflexivity) x). unfold round, F2R, scaled_mantissa, cexp, FIX_exp. cbn [Fnum Fexp].
  change (bpow radix2 (- 0)) with 1. change (bpow radix2 0) with 1. now rewrite !Rmult_1_r.
Qed.
Lemma toint_fin (x : f32) z : f32_toint x = Some z -> fin x /\ z = Ztrunc (B2R x) /\ (- 2 ^ 31 <= z <= 2 ^ 31 - 1)%Z.
Proof.
  unfold f32_toint, fin. destruct (is_finite x); [|discriminate]. rewrite Btrunc_Ztrunc.
  destruct (_ && _)%bool eqn:E; [|discriminate]. intros K. injection K as <-. apply andb_true_iff in E as [A B].
  apply Z.leb_le in A, B. auto.
Qed.
Lemma toint_some (x : f32) : fin x -> IZR (- 2 ^ 31) <= B2R x <= IZR (2 ^ 31 - 1) -> f32_toint x = Some (Ztrunc (B2R x)).
Proof.
  intros Fx H. unfold f32_toint. rewrite Fx, Btrunc_Ztrunc. assert (K : (- 2 ^ 31 <= Ztrunc (B2R x) <= 2 ^ 31 - 1)%Z).
  { split; [rewrite <- (Ztrunc_IZR (- 2 ^ 31)); apply Ztrunc_le, H|rewrite <- (Ztrunc_IZR (2 ^ 31 - 1)); apply Ztrunc_le, H]. }
  replace (_ && _)%bool with true; [reflexivity|]. symmetry. apply andb_true_intro. split; apply Z.leb_le; lia.
Qed.

Section Inv.
Context (lm : libm).
Notation N := (FN lm).
(** ** A finite result has finite operands. *)
Lemma overflow_nfin (z : f32) s : B2SF z = binary_overflow 24 128 mode_NE s -> ~ fin z.
Proof. unfold fin. intros H F. rewrite <- is_finite_SF_B2SF, H in F. discriminate. Qed.
Lemma sub_inv (x y : f32) : fin (@fsub N x y) -> fin x /\ fin y /\ B2R (@fsub N x y) = rnd (B2R x - B2R y).
Proof.
  intros H. assert (F : fin x /\ fin y).
  { revert H. unfold fin. cbn. destruct x as [s|s| |s m e E], y as [s'|s'| |s' m' e' E']; cbn; try destruct (eqb _ _); auto; discriminate. }
  destruct F as [Fx Fy]. split; [exact Fx|]. split; [exact Fy|].
  pose proof (Bminus_correct 24 128 _ _ mode_NE x y Fx Fy) as C. change (SpecFloat.fexp 24 128) with fe in C. cbn [round_mode] in C.
  destruct (Rlt_bool _ _); [apply C|]. exfalso. exact (overflow_nfin _ _ (proj1 C) H).
Qed.
Lemma mul_inv (x y : f32) : fin (@fmul N x y) -> fin x /\ fin y /\ B2R (@fmul N x y) = rnd (B2R x * B2R y).
Proof.
  intros H. pose proof (Bmult_correct 24 128 _ _ mode_NE x y) as C. change (SpecFloat.fexp 24 128) with fe in C. cbn [round_mode] in C.
  destruct (Rlt_bool _ _); [|exfalso; exact (overflow_nfin _ _ C H)]. destruct C as (A & B & _).
  change (is_finite (@fmul N x y) = (is_finite x && is_finite y)%bool) in B. rewrite H in B. symmetry in B. apply andb_true_iff in B as [B1 B2].
  repeat split; assumption.
Qed.
Lemma div_inv (x y : f32) : B2R y <> 0 -> fin (@fdiv N x y) -> fin x /\ B2R (@fdiv N x y) = rnd (B2R x / B2R y).
Proof.
  intros Hy H. pose proof (Bdiv_correct 24 128 _ _ mode_NE x y Hy) as C. change (SpecFloat.fexp 24 128) with fe in C. cbn [round_mode] in C.
  destruct (Rlt_bool _ _); [|exfalso; exact (overflow_nfin _ _ C H)]. destruct C as (A & B & _).
  change (is_finite (@fdiv N x y) = is_finite x) in B. unfold fin in *. rewrite H in B. auto.
Qed.

(** ** [fetch] on the standard range. *)
Lemma v380 : fin (@flit N 380) /\ B2R (@flit N 380) = 380. Proof. f32_val. Qed.
Lemma v779 : fin (@flit N 779) /\ B2R (@flit N 779) = 779. Proof. f32_val. Qed.
Lemma v399 : fin (@fofZ N 399) /\ B2R (@fofZ N 399) = 399. Proof. f32_val. Qed.
Definition width : f32 := @fsub N (@flit N 779) (@flit N 380).
Lemma vw : fin width /\ B2R width = 399. Proof. unfold width. f32_val. Qed.
Definition arg (t : f32) : f32 := @fdiv N (@fmul N (@fofZ N 399) (@fsub N t (@flit N 380))) width.
Definition low (z : Z) : f32 := @fdiv N (@fmul N (@fofZ N z) width) (@fofZ N 399).
Lemma S_fetch_eq (s : list f32) (t : f32) : S_fetch N s t =
  match f32_toint (arg t) with
  | None => UB
  | Some i =>
    if (399 <=? i)%Z then (if (i =? 2147483647)%Z then UB else arr_get N s 399)
    else if (i <=? 0)%Z then arr_get N s 0
    else let! a := arr_get N s i in let! b := arr_get N s (i + 1) in
      Ret (lerp N a b (@fdiv N (@fsub N (@fsub N t (low i)) (@flit N 380)) (@fsub N (low (i + 1)) (low i))))
  end.
Proof.
  unfold S_fetch, fetch. change (400 - 1)%Z with 399%Z. fold width.
  change (@ftoint N (@fdiv N (@fmul N (@fofZ N 399) (@fsub N t (@flit N 380))) width)) with (f32_toint (arg t)).
  destruct (f32_toint (arg t)) as [i|]; [|reflexivity]. cbn [of_option bind].
  destruct (i =? 2147483647)%Z eqn:E.
  - apply Z.eqb_eq in E. subst i. reflexivity.
  - destruct (399 <=? i)%Z; reflexivity.
Qed.
Lemma fmtZ z : (Z.abs z <= 2 ^ 24)%Z -> fmt (IZR z). Proof. apply fmt_IZR. Qed.
Lemma arg_ok (t : f32) : fin t -> Rabs (B2R t) <= IZR (2 ^ 30) -> fin (arg t) /\
  B2R (arg t) = rnd (rnd (399 * rnd (B2R t - 380)) / 399) /\ Rabs (B2R (arg t)) <= IZR (2 ^ 30 + 2 ^ 22).
Proof.
  intros Ft H. destruct v380 as [F1 V1]. destruct v399 as [F2 V2]. destruct vw as [F3 V3]. apply Rabs_le_inv in H. change (IZR (2 ^ 30)) with 1073741824 in H.
  assert (Big : IZR (2 ^ 50) <= bpow radix2 127) by (change (IZR (2 ^ 50)) with (bpow radix2 50); apply bpow_le; lia).
  change (IZR (2 ^ 50)) with 1125899906842624 in Big.
  assert (G : forall a b : Z, (Z.abs a <= 2 ^ 24)%Z -> (0 <= b)%Z -> fmt (IZR (a * 2 ^ b))).
  { intros a b A C. rewrite mult_IZR. change 2%Z with (radix_val radix2). rewrite IZR_Zpower by exact C. apply fmt_F2R; lia. }
  assert (A1 : Rabs (B2R t - 380) <= 1073742848) by (apply Rabs_le; lra).
  destruct (sub_ok lm t (@flit N 380) Ft F1) as [F4 V4]. { rewrite V1. lra. } rewrite V1 in V4.
  assert (A2 : Rabs (rnd (B2R t - 380)) <= 1073742848). { apply rnd_abs_le; [apply (G (2^20+1)%Z 10%Z); lia|exact A1]. }
  destruct (mul_ok lm (@fofZ N 399) _ F2 F4) as [F5 V5]. { rewrite V2, V4, Rabs_mult, Rabs_pos_eq by lra. nra. } rewrite V2, V4 in V5.
  assert (A3 : Rabs (rnd (399 * rnd (B2R t - 380))) <= 429496729600).
  { apply rnd_abs_le; [apply (G 400%Z 30%Z); lia|]. rewrite Rabs_mult, Rabs_pos_eq by lra. lra. }
  assert (A4 : Rabs (rnd (399 * rnd (B2R t - 380)) / 399) <= 1077936128).
  { unfold Rdiv. rewrite Rabs_mult, (Rabs_pos_eq (/ 399)) by lra. lra. }
  destruct (div_ok lm _ width F5 ltac:(lra)) as [F6 V6]. { rewrite V5, V3. lra. } rewrite V5, V3 in V6.
  split; [exact F6|]. split; [exact V6|]. fold (arg t) in V6. rewrite V6.
  apply rnd_abs_le; [apply (G (2^20+2^12)%Z 10%Z); lia|exact A4].
Qed.
Lemma arr_get_in {s : list f32} {i : Z} (d : f32) : (0 <= i < Z.of_nat (length s))%Z -> arr_get N s i = Ret (nth (Z.to_nat i) s d).
Proof.
  intros H. unfold arr_get. replace (0 <=? i)%Z with true by (symmetry; apply Z.leb_le; lia).
  rewrite (nth_error_nth' s d) by lia. reflexivity.
Qed.
Definition sm (s : list f32) (i : nat) : f32 := nth i s (B754_nan : f32).
Lemma C54_safe_l (s : list f32) (t : f32) : length s = 400%nat -> fin t -> Rabs (B2R t) <= IZR (2 ^ 30) ->
  exists y, S_fetch N s t = Ret y.
Proof.
  intros L Ft H. destruct (arg_ok t Ft H) as (Fa & _ & B). rewrite S_fetch_eq. apply Rabs_le_inv in B.
  change (IZR (2 ^ 30 + 2 ^ 22)) with 1077936128 in B.
  rewrite toint_some by (try exact Fa; change (IZR (- 2 ^ 31)) with (-2147483648); change (IZR (2 ^ 31 - 1)) with 2147483647; lra).
  set (z := Ztrunc _). assert (z <= 2000000000)%Z by (rewrite <- (Ztrunc_IZR 2000000000); apply Ztrunc_le; lra).
  destruct (Z.leb_spec 399 z).
  { replace (z =? 2147483647)%Z with false by (symmetry; apply Z.eqb_neq; lia). rewrite (arr_get_in B754_nan) by (rewrite L; lia). eauto. }
  destruct (Z.leb_spec z 0). { rewrite (arr_get_in B754_nan) by (rewrite L; lia). eauto. }
  rewrite !(arr_get_in B754_nan) by (rewrite L; lia). cbn [bind]. eauto.
Qed.
Lemma C54_hi_l (s : list f32) (t : f32) : length s = 400%nat -> fin t -> 779 <= B2R t <= IZR (2 ^ 30) ->
  S_fetch N s t = Ret (sm s 399).
Proof.
  intros L Ft H. destruct (arg_ok t Ft) as (Fa & V & B). { apply Rabs_le. lra. } rewrite S_fetch_eq. apply Rabs_le_inv in B.
  change (IZR (2 ^ 30 + 2 ^ 22)) with 1077936128 in B.
  rewrite toint_some by (try exact Fa; change (IZR (- 2 ^ 31)) with (-2147483648); change (IZR (2 ^ 31 - 1)) with 2147483647; lra).
  set (z := Ztrunc _). assert (z <= 2000000000)%Z by (rewrite <- (Ztrunc_IZR 2000000000); apply Ztrunc_le; lra).
  assert (399 <= B2R (arg t)).
  { rewrite V. apply rnd_ge_fmt; [apply fmtZ; lia|].
    assert (159201 <= rnd (399 * rnd (B2R t - 380))); [|lra]. apply rnd_ge_fmt; [apply fmtZ; lia|].
    assert (399 <= rnd (B2R t - 380)) by (apply rnd_ge_fmt; [apply fmtZ; lia|lra]). lra. }
  assert (399 <= z)%Z by (rewrite <- (Ztrunc_IZR 399); apply Ztrunc_le; lra).
  replace (399 <=? z)%Z with true by (symmetry; apply Z.leb_le; lia).
  replace (z =? 2147483647)%Z with false by (symmetry; apply Z.eqb_neq; lia). now rewrite (arr_get_in B754_nan) by (rewrite L; lia).
Qed.
Lemma C54_lo_l (s : list f32) (t : f32) : length s = 400%nat -> fin t -> IZR (- 2 ^ 30) <= B2R t <= 380 ->
  S_fetch N s t = Ret (sm s 0).
Proof.
  intros L Ft H. destruct (arg_ok t Ft) as (Fa & V & B). { apply Rabs_le. rewrite <- opp_IZR. change (- (2 ^ 30))%Z with (- 2 ^ 30)%Z. change (IZR (2 ^ 30)) with 1073741824. lra. }
  rewrite S_fetch_eq. apply Rabs_le_inv in B.
  change (IZR (2 ^ 30 + 2 ^ 22)) with 1077936128 in B.
  rewrite toint_some by (try exact Fa; change (IZR (- 2 ^ 31)) with (-2147483648); change (IZR (2 ^ 31 - 1)) with 2147483647; lra).
  set (z := Ztrunc _).
  assert (B2R (arg t) <= 0).
  { rewrite V. apply rnd_le_fmt; [apply fmt_0|].
    assert (rnd (399 * rnd (B2R t - 380)) <= 0); [|lra]. apply rnd_le_fmt; [apply fmt_0|].
    assert (rnd (B2R t - 380) <= 0) by (apply rnd_le_fmt; [apply fmt_0|lra]). lra. }
  assert (z <= 0)%Z by (rewrite <- (Ztrunc_IZR 0); apply Ztrunc_le; lra).
  replace (399 <=? z)%Z with false by (symmetry; apply Z.leb_gt; lia).
  replace (z <=? 0)%Z with true by (symmetry; apply Z.leb_le; lia). now rewrite (arr_get_in B754_nan) by (rewrite L; lia).
Qed.
Lemma C54_ub_l (s : list f32) (t : f32) : is_finite t = false \/ IZR (2 ^ 32) <= Rabs (B2R t) -> S_fetch N s t = UB.
Proof.
  intros H. rewrite S_fetch_eq. destruct (f32_toint (arg t)) as [z|] eqn:E; [exfalso|reflexivity].
  apply toint_fin in E as (Fa & Vz & Bz). destruct v380 as [F1 V1]. destruct v399 as [F2 V2]. destruct vw as [F3 V3].
  apply div_inv in Fa as [Fb Va]; [|lra]. rewrite V3 in Va.
  apply mul_inv in Fb as (_ & Fc & Vb). rewrite V2 in Vb. rewrite Vb in Va.
  apply sub_inv in Fc as (Ft & _ & Vc). rewrite V1 in Vc. rewrite Vc in Va. fold (arg t) in Va.
  destruct H as [H|H]; [unfold fin in Ft; congruence|]. change (IZR (2 ^ 32)) with 4294967296 in H.
  assert (G : forall a b : Z, (Z.abs a <= 2 ^ 24)%Z -> (0 <= b)%Z -> fmt (IZR (a * 2 ^ b))).
  { intros a b A C. rewrite mult_IZR. change 2%Z with (radix_val radix2). rewrite IZR_Zpower by exact C. apply fmt_F2R; lia. }
  destruct (Rle_lt_dec 0 (B2R t)) as [P|P].
  - rewrite Rabs_pos_eq in H by exact P.
    assert (2147483648 <= B2R (arg t)).
    { rewrite Va. apply rnd_ge_fmt; [apply (G 1%Z 31%Z); lia|].
      assert (399 * 2147483648 <= rnd (399 * rnd (B2R t - 380))); [|lra]. rewrite <- mult_IZR. apply rnd_ge_fmt; [apply (G 399%Z 31%Z); lia|].
      rewrite mult_IZR. apply Rmult_le_compat_l; [lra|]. apply rnd_ge_fmt; [apply (G 1%Z 31%Z); lia|lra]. }
    assert (2147483648 <= z)%Z by (rewrite Vz, <- (Ztrunc_IZR 2147483648); apply Ztrunc_le; lra). lia.
  - rewrite Rabs_left in H by exact P.
    assert (B2R (arg t) <= -4294967296).
    { rewrite Va. apply rnd_le_fmt; [apply (G (-1)%Z 32%Z); lia|].
      assert (rnd (399 * rnd (B2R t - 380)) <= 399 * -4294967296); [|lra]. rewrite <- mult_IZR. apply rnd_le_fmt; [apply (G (-399)%Z 32%Z); lia|].
      rewrite mult_IZR. apply Rmult_le_compat_l; [lra|]. apply rnd_le_fmt; [apply (G (-1)%Z 32%Z); lia|lra]. }
    assert (z <= -4294967296)%Z by (rewrite Vz, <- (Ztrunc_IZR (-4294967296)); apply Ztrunc_le; lra). lia.
Qed.

(** ** Grid points. *)
Definition same_but_zero (x y : f32) : Prop := y = x \/ (x = B754_zero true /\ y = B754_zero false).
Lemma B2R_eq (x y : f32) : fin x -> fin y -> B2R x <> 0 -> B2R x = B2R y -> x = y.
Proof.
  intros Fx Fy N0 E. destruct x as [s|s| |s m e H]; try discriminate; [cbn in N0; lra|].
  destruct y as [s'|s'| |s' m' e' H']; try discriminate; [cbn in E, N0; lra|]. apply B2R_inj; [reflexivity|reflexivity|exact E].
Qed.
Lemma low_ok z : (0 <= z <= 400)%Z -> fin (low z) /\ B2R (low z) = IZR z.
Proof.
  intros H. destruct (ofZ_ok lm z ltac:(lia)) as [F1 V1]. destruct vw as [F2 V2]. destruct v399 as [F3 V3].
  assert (H1 : 0 <= IZR z <= 400) by (split; apply IZR_le; lia).
  assert (Big : 1048576 <= bpow radix2 127) by (change 1048576 with (bpow radix2 20); apply bpow_le; lia).
  destruct (mul_ok lm _ width F1 F2) as [F4 V4]. { rewrite V1, V2, Rabs_pos_eq; lra. }
  rewrite V1, V2, rnd_id in V4 by (rewrite <- mult_IZR; apply fmtZ; lia).
  destruct (div_ok lm _ (@fofZ N 399) F4 ltac:(lra)) as [F5 V5]. { rewrite V4, V3. replace (IZR z * 399 / 399) with (IZR z) by field. rewrite Rabs_pos_eq; lra. }
  rewrite V4, V3 in V5. replace (IZR z * 399 / 399) with (IZR z) in V5 by field. rewrite rnd_id in V5 by (apply fmtZ; lia). split; [exact F5|exact V5].
Qed.
Lemma lerp0 (a b r : f32) : fin a -> fin b -> fin r -> B2R r = 0 -> same_but_zero a (lerp N a b r).
Proof.
  intros Fa Fb Fr Vr. unfold lerp. destruct (zero_inv r Fr Vr) as [sr ->].
  assert (Big : 1 <= bpow radix2 127) by (change 1 with (bpow radix2 0); apply bpow_le; lia).
  assert (E1 : @fsub N (@fofZ N 1) (B754_zero sr) = @fofZ N 1).
  { assert (V1 : fin (@fofZ N 1) /\ B2R (@fofZ N 1) = 1) by f32_val. destruct V1 as [F1 V1].
    destruct (sub_ok lm (@fofZ N 1) (B754_zero sr) F1 eq_refl) as [F2 V2]. { rewrite V1. cbn [B2R]. rewrite Rminus_0_r, Rabs_pos_eq; lra. }
    rewrite V1 in V2. cbn [B2R] in V2. rewrite Rminus_0_r, rnd_id in V2 by (apply (fmtZ 1); lia). apply B2R_eq; auto; lra. }
  rewrite E1. assert (E2 : exists sb, @fmul N b (B754_zero sr) = B754_zero sb).
  { destruct b as [s|s| |s m e H]; try discriminate; cbn; eauto. }
  destruct E2 as [sb E2]. setoid_rewrite E2.
  assert (V1 : fin (@fofZ N 1) /\ B2R (@fofZ N 1) = 1) by f32_val. destruct V1 as [F1 V1].
  destruct (mul_gen lm a (@fofZ N 1) Fa F1) as [F3 V3]. { rewrite V1, Rmult_1_r, rnd_id by auto. exact (abs_B2R_lt_emax 24 128 a). }
  rewrite V1, Rmult_1_r, rnd_id in V3 by auto.
  destruct (Req_dec (B2R a) 0) as [Z|NZ].
  - destruct (zero_inv a Fa Z) as [sa ->].
    assert (E3 : @fmul N (B754_zero sa) (@fofZ N 1) = B754_zero sa).
    { destruct sa; vm_compute; reflexivity. }
    setoid_rewrite E3. destruct sa, sb; cbn; unfold same_but_zero; auto.
  - assert (E3 : @fmul N a (@fofZ N 1) = a) by (apply B2R_eq; auto; congruence). setoid_rewrite E3. left.
    destruct (add_gen lm a (B754_zero sb) Fa eq_refl) as [F4 V4]. { cbn [B2R]. rewrite Rplus_0_r, rnd_id by auto. exact (abs_B2R_lt_emax 24 128 a). }
    cbn [B2R] in V4. rewrite Rplus_0_r, rnd_id in V4 by auto. apply B2R_eq; auto; congruence.
Qed.
Lemma grid_arg (t : f32) i : fin t -> (0 <= i <= 399)%Z -> B2R t = 380 + IZR i -> fin (arg t) /\ B2R (arg t) = IZR i.
Proof.
  intros Ft H V. assert (Hi : 0 <= IZR i <= 399) by (split; apply IZR_le; lia).
  destruct (arg_ok t Ft) as (Fa & Va & _). { rewrite V, Rabs_pos_eq by lra. change (IZR (2 ^ 30)) with 1073741824. lra. }
  split; [exact Fa|]. rewrite Va, V. replace (380 + IZR i - 380) with (IZR i) by lra. rewrite (rnd_id (IZR i)) by (apply fmtZ; lia).
  rewrite (rnd_id (399 * IZR i)) by (rewrite <- mult_IZR; apply fmtZ; lia). replace (399 * IZR i / 399) with (IZR i) by field. apply rnd_id, fmtZ. lia.
Qed.
Lemma C52_fetch_l (s : list f32) (t : f32) (i : nat) : length s = 400%nat -> Forall fin s -> (i < 400)%nat ->
  fin t -> B2R t = 380 + INR i -> exists y, S_fetch N s t = Ret y /\ same_but_zero (sm s i) y.
Proof.
  intros L Fs Hi Ft V. rewrite INR_IZR_INZ in V. set (z := Z.of_nat i) in *. assert (Hz : (0 <= z <= 399)%Z) by lia.
  assert (Rz : 0 <= IZR z <= 399) by (split; apply IZR_le; lia).
  destruct (grid_arg t z Ft Hz V) as [Fa Va]. rewrite S_fetch_eq.
  rewrite toint_some by (try exact Fa; change (IZR (- 2 ^ 31)) with (-2147483648); change (IZR (2 ^ 31 - 1)) with 2147483647; lra).
  rewrite Va, Ztrunc_IZR. destruct (Z.leb_spec 399 z).
  { replace (z =? 2147483647)%Z with false by (symmetry; apply Z.eqb_neq; lia). rewrite (arr_get_in B754_nan) by (rewrite L; lia).
    eexists. split; [reflexivity|]. left. unfold sm. f_equal. lia. }
  destruct (Z.leb_spec z 0). { rewrite (arr_get_in B754_nan) by (rewrite L; lia). eexists. split; [reflexivity|]. left. unfold sm. f_equal. lia. }
  rewrite !(arr_get_in B754_nan) by (rewrite L; lia). cbn [bind]. eexists. split; [reflexivity|].
  replace (Z.to_nat z) with i by lia. change (nth i s B754_nan) with (sm s i).
  assert (Fsm : forall j, (j < 400)%nat -> fin (sm s j)). { intros j Hj. rewrite Forall_forall in Fs. apply Fs, nth_In. now rewrite L. }
  assert (Big : 1048576 <= bpow radix2 127) by (change 1048576 with (bpow radix2 20); apply bpow_le; lia).
  destruct (low_ok z ltac:(lia)) as [F1 V1]. destruct (low_ok (z + 1) ltac:(lia)) as [F2 V2]. destruct v380 as [F3 V3].
  destruct (sub_ok lm t (low z) Ft F1) as [F4 V4]. { rewrite V, V1. replace (380 + IZR z - IZR z) with 380 by lra. rewrite Rabs_pos_eq; lra. }
  rewrite V, V1 in V4. replace (380 + IZR z - IZR z) with 380 in V4 by lra. rewrite rnd_id in V4 by (apply fmtZ; lia).
  destruct (sub_ok lm _ (@flit N 380) F4 F3) as [F5 V5]. { rewrite V4, V3. replace (380 - 380) with 0 by lra. rewrite Rabs_R0. lra. }
  rewrite V4, V3 in V5. replace (380 - 380) with 0 in V5 by lra. rewrite rnd_0 in V5.
  destruct (sub_ok lm _ (low z) F2 F1) as [F6 V6]. { rewrite V1, V2, plus_IZR. replace (IZR z + 1 - IZR z) with 1 by lra. rewrite Rabs_pos_eq; lra. }
  rewrite V1, V2, plus_IZR in V6. replace (IZR z + 1 - IZR z) with 1 in V6 by lra. rewrite rnd_id in V6 by (apply (fmtZ 1); lia).
  destruct (div_ok lm _ _ F5 ltac:(rewrite V6; lra)) as [F7 V7]. { rewrite V5, V6. replace (0 / 1) with 0 by field. rewrite Rabs_R0. lra. }
  rewrite V5, V6 in V7. replace (0 / 1) with 0 in V7 by field. rewrite rnd_0 in V7.
  apply lerp0; [apply Fsm; lia| |exact F7|exact V7]. change (fin (sm s (Z.to_nat (z + 1)))). apply Fsm. lia.
Qed.
Lemma mapM_all {A B} (f : A -> outcome B) (P : A -> B -> Prop) l : (forall a, In a l -> exists b, f a = Ret b /\ P a b) ->
  exists r, mapM f l = Ret r /\ Forall2 P l r.
Proof.
  induction l as [|a l IH]; intros H; [exists []; split; [reflexivity|constructor]|].
  destruct (H a (or_introl eq_refl)) as (b & E & Pb). destruct IH as (r & Er & Pr). { intros x I. apply H. now right. }
  exists (b :: r). cbn [mapM]. rewrite E. cbn [bind]. rewrite Er. split; [reflexivity|now constructor].
Qed.
Lemma Forall2_nth {A B} (P : A -> B -> Prop) l r da db i : Forall2 P l r -> (i < length l)%nat -> P (nth i l da) (nth i r db).
Proof. intros H. revert i. induction H; intros i L; [cbn in L; lia|]. destruct i; [exact H|]. apply IHForall2. cbn in L. lia. Qed.
Lemma Forall2_len {A B} (P : A -> B -> Prop) l r : Forall2 P l r -> length l = length r.
Proof. intros H. induction H; cbn; congruence. Qed.
Lemma C52_ctor_l (s : list f32) : length s = 400%nat -> Forall fin s ->
  exists r, S_of_samples_default N s = Ret r /\ length r = 400%nat /\ forall i, (i < 400)%nat -> same_but_zero (sm s i) (sm r i).
Proof.
  intros L Fs. destruct (mapM_all (fun i => fetch N s 400 (@flit N 380) (@flit N 779) (@fadd N (@flit N 380) (@fofZ N (Z.of_nat i))))
    (fun i y => same_but_zero (sm s i) y) (seq 0 400)) as (r & E & P).
  - intros i I. apply in_seq in I. destruct v380 as [F1 V1]. destruct (ofZ_ok lm (Z.of_nat i) ltac:(lia)) as [F2 V2].
    assert (Big : 1048576 <= bpow radix2 127) by (change 1048576 with (bpow radix2 20); apply bpow_le; lia).
    assert (Ri : 0 <= IZR (Z.of_nat i) <= 399) by (split; apply IZR_le; lia).
    destruct (add_ok lm (@flit N 380) (@fofZ N (Z.of_nat i)) F1 F2) as [F3 V3]. { rewrite V1, V2, Rabs_pos_eq; lra. }
    rewrite V1, V2, rnd_id in V3 by (rewrite <- plus_IZR; apply fmtZ; lia).
    apply (C52_fetch_l s _ i L Fs ltac:(lia) F3). now rewrite V3, <- INR_IZR_INZ.
  - exists r. split; [exact E|]. pose proof (Forall2_len _ _ _ P) as Q. rewrite seq_length in Q. split; [congruence|].
    intros i Hi. pose proof (Forall2_nth _ _ _ 0%nat (B754_nan : f32) i P) as K. rewrite seq_length, seq_nth in K by exact Hi. apply K, Hi.
Qed.

(** ** Rounding error of the dot product. *)
Section Dot.
Context (a b : list f32) (La : length a = 400%nat) (Lb : length b = 400%nat) (Fa : Forall fin a) (Fb : Forall fin b).
Definition va i := B2R (sm a i).
Definition vb i := B2R (sm b i).
Definition pr i := rnd (va i * vb i).
Context (NO : sum_f_R0 (fun i => Rabs (va i * vb i)) 399 <= bpow radix2 126).
Definition SA n := sum_f_R0 (fun i => Rabs (va i * vb i)) n.
Definition SP n := sum_f_R0 (fun i => Rabs (pr i)) n.
Lemma sum_pos (f : nat -> R) n : (forall i, 0 <= f i) -> 0 <= sum_f_R0 f n.
Proof. intros H. induction n as [|n IH]; cbn [sum_f_R0]; [apply H|]. pose proof (H (S n)). lra. Qed.
Lemma SA_mono n m : (n <= m)%nat -> SA n <= SA m.
Proof.
  induction 1 as [|m L IH]; [lra|]. unfold SA in *. cbn [sum_f_R0]. pose proof (Rabs_pos (va (S m) * vb (S m))). lra.
Qed.
Lemma u_small : u <= / 16777216. Proof. rewrite u_val. change (2 ^ 24)%Z with 16777216%Z. lra. Qed.
Lemma pr_abs i : Rabs (pr i) <= (1 + u) * Rabs (va i * vb i) + eta.
Proof.
  unfold pr. pose proof (rnd_err_abs (va i * vb i)). pose proof (Rabs_triang (rnd (va i * vb i) - va i * vb i) (va i * vb i)) as T.
  replace (rnd (va i * vb i) - va i * vb i + va i * vb i) with (rnd (va i * vb i)) in T by ring. lra.
Qed.
Lemma SP_SA n : SP n <= (1 + u) * SA n + (INR n + 1) * eta.
Proof.
  unfold SP, SA. induction n as [|n IH]; cbn [sum_f_R0].
  - pose proof (pr_abs 0). cbn [INR]. lra.
  - pose proof (pr_abs (S n)). rewrite S_INR. lra.
Qed.
Lemma sum_pr_err n : Rabs (sum_f_R0 pr n - sum_f_R0 (fun i => va i * vb i) n) <= u * SA n + (INR n + 1) * eta.
Proof.
  unfold SA. induction n as [|n IH]; cbn [sum_f_R0].
  - pose proof (rnd_err_abs (va 0 * vb 0)). cbn [INR]. unfold pr. lra.
  - pose proof (rnd_err_abs (va (S n) * vb (S n))). rewrite S_INR.
    replace (sum_f_R0 pr n + pr (S n) - (sum_f_R0 (fun i => va i * vb i) n + va (S n) * vb (S n)))
      with ((sum_f_R0 pr n - sum_f_R0 (fun i => va i * vb i) n) + (pr (S n) - va (S n) * vb (S n))) by ring.
    apply Rle_trans with (1 := Rabs_triang _ _). unfold pr at 2. lra.
Qed.
Lemma eta_le : eta <= / 16777216. Proof. change (/ 16777216) with (bpow radix2 (-24)). apply bpow_le. lia. Qed.
Lemma sum_abs (f : nat -> R) n : Rabs (sum_f_R0 f n) <= sum_f_R0 (fun i => Rabs (f i)) n.
Proof. apply (sum_f_R0_triangle f n). Qed.
Lemma INR_lt400 n : (n < 400)%nat -> INR n <= 399.
Proof. intros H. rewrite INR_IZR_INZ. apply IZR_le. lia. Qed.
Lemma SP_bound n : (n < 400)%nat -> SP n <= (1 + / 16777216) * bpow radix2 126 + 1.
Proof.
  intros H. pose proof (SP_SA n). pose proof (SA_mono n 399 ltac:(lia)) as M. fold (SA 399) in NO.
  pose proof u_small. pose proof u_pos. pose proof eta_le. pose proof eta_pos. pose proof (INR_lt400 n H). pose proof (pos_INR n).
  assert (0 <= SA n) by (apply sum_pos; intros; apply Rabs_pos).
  assert ((1 + u) * SA n <= (1 + / 16777216) * bpow radix2 126) by (apply Rmult_le_compat; lra).
  assert ((INR n + 1) * eta <= 400 * / 16777216) by (apply Rmult_le_compat; lra). lra.
Qed.
Lemma smf s i : length s = 400%nat -> Forall fin s -> (i < 400)%nat -> fin (sm s i).
Proof. intros L F H. rewrite Forall_forall in F. apply F, nth_In. now rewrite L. Qed.
Lemma prod_ok i : (i < 400)%nat -> fin (@fmul N (sref N a i) (sref N b i)) /\ B2R (@fmul N (sref N a i) (sref N b i)) = pr i.
Proof.
  intros H. apply (mul_ok lm (sm a i) (sm b i)); [now apply smf|now apply smf|].
  apply Rle_trans with (SA 399); [|apply Rle_trans with (1 := NO), bpow_le; lia].
  assert (Rabs (va i * vb i) <= SA i).
  { unfold SA. destruct i; cbn [sum_f_R0]; [lra|]. assert (0 <= sum_f_R0 (fun j => Rabs (va j * vb j)) i) by (apply sum_pos; intros; apply Rabs_pos). lra. }
  pose proof (SA_mono i 399 ltac:(lia)). unfold va, vb in *. lra.
Qed.
Lemma jr e x s S x0 : 0 <= x0 -> 0 <= S -> 0 <= s -> (* s = (n) u, S = previous sum of moduli, x0 = |x| *)
  e <= x0 -> e <= u * (x0 + S + s * S) -> x = e + s * S -> x <= (s + u) * (S + x0).
Proof.
  intros A B C D E ->. pose proof u_pos. destruct (Rle_lt_dec x0 (u * S)) as [L|L].
  - apply Rle_trans with ((s + u) * S); [lra|]. apply Rmult_le_compat_l; lra.
  - apply Rle_trans with (1 := Rplus_le_compat_r _ _ _ E). replace (u * (x0 + S + s * S) + s * S) with (u * (S + x0) + s * (u * S) + s * S) by ring.
    assert (s * (u * S) <= s * x0) by (apply Rmult_le_compat_l; lra). lra.
Qed.
Lemma dot_err n : (n < 400)%nat -> fin (dotHelper N a b n) /\ Rabs (B2R (dotHelper N a b n) - sum_f_R0 pr n) <= INR n * u * SP n.
Proof.
  induction n as [|n IH]; intros L; cbn [dotHelper].
  - destruct (prod_ok 0 L) as [F V]. split; [exact F|]. rewrite V. cbn [sum_f_R0 INR]. unfold Rminus. rewrite Rplus_opp_r, Rabs_R0. lra.
  - destruct (IH ltac:(lia)) as [F E]. destruct (prod_ok (S n) L) as [F1 V1]. set (d := dotHelper N a b n) in *.
    assert (P0 : 0 <= SP n) by (apply sum_pos; intros; apply Rabs_pos). pose proof u_pos as U0. pose proof u_small as U1. pose proof (INR_lt400 n ltac:(lia)) as I1. pose proof (pos_INR n) as I0.
    assert (K0 : 0 <= INR n * u) by (apply Rmult_le_pos; lra). assert (K1 : INR n * u <= 399 * / 16777216) by (apply Rmult_le_compat; lra).
    assert (D : Rabs (B2R d) <= SP n + INR n * u * SP n).
    { pose proof (sum_abs pr n) as T. pose proof (Rabs_triang (B2R d - sum_f_R0 pr n) (sum_f_R0 pr n)) as T2.
      replace (B2R d - sum_f_R0 pr n + sum_f_R0 pr n) with (B2R d) in T2 by ring. unfold SP in *. lra. }
    assert (T : Rabs (pr (S n) + B2R d) <= Rabs (pr (S n)) + SP n + INR n * u * SP n) by (apply Rle_trans with (1 := Rabs_triang _ _); lra).
    assert (SPS : SP (S n) = SP n + Rabs (pr (S n))) by reflexivity.
    destruct (add_ok lm _ d F1 F) as [F2 V2].
    { rewrite V1. apply Rle_trans with (1 := T). pose proof (SP_bound (S n) L) as B. rewrite SPS in B. pose proof (Rabs_pos (pr (S n))).
      assert (INR n * u * SP n <= 399 * / 16777216 * SP n) by (apply Rmult_le_compat_r; lra).
      assert (B2 : bpow radix2 127 = 2 * bpow radix2 126) by (change 127%Z with (1 + 126)%Z; rewrite bpow_plus; reflexivity).
      assert (B3 : 4 <= bpow radix2 126) by (change 4 with (bpow radix2 2); apply bpow_le; lia). lra. }
    split; [exact F2|]. rewrite V1 in V2. rewrite V2. cbn [sum_f_R0]. rewrite SPS, S_INR.
    assert (fp : fmt (pr (S n))) by (apply generic_format_round; typeclasses eauto).
    pose proof (plus_error_le_l radix2 fe (fun x => negb (Z.even x)) (pr (S n)) (B2R d) fp (fmt_B2R d)) as E1.
    pose proof (rnd_add_err (pr (S n)) (B2R d) fp (fmt_B2R d)) as E2.
    replace (rnd (pr (S n) + B2R d) - (sum_f_R0 pr n + pr (S n))) with ((rnd (pr (S n) + B2R d) - (pr (S n) + B2R d)) + (B2R d - sum_f_R0 pr n)) by ring.
    apply Rle_trans with (1 := Rabs_triang _ _). replace ((INR n + 1) * u) with (INR n * u + u) by ring.
    apply Rle_trans with (Rabs (rnd (pr (S n) + B2R d) - (pr (S n) + B2R d)) + INR n * u * SP n); [lra|].
    eapply jr; [apply Rabs_pos|exact P0|exact K0|exact E1| |reflexivity].
    apply Rle_trans with (1 := E2). apply Rmult_le_compat_l; lra.
Qed.
Lemma C61_l : fin (S_dot N a b) /\
  Rabs (B2R (S_dot N a b) - sum_f_R0 (fun i => va i * vb i) 399) <= 401 * u * sum_f_R0 (fun i => Rabs (va i * vb i)) 399 + 401 * eta.
Proof.
  destruct (dot_err 399 ltac:(lia)) as [F E]. split; [exact F|]. unfold S_dot.
  pose proof (sum_pr_err 399) as P. pose proof (SP_SA 399) as Q. fold (SA 399). rewrite (INR_IZR_INZ 399) in *. change (IZR (Z.of_nat 399)) with 399 in *.
  pose proof u_pos. pose proof u_small. pose proof eta_pos. assert (S0 : 0 <= SA 399) by (apply sum_pos; intros; apply Rabs_pos).
  assert (399 * u * SP 399 <= 399 * u * ((1 + u) * SA 399 + (399 + 1) * eta)) by (apply Rmult_le_compat_l; lra).
  replace (B2R (dotHelper N a b 399) - sum_f_R0 (fun i => va i * vb i) 399)
    with ((B2R (dotHelper N a b 399) - sum_f_R0 pr 399) + (sum_f_R0 pr 399 - sum_f_R0 (fun i => va i * vb i) 399)) by ring.
  apply Rle_trans with (1 := Rabs_triang _ _).
  assert (A1 : 399 * u * u * SA 399 <= u * SA 399).
  { apply Rmult_le_compat_r; [exact S0|]. rewrite <- (Rmult_1_l u) at 3. apply Rmult_le_compat_r; lra. }
  assert (A2 : 399 * u * (400 * eta) <= eta).
  { rewrite <- (Rmult_1_l eta) at 2. rewrite <- Rmult_assoc. apply Rmult_le_compat_r; lra. }
  replace (399 * u * ((1 + u) * SA 399 + (399 + 1) * eta)) with (399 * u * SA 399 + 399 * u * u * SA 399 + 399 * u * (400 * eta)) in * by ring.
  lra.
Qed.
End Dot.
End Inv.

Lemma mul_comm (lm : libm) (x y : F (FN lm)) : fmul x y = fmul y x.
Proof.
  cbn [fmul FN]. destruct x as [s|s| |s m e B], y as [t|t| |t n g C]; cbn [Bmult]; try reflexivity; try (destruct s, t; reflexivity).
  apply B2SF_inj. rewrite !B2SF_SF2B. rewrite (xorb_comm s t), (Pos.mul_comm m n), (Z.add_comm e g). reflexivity.
Qed.
(** The samples of a float spectrum as reals. *)
Definition val (s : list f32) (i : nat) : R := B2R (nth i s (B754_nan : f32)).
