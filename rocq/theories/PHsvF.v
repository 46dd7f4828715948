(** * HSV in binary32: ranges and round-trip error. *)
From Coq Require Import ZArith Reals Lra Lia List Bool.
From Flocq Require Import Core IEEE754.BinarySingleNaN Relative.
From Verif Require Import Num NumR NumF MVec MTri SpecMat F32 RTac PMat PMod360 PHsv PMatF PSpecF.
Local Open Scope R_scope.

(** What [fromHSV] subtracts, as a function of the hue in sectors of 60 degrees, [-1 <= q <= 6]. *)
Definition clamp01 (x : R) : R := Rmax 0 (Rmin 1 x).
Definition gR (q : R) : R := clamp01 (2 - Rabs (q - 3)).
Definition gG (q : R) : R := clamp01 (Rabs (q - 2) - 1).
Definition gB (q : R) : R := clamp01 (Rmin (Rabs (q - 4) - 1) (q + 1)).
Lemma clamp_lip x y : Rabs (clamp01 x - clamp01 y) <= Rabs (x - y).
Proof. unfold clamp01, Rmax, Rmin. repeat destruct (Rle_dec _ _); apply Rabs_le; split; unfold Rabs; destruct (Rcase_abs _); lra. Qed.
Lemma clamp_range x : 0 <= clamp01 x <= 1.
Proof. unfold clamp01, Rmax, Rmin. repeat destruct (Rle_dec _ _); lra. Qed.
Lemma gR_lip x y : Rabs (gR x - gR y) <= Rabs (x - y).
Proof. eapply Rle_trans; [apply clamp_lip|]. apply Rabs_le; unfold Rabs; repeat destruct (Rcase_abs _); lra. Qed.
Lemma gG_lip x y : Rabs (gG x - gG y) <= Rabs (x - y).
Proof. eapply Rle_trans; [apply clamp_lip|]. apply Rabs_le; unfold Rabs; repeat destruct (Rcase_abs _); lra. Qed.
Lemma gB_lip x y : Rabs (gB x - gB y) <= Rabs (x - y).
Proof. eapply Rle_trans; [apply clamp_lip|]. apply Rabs_le; unfold Rmin, Rabs; repeat destruct (Rcase_abs _); repeat destruct (Rle_dec _ _); lra. Qed.

Lemma clamp_is x y : (y = 0 /\ x <= 0) \/ (y = 1 /\ 1 <= x) \/ (0 <= x <= 1 /\ y = x) -> clamp01 x = y.
Proof. unfold clamp01, Rmax, Rmin. repeat destruct (Rle_dec _ _); lra. Qed.
Ltac gsolve := unfold gR, gG, gB; apply clamp_is; unfold Rmin, Rabs; repeat destruct (Rcase_abs _); repeat destruct (Rle_dec _ _); lra.

(** The exact decomposition. *)
Lemma hex_exact (t : Vector3 R) q : (q = hue60 t \/ (hue60 t < 0 /\ q = hue60 t + 6)) ->
  let M := max3 t in let D := max3 t - min3 t in
  v0 t = M - D * gR q /\ v1 t = M - D * gG q /\ v2 t = M - D * gB q.
Proof.
  intros Hq. cbv zeta. pose proof (max3_ge t) as (A0 & A1 & A2). pose proof (min3_le t) as (B0 & B1 & B2).
  pose proof (max3_in t) as CM. pose proof (min3_in t) as Cm. destruct t as [r g b]. unfold hue60 in Hq. cbv zeta in Hq.
  set (M := max3 _) in *. set (m := min3 _) in *. clearbody M m. cbn [v0 v1 v2] in *.
  destruct (Req_EM_T M m) as [E|E]; [subst m; repeat split; rewrite (Rminus_diag_eq M M) by reflexivity; lra|].
  assert (D : 0 < M - m) by (destruct Cm as [?|[?|?]]; lra).
  assert (K : forall x, x = (M - m) * (x / (M - m))) by (intros; field; lra).
  destruct (Req_EM_T M r) as [E0|E0].
  { pose proof (div_bounds (g - b) _ D ltac:(lra)) as Q. pose proof (K (g - b)) as Kx. set (x := (g - b) / (M - m)) in *. clearbody x.
    destruct (Rlt_le_dec x 0) as [L|L].
    - assert (Eg : g = m) by (destruct Cm as [?|[?|?]]; nra).
      assert (gR q = 0 /\ gG q = 1 /\ gB q = 1 + x) as (-> & -> & ->) by (destruct Hq as [->|(_ & ->)]; repeat split; gsolve).
      nra.
    - assert (Eb : b = m) by (destruct Cm as [?|[?|?]]; nra).
      assert (gR q = 0 /\ gG q = 1 - x /\ gB q = 1) as (-> & -> & ->) by (destruct Hq as [->|(? & ->)]; [repeat split; gsolve|lra]).
      nra. }
  destruct (Req_EM_T M g) as [E1|E1].
  { pose proof (div_bounds (b - r) _ D ltac:(lra)) as Q. pose proof (K (b - r)) as Kx. set (x := (b - r) / (M - m)) in *. clearbody x.
    destruct Hq as [->|(? & ->)]; [|lra].
    destruct (Rlt_le_dec x 0) as [L|L].
    - assert (Eb : b = m) by (destruct Cm as [?|[?|?]]; nra).
      assert (gR (x + 2) = 1 + x /\ gG (x + 2) = 0 /\ gB (x + 2) = 1) as (-> & -> & ->) by (repeat split; gsolve). nra.
    - assert (Er : r = m) by (destruct Cm as [?|[?|?]]; nra).
      assert (gR (x + 2) = 1 /\ gG (x + 2) = 0 /\ gB (x + 2) = 1 - x) as (-> & -> & ->) by (repeat split; gsolve). nra. }
  assert (E2 : M = b) by (destruct CM as [?|[?|?]]; lra).
  pose proof (div_bounds (r - g) _ D ltac:(lra)) as Q. pose proof (K (r - g)) as Kx. set (x := (r - g) / (M - m)) in *. clearbody x.
  destruct Hq as [->|(? & ->)]; [|lra].
  destruct (Rlt_le_dec x 0) as [L|L].
  - assert (Er : r = m) by (destruct Cm as [?|[?|?]]; nra).
    assert (gR (x + 4) = 1 /\ gG (x + 4) = 1 + x /\ gB (x + 4) = 0) as (-> & -> & ->) by (repeat split; gsolve). nra.
  - assert (Eg : g = m) by (destruct Cm as [?|[?|?]]; nra).
    assert (gR (x + 4) = 1 - x /\ gG (x + 4) = 1 /\ gB (x + 4) = 0) as (-> & -> & ->) by (repeat split; gsolve). nra.
Qed.

Lemma u16 : u = / 16777216. Proof. exact u_val. Qed.
Lemma eta16 : 0 < eta <= / 16777216 * u.
Proof.
  split; [apply eta_pos|]. rewrite u16. replace (/ 16777216 * / 16777216) with (bpow radix2 (-48)); [apply bpow_le; lia|].
  change (/ IZR (2 ^ 48) = / 16777216 * / 16777216). rewrite <- Rinv_mult. f_equal. rewrite <- mult_IZR. reflexivity.
Qed.
Lemma fmt_1 : fmt 1. Proof. apply (fmt_IZR 1). cbn; lia. Qed.
Lemma rnd_01 x : 0 <= x <= 1 -> 0 <= rnd x <= 1.
Proof. intros H. split; [apply rnd_ge_fmt; [apply fmt_0|lra]|apply rnd_le_fmt; [apply fmt_1|lra]]. Qed.

(** The value a channel gets when the fraction [y] of the saturation is taken off. *)
Definition fv (s y v : R) : R := rnd (v * rnd (1 - rnd (s * y))).
Lemma fv_0 s v : fmt v -> fv s 0 v = v.
Proof.
  intros H. unfold fv. rewrite Rmult_0_r, rnd_0, Rminus_0_r, (rnd_id 1 fmt_1), Rmult_1_r. now apply rnd_id.
Qed.
Lemma fv_1 s v : fmt s -> fv s 1 v = rnd (v * rnd (1 - s)).
Proof. intros H. unfold fv. rewrite Rmult_1_r, (rnd_id s H). reflexivity. Qed.
Lemma fv_mono s y y' v : 0 <= s -> 0 <= v -> y <= y' -> fv s y' v <= fv s y v.
Proof.
  intros Hs Hv Hy. unfold fv. apply rnd_le, Rmult_le_compat_l; [exact Hv|]. apply rnd_le.
  assert (rnd (s * y) <= rnd (s * y')); [|lra]. apply rnd_le, Rmult_le_compat_l; assumption.
Qed.
Lemma fv_err s y v : 0 <= s <= 1 -> 0 <= y <= 1 -> 0 <= v -> Rabs (fv s y v - v * (1 - s * y)) <= 3.01 * u * v + eta.
Proof.
  intros Hs Hy Hv. pose proof u16 as U. pose proof eta16 as E. unfold fv.
  assert (Hz : 0 <= s * y <= 1) by nra. set (z := s * y) in *. clearbody z.
  pose proof (rnd_err_abs z) as E1. pose proof (rnd_01 z Hz) as H1. set (z1 := rnd z) in *. clearbody z1.
  pose proof (rnd_err_abs (1 - z1)) as E2. pose proof (rnd_01 (1 - z1) ltac:(lra)) as H2. set (z2 := rnd (1 - z1)) in *. clearbody z2.
  pose proof (rnd_err_abs (v * z2)) as E3. set (z3 := rnd _) in *. clearbody z3.
  rewrite (Rabs_pos_eq z) in E1 by lra. rewrite (Rabs_pos_eq (1 - z1)) in E2 by lra. rewrite (Rabs_pos_eq (v * z2)) in E3 by nra.
  assert (A1 : Rabs (z2 - (1 - z)) <= 2.001 * u).
  { replace (z2 - (1 - z)) with ((z2 - (1 - z1)) + (z - z1)) by ring. eapply Rle_trans; [apply Rabs_triang|].
    rewrite (Rabs_minus_sym z z1). assert (u * z <= u) by nra. assert (u * (1 - z1) <= u) by nra. lra. }
  replace (z3 - v * (1 - z)) with ((z3 - v * z2) + v * (z2 - (1 - z))) by ring. eapply Rle_trans; [apply Rabs_triang|].
  rewrite Rabs_mult, (Rabs_pos_eq v Hv). assert (v * z2 <= v) by nra. assert (u * (v * z2) <= u * v) by nra.
  assert (v * Rabs (z2 - (1 - z)) <= v * (2.001 * u)) by nra. assert (0 <= u * v) by nra. lra.
Qed.

Section F.
Context (lm : libm).
Notation N := (FN lm).
Lemma l60 : fin (@flit N 60%dec) /\ B2R (@flit N 60%dec) = 60. Proof. f32_val. Qed.
Lemma l120 : fin (@flit N 120%dec) /\ B2R (@flit N 120%dec) = 120. Proof. f32_val. Qed.
Lemma l240 : fin (@flit N 240%dec) /\ B2R (@flit N 240%dec) = 240. Proof. f32_val. Qed.
Lemma l1 : fin (@flit N 1%dec) /\ B2R (@flit N 1%dec) = 1. Proof. f32_val. Qed.
Lemma l0 : fin (@flit N 0%dec) /\ B2R (@flit N 0%dec) = 0. Proof. f32_val. Qed.

Lemma b127_big : 1000000000000 < bpow radix2 127.
Proof. apply Rlt_trans with (bpow radix2 60); [change (bpow radix2 60) with (IZR (2^60)); apply IZR_lt; reflexivity|apply bpow_lt; lia]. Qed.
Lemma b128_max (v : f32) : Rabs (B2R v) < bpow radix2 128. Proof. apply (abs_B2R_lt_emax 24 128 v). Qed.

Lemma mix_ok (s y v : f32) : fin s -> fin y -> fin v -> 0 <= B2R s <= 1 -> 0 <= B2R y <= 1 -> 0 <= B2R v ->
  let x := @fmul N v (@fsub N (@flit N 1%dec) (@fmul N s y)) in fin x /\ B2R x = fv (B2R s) (B2R y) (B2R v).
Proof.
  intros Fs Fy Fv Hs Hy Hv. cbv zeta. destruct l1 as [F1 V1]. pose proof b127_big as BB.
  assert (Hz : 0 <= B2R s * B2R y <= 1) by nra.
  destruct (mul_ok lm s y Fs Fy) as [Fa Va]; [apply Rabs_le; lra|]. pose proof (rnd_01 _ Hz) as H1. rewrite <- Va in H1.
  destruct (sub_ok lm _ _ F1 Fa) as [Fb Vb]; [apply Rabs_le; lra|]. rewrite V1 in Vb.
  pose proof (rnd_01 (1 - B2R (@fmul N s y)) ltac:(lra)) as H2. rewrite <- Vb in H2.
  set (w := @fsub N _ _) in *. assert (Hw : 0 <= B2R v * B2R w <= B2R v) by nra.
  destruct (mul_gen lm v w Fv Fb) as [Fc Vc].
  { eapply Rle_lt_trans; [|apply (b128_max v)]. rewrite (Rabs_pos_eq (B2R v)) by exact Hv. apply rnd_abs_le; [apply fmt_B2R|apply Rabs_le; lra]. }
  split; [exact Fc|]. rewrite Vc, Vb, Va. reflexivity.
Qed.
Lemma mix1_ok (s v : f32) : fin s -> fin v -> 0 <= B2R s <= 1 -> 0 <= B2R v ->
  let x := @fmul N v (@fsub N (@flit N 1%dec) s) in fin x /\ B2R x = fv (B2R s) 1 (B2R v).
Proof.
  intros Fs Fv Hs Hv. cbv zeta. destruct l1 as [F1 V1]. pose proof b127_big as BB.
  destruct (sub_ok lm _ _ F1 Fs) as [Fb Vb]; [apply Rabs_le; lra|]. rewrite V1 in Vb.
  pose proof (rnd_01 (1 - B2R s) ltac:(lra)) as H2. rewrite <- Vb in H2.
  set (w := @fsub N _ _) in *. assert (Hw : 0 <= B2R v * B2R w <= B2R v) by nra.
  destruct (mul_gen lm v w Fv Fb) as [Fc Vc].
  { eapply Rle_lt_trans; [|apply (b128_max v)]. rewrite (Rabs_pos_eq (B2R v)) by exact Hv. apply rnd_abs_le; [apply fmt_B2R|apply Rabs_le; lra]. }
  split; [exact Fc|]. rewrite Vc, Vb. rewrite fv_1 by apply fmt_B2R. reflexivity.
Qed.

(** [fromHSV] of a hue already in [0, 360]. *)
Lemma fromHSV_F n (h s v : f32) : fin h -> fin s -> fin v -> 0 <= B2R h <= 360 -> 0 <= B2R s <= 1 -> 0 <= B2R v ->
  exists (t : Vector3 f32) (y : Vector3 R), fromHSV N (S n) (V3 h s v) = Ret t /\ allV fin t /\
    (B2R (v0 t) = fv (B2R s) (v0 y) (B2R v) /\ B2R (v1 t) = fv (B2R s) (v1 y) (B2R v) /\ B2R (v2 t) = fv (B2R s) (v2 y) (B2R v)) /\
    allV (fun y => 0 <= y <= 1) y /\ (v0 y = 0 \/ v1 y = 0 \/ v2 y = 0) /\ (v0 y = 1 \/ v1 y = 1 \/ v2 y = 1) /\
    exists q, Rabs (q - B2R h / 60) <= 6.0001 * u /\
     Rabs (v0 y - gR q) <= 2 * u /\ Rabs (v1 y - gG q) <= 2 * u /\ Rabs (v2 y - gB q) <= 2 * u.
Proof.
  intros Fh Fs Fv Hh Hs Hv. pose proof u16 as U. pose proof eta16 as Eta. pose proof b127_big as BB. destruct l60 as [F60 V60]. destruct l1 as [F1 V1].
  unfold fromHSV. cbn [vref v0 v1 v2]. rewrite (mod360_F_in lm n h Fh Hh). cbn [bind].
  destruct (div_ok lm h (@flit N 60%dec) Fh) as [Fq Vq]; [rewrite V60; lra|rewrite V60; apply Rabs_le; lra|]. rewrite V60 in Vq.
  pose proof (rnd_err_abs (B2R h / 60)) as Eq. rewrite <- Vq in Eq. rewrite (Rabs_pos_eq (B2R h / 60)) in Eq by lra.
  assert (Hq : 0 <= B2R (@fdiv N h (@flit N 60%dec)) <= 6).
  { rewrite Vq. split; [apply rnd_ge_fmt; [apply fmt_0|lra]|apply rnd_le_fmt; [apply (fmt_IZR 6); cbn; lia|lra]]. }
  set (q := @fdiv N h _) in *. clearbody q. change (@ftoint N) with f32_toint.
  rewrite (toint_some q Fq) by (change (IZR (- 2 ^ 31)) with (-2147483648); change (IZR (2 ^ 31 - 1)) with 2147483647; lra).
  cbn [of_option bind].
  assert (Hk : (0 <= Ztrunc (B2R q) <= 6)%Z).
  { split; [rewrite <- (Ztrunc_IZR 0)|rewrite <- (Ztrunc_IZR 6)]; apply Ztrunc_le; lra. }
  assert (Hk' : IZR (Ztrunc (B2R q)) <= B2R q < IZR (Ztrunc (B2R q)) + 1).
  { rewrite Ztrunc_floor by lra. split; [apply Zfloor_lb|apply Zfloor_ub]. }
  set (k := Ztrunc (B2R q)) in *. clearbody k.
  destruct (ofZ_ok lm k ltac:(lia)) as [Fk Vk].
  destruct (sub_ok lm q (@fofZ N k) Fq Fk) as [Fr Vr]; [rewrite Vk; apply Rabs_le; lra|]. rewrite Vk in Vr.
  assert (Er : Rabs (B2R (@fsub N q (@fofZ N k)) - (B2R q - IZR k)) <= u).
  { rewrite Vr. eapply Rle_trans; [apply rnd_add_err; [apply fmt_B2R|apply fmt_opp, fmt_IZR; lia]|]. rewrite Rabs_pos_eq by lra. nra. }
  pose proof (rnd_01 (B2R q - IZR k) ltac:(lra)) as Hr. rewrite <- Vr in Hr. set (r := @fsub N q _) in *. clearbody r.
  destruct (sub_ok lm _ _ F1 Fr) as [Fr' Vr']; [apply Rabs_le; lra|]. rewrite V1 in Vr'.
  pose proof (rnd_01 (1 - B2R r) ltac:(lra)) as Hr'. pose proof (rnd_add_err 1 (- B2R r) fmt_1 (fmt_opp _ (fmt_B2R r))) as Er'. change (1 + - B2R r) with (1 - B2R r) in Er'. rewrite <- Vr' in Hr', Er'.
  rewrite (Rabs_pos_eq (1 - B2R r)) in Er' by lra.
  assert (Er2 : Rabs (B2R (@fsub N (@flit N 1%dec) r) - (1 - (B2R q - IZR k))) <= 2 * u).
  { replace (B2R (@fsub N (@flit N 1%dec) r) - (1 - (B2R q - IZR k))) with ((B2R (@fsub N (@flit N 1%dec) r) - (1 - B2R r)) + - (B2R r - (B2R q - IZR k))) by ring.
    eapply Rle_trans; [apply Rabs_triang|]. rewrite Rabs_Ropp. assert (u * (1 - B2R r) <= u) by nra. lra. }
  destruct (mix1_ok s v Fs Fv Hs Hv) as [Fm Vm]. destruct (mix_ok s r v Fs Fr Fv Hs Hr Hv) as [Fn Vn].
  destruct (mix_ok s _ v Fs Fr' Fv Hs Hr' Hv) as [Fp Vp].
  cbv zeta.
  assert (G : forall (t : Vector3 f32) (y : Vector3 R),
    allV fin t -> (B2R (v0 t) = fv (B2R s) (v0 y) (B2R v) /\ B2R (v1 t) = fv (B2R s) (v1 y) (B2R v) /\ B2R (v2 t) = fv (B2R s) (v2 y) (B2R v)) ->
    allV (fun y => 0 <= y <= 1) y -> (v0 y = 0 \/ v1 y = 0 \/ v2 y = 0) -> (v0 y = 1 \/ v1 y = 1 \/ v2 y = 1) ->
    (Rabs (v0 y - gR (B2R q)) <= 2 * u /\ Rabs (v1 y - gG (B2R q)) <= 2 * u /\ Rabs (v2 y - gB (B2R q)) <= 2 * u) ->
    exists (t' : Vector3 f32) (y : Vector3 R), Ret t = Ret t' /\ allV fin t' /\
    (B2R (v0 t') = fv (B2R s) (v0 y) (B2R v) /\ B2R (v1 t') = fv (B2R s) (v1 y) (B2R v) /\ B2R (v2 t') = fv (B2R s) (v2 y) (B2R v)) /\
    allV (fun y => 0 <= y <= 1) y /\ (v0 y = 0 \/ v1 y = 0 \/ v2 y = 0) /\ (v0 y = 1 \/ v1 y = 1 \/ v2 y = 1) /\
    exists q, Rabs (q - B2R h / 60) <= 6.0001 * u /\
     Rabs (v0 y - gR q) <= 2 * u /\ Rabs (v1 y - gG q) <= 2 * u /\ Rabs (v2 y - gB q) <= 2 * u).
  { intros t y A B C D E G. exists t, y. split; [reflexivity|]. repeat (split; [assumption|]). exists (B2R q). split; [|exact G].
    assert (u * (B2R h / 60) <= u * 6) by nra. lra. }
  set (r' := @fsub N _ r) in *. set (m := @fmul N v (@fsub N _ s)) in *. set (a := @fmul N v (@fsub N _ (@fmul N s r))) in *.
  set (p := @fmul N v (@fsub N _ (@fmul N s r'))) in *.
  assert (Z0 : Rabs 0 <= 2 * u) by (rewrite Rabs_R0; lra).
  assert (Z1 : forall x, x = 0 -> Rabs x <= 2 * u) by (intros x ->; exact Z0).
  assert (FV0 : B2R v = fv (B2R s) 0 (B2R v)) by (symmetry; apply fv_0, fmt_B2R).
  clearbody r' m a p. clear Vr' Vr.
  assert (C : (k = 0 \/ k = 1 \/ k = 2 \/ k = 3 \/ k = 4 \/ k = 5 \/ k = 6)%Z) by lia.
  repeat destruct C as [-> | C]; try subst k; cbn [Z.rem Z.quotrem N.pos_div_eucl Z.eqb Pos.eqb].
  - apply (G (V3 v p m) (V3 0 (B2R r') 1)); unfold allV; cbn [v0 v1 v2]; repeat split; auto; try lra.
    + apply Z1. replace (gR (B2R q)) with 0; [ring|]. symmetry. gsolve.
    + replace (gG (B2R q)) with (1 - (B2R q - 0)); [exact Er2|]. symmetry. gsolve.
    + apply Z1. replace (gB (B2R q)) with 1; [ring|]. symmetry. gsolve.
  - apply (G (V3 a v m) (V3 (B2R r) 0 1)); unfold allV; cbn [v0 v1 v2]; repeat split; auto; try lra.
    + replace (gR (B2R q)) with (B2R q - 1); [lra|]. symmetry. gsolve.
    + apply Z1. replace (gG (B2R q)) with 0; [ring|]. symmetry. gsolve.
    + apply Z1. replace (gB (B2R q)) with 1; [ring|]. symmetry. gsolve.
  - apply (G (V3 m v p) (V3 1 0 (B2R r'))); unfold allV; cbn [v0 v1 v2]; repeat split; auto; try lra.
    + apply Z1. replace (gR (B2R q)) with 1; [ring|]. symmetry. gsolve.
    + apply Z1. replace (gG (B2R q)) with 0; [ring|]. symmetry. gsolve.
    + replace (gB (B2R q)) with (1 - (B2R q - 2)); [exact Er2|]. symmetry. gsolve.
  - apply (G (V3 m a v) (V3 1 (B2R r) 0)); unfold allV; cbn [v0 v1 v2]; repeat split; auto; try lra.
    + apply Z1. replace (gR (B2R q)) with 1; [ring|]. symmetry. gsolve.
    + replace (gG (B2R q)) with (B2R q - 3); [lra|]. symmetry. gsolve.
    + apply Z1. replace (gB (B2R q)) with 0; [ring|]. symmetry. gsolve.
  - apply (G (V3 p m v) (V3 (B2R r') 1 0)); unfold allV; cbn [v0 v1 v2]; repeat split; auto; try lra.
    + replace (gR (B2R q)) with (1 - (B2R q - 4)); [exact Er2|]. symmetry. gsolve.
    + apply Z1. replace (gG (B2R q)) with 1; [ring|]. symmetry. gsolve.
    + apply Z1. replace (gB (B2R q)) with 0; [ring|]. symmetry. gsolve.
  - apply (G (V3 v m a) (V3 0 1 (B2R r))); unfold allV; cbn [v0 v1 v2]; repeat split; auto; try lra.
    + apply Z1. replace (gR (B2R q)) with 0; [ring|]. symmetry. gsolve.
    + apply Z1. replace (gG (B2R q)) with 1; [ring|]. symmetry. gsolve.
    + replace (gB (B2R q)) with (B2R q - 5); [lra|]. symmetry. gsolve.
  - apply (G (V3 v p m) (V3 0 (B2R r') 1)); unfold allV; cbn [v0 v1 v2]; repeat split; auto; try lra.
    + apply Z1. replace (gR (B2R q)) with 0; [ring|]. symmetry. gsolve.
    + replace (gG (B2R q)) with (1 - (B2R q - 6)); [exact Er2|]. symmetry. gsolve.
    + apply Z1. replace (gB (B2R q)) with 1; [ring|]. symmetry. gsolve.
Qed.

(** ** toHSV *)
Lemma maxi_F (a b : f32) : fin a -> fin b -> fin (maxi N a b) /\ B2R (maxi N a b) = Rmax (B2R a) (B2R b).
Proof.
  intros Fa Fb. unfold maxi. rewrite ltb_ok by assumption. unfold Rmax. destruct (Rle_dec (B2R a) (B2R b)); case Rlt_bool_spec; intros; split; auto; lra.
Qed.
Lemma mini_F (a b : f32) : fin a -> fin b -> fin (mini N a b) /\ B2R (mini N a b) = Rmin (B2R a) (B2R b).
Proof.
  intros Fa Fb. unfold mini. rewrite ltb_ok by assumption. unfold Rmin. destruct (Rle_dec (B2R a) (B2R b)); case Rlt_bool_spec; intros; split; auto; lra.
Qed.
Lemma mul60 x : fmt x -> Rabs (rnd (60 * x) - 60 * x) <= u * Rabs (60 * x).
Proof.
  intros Hx. destruct (Rle_lt_dec (bpow radix2 (-126)) (Rabs (60 * x))) as [L|L].
  - pose proof (relative_error_N_FLT radix2 (-149) 24 ltac:(lia) (fun x => negb (Z.even x)) (60 * x) L) as E.
    change (- (24) + 1)%Z with (-24 + 1)%Z in E. rewrite half_bpow in E. exact E.
  - rewrite rnd_id; [rewrite Rminus_diag_eq, Rabs_R0 by reflexivity; apply Rmult_le_pos; [left; apply F32.u_pos|apply Rabs_pos]|].
    destruct (FLT_format_generic radix2 (-149) 24 x Hx) as [[m e] Ex Em Ee]. cbn [Fnum Fexp] in *.
    assert (X : x = IZR (m * 2 ^ (e + 149)) * bpow radix2 (-149)).
    { rewrite Ex. unfold F2R. cbn [Fnum Fexp]. rewrite mult_IZR, (IZR_Zpower radix2) by lia. rewrite Rmult_assoc, <- bpow_plus. do 2 f_equal. lia. }
    set (z := (m * 2 ^ (e + 149))%Z) in *. clearbody z.
    assert (X60 : 60 * x = IZR (60 * z) * bpow radix2 (-149)) by (rewrite X, mult_IZR; ring).
    rewrite X60 in *. apply fmt_F2R; [|lia]. rewrite Rabs_mult, (Rabs_pos_eq (bpow _ _)) in L by apply bpow_ge_0.
    rewrite <- abs_IZR in L. apply le_IZR. left. apply Rmult_lt_reg_r with (bpow radix2 (-149)); [apply bpow_gt_0|].
    apply Rlt_le_trans with (1 := L). apply Rle_trans with (bpow radix2 (24 + -149)); [apply bpow_le; lia|]. rewrite bpow_plus. apply Rle_refl.
Qed.
Definition tR (t : Vector3 f32) : Vector3 R := V3 (B2R (v0 t)) (B2R (v1 t)) (B2R (v2 t)).
Lemma max3_F (t : Vector3 f32) : allV fin t ->
  fin (maxi N (maxi N (v0 t) (v1 t)) (v2 t)) /\ B2R (maxi N (maxi N (v0 t) (v1 t)) (v2 t)) = max3 (tR t).
Proof.
  intros (F0 & F1 & F2). destruct (maxi_F _ _ F0 F1) as [Fa Va]. destruct (maxi_F _ _ Fa F2) as [Fb Vb]. split; [exact Fb|]. rewrite Vb, Va. reflexivity.
Qed.
Lemma min3_F (t : Vector3 f32) : allV fin t ->
  fin (mini N (mini N (v0 t) (v1 t)) (v2 t)) /\ B2R (mini N (mini N (v0 t) (v1 t)) (v2 t)) = min3 (tR t).
Proof.
  intros (F0 & F1 & F2). destruct (mini_F _ _ F0 F1) as [Fa Va]. destruct (mini_F _ _ Fa F2) as [Fb Vb]. split; [exact Fb|]. rewrite Vb, Va. reflexivity.
Qed.

(** the quotient in [hsv_hue_raw] *)
Lemma hue_quot (a b d : f32) D : fin a -> fin b -> fin d -> 0 < D <= bpow radix2 120 -> B2R d = rnd D ->
  Rabs (rnd D - D) <= u * D -> Rabs (B2R a - B2R b) <= D ->
  let x := @fdiv N (@fmul N (@flit N 60%dec) (@fsub N a b)) d in
  fin x /\ Rabs (B2R x) <= 64 /\ Rabs (B2R x - 60 * ((B2R a - B2R b) / D)) <= 240.1 * u /\ (0 <= B2R a - B2R b -> 0 <= B2R x) /\ (B2R a - B2R b <= 0 -> B2R x <= 0).
Proof.
  intros Fa Fb Fd HD Vd Ed Hab. cbv zeta. destruct l60 as [F60 V60]. pose proof u16 as U. pose proof eta16 as Eta.
  assert (B127 : bpow radix2 127 = 128 * bpow radix2 120) by (change 127%Z with (7 + 120)%Z; rewrite (bpow_plus radix2 7 120); reflexivity).
  set (w := B2R a - B2R b) in *.
  destruct (sub_ok lm a b Fa Fb) as [Fs Vs]; [fold w; lra|]. fold w in Vs.
  pose proof (rnd_add_err (B2R a) (- B2R b) (fmt_B2R a) (fmt_opp _ (fmt_B2R b))) as E1. change (B2R a + - B2R b) with w in E1. rewrite <- Vs in E1.
  assert (Hs : Rabs (B2R (@fsub N a b)) <= rnd D).
  { rewrite Vs. apply Rabs_le_inv in Hab. apply Rabs_le. rewrite <- rnd_opp. split; apply rnd_le; lra. }
  assert (HD1 : (1 - u) * D <= rnd D <= (1 + u) * D) by (apply Rabs_le_inv in Ed; lra).
  assert (S0 : (0 <= w -> 0 <= B2R (@fsub N a b)) /\ (w <= 0 -> B2R (@fsub N a b) <= 0)).
  { rewrite Vs. split; intros; [apply rnd_ge_fmt|apply rnd_le_fmt]; auto using fmt_0. }
  set (s := @fsub N a b) in *. clearbody s.
  assert (Dp : 0 < rnd D) by nra.
  assert (H60 : Rabs (60 * B2R s) <= 60 * rnd D) by (rewrite Rabs_mult, (Rabs_pos_eq 60) by lra; lra).
  destruct (mul_ok lm (@flit N 60%dec) s F60 Fs) as [Fm Vm].
  { rewrite V60. eapply Rle_trans; [exact H60|]. nra. }
  rewrite V60 in Vm. pose proof (mul60 (B2R s) (fmt_B2R s)) as E2. rewrite <- Vm in E2.
  assert (Hm : Rabs (B2R (@fmul N (@flit N 60%dec) s)) <= 64 * rnd D).
  { rewrite <- Rabs_pos_eq with (x := 60 * rnd D) in H60 by lra.
    replace (B2R (@fmul N (@flit N 60%dec) s)) with ((B2R (@fmul N (@flit N 60%dec) s) - 60 * B2R s) + 60 * B2R s) by ring.
    eapply Rle_trans; [apply Rabs_triang|]. rewrite (Rabs_pos_eq (60 * rnd D)) in H60 by lra. nra. }
  assert (S1 : (0 <= w -> 0 <= B2R (@fmul N (@flit N 60%dec) s)) /\ (w <= 0 -> B2R (@fmul N (@flit N 60%dec) s) <= 0)).
  { rewrite Vm. split; intros K; [apply rnd_ge_fmt|apply rnd_le_fmt]; auto using fmt_0; apply S0 in K; lra. }
  set (m := @fmul N _ s) in *. clearbody m.
  assert (Hq : Rabs (B2R m / B2R d) <= 64).
  { rewrite Vd. unfold Rdiv. rewrite Rabs_mult, Rabs_inv, (Rabs_pos_eq (rnd D)) by lra.
    apply Rmult_le_reg_r with (rnd D); [exact Dp|]. rewrite Rmult_assoc, Rinv_l by lra. lra. }
  pose proof b127_big.
  destruct (div_ok lm m d Fm) as [Fx Vx]; [rewrite Vd; lra|lra|]. set (x := @fdiv N m d) in *. clearbody x.
  assert (Hx : Rabs (B2R x) <= 64) by (rewrite Vx; apply rnd_abs_le; [apply (fmt_IZR 64); cbn; lia|exact Hq]).
  split; [exact Fx|]. split; [exact Hx|]. split; [|split].
  - (* error *)
    pose proof (rnd_err_abs (B2R m / B2R d)) as E4. rewrite <- Vx in E4.
    set (rho := w / D). assert (Hr : Rabs rho <= 1).
    { unfold rho, Rdiv. rewrite Rabs_mult, Rabs_inv, (Rabs_pos_eq D) by lra.
      apply Rmult_le_reg_r with D; [lra|]. rewrite Rmult_assoc, Rinv_l by lra. lra. }
    assert (Ew : w = rho * D) by (unfold rho; field; lra).
    (* |m - 60 w| <= 60 * 2.01 u D ; |d - D| <= u D *)
    assert (E12 : Rabs (B2R m - 60 * w) <= 120.001 * u * D).
    { replace (B2R m - 60 * w) with ((B2R m - 60 * B2R s) + 60 * (B2R s - w)) by ring. eapply Rle_trans; [apply Rabs_triang|].
      rewrite Rabs_mult, (Rabs_pos_eq 60) by lra. assert (u * Rabs w <= u * D) by nra. assert (u * Rabs (60 * B2R s) <= u * (60 * ((1 + u) * D))) by (apply Rmult_le_compat_l; lra).
      assert (u * (60 * ((1 + u) * D)) <= 60.001 * u * D) by (rewrite U; lra). lra. }
    assert (E3 : Rabs (B2R m / B2R d - 60 * rho) <= 180.01 * u).
    { rewrite Vd. replace (B2R m / rnd D - 60 * rho) with (((B2R m - 60 * w) - 60 * rho * (rnd D - D)) * / rnd D) by (rewrite Ew; field; lra).
      rewrite Rabs_mult, Rabs_inv, (Rabs_pos_eq (rnd D)) by lra. apply Rmult_le_reg_r with (rnd D); [exact Dp|].
      rewrite Rmult_assoc, Rinv_l by lra. rewrite Rmult_1_r.
      apply Rle_trans with (120.001 * u * D + 60 * (u * D)).
      - eapply Rle_trans; [apply Rabs_triang|]. rewrite Rabs_Ropp. rewrite !Rabs_mult, (Rabs_pos_eq 60) by lra.
        assert (Rabs rho * Rabs (rnd D - D) <= 1 * (u * D)) by (apply Rmult_le_compat; auto using Rabs_pos). lra.
      - assert (180.001 * u * D <= 180.01 * u * ((1 - u) * D)) by (rewrite U; lra).
        assert (180.01 * u * ((1 - u) * D) <= 180.01 * u * rnd D) by (apply Rmult_le_compat_l; lra). lra. }
    assert (Hq2 : Rabs (B2R m / B2R d) <= 60.001).
    { replace (B2R m / B2R d) with ((B2R m / B2R d - 60 * rho) + 60 * rho) by ring. eapply Rle_trans; [apply Rabs_triang|].
      rewrite (Rabs_mult 60), (Rabs_pos_eq 60) by lra. lra. }
    replace (B2R x - 60 * rho) with ((B2R x - B2R m / B2R d) + (B2R m / B2R d - 60 * rho)) by ring. eapply Rle_trans; [apply Rabs_triang|].
    assert (u * Rabs (B2R m / B2R d) <= u * 60.001) by (apply Rmult_le_compat_l; lra). lra.
  - intros K. rewrite Vx, Vd. apply rnd_ge_fmt; [apply fmt_0|]. apply S1 in K. apply div_nonneg; assumption.
  - intros K. rewrite Vx, Vd. apply rnd_le_fmt; [apply fmt_0|]. apply S1 in K. apply Ropp_le_cancel. rewrite Ropp_0.
    replace (- (B2R m / rnd D)) with (- B2R m / rnd D) by (field; lra). apply div_nonneg; lra.
Qed.

Lemma step_F n (x : f32) hx : fin x -> -64 <= B2R x <= 310 -> Rabs (B2R x - 60 * hx) <= 545 * u -> (0 <= hx -> 0 <= B2R x) -> (B2R x < 0 -> Rabs (B2R x - 60 * hx) <= 241 * u) ->
  exists h, mod360 N (S (S n)) x = Ret h /\ fin h /\ 0 <= B2R h <= 360 /\
    exists q, (q = hx \/ (hx < 0 /\ q = hx + 6)) /\ Rabs (B2R h - 60 * q) <= 602 * u.
Proof.
  intros Fx Hx Ex Sx Ex2. pose proof u16 as U. destruct (v360 lm) as [F3 V3]. pose proof b127_big.
  destruct (Rlt_le_dec (B2R x) 0) as [L|L].
  - rewrite (mod360_F_neg lm (S n) x Fx L).
    destruct (add_ok lm x _ Fx F3) as [Fy Vy]; [rewrite V3; apply Rabs_le; lra|]. rewrite V3 in Vy.
    assert (Hy : 0 <= B2R (@fadd N x (@flit N 360%dec)) <= 360).
    { rewrite Vy. split; [apply rnd_ge_fmt; [apply fmt_0|lra]|apply rnd_le_fmt; [apply (fmt_IZR 360); cbn; lia|lra]]. }
    rewrite (mod360_F_in lm n _ Fy Hy). eexists. split; [reflexivity|]. split; [exact Fy|]. split; [exact Hy|].
    assert (hx < 0) by (destruct (Rlt_le_dec hx 0); auto; specialize (Sx ltac:(lra)); lra).
    exists (hx + 6). split; [right; auto|]. specialize (Ex2 L).
    pose proof (rnd_add_err (B2R x) 360 (fmt_B2R x) (fmt_IZR 360 ltac:(cbn; lia))) as E. rewrite <- Vy in E. rewrite (Rabs_pos_eq (B2R x + 360)) in E by lra.
    replace (B2R (@fadd N x (@flit N 360%dec)) - 60 * (hx + 6)) with ((B2R (@fadd N x (@flit N 360%dec)) - (B2R x + 360)) + (B2R x - 60 * hx)) by ring.
    eapply Rle_trans; [apply Rabs_triang|]. assert (u * (B2R x + 360) <= u * 360) by (apply Rmult_le_compat_l; lra). lra.
  - rewrite (mod360_F_in lm (S n) x Fx) by lra. exists x. split; [reflexivity|]. split; [exact Fx|]. split; [lra|].
    exists hx. split; [auto|]. lra.
Qed.
Lemma sat_F (d v : f32) M D : fin d -> fin v -> B2R v = M -> B2R d = rnd D -> 0 < M -> 0 <= D <= M -> Rabs (rnd D - D) <= u * D ->
  fin (@fdiv N d v) /\ 0 <= B2R (@fdiv N d v) <= 1 /\ Rabs (M * B2R (@fdiv N d v) - D) <= 2.01 * u * M.
Proof.
  intros Fd Fv Vv Vd HM HD ED. pose proof u16 as U. pose proof eta16 as Eta. pose proof b127_big.
  assert (Hd : 0 <= rnd D <= M) by (split; [apply rnd_ge_fmt; [apply fmt_0|lra]|apply rnd_le_fmt; [rewrite <- Vv; apply fmt_B2R|lra]]).
  assert (Hq : 0 <= rnd D / M <= 1).
  { split; [apply div_nonneg; lra|]. apply Rmult_le_reg_r with M; [lra|]. unfold Rdiv. rewrite Rmult_assoc, Rinv_l by lra. lra. }
  destruct (div_ok lm d v Fd) as [Fs Vs]; [lra|rewrite Vd, Vv; apply Rabs_le; lra|]. rewrite Vd, Vv in Vs.
  pose proof (rnd_01 _ Hq) as Hs. rewrite <- Vs in Hs. split; [exact Fs|]. split; [exact Hs|].
  pose proof (rnd_err_abs (rnd D / M)) as E. rewrite <- Vs in E. rewrite (Rabs_pos_eq (rnd D / M)) in E by lra.
  set (s := B2R (@fdiv N d v)) in *. clearbody s.
  replace (M * s - D) with (M * (s - rnd D / M) + (rnd D - D)) by (field; lra). eapply Rle_trans; [apply Rabs_triang|].
  rewrite Rabs_mult, (Rabs_pos_eq M) by lra. assert (u * (rnd D / M) <= u * 1) by (apply Rmult_le_compat_l; lra).
  assert (M * Rabs (s - rnd D / M) <= M * (1.001 * u)) by (apply Rmult_le_compat_l; lra).
  assert (u * D <= u * M) by (apply Rmult_le_compat_l; lra). assert (0 < u * M) by (apply Rmult_lt_0_compat; lra). lra.
Qed.
Lemma toHSV_F (t : Vector3 f32) : allV fin t -> allV (fun x => 0 <= B2R x <= bpow radix2 120) t ->
  exists h s v : f32, (forall n, toHSV N (S (S n)) t = Ret (V3 h s v)) /\ fin h /\ fin s /\ fin v /\
    0 <= B2R h <= 360 /\ 0 <= B2R s <= 1 /\ B2R v = max3 (tR t) /\ (v = v0 t \/ v = v1 t \/ v = v2 t) /\
    Rabs (B2R v * B2R s - (max3 (tR t) - min3 (tR t))) <= 2.01 * u * B2R v /\
    exists q, (q = hue60 (tR t) \/ (hue60 (tR t) < 0 /\ q = hue60 (tR t) + 6)) /\ Rabs (B2R h - 60 * q) <= 602 * u.
Proof.
  destruct t as [t0 t1 t2]. intros Ft (H0 & H1 & H2). cbn [v0 v1 v2] in H0, H1, H2. pose proof u16 as U. pose proof eta16 as Eta. pose proof b127_big as BB.
  destruct (max3_F (V3 t0 t1 t2) Ft) as [FM VM]. destruct (min3_F (V3 t0 t1 t2) Ft) as [Fm Vm]. cbn [v0 v1 v2] in FM, VM, Fm, Vm.
  assert (Hin : let v := maxi N (maxi N t0 t1) t2 in v = t0 \/ v = t1 \/ v = t2).
  { cbv zeta. unfold maxi. destruct (@fltb N t1 t0), (@fltb N t2 _); auto. }
  cbv zeta in Hin.
  unfold toHSV. cbv zeta. cbn [v0 v1 v2].
  change (vref {| v0 := t0; v1 := t1; v2 := t2 |} 0) with t0. change (vref {| v0 := t0; v1 := t1; v2 := t2 |} 1) with t1. change (vref {| v0 := t0; v1 := t1; v2 := t2 |} 2) with t2.
  pose proof (max3_ge (tR (V3 t0 t1 t2))) as (A0 & A1 & A2). pose proof (min3_le (tR (V3 t0 t1 t2))) as (B0 & B1 & B2).
  pose proof (max3_in (tR (V3 t0 t1 t2))) as CM. pose proof (min3_in (tR (V3 t0 t1 t2))) as Cm.
  destruct Ft as (F0 & F1 & F2).
  assert (RM : 0 <= min3 (tR (V3 t0 t1 t2)) <= max3 (tR (V3 t0 t1 t2)) /\ max3 (tR (V3 t0 t1 t2)) <= bpow radix2 120).
  { unfold tR in *. cbn [v0 v1 v2] in *. destruct CM as [?|[?|?]], Cm as [?|[?|?]]; lra. }
  set (v := maxi N (maxi N t0 t1) t2) in *. set (mi := mini N (mini N t0 t1) t2) in *.
  assert (B127 : bpow radix2 127 = 128 * bpow radix2 120) by (change 127%Z with (7 + 120)%Z; rewrite (bpow_plus radix2 7 120); reflexivity).
  destruct (sub_ok lm v mi FM Fm) as [Fd Vd]; [rewrite VM, Vm; apply Rabs_le; lra|]. rewrite VM, Vm in Vd.
  pose proof (rnd_add_err (B2R v) (- B2R mi) (fmt_B2R v) (fmt_opp _ (fmt_B2R mi))) as ED. rewrite VM, Vm in ED.
  change (max3 (tR (V3 t0 t1 t2)) + - min3 (tR (V3 t0 t1 t2))) with (max3 (tR (V3 t0 t1 t2)) - min3 (tR (V3 t0 t1 t2))) in ED. rewrite (Rabs_pos_eq (max3 (tR (V3 t0 t1 t2)) - min3 (tR (V3 t0 t1 t2)))) in ED by lra.
  destruct l0 as [FZ VZ].
  (* saturation *)
  assert (S : exists s, (if @feqb N v (@flit N 0%dec) then @flit N 0%dec else @fdiv N (@fsub N v mi) v) = s /\ fin s /\ 0 <= B2R s <= 1 /\
     Rabs (B2R v * B2R s - (max3 (tR (V3 t0 t1 t2)) - min3 (tR (V3 t0 t1 t2)))) <= 2.01 * u * B2R v).
  { eexists. split; [reflexivity|]. rewrite eqb_ok by assumption. rewrite VZ, VM. case Req_bool_spec; intros E.
    - split; [exact FZ|]. rewrite VZ. split; [lra|]. replace (max3 (tR (V3 t0 t1 t2)) * 0 - (max3 (tR (V3 t0 t1 t2)) - min3 (tR (V3 t0 t1 t2)))) with 0 by lra. rewrite Rabs_R0, E. lra.
    - apply sat_F; auto; lra. }
  destruct S as (s & Es & Fs & Hs & Bs).
  (* hue *)
  assert (H : exists h, (forall n, mod360 N (S (S n)) (hsv_hue_raw N (V3 t0 t1 t2)) = Ret h) /\ fin h /\ 0 <= B2R h <= 360 /\
     exists q, (q = hue60 (tR (V3 t0 t1 t2)) \/ (hue60 (tR (V3 t0 t1 t2)) < 0 /\ q = hue60 (tR (V3 t0 t1 t2)) + 6)) /\ Rabs (B2R h - 60 * q) <= 602 * u).
  { assert (W : forall x, hsv_hue_raw N (V3 t0 t1 t2) = x -> (fin x /\ -64 <= B2R x <= 310 /\ Rabs (B2R x - 60 * hue60 (tR (V3 t0 t1 t2))) <= 545 * u /\ (0 <= hue60 (tR (V3 t0 t1 t2)) -> 0 <= B2R x) /\ (B2R x < 0 -> Rabs (B2R x - 60 * hue60 (tR (V3 t0 t1 t2))) <= 241 * u)) ->
      exists h, (forall n, mod360 N (S (S n)) (hsv_hue_raw N (V3 t0 t1 t2)) = Ret h) /\ fin h /\ 0 <= B2R h <= 360 /\
      exists q, (q = hue60 (tR (V3 t0 t1 t2)) \/ (hue60 (tR (V3 t0 t1 t2)) < 0 /\ q = hue60 (tR (V3 t0 t1 t2)) + 6)) /\ Rabs (B2R h - 60 * q) <= 602 * u).
    { intros x Ex (P1 & P2 & P3 & P4 & P5). destruct (step_F 0 x (hue60 (tR (V3 t0 t1 t2))) P1 P2 P3 P4 P5) as (h & Eh & Q). exists h. split; [|exact Q].
      intros n. rewrite Ex. apply (mod360_mono N 2 (S (S n))); [exact Eh|lia]. }
    unfold hsv_hue_raw in W |- *. cbv zeta in W |- *.
    change (vref {| v0 := t0; v1 := t1; v2 := t2 |} 0) with t0 in W |- *. change (vref {| v0 := t0; v1 := t1; v2 := t2 |} 1) with t1 in W |- *. change (vref {| v0 := t0; v1 := t1; v2 := t2 |} 2) with t2 in W |- *.
    fold v mi in W |- *. rewrite !eqb_ok in W |- * by assumption. rewrite VM, Vm in W |- *.
    unfold hue60 in W |- *. cbv zeta in W |- *.
    set (M := max3 (tR (V3 t0 t1 t2))) in *. set (m := min3 (tR (V3 t0 t1 t2))) in *. unfold tR in *. cbn [v0 v1 v2] in *. clearbody M m.
    destruct (Req_EM_T M m) as [E|E].
    { rewrite (Req_bool_true M m) in W |- * by exact E. eapply W; [reflexivity|]. rewrite VZ. repeat split; auto; try lra; intros; rewrite ?Rmult_0_r, Rminus_0_r, Rabs_R0; lra. }
    rewrite (Req_bool_false M m) in W |- * by exact E. assert (D : 0 < M - m <= bpow radix2 120) by lra.
    destruct (Req_EM_T M (B2R t0)) as [E0|E0].
    { rewrite (Req_bool_true M (B2R t0)) in W |- * by exact E0. eapply W; [reflexivity|].
      destruct (hue_quot t1 t2 _ (M - m) F1 F2 Fd D Vd ED) as (Fx & Hx & Ex & S1 & S2); [apply Rabs_le; lra|].
      apply Rabs_le_inv in Hx. repeat split; auto; try lra.
      intros K. apply S1. apply Rmult_le_reg_r with (/ (M - m)); [apply Rinv_0_lt_compat; lra|]. rewrite Rmult_0_l. exact K. }
    rewrite (Req_bool_false M (B2R t0)) in W |- * by exact E0.
    destruct (Req_EM_T M (B2R t1)) as [E1|E1].
    { rewrite (Req_bool_true M (B2R t1)) in W |- * by exact E1. eapply W; [reflexivity|].
      destruct (hue_quot t2 t0 _ (M - m) F2 F0 Fd D Vd ED) as (Fx & Hx & Ex & _); [apply Rabs_le; lra|].
      clear Es. set (x := @fdiv N (@fmul N _ _) _) in *. clearbody x. apply Rabs_le_inv in Hx. destruct l120 as [FL VL].
      destruct (add_ok lm x _ Fx FL) as [Fy Vy]; [rewrite VL; apply Rabs_le; lra|]. rewrite VL in Vy.
      pose proof (rnd_add_err (B2R x) 120 (fmt_B2R x) (fmt_IZR 120 ltac:(cbn; lia))) as E'. rewrite <- Vy in E'. rewrite (Rabs_pos_eq (B2R x + 120)) in E' by lra.
      assert (EE : u * (B2R x + 120) <= u * 184) by (apply Rmult_le_compat_l; lra).
      set (y := @fadd N x _) in *. clearbody y. apply Rabs_le_inv in E', Ex. repeat split; auto; try lra; try (apply Rabs_le; lra); intros; lra. }
    rewrite (Req_bool_false M (B2R t1)) in W |- * by exact E1. eapply W; [reflexivity|].
    destruct (hue_quot t0 t1 _ (M - m) F0 F1 Fd D Vd ED) as (Fx & Hx & Ex & _); [apply Rabs_le; lra|].
    clear Es. set (x := @fdiv N (@fmul N _ _) _) in *. clearbody x. apply Rabs_le_inv in Hx. destruct l240 as [FL VL].
    destruct (add_ok lm x _ Fx FL) as [Fy Vy]; [rewrite VL; apply Rabs_le; lra|]. rewrite VL in Vy.
    pose proof (rnd_add_err (B2R x) 240 (fmt_B2R x) (fmt_IZR 240 ltac:(cbn; lia))) as E'. rewrite <- Vy in E'. rewrite (Rabs_pos_eq (B2R x + 240)) in E' by lra.
    assert (EE : u * (B2R x + 240) <= u * 304) by (apply Rmult_le_compat_l; lra).
    set (y := @fadd N x _) in *. clearbody y. apply Rabs_le_inv in E', Ex. repeat split; auto; try lra; try (apply Rabs_le; lra); intros; lra. }
  destruct H as (h & Eh & Fh & Hh & Q). exists h, s, v. split; [|auto 20].
  intros n. rewrite Eh. cbn [bind]. rewrite Es. reflexivity.
Qed.

Lemma hsv_to_range (t : Vector3 f32) : allV fin t -> allV (fun x => 0 <= B2R x <= bpow radix2 120) t ->
  exists h s v : f32, terminates_with (fun n => toHSV N n t) (Ret (V3 h s v)) /\ allV fin (V3 h s v) /\
    0 <= B2R h <= 360 /\ 0 <= B2R s <= 1 /\ (v = v0 t \/ v = v1 t \/ v = v2 t) /\ allV (fun x => B2R x <= B2R v) t.
Proof.
  intros Ft Ht. destruct (toHSV_F t Ft Ht) as (h & s & v & E & Fh & Fs & Fv & Hh & Hs & Vv & Hv & _). exists h, s, v.
  split; [|split; [|split; [|split; [|split]]]]; auto.
  - exists 2%nat. intros [|[|n]] L; try lia. split; [apply E|discriminate].
  - unfold allV; cbn [v0 v1 v2]; auto.
  - pose proof (max3_ge (tR t)) as K. rewrite Vv. exact K.
Qed.
Lemma hsv_from_range (h s v : f32) : fin h -> fin s -> fin v -> Rabs (B2R h) <= bpow radix2 33 -> 0 <= B2R s <= 1 -> 0 <= B2R v ->
  exists t : Vector3 f32, terminates_with (fun n => fromHSV N n (V3 h s v)) (Ret t) /\ allV fin t /\
    allV (fun x => 0 <= B2R x <= B2R v) t /\ (B2R (v0 t) = B2R v \/ B2R (v1 t) = B2R v \/ B2R (v2 t) = B2R v) /\
    exists m, (m = B2R (v0 t) \/ m = B2R (v1 t) \/ m = B2R (v2 t)) /\ allV (fun x => m <= B2R x) t /\
      Rabs (m - B2R v * (1 - B2R s)) <= 3.01 * u * B2R v + eta.
Proof.
  intros Fh Fs Fv Hh Hs Hv. destruct (mod360_F_ex lm h Fh Hh) as (n & y & Ey & Fy & Hy).
  destruct (fromHSV_F 0 y s v Fy Fs Fv Hy Hs Hv) as (t & w & Et & Ft & (V0 & V1 & V2) & (W0 & W1 & W2) & Z & O & _).
  assert (FM : forall y, 0 <= y <= 1 -> fv (B2R s) 1 (B2R v) <= fv (B2R s) y (B2R v) <= B2R v).
  { intros z Hz. split; [apply fv_mono; lra|]. rewrite <- (fv_0 (B2R s) (B2R v)) at 2 by apply fmt_B2R. apply fv_mono; lra. }
  assert (F0 : 0 <= fv (B2R s) 1 (B2R v)).
  { rewrite fv_1 by apply fmt_B2R. apply rnd_ge_fmt; [apply fmt_0|]. pose proof (rnd_01 (1 - B2R s) ltac:(lra)). nra. }
  pose proof (FM _ W0) as M0. pose proof (FM _ W1) as M1. pose proof (FM _ W2) as M2. rewrite <- V0 in M0. rewrite <- V1 in M1. rewrite <- V2 in M2.
  pose proof (fv_0 (B2R s) (B2R v) (fmt_B2R v)) as Fz. pose proof (fv_err (B2R s) 1 (B2R v) Hs ltac:(lra) Hv) as Fe. rewrite Rmult_1_r in Fe.
  exists t. split; [|split; [|split; [|split]]].
  - exists (S (S n)). intros m L. split; [|discriminate]. unfold fromHSV in Et |- *. cbn [vref v0 v1 v2] in Et |- *.
    rewrite (mod360_mono N n m _ _ Ey) by lia. rewrite (mod360_F_in lm 0 y Fy Hy) in Et. exact Et.
  - exact Ft.
  - assert (0 <= B2R (v0 t) <= B2R v) by lra. assert (0 <= B2R (v1 t) <= B2R v) by lra. assert (0 <= B2R (v2 t) <= B2R v) by lra. split; [|split]; assumption.
  - destruct Z as [Z|[Z|Z]]; rewrite Z in *; [left|right; left|right; right]; congruence.
  - exists (fv (B2R s) 1 (B2R v)). split; [destruct O as [Z'|[Z'|Z']]; rewrite Z' in *; [left|right; left|right; right]; congruence|].
    split; [split; [apply M0|split; [apply M1|apply M2]]|exact Fe].
Qed.
Lemma hsv_rt_F (t : Vector3 f32) : allV fin t -> allV (fun x => 0 <= B2R x <= bpow radix2 120) t ->
  exists t' : Vector3 f32, terminates_with (fun n => let! h := toHSV N n t in fromHSV N n h) (Ret t') /\ allV fin t' /\
    let M := Rmax (Rmax (B2R (v0 t)) (B2R (v1 t))) (B2R (v2 t)) in
    Rabs (B2R (v0 t') - B2R (v0 t)) <= 24 * u * M + eta /\
    Rabs (B2R (v1 t') - B2R (v1 t)) <= 24 * u * M + eta /\
    Rabs (B2R (v2 t') - B2R (v2 t)) <= 24 * u * M + eta.
Proof.
  intros Ft Ht. pose proof u16 as U. pose proof eta16 as Eta.
  destruct (toHSV_F t Ft Ht) as (h & s & v & E & Fh & Fs & Fv & Hh & Hs & Vv & Hv & Bs & q & Hq & Bq).
  assert (H0 : 0 <= B2R v) by (destruct Ht as (K0 & K1 & K2); destruct Hv as [Hv|[Hv|Hv]]; rewrite Hv; [apply K0|apply K1|apply K2]).
  destruct (fromHSV_F 0 h s v Fh Fs Fv Hh Hs H0) as (t' & w & Et & Ft' & (V0 & V1 & V2) & (W0 & W1 & W2) & _ & _ & q' & Bq' & G0 & G1 & G2).
  exists t'. split; [|split; [exact Ft'|]].
  { exists 2%nat. intros [|[|n]] L; try lia. split; [|discriminate]. rewrite E. cbn [bind].
    unfold fromHSV in Et |- *. cbn [vref v0 v1 v2] in Et |- *. rewrite (mod360_F_in lm 0 h Fh Hh) in Et. rewrite (mod360_F_in lm (S n) h Fh Hh). exact Et. }
  change (Rmax (Rmax (B2R (v0 t)) (B2R (v1 t))) (B2R (v2 t))) with (max3 (tR t)). cbv zeta.
  destruct (hex_exact (tR t) q Hq) as (X0 & X1 & X2). change (v0 (tR t)) with (B2R (v0 t)) in X0. change (v1 (tR t)) with (B2R (v1 t)) in X1. change (v2 (tR t)) with (B2R (v2 t)) in X2.
  rewrite <- Vv in *. set (M := B2R v) in *. set (D := M - min3 (tR t)) in *.
  assert (Hqq : Rabs (q' - q) <= 16.04 * u).
  { replace (q' - q) with ((q' - B2R h / 60) + (B2R h - 60 * q) / 60) by field. eapply Rle_trans; [apply Rabs_triang|].
    unfold Rdiv at 2. rewrite Rabs_mult, (Rabs_pos_eq (/ 60)) by lra. lra. }
  assert (HD : 0 <= D <= M).
  { pose proof (min3_in (tR t)) as Cm. pose proof (min3_le (tR t)) as Lm. pose proof (max3_ge (tR t)) as Lx. unfold tR in Cm, Lm, Lx. cbn [v0 v1 v2] in Cm, Lm, Lx.
    change (V3 (B2R (v0 t)) (B2R (v1 t)) (B2R (v2 t))) with (tR t) in *. rewrite <- Vv in Lx. unfold D. destruct Ht as (K0 & K1 & K2). assert (0 <= B2R (v0 t)) by apply K0. assert (0 <= B2R (v1 t)) by apply K1. assert (0 <= B2R (v2 t)) by apply K2. clear K0 K1 K2. destruct Cm as [?|[?|?]]; lra. }
  assert (K : forall x y z (g : R -> R), x = fv (B2R s) y M -> 0 <= y <= 1 -> Rabs (y - g q') <= 2 * u -> (forall a b, Rabs (g a - g b) <= Rabs (a - b)) -> z = M - D * g q ->
     0 <= g q <= 1 -> Rabs (x - z) <= 24 * u * M + eta).
  { intros x y z g Ex Hy Hg Lip Ez Rg. pose proof (fv_err (B2R s) y M Hs Hy H0) as FE. rewrite <- Ex in FE.
    replace (x - z) with ((x - M * (1 - B2R s * y)) + ((D - M * B2R s) * g q + M * B2R s * ((g q - g q') + (g q' - y)))) by (rewrite Ez; ring).
    eapply Rle_trans; [apply Rabs_triang|].
    assert (T1 : Rabs ((D - M * B2R s) * g q) <= 2.01 * u * M).
    { rewrite Rabs_mult, (Rabs_pos_eq (g q)) by lra. rewrite Rabs_minus_sym in Bs. assert (0 <= Rabs (D - M * B2R s)) by apply Rabs_pos. nra. }
    assert (T2 : Rabs ((g q - g q') + (g q' - y)) <= 18.04 * u).
    { eapply Rle_trans; [apply Rabs_triang|]. rewrite (Rabs_minus_sym (g q')). pose proof (Lip q q') as L. rewrite (Rabs_minus_sym q q') in L. lra. }
    assert (T3 : Rabs (M * B2R s * ((g q - g q') + (g q' - y))) <= 18.04 * u * M).
    { rewrite Rabs_mult, (Rabs_pos_eq (M * B2R s)) by nra. assert (0 <= M * B2R s <= M) by nra.
      apply Rle_trans with (M * (18.04 * u)); [|lra]. apply Rmult_le_compat; auto using Rabs_pos; lra. }
    pose proof (Rabs_triang ((D - M * B2R s) * g q) (M * B2R s * ((g q - g q') + (g q' - y)))). assert (0 <= u * M) by nra. lra. }
  split; [|split].
  - apply (K _ (v0 w) _ gR); auto using gR_lip. apply clamp_range.
  - apply (K _ (v1 w) _ gG); auto using gG_lip. apply clamp_range.
  - apply (K _ (v2 w) _ gB); auto using gB_lip. apply clamp_range.
Qed.
End F.
