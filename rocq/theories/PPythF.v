(** * The length of a two-vector ([SOLVER::PYTHAG]) and [SOLVER::DSIGN] in binary32. *)
From Coq Require Import ZArith Reals Lra Lia Bool List.
From Flocq Require Import Core BinarySingleNaN.
From Verif Require Import Num NumF MVec MSolver F32 PHsvF.
From Verif Require PSpecF.
Local Open Scope R_scope.

Section F.
Context (lm : libm).
Notation N := (FN lm).
Lemma lit1 : fin (@flit N 1.0%dec) /\ B2R (@flit N 1.0%dec) = 1. Proof. f32_val. Qed.
Lemma lit0 : fin (@flit N 0.0%dec) /\ B2R (@flit N 0.0%dec) = 0. Proof. f32_val. Qed.
Lemma lit0' : fin (@flit N 0%dec) /\ B2R (@flit N 0%dec) = 0. Proof. f32_val. Qed.

Lemma big2 : 4 <= bpow radix2 127. Proof. change 4 with (bpow radix2 2). apply bpow_le. lia. Qed.
Lemma root_core (M m : f32) : fin M -> fin m -> 0 <= B2R m <= B2R M -> 0 < B2R M ->
  let c := @fdiv N m M in let r := @fsqrt N (@fadd N (@flit N 1.0%dec) (@fmul N c c)) in let H := sqrt (1 + (B2R m / B2R M) * (B2R m / B2R M)) in
  fin r /\ 1 <= B2R r <= 3 / 2 /\ Rabs (B2R r - H) <= 2.2503 * u * H.
Proof.
  intros FM Fm Hm HM. cbv zeta. set (q := B2R m / B2R M). pose proof u16 as U. pose proof eta16 as Et. pose proof big2 as G.
  assert (Q : 0 <= q <= 1). { unfold q. split; [apply Rmult_le_pos; [lra|left; apply Rinv_0_lt_compat; lra]|]. apply (Rmult_le_reg_r (B2R M)); [lra|]. unfold Rdiv. rewrite Rmult_assoc, Rinv_l by lra. lra. }
  destruct (div_ok lm m M Fm ltac:(lra)) as [Fc Vc]. { fold q. rewrite Rabs_pos_eq; lra. } fold q in Vc.
  assert (C : 0 <= B2R (@fdiv N m M) <= 1). { rewrite Vc. split; [apply rnd_ge_fmt; [apply fmt_0|lra]|apply rnd_le_fmt; [exact (fmt_IZR 1 ltac:(lia))|lra]]. }
  assert (Ec := rnd_err_abs q). rewrite <- Vc in Ec. rewrite (Rabs_pos_eq q) in Ec by lra. apply Rabs_le_inv in Ec.
  set (cf := @fdiv N m M) in *. set (c := B2R cf) in *. clearbody cf.
  assert (C2 : 0 <= c * c <= 1) by (split; [apply Rmult_le_pos; lra|rewrite <- (Rmult_1_l 1); apply Rmult_le_compat; lra]).
  destruct (mul_ok lm cf cf Fc Fc) as [Fp Vp]. { fold c. rewrite Rabs_pos_eq; lra. } fold c in Vp.
  assert (P : 0 <= B2R (@fmul N cf cf) <= 1). { rewrite Vp. split; [apply rnd_ge_fmt; [apply fmt_0|lra]|apply rnd_le_fmt; [exact (fmt_IZR 1 ltac:(lia))|lra]]. }
  assert (Ep := rnd_err_abs (c * c)). rewrite <- Vp in Ep. rewrite (Rabs_pos_eq (c * c)) in Ep by lra. apply Rabs_le_inv in Ep.
  set (pf := @fmul N cf cf) in *. set (p := B2R pf) in *. clearbody pf.
  destruct lit1 as [F1 V1]. destruct (add_ok lm _ _ F1 Fp) as [Fs Vs]. { rewrite V1. fold p. rewrite Rabs_pos_eq; lra. } rewrite V1 in Vs. fold p in Vs.
  assert (S : 1 <= B2R (@fadd N (@flit N 1.0%dec) pf) <= 2). { rewrite Vs. split; [apply rnd_ge_fmt; [exact (fmt_IZR 1 ltac:(lia))|lra]|apply rnd_le_fmt; [exact (fmt_IZR 2 ltac:(lia))|lra]]. }
  assert (Es : Rabs (rnd (1 + p) - (1 + p)) <= u * Rabs (1 + p)) by (apply rnd_add_err; [exact (fmt_IZR 1 ltac:(lia))|apply fmt_B2R]). rewrite <- Vs in Es. rewrite (Rabs_pos_eq (1 + p)) in Es by lra. apply Rabs_le_inv in Es.
  set (sf := @fadd N (@flit N 1.0%dec) pf) in *. set (s := B2R sf) in *. clearbody sf.
  destruct (sqrt_ok lm sf Fs) as [Fr Vr]; [fold s; lra|]. fold s in Vr.
  assert (R1 : 1 <= sqrt s) by (rewrite <- sqrt_1; apply sqrt_le_1_alt; lra). assert (R2 : sqrt s <= 3 / 2). { apply Rsqr_incr_0_var; [|lra]. rewrite Rsqr_sqrt by lra. unfold Rsqr. lra. }
  assert (Er := rnd_err_abs (sqrt s)). rewrite <- Vr in Er. rewrite (Rabs_pos_eq (sqrt s)) in Er by lra. apply Rabs_le_inv in Er.
  split; [exact Fr|]. split.
  { rewrite Vr. split; [apply rnd_ge_fmt; [exact (fmt_IZR 1 ltac:(lia))|lra]|apply rnd_le_fmt; [|lra]]. replace (3 / 2) with (IZR 3 * bpow radix2 (-1)) by (change (bpow radix2 (-1)) with (/ 2); lra). apply fmt_F2R; lia. }
  set (H := sqrt (1 + q * q)). assert (Q2 : 0 <= q * q <= 1) by (split; [apply Rmult_le_pos; lra|rewrite <- (Rmult_1_l 1); apply Rmult_le_compat; lra]).
  assert (H1 : 1 <= H) by (unfold H; apply Rle_trans with (sqrt 1); [rewrite sqrt_1; lra|apply sqrt_le_1_alt; lra]). assert (HH : H * H = 1 + q * q) by (apply sqrt_sqrt; lra). assert (SS : sqrt s * sqrt s = s) by (apply sqrt_sqrt; lra).
  (* c^2 against q^2 *)
  assert (A : Rabs (c * c - q * q) <= 2.0001 * u * (q * q) + 3 * eta).
  { replace (c * c - q * q) with ((c - q) * (c + q)) by ring. rewrite Rabs_mult, (Rabs_pos_eq (c + q)) by lra.
    assert (K : Rabs (c - q) <= u * q + eta) by (apply Rabs_le; lra). assert (c + q <= 2.00001 * q + eta). { assert (u * q <= 0.00001 * q) by (apply Rmult_le_compat_r; rewrite ?U; lra). lra. }
    eapply Rle_trans; [apply Rmult_le_compat; [apply Rabs_pos|lra|exact K|eassumption]|].
    assert (0 <= u * q) by (apply Rmult_le_pos; lra). assert (0 <= eta * q <= eta). { split; [apply Rmult_le_pos; lra|]. rewrite <- (Rmult_1_r eta) at 2. apply Rmult_le_compat_l; lra. }
    assert (u * q * eta <= 0.0001 * eta) by (apply Rmult_le_compat_r; [lra|]; rewrite U; lra). assert (eta * eta <= 0.0001 * eta) by (apply Rmult_le_compat_r; lra).
    replace ((u * q + eta) * (2.00001 * q + eta)) with (2.00001 * (u * (q * q)) + u * q * eta + 2.00001 * (eta * q) + eta * eta) by ring.
    assert (0 <= u * (q * q)) by (apply Rmult_le_pos; lra). lra. }
  apply Rabs_le_inv in A.
  assert (B : Rabs (s - H * H) <= 2.5003 * u * (H * H)).
  { rewrite HH. assert (W : 0 <= u * (q * q) <= u). { split; [apply Rmult_le_pos; lra|]. rewrite <- (Rmult_1_r u) at 2. apply Rmult_le_compat_l; lra. }
    assert (UC : u * (c * c) <= 1.00001 * (u * (q * q)) + eta). { assert (u * (c * c) <= u * (q * q + (2.0001 * u * (q * q) + 3 * eta))) by (apply Rmult_le_compat_l; lra). assert (u * u * (q * q) <= 0.000001 * (u * (q * q))) by (rewrite Rmult_assoc; apply Rmult_le_compat_r; rewrite ?U; lra). assert (u * eta <= 0.1 * eta) by (apply Rmult_le_compat_r; lra). lra. }
    assert (UP : Rabs (p - q * q) <= 3.0002 * (u * (q * q)) + 5 * eta) by (apply Rabs_le; lra). apply Rabs_le_inv in UP.
    assert (UU : u * (1 + p) <= u * (1 + q * q) + 0.00001 * u). { assert (u * p <= u * (q * q + 0.00001)) by (apply Rmult_le_compat_l; [lra|rewrite U in *; lra]). lra. }
    assert (5 * eta <= 0.00001 * u) by (rewrite U; lra).
    apply Rabs_le. lra. }
  assert (D : Rabs (sqrt s - H) <= 1.2502 * u * H).
  { assert (E : Rabs (sqrt s - H) * (sqrt s + H) <= 2.5003 * u * (H * H)). { rewrite <- (Rabs_pos_eq (sqrt s + H)) by lra. rewrite <- Rabs_mult. replace ((sqrt s - H) * (sqrt s + H)) with (s - H * H) by (transitivity (sqrt s * sqrt s - H * H); [now rewrite SS|ring]). exact B. }
    assert (L : 0.99999 * H <= sqrt s). { apply Rsqr_incr_0_var; [|lra]. unfold Rsqr. apply Rabs_le_inv in B. assert (2.5003 * u * (H * H) <= 0.00001 * (H * H)) by (apply Rmult_le_compat_r; [apply Rmult_le_pos; lra|rewrite U; lra]). nra. }
    apply (Rmult_le_reg_r (1.99999 * H)); [lra|]. apply Rle_trans with (Rabs (sqrt s - H) * (sqrt s + H)); [apply Rmult_le_compat_l; [apply Rabs_pos|lra]|]. eapply Rle_trans; [exact E|].
    assert (0 <= u * (H * H)) by (apply Rmult_le_pos; [lra|apply Rmult_le_pos; lra]). lra. }
  apply Rabs_le_inv in D. assert (0 <= u * H) by (apply Rmult_le_pos; lra). assert (u * (u * H) <= 0.00001 * (u * H)) by (apply Rmult_le_compat_r; rewrite ?U; lra).
  assert (u * sqrt s <= u * H + 1.2502 * (u * (u * H))). { assert (u * sqrt s <= u * (H + 1.2502 * u * H)) by (apply Rmult_le_compat_l; lra). lra. }
  assert (eta <= 0.00001 * (u * H)). { apply Rle_trans with (0.00001 * (u * 1)); [rewrite U; lra|]. apply Rmult_le_compat_l; [lra|]. apply Rmult_le_compat_l; lra. }
  apply Rabs_le. lra.
Qed.
Definition maxfloat : R := IZR 16777215 * bpow radix2 104.
Lemma fmt_max : fmt maxfloat. Proof. apply fmt_F2R; lia. Qed.
Lemma max_lt : maxfloat < bpow radix2 128.
Proof. unfold maxfloat. change 128%Z with (24 + 104)%Z. rewrite bpow_plus. apply Rmult_lt_compat_r; [apply bpow_gt_0|]. change (bpow radix2 24) with 16777216. lra. Qed.
(** the length from the larger and the smaller absolute value. *)
Definition lenf (M m : f32) : f32 := @fmul N M (@fsqrt N (@fadd N (@flit N 1.0%dec) (@fmul N (@fdiv N m M) (@fdiv N m M)))).
Lemma hyp_eq M m : 0 < M -> 0 <= m -> M * sqrt (1 + (m / M) * (m / M)) = sqrt (M * M + m * m).
Proof using.
  intros HM Hm. rewrite <- (sqrt_Rsqr M) at 1 by lra. rewrite <- sqrt_mult_alt by apply Rle_0_sqr. f_equal. unfold Rsqr. field. lra.
Qed.
Lemma len_ok (M m : f32) : fin M -> fin m -> 0 <= B2R m <= B2R M -> 0 < B2R M -> let h := sqrt (B2R M * B2R M + B2R m * B2R m) in h <= (1 - 4 * u) * bpow radix2 128 ->
  fin (lenf M m) /\ B2R M <= B2R (lenf M m) /\ Rabs (B2R (lenf M m) - h) <= 3.2505 * u * h + eta.
Proof.
  intros FM Fm Hm HM. cbv zeta. rewrite <- (hyp_eq (B2R M) (B2R m)) by lra. destruct (root_core M m FM Fm Hm HM) as (Fr & (R1 & R2) & E). cbv zeta in E. unfold lenf.
  set (r := @fsqrt N _) in *. clearbody r. set (H := sqrt _) in *. pose proof u16 as U. intros G.
  assert (H1 : 1 <= H) by (unfold H; apply Rle_trans with (sqrt 1); [rewrite sqrt_1; lra|apply sqrt_le_1_alt; pose proof (Rle_0_sqr (B2R m / B2R M)); unfold Rsqr in *; lra]). clearbody H.
  set (h := B2R M * H) in *. assert (h0 : 0 < h) by (apply Rmult_lt_0_compat; lra).
  assert (Ez : Rabs (B2R M * B2R r - h) <= 2.2503 * u * h).
  { unfold h. rewrite <- Rmult_minus_distr_l, Rabs_mult, (Rabs_pos_eq (B2R M)) by lra. replace (2.2503 * u * (B2R M * H)) with (B2R M * (2.2503 * u * H)) by ring. apply Rmult_le_compat_l; lra. }
  apply Rabs_le_inv in Ez. set (z := B2R M * B2R r) in *. assert (Z0 : B2R M <= z) by (unfold z; rewrite <- (Rmult_1_r (B2R M)) at 1; apply Rmult_le_compat_l; lra).
  assert (Zm : z <= maxfloat).
  { assert (M1 : maxfloat = (1 - u) * bpow radix2 128) by (unfold maxfloat; change 128%Z with (24 + 104)%Z; rewrite bpow_plus; change (bpow radix2 24) with 16777216; rewrite U; lra).
    rewrite M1. assert (z <= (1 + 2.2503 * u) * h) by lra. eapply Rle_trans; [eassumption|]. apply Rle_trans with ((1 + 2.2503 * u) * ((1 - 4 * u) * bpow radix2 128)); [apply Rmult_le_compat_l; [rewrite U; lra|exact G]|]. rewrite <- Rmult_assoc. apply Rmult_le_compat_r; [apply bpow_ge_0|]. rewrite U; lra. }
  assert (Rz : B2R M <= rnd z <= maxfloat) by (split; [apply rnd_ge_fmt; [apply fmt_B2R|exact Z0]|apply rnd_le_fmt; [apply fmt_max|exact Zm]]).
  destruct (mul_gen lm M r FM Fr) as [F V]. { fold z. rewrite Rabs_pos_eq by lra. pose proof max_lt. lra. }
  fold z in V. split; [exact F|]. rewrite V. split; [apply Rz|].
  assert (K := rnd_err_abs z). rewrite (Rabs_pos_eq z) in K by lra. apply Rabs_le_inv in K.
  assert (u * z <= u * h + 0.0001 * (u * h)). { assert (u * z <= u * (h + 2.2503 * u * h)) by (apply Rmult_le_compat_l; rewrite ?U in *; lra). assert (0 <= u * h) by (apply Rmult_le_pos; lra). assert (u * (u * h) <= 0.00001 * (u * h)) by (apply Rmult_le_compat_r; rewrite ?U; lra). lra. }
  assert (0 <= u * h) by (apply Rmult_le_pos; lra).
  apply Rabs_le. lra.
Qed.
Lemma abs_val (x : f32) : fin x -> fin (@ffabs N x) /\ B2R (@ffabs N x) = Rabs (B2R x). Proof. apply abs_ok. Qed.
Lemma PYTHAG_eq (a b : f32) : fin a -> fin b ->
  PYTHAG N a b = if Rlt_bool (Rabs (B2R b)) (Rabs (B2R a)) then lenf (@ffabs N a) (@ffabs N b) else if Req_bool (B2R b) 0 then @flit N 0%dec else lenf (@ffabs N b) (@ffabs N a).
Proof.
  intros Fa Fb. destruct (abs_ok lm a Fa) as [Aa Va]. destruct (abs_ok lm b Fb) as [Ab Vb]. destruct lit0 as [F0 V0].
  unfold PYTHAG. cbv zeta. rewrite !ltb_ok by assumption. rewrite Va, Vb, V0. destruct (Rlt_bool _ (Rabs (B2R a))); [reflexivity|].
  destruct (Req_bool_spec (B2R b) 0) as [Z|Z].
  - rewrite Z, Rabs_R0, Rlt_bool_false by lra. reflexivity.
  - rewrite Rlt_bool_true by (apply Rabs_pos_lt, Z). reflexivity.
Qed.
Lemma pyth_ok (a b : f32) : fin a -> fin b -> let h := sqrt (B2R a * B2R a + B2R b * B2R b) in h <= (1 - 4 * u) * bpow radix2 128 ->
  fin (PYTHAG N a b) /\ Rmax (Rabs (B2R a)) (Rabs (B2R b)) <= B2R (PYTHAG N a b) /\ Rabs (B2R (PYTHAG N a b) - h) <= 3.2505 * u * h + eta.
Proof.
  intros Fa Fb. cbv zeta. intros G. rewrite PYTHAG_eq by assumption. destruct (abs_ok lm a Fa) as [Aa Va]. destruct (abs_ok lm b Fb) as [Ab Vb].
  assert (S : forall x, Rabs x * Rabs x = x * x) by (intros; rewrite <- Rabs_mult; apply Rabs_pos_eq; apply Rle_0_sqr).
  assert (Pa := Rabs_pos (B2R a)). assert (Pb := Rabs_pos (B2R b)).
  destruct (Rlt_bool_spec (Rabs (B2R b)) (Rabs (B2R a))) as [L|L].
  - rewrite Rmax_left by lra. pose proof (len_ok (@ffabs N a) (@ffabs N b) Aa Ab) as K. cbv zeta in K. rewrite Va, Vb, !S in K. apply K; lra.
  - rewrite Rmax_right by lra. destruct (Req_bool_spec (B2R b) 0) as [Z|Z].
    + destruct lit0' as [F0 V0]. rewrite Z in *. rewrite Rabs_R0 in *. assert (Rabs (B2R a) = 0) by lra. assert (Za : B2R a = 0) by (destruct (Req_dec (B2R a) 0) as [?|NZ]; [assumption|apply Rabs_pos_lt in NZ; lra]). rewrite Za, V0.
      replace (0 * 0 + 0 * 0) with 0 by ring. rewrite sqrt_0. split; [exact F0|]. split; [lra|]. rewrite Rminus_0_r, Rabs_R0. pose proof eta_pos. lra.
    + apply Rabs_pos_lt in Z. pose proof (len_ok (@ffabs N b) (@ffabs N a) Ab Aa) as K. cbv zeta in K. rewrite Va, Vb, !S, (Rplus_comm (B2R b * B2R b)) in K. apply K; lra.
Qed.
Lemma abs_same (a b : f32) : fin a -> fin b -> Rabs (B2R a) = Rabs (B2R b) -> @ffabs N a = @ffabs N b.
Proof.
  intros Fa Fb E. destruct (abs_ok lm a Fa) as [Aa Va]. destruct (abs_ok lm b Fb) as [Ab Vb].
  apply B2R_Bsign_inj; [exact Aa|exact Ab|congruence|]. destruct a, b; try discriminate; reflexivity.
Qed.
Lemma pyth_sym (a b : f32) : fin a -> fin b -> PYTHAG N a b = PYTHAG N b a.
Proof.
  intros Fa Fb. rewrite !PYTHAG_eq by assumption. destruct (Rtotal_order (Rabs (B2R a)) (Rabs (B2R b))) as [L|[E|L]].
  - rewrite Rlt_bool_false, Rlt_bool_true by lra. rewrite Req_bool_false; [reflexivity|]. intros Z. rewrite Z, Rabs_R0 in L. pose proof (Rabs_pos (B2R a)). lra.
  - rewrite !Rlt_bool_false by lra. rewrite (abs_same a b Fa Fb E). destruct (Req_bool_spec (B2R b) 0) as [Z|Z], (Req_bool_spec (B2R a) 0) as [Z'|Z']; try reflexivity; exfalso.
    + rewrite Z, Rabs_R0 in E. apply Rabs_pos_lt in Z'. lra.
    + rewrite Z', Rabs_R0 in E. apply Rabs_pos_lt in Z. lra.
  - rewrite Rlt_bool_true, Rlt_bool_false by lra. rewrite Req_bool_false; [reflexivity|]. intros Z. rewrite Z, Rabs_R0 in L. pose proof (Rabs_pos (B2R b)). lra.
Qed.
Lemma pyth_signs (a b : f32) : PYTHAG N (@fopp N a) b = PYTHAG N a b /\ PYTHAG N a (@fopp N b) = PYTHAG N a b.
Proof.
  assert (K : forall x : f32, @ffabs N (@fopp N x) = @ffabs N x) by (intros x; destruct x; reflexivity).
  unfold PYTHAG. now rewrite !K.
Qed.
Lemma len_axis (M m : f32) : fin M -> fin m -> 0 < B2R M -> B2R m = 0 -> lenf M m = M.
Proof.
  intros FM Fm HM Zm. unfold lenf. pose proof big2 as G. destruct lit1 as [F1 V1].
  destruct (div_ok lm m M Fm ltac:(lra)) as [Fc Vc]. { rewrite Zm. unfold Rdiv. rewrite Rmult_0_l, Rabs_R0. lra. } rewrite Zm in Vc. unfold Rdiv in Vc. rewrite Rmult_0_l, rnd_0 in Vc.
  destruct (mul_ok lm _ _ Fc Fc) as [Fp Vp]. { rewrite Vc, Rmult_0_l, Rabs_R0. lra. } rewrite Vc, Rmult_0_l, rnd_0 in Vp.
  destruct (add_ok lm _ _ F1 Fp) as [Fs Vs]. { rewrite V1, Vp, Rabs_pos_eq; lra. } rewrite V1, Vp, Rplus_0_r, rnd_id in Vs by exact (fmt_IZR 1 ltac:(lia)).
  destruct (sqrt_ok lm _ Fs) as [Fr Vr]; [rewrite Vs; lra|]. rewrite Vs, sqrt_1, rnd_id in Vr by exact (fmt_IZR 1 ltac:(lia)).
  destruct (mul_gen lm M _ FM Fr) as [F V]. { rewrite Vr, Rmult_1_r, rnd_id by apply fmt_B2R. apply (abs_B2R_lt_emax 24 128). } rewrite Vr, Rmult_1_r, rnd_id in V by apply fmt_B2R.
  apply PSpecF.B2R_eq; [exact F|exact FM| |exact V]. apply Rgt_not_eq. rewrite V. exact HM.
Qed.
Lemma pyth_axis (a z : f32) : fin a -> fin z -> B2R z = 0 -> PYTHAG N a z = @ffabs N a /\ PYTHAG N z a = @ffabs N a.
Proof.
  intros Fa Fz Z. rewrite (pyth_sym z a) by assumption. cut (PYTHAG N a z = @ffabs N a); [now split|]. rewrite PYTHAG_eq by assumption. destruct (abs_ok lm a Fa) as [Aa Va]. destruct (abs_ok lm z Fz) as [Az Vz].
  rewrite Z, Rabs_R0 in *. destruct (Rlt_bool_spec 0 (Rabs (B2R a))) as [L|L].
  - apply len_axis; try assumption. lra.
  - rewrite Req_bool_true by reflexivity. assert (E : B2R a = 0) by (destruct (Req_dec (B2R a) 0) as [?|NZ]; [assumption|apply Rabs_pos_lt in NZ; lra]). destruct (zero_inv a Fa E) as [s ->]. destruct s; vm_compute; reflexivity.
Qed.
(** a NaN in the second argument is lost. *)
Lemma pyth_nan_lost (a : f32) : PYTHAG N a B754_nan = @flit N 0%dec.
Proof. unfold PYTHAG. cbv zeta. destruct a; reflexivity. Qed.
Lemma pyth_nan_kept (b : f32) : is_nan b = false -> B2SF b <> SpecFloat.S754_zero true -> B2SF b <> SpecFloat.S754_zero false -> PYTHAG N B754_nan b = B754_nan.
Proof. intros H1 H2 H3. destruct b as [[|]|[|]| |[|] m e E]; try discriminate; try (exfalso; apply H2; reflexivity); try (exfalso; apply H3; reflexivity); reflexivity. Qed.
Lemma pyth_inf_nan : PYTHAG N (B754_infinity false) (B754_infinity false) = B754_nan. Proof. reflexivity. Qed.
Lemma dsign_ok (a b : f32) : fin a -> fin b -> fin (DSIGN N a b) /\ B2R (DSIGN N a b) = if Rlt_bool 0 (B2R b) then Rabs (B2R a) else - Rabs (B2R a).
Proof.
  intros Fa Fb. destruct lit0' as [F0 V0]. destruct (abs_ok lm a Fa) as [Aa Va]. unfold DSIGN. rewrite ltb_ok by assumption. rewrite V0. destruct (Rlt_bool 0 (B2R b)); [now split|].
  destruct (opp_ok lm _ Aa) as [F V]. split; [exact F|]. rewrite V, Va. reflexivity.
Qed.
End F.
Lemma pyth_nan_refuted lm : exists a b : f32, is_nan b = true /\ is_nan (PYTHAG (FN lm) a b) = false.
Proof. exists (@flit (FN lm) 1%dec), B754_nan. split; vm_compute; reflexivity. Qed.
Lemma pyth_case lm : let a := @flit (FN lm) 3%dec in let b := @flit (FN lm) (-4)%dec in
  is_finite a = true /\ is_finite b = true /\ B2R a * B2R a + B2R b * B2R b = 25 /\ B2SF (PYTHAG (FN lm) a b) = B2SF (@flit (FN lm) 5%dec).
Proof.
  assert (A : fin (@flit (FN lm) 3%dec) /\ B2R (@flit (FN lm) 3%dec) = 3) by f32_val. assert (B : fin (@flit (FN lm) (-4)%dec) /\ B2R (@flit (FN lm) (-4)%dec) = -4) by f32_val.
  cbv zeta. destruct A as [Fa Va], B as [Fb Vb]. rewrite Va, Vb. split; [exact Fa|]. split; [exact Fb|]. split; [lra|]. vm_compute. reflexivity.
Qed.
