(** * The constructor of spectra from other grids in binary32. *)
From Coq Require Import ZArith Reals Lra Lia List Bool.
From Flocq Require Import Core BinarySingleNaN.
From Verif Require Import Num NumF MVec MTri MSpectrum F32 PSpecF PHsvF PFetchI.
Import ListNotations.
Local Open Scope R_scope.

Section F.
Context (lm : libm).
Notation N := (FN lm).
Definition pos_F (n : Z) (lo hi t : f32) : f32 := @fdiv N (@fmul N (@fofZ N (n - 1)) (@fsub N t lo)) (@fsub N hi lo).
(** ** Memory safety. *)
Lemma fetch_safe_gen (s : list f32) (lo hi t : f32) z : (0 < length s)%nat -> f32_toint (pos_F (Z.of_nat (length s)) lo hi t) = Some z -> (z < 2147483647)%Z ->
  exists y, fetch N s (Z.of_nat (length s)) lo hi t = Ret y.
Proof.
  intros L E B. unfold fetch. unfold pos_F in E. cbv zeta.
  change (@ftoint N (@fdiv N (@fmul N (@fofZ N (Z.of_nat (length s) - 1)) (@fsub N t lo)) (@fsub N hi lo))) with (f32_toint (@fdiv N (@fmul N (@fofZ N (Z.of_nat (length s) - 1)) (@fsub N t lo)) (@fsub N hi lo))).
  rewrite E. cbn [of_option bind]. replace (z =? 2147483647)%Z with false by (symmetry; apply Z.eqb_neq; lia).
  destruct (Z.leb_spec (Z.of_nat (length s) - 1) z). { rewrite (arr_get_in lm B754_nan) by lia. eauto. }
  destruct (Z.leb_spec z 0). { rewrite (arr_get_in lm B754_nan) by lia. eauto. }
  rewrite !(arr_get_in lm B754_nan) by lia. cbn [bind]. eauto.
Qed.
Lemma wav_ok i : (i < 400)%nat -> fin (@fadd N (@flit N 380%dec) (@fofZ N (Z.of_nat i))) /\ B2R (@fadd N (@flit N 380%dec) (@fofZ N (Z.of_nat i))) = IZR (380 + Z.of_nat i).
Proof.
  intros I. destruct (v380 lm) as [F1 V1]. destruct (ofZ_ok lm (Z.of_nat i) ltac:(lia)) as [F2 V2].
  assert (Big : 1048576 <= bpow radix2 127) by (change 1048576 with (bpow radix2 20); apply bpow_le; lia).
  assert (Ri : 0 <= IZR (Z.of_nat i) <= 399) by (split; apply IZR_le; lia).
  destruct (add_ok lm (@flit N 380%dec) (@fofZ N (Z.of_nat i)) F1 F2) as [F3 V3]. { rewrite V1, V2, Rabs_pos_eq; lra. }
  rewrite V1, V2, rnd_id in V3 by (rewrite <- plus_IZR; apply fmtZ; lia). split; [exact F3|]. rewrite V3, plus_IZR. reflexivity.
Qed.
Lemma pos_bound (n : Z) (lo hi t : f32) : (1 <= n <= 65536)%Z -> fin lo -> fin hi -> fin t -> Rabs (B2R lo) <= 4096 -> Rabs (B2R hi) <= 4096 -> Rabs (B2R t) <= 4096 ->
  B2R lo + 1 <= B2R hi -> exists z, f32_toint (pos_F n lo hi t) = Some z /\ (z < 2147483647)%Z.
Proof.
  intros Hn Fl Fh Ft Bl Bh Bt D. destruct (ofZ_ok lm (n - 1) ltac:(lia)) as [Fn Vn]. assert (Rn : 0 <= IZR (n - 1) <= 65535) by (split; apply IZR_le; lia).
  assert (Big : 1125899906842624 <= bpow radix2 127) by (change 1125899906842624 with (bpow radix2 50); apply bpow_le; lia).
  apply Rabs_le_inv in Bl, Bh, Bt.
  assert (G : forall a b : Z, (Z.abs a <= 2 ^ 24)%Z -> (0 <= b)%Z -> fmt (IZR (a * 2 ^ b))).
  { intros a b A C. rewrite mult_IZR. change 2%Z with (radix_val radix2). rewrite IZR_Zpower by exact C. apply fmt_F2R; lia. }
  destruct (sub_ok lm t lo Ft Fl) as [Fa Va]; [apply Rabs_le; lra|]. assert (Ra : Rabs (rnd (B2R t - B2R lo)) <= 8192) by (apply rnd_abs_le; [apply fmtZ; lia|apply Rabs_le; lra]).
  destruct (sub_ok lm hi lo Fh Fl) as [Fb Vb]; [apply Rabs_le; lra|]. assert (Rb : 1 <= rnd (B2R hi - B2R lo)) by (apply rnd_ge_fmt; [apply fmt_1|lra]).
  assert (P0 : Rabs (IZR (n - 1) * rnd (B2R t - B2R lo)) <= 536870912). { rewrite Rabs_mult, (Rabs_pos_eq (IZR _)) by lra. pose proof (Rabs_pos (rnd (B2R t - B2R lo))). nra. }
  destruct (mul_ok lm _ _ Fn Fa) as [Fc Vc]; [rewrite Vn, Va; lra|]. rewrite Vn, Va in Vc.
  assert (Rc : Rabs (B2R (@fmul N (@fofZ N (n - 1)) (@fsub N t lo))) <= 536870912) by (rewrite Vc; apply rnd_abs_le; [apply (G 1%Z 29%Z); lia|exact P0]).
  set (w := B2R (@fmul N (@fofZ N (n - 1)) (@fsub N t lo))) in *.
  assert (Q : Rabs (w / B2R (@fsub N hi lo)) <= 536870912).
  { rewrite Vb. unfold Rdiv. rewrite Rabs_mult, (Rabs_pos_eq (/ _)) by (left; apply Rinv_0_lt_compat; lra).
    assert (/ rnd (B2R hi - B2R lo) <= 1) by (rewrite <- Rinv_1; apply Rinv_le; lra). assert (0 < / rnd (B2R hi - B2R lo)) by (apply Rinv_0_lt_compat; lra). pose proof (Rabs_pos w). nra. }
  destruct (div_ok lm _ (@fsub N hi lo) Fc) as [Fd Vd]; [lra|fold w; lra|]. fold w in Vd. fold (pos_F n lo hi t) in Fd, Vd.
  assert (Rd : Rabs (B2R (pos_F n lo hi t)) <= 536870912) by (rewrite Vd; apply rnd_abs_le; [apply (G 1%Z 29%Z); lia|exact Q]). apply Rabs_le_inv in Rd.
  eexists. split; [apply toint_some; [exact Fd|change (IZR (- 2 ^ 31)) with (-2147483648); change (IZR (2 ^ 31 - 1)) with 2147483647; lra]|].
  apply Z.le_lt_trans with 536870912%Z; [|lia]. rewrite <- (Ztrunc_IZR 536870912). apply Ztrunc_le. lra.
Qed.
Lemma resample_safe (s : list f32) (lo hi : f32) : (1 <= Z.of_nat (length s) <= 65536)%Z -> fin lo -> fin hi -> Rabs (B2R lo) <= 4096 -> Rabs (B2R hi) <= 4096 -> B2R lo + 1 <= B2R hi ->
  exists r, S_of_samples N s (Z.of_nat (length s)) lo hi = Ret r /\ length r = 400%nat.
Proof.
  intros L Fl Fh Bl Bh D. unfold S_of_samples.
  destruct (mapM_all (fun i => fetch N s (Z.of_nat (length s)) lo hi (@fadd N (@flit N 380%dec) (@fofZ N (Z.of_nat i)))) (fun _ _ => True) (seq 0 400)) as (r & E & P).
  - intros i I. apply in_seq in I. destruct (wav_ok i ltac:(lia)) as [F V].
    destruct (pos_bound (Z.of_nat (length s)) lo hi _ ltac:(lia) Fl Fh F Bl Bh) as (z & Ez & Bz); [|exact D|].
    { rewrite V, Rabs_pos_eq; [apply IZR_le; lia|apply (IZR_le 0); lia]. }
    destruct (fetch_safe_gen s lo hi _ z ltac:(lia) Ez Bz) as [y Y]. exists y. auto.
  - exists r. split; [exact E|]. pose proof (Forall2_len _ _ _ P) as Q. rewrite seq_length in Q. congruence.
Qed.
(** ** Undefined behaviour. *)
Lemma mapM_ub {A B} (f : A -> outcome B) a l : f a = UB -> mapM f (a :: l) = UB.
Proof. intros E. cbn [mapM]. rewrite E. reflexivity. Qed.
Lemma fetch_empty n (lo hi t : f32) : fetch N [] n lo hi t = UB.
Proof.
  unfold fetch. cbv zeta. destruct (@ftoint N _) as [z|]; [|reflexivity]. cbn [of_option bind].
  assert (A : forall k, arr_get N [] k = UB). { intros k. unfold arr_get. destruct (0 <=? k)%Z; [|reflexivity]. destruct (Z.to_nat k); reflexivity. }
  rewrite !A. destruct (z =? 2147483647)%Z; [reflexivity|]. destruct (n - 1 <=? z)%Z; [reflexivity|]. destruct (z <=? 0)%Z; reflexivity.
Qed.
Lemma resample_empty n (lo hi : f32) : S_of_samples N [] n lo hi = UB.
Proof. unfold S_of_samples. change (seq 0 400) with (0%nat :: seq 1 399). apply mapM_ub, fetch_empty. Qed.
Lemma sub_self (x y : f32) : fin x -> fin y -> B2R x = B2R y -> exists s, @fsub N x y = B754_zero s.
Proof.
  intros Fx Fy E. assert (Big : 0 <= bpow radix2 127) by apply bpow_ge_0. destruct (sub_ok lm x y Fx Fy) as [F V]; [rewrite E, Rminus_diag_eq, Rabs_R0 by reflexivity; exact Big|].
  rewrite E, Rminus_diag_eq, (rnd_id 0) in V by (reflexivity || apply fmt_0). destruct (@fsub N x y) as [s|s| |s m e H]; try discriminate; [eauto|].
  exfalso. cbn in V. assert (K := F2R_neq_0 radix2 (Float radix2 (SpecFloat.cond_Zopp s (Z.pos m)) e)). cbn [Fnum] in K. destruct s; apply K; cbn; try discriminate; exact V.
Qed.
Lemma toint_zero (x : f32) s : f32_toint (@fdiv N x (B754_zero s)) = None.
Proof. destruct x as [a|a| |a m e H]; reflexivity. Qed.
Lemma resample_degenerate (s : list f32) n (lo hi : f32) : fin lo -> fin hi -> B2R lo = B2R hi -> S_of_samples N s n lo hi = UB.
Proof.
  intros Fl Fh E. unfold S_of_samples. change (seq 0 400) with (0%nat :: seq 1 399). apply mapM_ub. unfold fetch. cbv zeta. destruct (sub_self hi lo Fh Fl (eq_sym E)) as [z ->].
  change (@ftoint N (@fdiv N (@fmul N (@fofZ N (n - 1)) (@fsub N (@fadd N (@flit N 380%dec) (@fofZ N (Z.of_nat 0))) lo)) (B754_zero z))) with (f32_toint (@fdiv N (@fmul N (@fofZ N (n - 1)) (@fsub N (@fadd N (@flit N 380%dec) (@fofZ N (Z.of_nat 0))) lo)) (B754_zero z))).
  rewrite toint_zero. reflexivity.
Qed.
(** ** Regular grids of whole nanometres. *)
Section G.
Context (lo d : Z) (c : Z) (s : list f32) (fl fh : f32).
Context (H0 : (0 <= lo)%Z) (Hd : (1 <= d)%Z) (Hc : (1 <= c)%Z) (Hh : (lo + c * d <= 4000)%Z).
Context (Fl : fin fl) (Vl : B2R fl = IZR lo) (Fh : fin fh) (Vh : B2R fh = IZR (lo + c * d)).
Context (L : Z.of_nat (length s) = (c + 1)%Z).
Context (t : f32) (w : Z) (Ft : fin t) (Vt : B2R t = IZR w) (Hw : (0 <= w <= 4000)%Z).
Lemma big_ok : 1073741824 <= bpow radix2 127. Proof. change 1073741824 with (bpow radix2 30). apply bpow_le. lia. Qed.
Lemma int_sub (x y : f32) a b : fin x -> fin y -> B2R x = IZR a -> B2R y = IZR b -> (Z.abs (a - b) <= 2 ^ 24)%Z -> fin (@fsub N x y) /\ B2R (@fsub N x y) = IZR (a - b).
Proof.
  intros Fx Fy Vx Vy B. pose proof big_ok as Big. destruct (sub_ok lm x y Fx Fy) as [F V].
  { rewrite Vx, Vy, <- minus_IZR, <- abs_IZR. apply Rle_trans with (IZR (2 ^ 24)); [apply IZR_le; lia|lra]. }
  split; [exact F|]. rewrite V, Vx, Vy, <- minus_IZR. apply rnd_id, fmtZ. exact B.
Qed.
Lemma int_mul (x y : f32) a b : fin x -> fin y -> B2R x = IZR a -> B2R y = IZR b -> (Z.abs (a * b) <= 2 ^ 24)%Z -> fin (@fmul N x y) /\ B2R (@fmul N x y) = IZR (a * b).
Proof.
  intros Fx Fy Vx Vy B. pose proof big_ok as Big. destruct (mul_ok lm x y Fx Fy) as [F V].
  { rewrite Vx, Vy, <- mult_IZR, <- abs_IZR. apply Rle_trans with (IZR (2 ^ 24)); [apply IZR_le; lia|lra]. }
  split; [exact F|]. rewrite V, Vx, Vy, <- mult_IZR. apply rnd_id, fmtZ. exact B.
Qed.
Lemma c_le : (c <= 4000 /\ d <= 4000 /\ c * d <= 4000)%Z. Proof. nia. Qed.
Lemma span_ok : fin (@fsub N fh fl) /\ B2R (@fsub N fh fl) = IZR (c * d).
Proof. destruct c_le as (A & B & C). destruct (int_sub fh fl (lo + c * d) lo Fh Fl Vh Vl ltac:(lia)) as [F V]. split; [exact F|]. rewrite V. f_equal. lia. Qed.
Lemma pos_ok : fin (pos_F (Z.of_nat (length s)) fl fh t) /\ B2R (pos_F (Z.of_nat (length s)) fl fh t) = rnd (IZR (w - lo) / IZR d).
Proof.
  destruct c_le as (A & B & C). destruct span_ok as [F1 V1]. destruct (int_sub t fl w lo Ft Fl Vt Vl ltac:(lia)) as [F2 V2]. destruct (ofZ_ok lm c ltac:(lia)) as [F3 V3].
  unfold pos_F. replace (Z.of_nat (length s) - 1)%Z with c by lia.
  destruct (int_mul _ _ c (w - lo) F3 F2 V3 V2 ltac:(nia)) as [F4 V4]. assert (Dp : 1 <= IZR d) by (apply IZR_le; lia). assert (Cp : 1 <= IZR c) by (apply IZR_le; lia).
  assert (Q : IZR (c * (w - lo)) / IZR (c * d) = IZR (w - lo) / IZR d) by (rewrite !mult_IZR; field; lra).
  destruct (div_ok lm _ (@fsub N fh fl) F4) as [F5 V5]; [rewrite V1; apply (IZR_neq _ 0); nia| |].
  - rewrite V4, V1, Q. unfold Rdiv. rewrite Rabs_mult, <- abs_IZR, (Rabs_pos_eq (/ _)) by (left; apply Rinv_0_lt_compat; lra).
    assert (/ IZR d <= 1) by (rewrite <- Rinv_1; apply Rinv_le; lra). assert (0 < / IZR d) by (apply Rinv_0_lt_compat; lra).
    assert (0 <= IZR (Z.abs (w - lo)) <= 4000) by (split; apply IZR_le; lia). pose proof big_ok. nra.
  - split; [exact F5|]. rewrite V5, V4, V1, Q. reflexivity.
Qed.
Lemma d_div : (w - lo = d * ((w - lo) / d) + (w - lo) mod d /\ 0 <= (w - lo) mod d < d)%Z.
Proof. split; [apply Z.div_mod; lia|apply Z.mod_pos_bound; lia]. Qed.
Lemma toint_grid : (lo <= w)%Z -> f32_toint (pos_F (Z.of_nat (length s)) fl fh t) = Some ((w - lo) / d)%Z.
Proof.
  intros W. destruct pos_ok as [F V]. destruct d_div as (E & M). set (k := ((w - lo) / d)%Z) in *. set (j := ((w - lo) mod d)%Z) in *. clearbody k j.
  assert (K : (0 <= k)%Z) by nia. assert (K4 : (d * k <= 4000)%Z) by nia. destruct c_le as (A & B & C).
  assert (Dp : 1 <= IZR d <= 4000) by (split; apply IZR_le; lia). assert (Kp : 0 <= IZR k) by (apply IZR_le; lia). assert (DK : IZR d * IZR k <= 4000) by (rewrite <- mult_IZR; apply IZR_le; lia).
  assert (J : 0 <= IZR j <= IZR d - 1) by (split; [apply IZR_le; lia|rewrite <- minus_IZR; apply IZR_le; lia]).
  assert (X : IZR (w - lo) / IZR d = IZR k + IZR j / IZR d) by (rewrite E, plus_IZR, mult_IZR; field; lra).
  assert (Y : 0 <= IZR j / IZR d <= 1 - / IZR d).
  { split; [apply Rmult_le_pos; [lra|left; apply Rinv_0_lt_compat; lra]|]. apply Rmult_le_reg_r with (IZR d); [lra|]. field_simplify; lra. }
  assert (I4 : / 4000 <= / IZR d) by (apply Rinv_le; lra).
  assert (S1 : u * (IZR k + 1) < / IZR d - u).
  { apply Rmult_lt_reg_l with (IZR d); [lra|]. rewrite Rmult_minus_distr_l, Rinv_r by lra. rewrite u16. nra. }
  assert (R : IZR k <= B2R (pos_F (Z.of_nat (length s)) fl fh t) < IZR k + 1).
  { rewrite V, X. split; [apply rnd_ge_fmt; [apply fmtZ; nia|lra]|]. pose proof (rnd_err_abs (IZR k + IZR j / IZR d)) as Er. rewrite (Rabs_pos_eq (IZR k + _)) in Er by lra. apply Rabs_le_inv in Er.
    pose proof eta16. assert (u * (IZR k + IZR j / IZR d) <= u * (IZR k + 1)). { apply Rmult_le_compat_l; [rewrite u16; lra|lra]. } rewrite u16 in *. lra. }
  assert (K5 : IZR k <= 4000) by (apply IZR_le; nia).
  rewrite toint_some; [|exact F|change (IZR (- 2 ^ 31)) with (-2147483648); change (IZR (2 ^ 31 - 1)) with 2147483647; lra].
  f_equal. rewrite Ztrunc_floor by lra. apply Zfloor_imp. rewrite plus_IZR. exact R.
Qed.
Lemma toint_below : (w <= lo)%Z -> exists z, f32_toint (pos_F (Z.of_nat (length s)) fl fh t) = Some z /\ (z <= 0)%Z.
Proof.
  intros W. destruct pos_ok as [F V]. assert (Dp : 1 <= IZR d) by (apply IZR_le; lia). assert (Wp : -4000 <= IZR (w - lo) <= 0) by (split; apply IZR_le; nia).
  assert (I1 : 0 < / IZR d <= 1) by (split; [apply Rinv_0_lt_compat; lra|rewrite <- Rinv_1; apply Rinv_le; lra]).
  assert (Q : -4000 <= IZR (w - lo) / IZR d <= 0) by (unfold Rdiv; nra).
  assert (R : -4000 <= B2R (pos_F (Z.of_nat (length s)) fl fh t) <= 0).
  { rewrite V. split; [apply rnd_ge_fmt; [apply (fmtZ (-4000)); lia|lra]|apply rnd_le_fmt; [apply fmt_0|lra]]. }
  eexists. split; [apply toint_some; [exact F|change (IZR (- 2 ^ 31)) with (-2147483648); change (IZR (2 ^ 31 - 1)) with 2147483647; lra]|].
  rewrite <- (Ztrunc_IZR 0). apply Ztrunc_le. lra.
Qed.
Lemma fetch_unfold z : f32_toint (pos_F (Z.of_nat (length s)) fl fh t) = Some z -> fetch N s (Z.of_nat (length s)) fl fh t =
  let lw k := @fdiv N (@fmul N (@fofZ N k) (@fsub N fh fl)) (@fofZ N c) in
  if (z =? 2147483647)%Z then UB else if (c <=? z)%Z then arr_get N s c else if (z <=? 0)%Z then arr_get N s 0
  else let! a := arr_get N s z in let! b := arr_get N s (z + 1) in Ret (lerp N a b (@fdiv N (@fsub N (@fsub N t (lw z)) fl) (@fsub N (lw (z + 1)%Z) (lw z)))).
Proof.
  intros E. unfold fetch. unfold pos_F in E. cbv zeta.
  change (@ftoint N (@fdiv N (@fmul N (@fofZ N (Z.of_nat (length s) - 1)) (@fsub N t fl)) (@fsub N fh fl))) with (f32_toint (@fdiv N (@fmul N (@fofZ N (Z.of_nat (length s) - 1)) (@fsub N t fl)) (@fsub N fh fl))).
  rewrite E. cbn [of_option bind]. replace (Z.of_nat (length s) - 1)%Z with c by lia. reflexivity.
Qed.
(** Up to the second sample the first is taken; from the last on the last. *)
Lemma grid_first : (w < lo + d)%Z -> fetch N s (Z.of_nat (length s)) fl fh t = Ret (sm s 0).
Proof.
  intros W. assert (Z0 : exists z, f32_toint (pos_F (Z.of_nat (length s)) fl fh t) = Some z /\ (z <= 0)%Z).
  { destruct (Z_le_gt_dec w lo) as [A|A]; [apply toint_below, A|]. exists ((w - lo) / d)%Z. split; [apply toint_grid; lia|]. rewrite Z.div_small by lia. lia. }
  destruct Z0 as (z & E & Bz). rewrite (fetch_unfold z E). cbv zeta. replace (z =? 2147483647)%Z with false by (symmetry; apply Z.eqb_neq; lia).
  replace (c <=? z)%Z with false by (symmetry; apply Z.leb_gt; lia). replace (z <=? 0)%Z with true by (symmetry; apply Z.leb_le; lia). now rewrite (arr_get_in lm B754_nan) by lia.
Qed.
Lemma grid_last : (lo + c * d <= w)%Z -> fetch N s (Z.of_nat (length s)) fl fh t = Ret (sm s (Z.to_nat c)).
Proof.
  intros W. assert (Cd : (c <= (w - lo) / d)%Z) by (apply Z.div_le_lower_bound; nia). assert (Q : ((w - lo) / d <= 4000)%Z) by (apply Z.div_le_upper_bound; nia).
  rewrite (fetch_unfold _ (toint_grid ltac:(nia))). cbv zeta. replace (_ =? 2147483647)%Z with false by (symmetry; apply Z.eqb_neq; lia).
  replace (c <=? _)%Z with true by (symmetry; apply Z.leb_le; lia). now rewrite (arr_get_in lm B754_nan) by lia.
Qed.
Lemma lw_ok k : (0 <= k <= c)%Z -> fin (@fdiv N (@fmul N (@fofZ N k) (@fsub N fh fl)) (@fofZ N c)) /\ B2R (@fdiv N (@fmul N (@fofZ N k) (@fsub N fh fl)) (@fofZ N c)) = IZR (k * d).
Proof.
  intros K. destruct c_le as (A & B & C). destruct span_ok as [F1 V1]. destruct (ofZ_ok lm k ltac:(lia)) as [F2 V2]. destruct (ofZ_ok lm c ltac:(lia)) as [F3 V3].
  destruct (int_mul _ _ k (c * d) F2 F1 V2 V1 ltac:(nia)) as [F4 V4]. assert (Cp : 1 <= IZR c) by (apply IZR_le; lia).
  assert (Q : IZR (k * (c * d)) / IZR c = IZR (k * d)) by (rewrite !mult_IZR; field; lra). assert (KD : (0 <= k * d <= 4000)%Z) by nia.
  destruct (div_ok lm _ (@fofZ N c) F4) as [F5 V5]; [rewrite V3; lra|rewrite V4, V3, Q, <- abs_IZR; pose proof big_ok; apply Rle_trans with 4000; [apply IZR_le; lia|lra]|].
  split; [exact F5|]. rewrite V5, V4, V3, Q. apply rnd_id, fmtZ. lia.
Qed.
Lemma grid_mid : (lo + d <= w < lo + c * d)%Z -> Forall fin s -> Forall (fun y => Rabs (B2R y) <= bpow radix2 125) s ->
  let k := ((w - lo) / d)%Z in let r := IZR (w - lo - k * d) / IZR d in let a := B2R (sm s (Z.to_nat k)) in let b := B2R (sm s (S (Z.to_nat k))) in
  exists y, fetch N s (Z.of_nat (length s)) fl fh t = Ret y /\ fin y /\ Rabs (B2R y - (a * (1 - r) + b * r)) <= 5 * u * (Rabs a + Rabs b) + 3 * eta.
Proof.
  intros W Fs Bs k r a b. destruct c_le as (A & B & C). destruct d_div as (E & M). fold k in E. set (j := ((w - lo) mod d)%Z) in *. clearbody j.
  assert (K : (1 <= k < c)%Z) by nia. assert (Jr : r = IZR j / IZR d) by (unfold r; do 2 f_equal; lia).
  rewrite (fetch_unfold _ (toint_grid ltac:(nia))). fold k. clearbody k. cbv zeta. replace (k =? 2147483647)%Z with false by (symmetry; apply Z.eqb_neq; lia).
  replace (c <=? k)%Z with false by (symmetry; apply Z.leb_gt; lia). replace (k <=? 0)%Z with false by (symmetry; apply Z.leb_gt; lia).
  rewrite !(arr_get_in lm B754_nan) by lia. cbn [bind]. fold (sm s (Z.to_nat k)). replace (Z.to_nat (k + 1)) with (S (Z.to_nat k)) by lia. fold (sm s (S (Z.to_nat k))).
  assert (Pa : fin (sm s (Z.to_nat k)) /\ Rabs a <= bpow radix2 125). { split; [apply (proj1 (Forall_forall _ _) Fs)|apply (proj1 (Forall_forall _ _) Bs)]; apply nth_In; lia. }
  assert (Pb : fin (sm s (S (Z.to_nat k))) /\ Rabs b <= bpow radix2 125). { split; [apply (proj1 (Forall_forall _ _) Fs)|apply (proj1 (Forall_forall _ _) Bs)]; apply nth_In; lia. }
  unfold a, b in *. set (fa := sm s (Z.to_nat k)) in *. set (fb := sm s (S (Z.to_nat k))) in *. clearbody fa fb. clear a b. set (a := B2R fa) in *. set (b := B2R fb) in *.
  destruct (lw_ok k ltac:(lia)) as [F1 V1]. destruct (lw_ok (k + 1) ltac:(lia)) as [F2 V2]. set (l1 := @fdiv N (@fmul N (@fofZ N k) _) _) in *. set (l2 := @fdiv N (@fmul N (@fofZ N (k + 1)) _) _) in *. clearbody l1 l2.
  destruct (int_sub t l1 w (k * d) Ft F1 Vt V1 ltac:(nia)) as [F3 V3]. destruct (int_sub _ fl _ lo F3 Fl V3 Vl ltac:(nia)) as [F4 V4]. destruct (int_sub l2 l1 _ _ F2 F1 V2 V1 ltac:(nia)) as [F5 V5].
  replace (w - k * d - lo)%Z with j in V4 by lia. replace ((k + 1) * d - k * d)%Z with d in V5 by lia. set (nu := @fsub N (@fsub N t l1) fl) in *. set (de := @fsub N l2 l1) in *. clearbody nu de.
  assert (Dp : 1 <= IZR d <= 4000) by (split; apply IZR_le; lia). assert (J : 0 <= IZR j <= IZR d - 1) by (split; [apply IZR_le; lia|rewrite <- minus_IZR; apply IZR_le; lia]).
  assert (R0 : 0 <= r <= 1). { rewrite Jr. split; [apply Rmult_le_pos; [lra|left; apply Rinv_0_lt_compat; lra]|]. apply Rmult_le_reg_r with (IZR d); [lra|]. unfold Rdiv. rewrite Rmult_assoc, Rinv_l by lra. lra. }
  pose proof big_ok as Big. pose proof u16 as U. pose proof eta16 as Eta.
  destruct (div_ok lm nu de F4) as [F6 V6]; [rewrite V5; lra|rewrite V4, V5, <- Jr, Rabs_pos_eq; lra|]. rewrite V4, V5, <- Jr in V6. set (fr := @fdiv N nu de) in *. clearbody fr.
  assert (Er : Rabs (B2R fr - r) <= 1.001 * u). { rewrite V6. pose proof (rnd_err_abs r) as X. rewrite (Rabs_pos_eq r) in X by lra. rewrite U in *. lra. }
  assert (Rr : 0 <= B2R fr <= 1) by (rewrite V6; split; [apply rnd_ge_fmt; [apply fmt_0|lra]|apply rnd_le_fmt; [apply fmt_1|lra]]).
  assert (W1 : fin (@fofZ N 1) /\ B2R (@fofZ N 1) = 1) by f32_val. destruct W1 as [Fo Vo].
  destruct (sub_ok lm _ fr Fo F6) as [F7 V7]; [rewrite Vo; apply Rabs_le; lra|]. rewrite Vo in V7. unfold lerp. set (fc := @fsub N (@fofZ N 1) fr) in *. clearbody fc.
  assert (Ec : Rabs (B2R fc - (1 - r)) <= 2.003 * u).
  { rewrite V7. pose proof (rnd_err_abs (1 - B2R fr)) as X. rewrite (Rabs_pos_eq (1 - B2R fr)) in X by lra. apply Rabs_le_inv in X. apply Rabs_le_inv in Er. apply Rabs_le. rewrite U in *. lra. }
  assert (Rc : 0 <= B2R fc <= 1) by (rewrite V7; split; [apply rnd_ge_fmt; [apply fmt_0|lra]|apply rnd_le_fmt; [apply fmt_1|lra]]).
  assert (B127 : bpow radix2 127 = 4 * bpow radix2 125) by (change 127%Z with (2 + 125)%Z; rewrite bpow_plus; reflexivity). pose proof (bpow_gt_0 radix2 125) as BP.
  assert (KK : forall v x : f32, Rabs (B2R v) <= bpow radix2 125 -> 0 <= B2R x <= 1 -> fin v -> fin x -> fin (@fmul N v x) /\ B2R (@fmul N v x) = rnd (B2R v * B2R x) /\ Rabs (rnd (B2R v * B2R x)) <= bpow radix2 125 /\ Rabs (B2R v * B2R x) <= Rabs (B2R v)).
  { intros v x Hv Hx Fv Fx. assert (Mm : Rabs (B2R v * B2R x) <= Rabs (B2R v)). { rewrite Rabs_mult, (Rabs_pos_eq (B2R x)) by lra. pose proof (Rabs_pos (B2R v)). nra. }
    destruct (mul_ok lm v x Fv Fx) as [X Y]; [lra|]. split; [exact X|]. split; [exact Y|]. split; [apply rnd_abs_le; [apply fmt_bpow; lia|lra]|exact Mm]. }
  destruct Pa as [Fa Ba], Pb as [Fb Bb]. destruct (KK fa fc Ba Rc Fa F7) as (F8 & V8 & B8 & M8). destruct (KK fb fr Bb Rr Fb F6) as (F9 & V9 & B9 & M9). fold a in V8, B8, M8. fold b in V9, B9, M9.
  destruct (add_ok lm _ _ F8 F9) as [Fe Ve]; [rewrite V8, V9; eapply Rle_trans; [apply Rabs_triang|]; lra|]. eexists. split; [reflexivity|]. split; [exact Fe|]. rewrite Ve, V8, V9.
  pose proof (rnd_err_abs (a * B2R fc)) as P. pose proof (rnd_err_abs (b * B2R fr)) as Q.
  pose proof (rnd_add_err (rnd (a * B2R fc)) (rnd (b * B2R fr)) (fmt_rnd _) (fmt_rnd _)) as Wd. set (p := rnd (a * B2R fc)) in *. set (q := rnd (b * B2R fr)) in *. set (y := rnd (p + q)) in *. clearbody p q y.
  assert (Tp : Rabs p <= Rabs (a * B2R fc) + Rabs (p - a * B2R fc)). { replace p with (a * B2R fc + (p - a * B2R fc)) at 1 by ring. apply Rabs_triang. }
  assert (Tq : Rabs q <= Rabs (b * B2R fr) + Rabs (q - b * B2R fr)). { replace q with (b * B2R fr + (q - b * B2R fr)) at 1 by ring. apply Rabs_triang. }
  pose proof (Rabs_triang p q) as T2. pose proof (Rabs_pos a) as A0. pose proof (Rabs_pos b) as B0.
  assert (Ga : Rabs (a * (B2R fc - (1 - r))) <= Rabs a * (2.003 * u)) by (rewrite Rabs_mult; apply Rmult_le_compat_l; lra).
  assert (Gb : Rabs (b * (B2R fr - r)) <= Rabs b * (1.001 * u)) by (rewrite Rabs_mult; apply Rmult_le_compat_l; lra).
  replace (y - (a * (1 - r) + b * r)) with ((y - (p + q)) + (p - a * B2R fc) + (q - b * B2R fr) + a * (B2R fc - (1 - r)) + b * (B2R fr - r)) by ring.
  eapply Rle_trans; [apply Rabs_triang|]. eapply Rle_trans; [apply Rplus_le_compat_r, Rabs_triang|]. eapply Rle_trans; [apply Rplus_le_compat_r, Rplus_le_compat_r, Rabs_triang|]. eapply Rle_trans; [apply Rplus_le_compat_r, Rplus_le_compat_r, Rplus_le_compat_r, Rabs_triang|].
  rewrite U in *. nra.
Qed.
End G.
End F.

Lemma resample_grid (lm : libm) (s : list f32) (lo d : Z) (fl fh : f32) : let n := Z.of_nat (length s) in let hi := (lo + (n - 1) * d)%Z in
  (0 <= lo)%Z -> (1 <= d)%Z -> (2 <= n)%Z -> (hi <= 4000)%Z -> fin fl -> B2R fl = IZR lo -> fin fh -> B2R fh = IZR hi -> Forall fin s -> Forall (fun y => Rabs (B2R y) <= bpow radix2 125) s ->
  exists r, S_of_samples (FN lm) s n fl fh = Ret r /\ length r = 400%nat /\ Forall fin r /\
    forall i, (i < 400)%nat -> let w := (380 + Z.of_nat i)%Z in let y := nth i r B754_nan in
      ((w < lo + d)%Z -> y = nth 0 s B754_nan) /\ ((hi <= w)%Z -> y = nth (length s - 1) s B754_nan) /\
      ((lo + d <= w < hi)%Z -> let k := ((w - lo) / d)%Z in let e := IZR (w - lo - k * d) / IZR d in
        let a := B2R (nth (Z.to_nat k) s B754_nan) in let b := B2R (nth (S (Z.to_nat k)) s B754_nan) in
        Rabs (B2R y - (a * (1 - e) + b * e)) <= 5 * u * (Rabs a + Rabs b) + 3 * eta).
Proof.
  intros n hi H0 Hd Hn Hh Fl Vl Fh Vh Fs Bs. unfold S_of_samples.
  set (P := fun (i : nat) (y : f32) => fin y /\ let w := (380 + Z.of_nat i)%Z in
      ((w < lo + d)%Z -> y = nth 0 s B754_nan) /\ ((hi <= w)%Z -> y = nth (length s - 1) s B754_nan) /\
      ((lo + d <= w < hi)%Z -> let k := ((w - lo) / d)%Z in let e := IZR (w - lo - k * d) / IZR d in
        let a := B2R (nth (Z.to_nat k) s B754_nan) in let b := B2R (nth (S (Z.to_nat k)) s B754_nan) in
        Rabs (B2R y - (a * (1 - e) + b * e)) <= 5 * u * (Rabs a + Rabs b) + 3 * eta)).
  destruct (mapM_all (fun i => fetch (FN lm) s n fl fh (@fadd (FN lm) (@flit (FN lm) 380%dec) (@fofZ (FN lm) (Z.of_nat i)))) P (seq 0 400)) as (r & E & Q).
  - intros i I. apply in_seq in I. destruct (wav_ok lm i ltac:(lia)) as [Ft Vt]. set (t := @fadd (FN lm) _ _) in *. clearbody t. unfold P. set (w := (380 + Z.of_nat i)%Z) in *. assert (Hw : (0 <= w <= 4000)%Z) by lia. clearbody w. cbv zeta.
    assert (C : (1 <= n - 1)%Z) by lia. assert (L : Z.of_nat (length s) = (n - 1 + 1)%Z) by (unfold n; lia).
    destruct (Z_lt_ge_dec w (lo + d)) as [A|A]; [|destruct (Z_lt_ge_dec w hi) as [B|B]].
    + exists (sm s 0). split; [exact (grid_first lm lo d (n - 1) s fl fh H0 Hd C Hh Fl Vl Fh Vh L t w Ft Vt Hw A)|]. split; [apply (proj1 (Forall_forall _ _) Fs), nth_In; lia|].
      split; [reflexivity|]. split; [intros ?; unfold hi in *; nia|intros ?; lia].
    + destruct (grid_mid lm lo d (n - 1) s fl fh H0 Hd C Hh Fl Vl Fh Vh L t w Ft Vt Hw ltac:(fold hi; lia) Fs Bs) as (y & Y & Fy & By). exists y. split; [exact Y|]. split; [exact Fy|].
      split; [intros ?; lia|]. split; [intros ?; lia|]. intros _. exact By.
    + exists (sm s (Z.to_nat (n - 1))). split; [exact (grid_last lm lo d (n - 1) s fl fh H0 Hd C Hh Fl Vl Fh Vh L t w Ft Vt Hw ltac:(fold hi; lia))|]. split; [apply (proj1 (Forall_forall _ _) Fs), nth_In; lia|].
      split; [intros ?; lia|]. split; [intros _; unfold sm; f_equal; unfold n; lia|intros ?; lia].
  - exists r. pose proof (Forall2_len _ _ _ Q) as Lr. rewrite seq_length in Lr. split; [exact E|]. split; [congruence|].
    assert (N0 : forall i, (i < 400)%nat -> P i (nth i r B754_nan)).
    { intros i I. replace i with (nth i (seq 0 400) 0%nat) at 1 by (rewrite seq_nth by exact I; reflexivity). apply (Forall2_nth P (seq 0 400) r); [exact Q|rewrite seq_length; exact I]. }
    split; [|intros i I; exact (proj2 (N0 i I))]. apply Forall_forall. intros y Y. apply (In_nth _ _ B754_nan) in Y. destruct Y as (i & I & <-). assert (Lr' : length r = 400%nat) by congruence. apply N0. rewrite <- Lr'. exact I.
Qed.
(** A ramp of 81 samples, one every 5 nm. *)
Definition ramp (lm : libm) : list f32 := map (fun k => @fofZ (FN lm) (Z.of_nat k)) (seq 0 81).
Lemma ramp_nth lm k : (k < 81)%nat -> fin (nth k (ramp lm) B754_nan) /\ B2R (nth k (ramp lm) B754_nan) = IZR (Z.of_nat k).
Proof.
  intros K. unfold ramp. rewrite (nth_indep _ _ (@fofZ (FN lm) (Z.of_nat 0))) by (rewrite map_length, seq_length; exact K).
  rewrite (map_nth (fun k => @fofZ (FN lm) (Z.of_nat k))), seq_nth by exact K. apply ofZ_ok. lia.
Qed.
Lemma ramp_ok lm : length (ramp lm) = 81%nat /\ Forall fin (ramp lm) /\ Forall (fun y => Rabs (B2R y) <= bpow radix2 125) (ramp lm).
Proof.
  assert (L : length (ramp lm) = 81%nat) by (unfold ramp; now rewrite map_length, seq_length). split; [exact L|].
  assert (Big : 128 <= bpow radix2 125) by (change 128 with (bpow radix2 7); apply bpow_le; lia).
  split; apply Forall_forall; intros y Y; apply (In_nth _ _ B754_nan) in Y; destruct Y as (i & I & <-); assert (I' : (i < 81)%nat) by (rewrite <- L; exact I); clear I; rename I' into I; destruct (ramp_nth lm i I) as [F V]; [exact F|].
  assert (T : Rabs (B2R (nth i (ramp lm) B754_nan)) <= bpow radix2 125); [|exact T]. rewrite V, <- abs_IZR. apply Rle_trans with 128; [apply IZR_le; lia|exact Big].
Qed.
Lemma ramp_case lm : exists r, S_of_samples (FN lm) (ramp lm) 81 (@flit (FN lm) 380%dec) (@flit (FN lm) 780%dec) = Ret r /\ length r = 400%nat /\
  B2R (nth 4 r B754_nan) = 0 /\ Rabs (B2R (nth 21 r B754_nan) - 4.2) <= 46 * u /\ Rabs (B2R (nth 399 r B754_nan) - 79.8) <= 796 * u.
Proof.
  destruct (ramp_ok lm) as (L & Fs & Bs). assert (W : fin (@flit (FN lm) 780%dec) /\ B2R (@flit (FN lm) 780%dec) = 780) by f32_val. destruct W as [Fh Vh]. destruct (v380 lm) as [Fl Vl].
  pose proof (resample_grid lm (ramp lm) 380 5 (@flit (FN lm) 380%dec) (@flit (FN lm) 780%dec)) as G. rewrite L in G. cbv zeta in G. change (Z.of_nat 81) with 81%Z in G.
  destruct (G ltac:(lia) ltac:(lia) ltac:(lia) ltac:(lia) Fl Vl Fh Vh Fs Bs) as (r & E & Lr & _ & V). exists r. split; [exact E|]. split; [exact Lr|]. pose proof eta16 as Eta. pose proof u16 as U.
  split; [|split].
  - destruct (V 4%nat ltac:(lia)) as (X & _ & _). rewrite X by reflexivity. apply (ramp_nth lm 0 ltac:(lia)).
  - destruct (V 21%nat ltac:(lia)) as (_ & _ & X). specialize (X ltac:(lia)). change ((380 + Z.of_nat 21 - 380) / 5)%Z with 4%Z in X. change (380 + Z.of_nat 21 - 380 - 4 * 5)%Z with 1%Z in X. change (Z.to_nat 4) with 4%nat in X.
    rewrite (proj2 (ramp_nth lm 4 ltac:(lia))), (proj2 (ramp_nth lm 5 ltac:(lia))) in X. change (IZR (Z.of_nat 4)) with 4 in X. change (IZR (Z.of_nat 5)) with 5 in X. rewrite (Rabs_pos_eq 4), (Rabs_pos_eq 5) in X by lra.
    replace (4 * (1 - 1 / 5) + 5 * (1 / 5)) with 4.2 in X by lra. rewrite U in *. lra.
  - destruct (V 399%nat ltac:(lia)) as (_ & _ & X). specialize (X ltac:(lia)). change ((380 + Z.of_nat 399 - 380) / 5)%Z with 79%Z in X. change (380 + Z.of_nat 399 - 380 - 79 * 5)%Z with 4%Z in X. change (Z.to_nat 79) with 79%nat in X.
    rewrite (proj2 (ramp_nth lm 79 ltac:(lia))), (proj2 (ramp_nth lm 80 ltac:(lia))) in X. change (IZR (Z.of_nat 79)) with 79 in X. change (IZR (Z.of_nat 80)) with 80 in X. rewrite (Rabs_pos_eq 79), (Rabs_pos_eq 80) in X by lra.
    replace (79 * (1 - 4 / 5) + 80 * (4 / 5)) with 79.8 in X by lra. rewrite U in *. lra.
Qed.
Lemma safe_case lm : (1 <= Z.of_nat (length (ramp lm)) <= 65536)%Z /\ fin (@flit (FN lm) 300%dec) /\ fin (@flit (FN lm) 830%dec) /\ Rabs (B2R (@flit (FN lm) 300%dec)) <= 4096 /\
  Rabs (B2R (@flit (FN lm) 830%dec)) <= 4096 /\ B2R (@flit (FN lm) 300%dec) + 1 <= B2R (@flit (FN lm) 830%dec).
Proof.
  assert (W : fin (@flit (FN lm) 830%dec) /\ B2R (@flit (FN lm) 830%dec) = 830) by f32_val. destruct W as [Fh Vh].
  assert (W : fin (@flit (FN lm) 300%dec) /\ B2R (@flit (FN lm) 300%dec) = 300) by f32_val. destruct W as [Fl Vl].
  rewrite (proj1 (ramp_ok lm)), Vh, Vl, !Rabs_pos_eq by lra. split; [lia|]. split; [exact Fl|]. split; [exact Fh|]. lra.
Qed.
Lemma resample_grid16 (lm : libm) (s : list f32) (lo d : Z) (fl fh : f32) : let n := Z.of_nat (length s) in let hi := (lo + (n - 1) * d)%Z in
  (0 <= lo)%Z -> (1 <= d)%Z -> (2 <= n)%Z -> (hi <= 4000)%Z -> fin fl -> B2R fl = IZR lo -> fin fh -> B2R fh = IZR hi -> Forall fin s -> Forall (fun y => Rabs (B2R y) <= bpow radix2 125) s ->
  exists r, S_of_samples (FN lm) s n fl fh = Ret r /\ length r = 400%nat /\ Forall fin r /\
    forall i, (i < 400)%nat -> let w := (380 + Z.of_nat i)%Z in let y := nth i r B754_nan in
      ((w < lo + d)%Z -> y = nth 0 s B754_nan) /\ ((hi <= w)%Z -> y = nth (length s - 1) s B754_nan) /\
      ((lo + d <= w < hi)%Z -> let k := ((w - lo) / d)%Z in let e := IZR (w - lo - k * d) / IZR d in
        let a := B2R (nth (Z.to_nat k) s B754_nan) in let b := B2R (nth (S (Z.to_nat k)) s B754_nan) in
        Rabs (B2R y - (a * (1 - e) + b * e)) <= 5 * / 16777216 * (Rabs a + Rabs b) + 3 * bpow radix2 (-150)).
Proof. rewrite <- u16. change (bpow radix2 (-150)) with eta. exact (resample_grid lm s lo d fl fh). Qed.
Lemma ramp_case16 lm : exists r, S_of_samples (FN lm) (ramp lm) 81 (@flit (FN lm) 380%dec) (@flit (FN lm) 780%dec) = Ret r /\ length r = 400%nat /\
  B2R (nth 4 r B754_nan) = 0 /\ Rabs (B2R (nth 21 r B754_nan) - 4.2) <= 46 * / 16777216 /\ Rabs (B2R (nth 399 r B754_nan) - 79.8) <= 796 * / 16777216.
Proof. rewrite <- u16. exact (ramp_case lm). Qed.
