(** * Scaling by powers of two is exact in binary32. *)
From Coq Require Import ZArith Reals Lra Lia List Bool.
From Flocq Require Import Core BinarySingleNaN Plus_error.
From Verif Require Import Num NumR NumF MVec MTri MSpectrum Tables F32 PMatF PSpecF PMod360 PHsvF PGamF PTables PSpec PMono.
Import ListNotations.
Local Open Scope R_scope.

Notation fx := (FLX_exp 24).
Notation rndx := (round radix2 fx ZnearestE).
Notation B := (bpow radix2).
#[local] Instance fx_valid : Valid_exp fx. Proof. apply FLX_exp_valid. unfold Prec_gt_0. lia. Qed.

(** ** Rounding commutes with the scaling as long as nothing is subnormal. *)
Definition grid (g : Z) (z : R) : Prop := exists n, z = IZR n * B g.
Lemma grid_bound g z : grid g z -> (mag radix2 z <= 24 + g)%Z -> fmt (z) \/ (g < -149)%Z.
Proof.
  intros [n ->] M. destruct (Z_lt_le_dec g (-149)) as [L|L]; [auto|]. left. destruct (Z.eq_dec n 0) as [->|Hn].
  - rewrite Rmult_0_l. apply fmt_0.
  - apply fmt_F2R; [|lia]. apply le_IZR. rewrite abs_IZR. left.
    assert (Hz : IZR n * B g <> 0) by (apply Rmult_integral_contrapositive_currified; [now apply not_0_IZR|apply Rgt_not_eq, bpow_gt_0]).
    apply Rmult_lt_reg_r with (B g); [apply bpow_gt_0|].
    rewrite <- (Rabs_pos_eq (B g)) at 1 by apply bpow_ge_0. rewrite <- Rabs_mult.
    apply Rlt_le_trans with (B (mag radix2 (IZR n * B g))); [apply bpow_mag_gt|].
    change (IZR (2 ^ 24)) with (B 24). rewrite <- bpow_plus. apply bpow_le, M.
Qed.
Lemma grid_fx g z : grid g z -> (mag radix2 z <= 24 + g)%Z -> generic_format radix2 fx z.
Proof.
  intros [n ->] M. destruct (Z.eq_dec n 0) as [->|Hn].
  - rewrite Rmult_0_l. apply generic_format_0.
  - apply generic_format_FLX. exists (Float radix2 n g); [reflexivity|]. cbn [Fnum]. apply lt_IZR. rewrite abs_IZR.
    apply Rmult_lt_reg_r with (B g); [apply bpow_gt_0|].
    rewrite <- (Rabs_pos_eq (B g)) at 1 by apply bpow_ge_0. rewrite <- Rabs_mult.
    apply Rlt_le_trans with (B (mag radix2 (IZR n * B g))); [apply bpow_mag_gt|].
    change (IZR (radix2 ^ 24)) with (B 24). rewrite <- bpow_plus. apply bpow_le, M.
Qed.
Lemma rnd_rndx g z : (-149 <= g)%Z -> grid g z -> rnd z = rndx z.
Proof.
  intros G H. destruct (Z_le_gt_dec (mag radix2 z) (24 + g)) as [L|L].
  - destruct (grid_bound g z H L) as [K|K]; [|lia]. rewrite (rnd_id z K). symmetry. apply round_generic; [typeclasses eauto|]. now apply (grid_fx g).
  - unfold round, scaled_mantissa, cexp, FLT_exp, FLX_exp. rewrite Z.max_l by lia. reflexivity.
Qed.
Lemma rndx_scale z k : rndx (z * B k) = rndx z * B k.
Proof.
  destruct (Req_dec z 0) as [->|Hz]; [rewrite Rmult_0_l, round_0 by typeclasses eauto; ring|].
  unfold round, scaled_mantissa, cexp, FLX_exp, F2R. cbn [Fnum Fexp]. rewrite mag_mult_bpow by exact Hz.
  replace (z * B k * B (- (mag radix2 z + k - 24))) with (z * B (- (mag radix2 z - 24))).
  - rewrite Rmult_assoc, <- bpow_plus. do 2 f_equal. lia.
  - rewrite Rmult_assoc, <- bpow_plus. do 2 f_equal. lia.
Qed.
Lemma grid_scale g z k : grid g z -> grid (g + k) (z * B k).
Proof. intros [n ->]. exists n. rewrite Rmult_assoc, <- bpow_plus. reflexivity. Qed.
Lemma rnd_scale g z k : (-149 <= g)%Z -> (-149 <= g + k)%Z -> grid g z -> rnd (z * B k) = rnd z * B k.
Proof.
  intros G K H. rewrite (rnd_rndx g z G H), (rnd_rndx (g + k) (z * B k) K (grid_scale g z k H)). apply rndx_scale.
Qed.
Lemma grid_rnd g z : (-149 <= g)%Z -> grid g z -> grid g (rnd z).
Proof.
  intros G H. destruct (Z_le_gt_dec (mag radix2 z) (24 + g)) as [L|L].
  - destruct (grid_bound g z H L) as [K|K]; [|lia]. now rewrite (rnd_id z K).
  - unfold round, F2R. cbn [Fnum Fexp]. set (m := ZnearestE _). clearbody m.
    assert (C : (g <= cexp radix2 fe z)%Z) by (unfold cexp, FLT_exp; lia).
    exists (m * 2 ^ (cexp radix2 fe z - g))%Z. rewrite mult_IZR, (IZR_Zpower radix2) by lia.
    rewrite Rmult_assoc, <- bpow_plus. do 2 f_equal. lia.
Qed.
Lemma grid_add g x y : grid g x -> grid g y -> grid g (x + y).
Proof. intros [n ->] [m ->]. exists (n + m)%Z. rewrite plus_IZR. ring. Qed.
Lemma grid_sub g x y : grid g x -> grid g y -> grid g (x - y).
Proof. intros [n ->] [m ->]. exists (n - m)%Z. rewrite minus_IZR. ring. Qed.
Lemma grid_mul g h x y : grid g x -> grid h y -> grid (g + h) (x * y).
Proof. intros [n ->] [m ->]. exists (n * m)%Z. rewrite mult_IZR, bpow_plus. ring. Qed.
Lemma grid_le g h x : (h <= g)%Z -> grid g x -> grid h x.
Proof.
  intros L [n ->]. exists (n * 2 ^ (g - h))%Z. rewrite mult_IZR, (IZR_Zpower radix2) by lia. rewrite Rmult_assoc, <- bpow_plus. do 2 f_equal. lia.
Qed.
Lemma grid_fmt e x : fmt x -> x = 0 \/ B e <= Rabs x -> grid (e - 23) x.
Proof.
  intros Hx [->|L]; [exists 0%Z; ring|].
  assert (M : (e + 1 <= mag radix2 x)%Z) by (apply mag_ge_bpow; now replace (e + 1 - 1)%Z with e by lia).
  rewrite Hx at 1. unfold F2R. cbn [Fnum Fexp]. apply (grid_le (cexp radix2 fe x)); [unfold cexp, FLT_exp; lia|]. eexists. reflexivity.
Qed.

(** ** Pairs of floats, the second one the first one scaled. *)
Definition sc (k g m e : Z) (x y : f32) : Prop :=
  fin x /\ fin y /\ B2R y = B2R x * B k /\ grid g (B2R x) /\ Rabs (B2R x) <= IZR m * B e.
(** Equal as C++ compares them. *)
Definition eqf (x y : f32) : Prop := fin x /\ fin y /\ B2R x = B2R y.
Definition midh (lo hi : Z) (x : f32) : Prop := fin x /\ (B2R x = 0 \/ B lo <= Rabs (B2R x)) /\ Rabs (B2R x) <= B hi.
Notation mid lo := (midh lo 40).
Definition stop (s : f32) (k : Z) : Prop := fin s /\ B2R s = B k /\ (-20 <= k <= 20)%Z.
Lemma mB_le m m' e : (0 <= m <= m')%Z -> IZR m * B e <= IZR m' * B e.
Proof. intros H. apply Rmult_le_compat_r; [apply bpow_ge_0|]. apply IZR_le. lia. Qed.
Lemma mB_127 m e : (0 <= m <= 2 ^ 24)%Z -> (e <= 103)%Z -> IZR m * B e <= B 127.
Proof.
  intros H L. apply Rle_trans with (IZR (2 ^ 24) * B e); [apply mB_le, H|]. change (IZR (2 ^ 24)) with (B 24). rewrite <- bpow_plus. apply bpow_le. lia.
Qed.
Lemma mid_grid lo hi x : midh lo hi x -> grid (lo - 23) (B2R x).
Proof. intros (_ & L & _). apply grid_fmt; [apply fmt_B2R|exact L]. Qed.
Lemma B2R_0 : B2R (B754_zero false : f32) = 0. Proof. reflexivity. Qed.
Definition midb (lo hi : Z) (x : f32) : bool :=
  match B2SF x with
  | SpecFloat.S754_zero _ => true
  | SpecFloat.S754_finite _ m e => (lo <=? e + Z.log2 (Zpos m))%Z && (e + Z.log2 (Zpos m) <? hi)%Z
  | _ => false
  end.
Lemma midb_ok lo hi x : midb lo hi x = true -> midh lo hi x.
Proof.
  unfold midb, midh. destruct x as [s|s| |s m e H]; cbn [B2SF]; intros C; try discriminate.
  - split; [reflexivity|]. cbn [B2R]. rewrite Rabs_R0. split; [now left|apply bpow_ge_0].
  - apply andb_true_iff in C as [C1 C2]. apply Z.leb_le in C1. apply Z.ltb_lt in C2. split; [reflexivity|].
    assert (V : Rabs (B2R (B754_finite s m e H : f32)) = IZR (Zpos m) * B e).
    { cbn [B2R]. rewrite <- F2R_Zabs, abs_cond_Zopp. reflexivity. }
    rewrite V. pose proof (Z.log2_spec (Zpos m) ltac:(lia)) as [L1 L2]. pose proof (Z.log2_nonneg (Zpos m)) as L0. split; [right|].
    + apply Rle_trans with (B (Z.log2 (Zpos m) + e)); [apply bpow_le; lia|]. rewrite bpow_plus. apply Rmult_le_compat_r; [apply bpow_ge_0|].
      rewrite <- (IZR_Zpower radix2) by lia. apply IZR_le. exact L1.
    + apply Rle_trans with (B (Z.succ (Z.log2 (Zpos m)) + e)); [|apply bpow_le; lia]. rewrite bpow_plus. apply Rmult_le_compat_r; [apply bpow_ge_0|].
      rewrite <- (IZR_Zpower radix2) by lia. apply IZR_le. cbn [radix_val radix2]. lia.
Qed.

Section F.
Context (lm : libm).
Notation N := (FN lm).
Notation "x *! y" := (@fmul N x y) (at level 40).
Notation "x +! y" := (@fadd N x y) (at level 50).

(** Scaling itself is exact. *)
Lemma scale_ok s k g m e x : stop s k -> fin x -> grid g (B2R x) -> Rabs (B2R x) <= IZR m * B e ->
  (-149 <= g)%Z -> (-149 <= g + k)%Z -> (0 <= m <= 2 ^ 24)%Z -> (e <= 83)%Z -> fin (x *! s) /\ B2R (x *! s) = B2R x * B k.
Proof.
  intros (Fs & Vs & Hk) Fx G M G0 Gk Hm He. destruct (mul_ok lm x s Fx Fs) as [Fp Vp].
  - rewrite Vs, Rabs_mult, (Rabs_pos_eq (B k)) by apply bpow_ge_0. apply Rle_trans with (IZR m * B e * B k).
    + apply Rmult_le_compat_r; [apply bpow_ge_0|exact M].
    + rewrite Rmult_assoc, <- bpow_plus. apply mB_127; lia.
  - split; [exact Fp|]. rewrite Vp, Vs, (rnd_scale g _ k G0 Gk G), rnd_id by apply fmt_B2R. reflexivity.
Qed.
Lemma sc_in s k lo x : stop s k -> mid lo x -> (-106 <= lo)%Z -> sc k (lo - 23) 1 40 x (x *! s).
Proof.
  intros S M L. destruct M as (Fx & H & U) eqn:EM. pose proof (mid_grid lo 40 x M) as G. assert (U1 : Rabs (B2R x) <= IZR 1 * B 40) by lra.
  destruct (scale_ok s k (lo - 23) 1 40 x S Fx G U1) as [Fp Vp]; try (destruct S as (_ & _ & S); lia). repeat split; assumption.
Qed.
Lemma sc_out s k g m e x y : stop s k -> sc k g m e x y -> (-149 <= g)%Z -> (-149 <= g + k)%Z -> (0 <= m <= 2 ^ 24)%Z -> (e <= 83)%Z ->
  eqf y (x *! s).
Proof.
  intros S (Fx & Fy & V & G & M) ? ? ? ?. destruct (scale_ok s k g m e x S Fx G M) as [Fp Vp]; try assumption. repeat split; auto. now rewrite Vp, V.
Qed.
Lemma rnd_bnd m e z : (0 <= m <= 2 ^ 24)%Z -> (-149 <= e)%Z -> Rabs z <= IZR m * B e -> Rabs (rnd z) <= IZR m * B e.
Proof. intros Hm He. apply rnd_abs_le. apply fmt_F2R; lia. Qed.
Lemma abs_scale z k : Rabs (z * B k) = Rabs z * B k.
Proof. rewrite Rabs_mult, (Rabs_pos_eq (B k)) by apply bpow_ge_0. reflexivity. Qed.
Definition kb (k : Z) : Prop := (-20 <= k <= 20)%Z.
Lemma sc_mul k g m e c h n f x y : kb k -> sc k g m e x y -> fin c -> grid h (B2R c) -> Rabs (B2R c) <= IZR n * B f ->
  (-149 <= g + h)%Z -> (-149 <= g + h + k)%Z -> (0 <= m)%Z -> (0 <= n)%Z -> (m * n <= 2 ^ 24)%Z -> (-149 <= e + f <= 83)%Z ->
  sc k (g + h) (m * n) (e + f) (x *! c) (y *! c).
Proof.
  intros Hk (Fx & Fy & V & G & M) Fc Gc Mc G0 Gk Hm Hn Hmn He.
  assert (Bd : Rabs (B2R x * B2R c) <= IZR (m * n) * B (e + f)).
  { rewrite Rabs_mult, mult_IZR, bpow_plus. replace (IZR m * IZR n * (B e * B f)) with ((IZR m * B e) * (IZR n * B f)) by ring.
    apply Rmult_le_compat; auto using Rabs_pos. }
  assert (Bd' : Rabs (B2R y * B2R c) <= IZR (m * n) * B (e + f) * B k).
  { rewrite V. replace (B2R x * B k * B2R c) with (B2R x * B2R c * B k) by ring. rewrite abs_scale. apply Rmult_le_compat_r; [apply bpow_ge_0|exact Bd]. }
  destruct (mul_ok lm x c Fx Fc) as [F1 V1]; [eapply Rle_trans; [exact Bd|apply mB_127; nia]|].
  destruct (mul_ok lm y c Fy Fc) as [F2 V2]; [eapply Rle_trans; [exact Bd'|]|].
  { rewrite Rmult_assoc, <- bpow_plus. unfold kb in Hk. apply mB_127; nia. }
  pose proof (grid_mul g h _ _ G Gc) as GG. split; [exact F1|]. split; [exact F2|]. rewrite V1, V2. split; [|split].
  - rewrite V. replace (B2R x * B k * B2R c) with (B2R x * B2R c * B k) by ring. apply (rnd_scale (g + h)); auto.
  - apply grid_rnd; auto.
  - apply rnd_bnd; [nia|lia|exact Bd].
Qed.
Lemma sc_mul' k g m e c h n f x y : kb k -> sc k g m e x y -> fin c -> grid h (B2R c) -> Rabs (B2R c) <= IZR n * B f ->
  (-149 <= g + h)%Z -> (-149 <= g + h + k)%Z -> (0 <= m)%Z -> (0 <= n)%Z -> (m * n <= 2 ^ 24)%Z -> (-149 <= e + f <= 83)%Z ->
  sc k (g + h) (m * n) (e + f) (c *! x) (c *! y).
Proof.
  intros Hk S Fc Gc Mc G0 Gk Hm Hn Hmn He. destruct (sc_mul k g m e c h n f x y) as (F1 & F2 & V & G & M); auto.
  assert (Fx : fin x) by apply S. assert (Fy : fin y) by apply S.
  assert (C : forall z, fin z -> fin (z *! c) -> fin (c *! z) /\ B2R (c *! z) = B2R (z *! c)).
  { intros z Fz Fp. pose proof (mul_gen lm c z Fc Fz) as K. destruct (PSpecF.mul_inv lm z c Fp) as (_ & _ & E).
    destruct K as [K1 K2]; [rewrite Rmult_comm; apply (rnd_fmt_lt _ (z *! c)); symmetry; exact E|].
    split; [exact K1|]. rewrite K2, E, Rmult_comm. reflexivity. }
  destruct (C x Fx F1) as [A1 A2]. destruct (C y Fy F2) as [B1 B2]. unfold sc. rewrite A2, B2. auto 6.
Qed.
Lemma sc_add k g m n e x y x' y' : kb k -> sc k g m e x y -> sc k g n e x' y' -> (-149 <= g)%Z -> (-149 <= g + k)%Z ->
  (0 <= m)%Z -> (0 <= n)%Z -> (m + n <= 2 ^ 24)%Z -> (-149 <= e <= 83)%Z -> sc k g (m + n) e (x +! x') (y +! y').
Proof.
  intros Hk (Fx & Fy & V & G & M) (Fx' & Fy' & V' & G' & M') G0 Gk Hm Hn Hmn He.
  assert (Bd : Rabs (B2R x + B2R x') <= IZR (m + n) * B e).
  { rewrite plus_IZR, Rmult_plus_distr_r. eapply Rle_trans; [apply Rabs_triang|]. lra. }
  assert (E : B2R y + B2R y' = (B2R x + B2R x') * B k) by (rewrite V, V'; ring).
  destruct (add_ok lm x x' Fx Fx') as [F1 V1]; [eapply Rle_trans; [exact Bd|apply mB_127; lia]|].
  destruct (add_ok lm y y' Fy Fy') as [F2 V2].
  { rewrite E, abs_scale. apply Rle_trans with (IZR (m + n) * B e * B k); [apply Rmult_le_compat_r; [apply bpow_ge_0|exact Bd]|].
    rewrite Rmult_assoc, <- bpow_plus. unfold kb in Hk. apply mB_127; lia. }
  pose proof (grid_add g _ _ G G') as GG. split; [exact F1|]. split; [exact F2|]. rewrite V1, V2, E. split; [|split].
  - apply (rnd_scale g); auto.
  - apply grid_rnd; auto.
  - apply rnd_bnd; [lia|lia|exact Bd].
Qed.
Lemma sc_opp k g m e x y : sc k g m e x y -> sc k g m e (@fopp N x) (@fopp N y).
Proof.
  intros (Fx & Fy & V & [n G] & M). destruct (opp_ok lm x Fx) as [F1 V1]. destruct (opp_ok lm y Fy) as [F2 V2].
  unfold sc. rewrite V1, V2, V, Rabs_Ropp. repeat split; auto; [ring|]. exists (- n)%Z. rewrite G, opp_IZR. ring.
Qed.
Lemma sc_sub k g m n e x y x' y' : kb k -> sc k g m e x y -> sc k g n e x' y' -> (-149 <= g)%Z -> (-149 <= g + k)%Z ->
  (0 <= m)%Z -> (0 <= n)%Z -> (m + n <= 2 ^ 24)%Z -> (-149 <= e <= 83)%Z -> sc k g (m + n) e (@fsub N x x') (@fsub N y y').
Proof.
  intros Hk (Fx & Fy & V & G & M) (Fx' & Fy' & V' & G' & M') G0 Gk Hm Hn Hmn He.
  assert (Bd : Rabs (B2R x - B2R x') <= IZR (m + n) * B e).
  { rewrite plus_IZR, Rmult_plus_distr_r. unfold Rminus. eapply Rle_trans; [apply Rabs_triang|]. rewrite Rabs_Ropp. lra. }
  assert (E : B2R y - B2R y' = (B2R x - B2R x') * B k) by (rewrite V, V'; ring).
  destruct (sub_ok lm x x' Fx Fx') as [F1 V1]; [eapply Rle_trans; [exact Bd|apply mB_127; lia]|].
  destruct (sub_ok lm y y' Fy Fy') as [F2 V2].
  { rewrite E, abs_scale. apply Rle_trans with (IZR (m + n) * B e * B k); [apply Rmult_le_compat_r; [apply bpow_ge_0|exact Bd]|].
    rewrite Rmult_assoc, <- bpow_plus. unfold kb in Hk. apply mB_127; lia. }
  pose proof (grid_sub g _ _ G G') as GG. split; [exact F1|]. split; [exact F2|]. rewrite V1, V2, E. split; [|split].
  - apply (rnd_scale g); auto.
  - apply grid_rnd; auto.
  - apply rnd_bnd; [lia|lia|exact Bd].
Qed.
(** A quotient of two scaled values does not change. *)
Lemma sc_div k g g' m m' e e' x y x' y' : sc k g m e x y -> sc k g' m' e' x' y' -> B2R x' <> 0 ->
  (0 <= m <= 2 ^ 24)%Z -> (e - g' <= 103)%Z -> eqf (@fdiv N y y') (@fdiv N x x') /\ B2R (@fdiv N x x') = rnd (B2R x / B2R x').
Proof.
  intros (Fx & Fy & V & G & M) (Fx' & Fy' & V' & G' & M') Nz Hm He. pose proof (bpow_gt_0 radix2 k) as Bk.
  assert (Nz' : B2R y' <> 0) by (rewrite V'; apply Rmult_integral_contrapositive_currified; [exact Nz|lra]).
  assert (E : B2R y / B2R y' = B2R x / B2R x') by (rewrite V, V'; field; split; [exact Nz|lra]).
  assert (Bd : Rabs (B2R x / B2R x') <= B 127).
  { assert (L : B g' <= Rabs (B2R x')).
    { destruct G' as [n G']. rewrite G', abs_scale. rewrite <- abs_IZR. rewrite <- (Rmult_1_l (B g')) at 1. apply Rmult_le_compat_r; [apply bpow_ge_0|].
      apply IZR_le. assert (n <> 0%Z) by (intros ->; apply Nz; rewrite G'; ring). lia. }
    unfold Rdiv. rewrite Rabs_mult, Rabs_inv. apply Rle_trans with (IZR m * B e * B (- g')).
    - apply Rmult_le_compat; [apply Rabs_pos|left; apply Rinv_0_lt_compat, Rabs_pos_lt, Nz|exact M|].
      rewrite bpow_opp. apply Rinv_le; [apply bpow_gt_0|exact L].
    - rewrite Rmult_assoc, <- bpow_plus. apply mB_127; lia. }
  destruct (div_ok lm x x' Fx Nz Bd) as [F1 V1]. destruct (div_ok lm y y' Fy Nz') as [F2 V2]; [now rewrite E|].
  split; [|exact V1]. repeat split; auto. now rewrite V1, V2, E.
Qed.
Lemma sc_quot k g g' m m' e e' x y x' y' : sc k g m e x y -> sc k g' m' e' x' y' -> B2R x' <> 0 ->
  (0 <= m <= 2 ^ 23)%Z -> (e - g' <= 103)%Z -> (-149 <= e - g')%Z -> Rabs (B2R (@fdiv N x x')) <= B 126.
Proof.
  intros S S' Nz Hm He Hf. destruct (sc_div k g g' m m' e e' x y x' y' S S' Nz) as [_ E]; [lia|lia|]. rewrite E.
  destruct S as (Fx & Fy & V & G & M), S' as (Fx' & Fy' & V' & G' & M').
  assert (L : B g' <= Rabs (B2R x')).
  { destruct G' as [n G']. rewrite G', abs_scale. rewrite <- abs_IZR. rewrite <- (Rmult_1_l (B g')) at 1. apply Rmult_le_compat_r; [apply bpow_ge_0|].
    apply IZR_le. assert (n <> 0%Z) by (intros ->; apply Nz; rewrite G'; ring). lia. }
  apply rnd_abs_le; [apply fmt_bpow; lia|]. unfold Rdiv. rewrite Rabs_mult, Rabs_inv. apply Rle_trans with (IZR (2 ^ 23) * B e * B (- g')).
  - apply Rmult_le_compat; [apply Rabs_pos|left; apply Rinv_0_lt_compat, Rabs_pos_lt, Nz| |].
    + eapply Rle_trans; [exact M|]. apply mB_le. lia.
    + rewrite bpow_opp. apply Rinv_le; [apply bpow_gt_0|exact L].
  - change (IZR (2 ^ 23)) with (B 23). rewrite <- !bpow_plus. apply bpow_le. lia.
Qed.
Lemma eqf_eq x y : eqf x y -> B2R x <> 0 -> x = y.
Proof. intros (Fx & Fy & V) Nz. apply B2R_inj; [| |exact V]. - destruct x; cbn in *; try reflexivity; try lra; discriminate. - rewrite V in Nz. destruct y; cbn in *; try reflexivity; try lra; discriminate. Qed.

(** ** Matrices. *)
Definition eqV (a b : Vector3 f32) : Prop := eqf (v0 a) (v0 b) /\ eqf (v1 a) (v1 b) /\ eqf (v2 a) (v2 b).
Lemma sc_inh s k lo hi x : stop s k -> midh lo hi x -> (-106 <= lo)%Z -> (hi <= 83)%Z -> sc k (lo - 23) 1 hi x (x *! s).
Proof.
  intros S M L H. pose proof (mid_grid lo hi x M) as G. destruct M as (Fx & _ & U). assert (U1 : Rabs (B2R x) <= IZR 1 * B hi) by lra.
  destruct (scale_ok s k (lo - 23) 1 hi x S Fx G U1) as [Fp Vp]; try (destruct S as (_ & _ & S); lia). repeat split; assumption.
Qed.
Lemma row_gen s k a b c d (c0 c1 c2 x0 x1 x2 : f32) : stop s k -> midh a b c0 -> midh a b c1 -> midh a b c2 -> midh c d x0 -> midh c d x1 -> midh c d x2 ->
  (-83 <= a + c)%Z -> (-106 <= c)%Z -> (d <= 83)%Z -> (-149 <= b + d <= 83)%Z ->
  sc k ((c - 23) + (a - 23)) 3 (d + b) (c0 *! x0 +! c1 *! x1 +! c2 *! x2) (c0 *! (x0 *! s) +! c1 *! (x1 *! s) +! c2 *! (x2 *! s)).
Proof.
  intros S C0 C1 C2 X0 X1 X2 H1 H2 H3 H4. assert (Hk : kb k) by apply S. unfold kb in Hk.
  assert (P : forall q x, midh a b q -> midh c d x -> sc k ((c - 23) + (a - 23)) 1 (d + b) (q *! x) (q *! (x *! s))).
  { intros q x C X. change 1%Z with (1 * 1)%Z.
    apply sc_mul'; try lia; [exact Hk|apply (sc_inh s k c d); auto; lia|apply C|apply (mid_grid a b), C|]. destruct C as (_ & _ & C). lra. }
  change 3%Z with (1 + 1 + 1)%Z. repeat apply sc_add; try lia; try exact Hk; apply P; assumption.
Qed.
Lemma row_sc s k (c0 c1 c2 x0 x1 x2 : f32) : stop s k -> mid (-40) c0 -> mid (-40) c1 -> mid (-40) c2 -> mid (-40) x0 -> mid (-40) x1 -> mid (-40) x2 ->
  sc k (-126) 3 80 (c0 *! x0 +! c1 *! x1 +! c2 *! x2) (c0 *! (x0 *! s) +! c1 *! (x1 *! s) +! c2 *! (x2 *! s)).
Proof. intros. apply (row_gen s k (-40) 40 (-40) 40); auto; lia. Qed.
Lemma apply_stop s k a c m t : stop s k -> allM (midh a 40) m -> allV (midh c 40) t -> (-83 <= a + c)%Z -> (-106 <= c)%Z ->
  eqV (M_apply N m (T_scale N t s)) (T_scale N (M_apply N m t) s).
Proof.
  intros S M T H1 H2. destruct m as [e0 e1 e2 e3 e4 e5 e6 e7 e8], t as [x y z]. unfold allM, allV in *. cbn [m0 m1 m2 m3 m4 m5 m6 m7 m8 v0 v1 v2] in *.
  assert (Hk : kb k) by apply S. unfold kb in Hk.
  unfold eqV. cbn [M_apply T_scale v0 v1 v2 vref].
  refine (conj _ (conj _ _)); apply (sc_out s k ((c - 23) + (a - 23)) 3 80); try lia; try exact S; apply (row_gen s k a 40 c 40); try lia; try exact S; cbn; tauto.
Qed.

(** ** HSV. *)
Lemma cmp_stop s k x y : stop s k -> mid (-40) x -> mid (-40) y ->
  @fltb N (x *! s) (y *! s) = @fltb N x y /\ @feqb N (x *! s) (y *! s) = @feqb N x y.
Proof.
  intros S X Y. destruct (sc_in s k (-40) x S X) as (Fx & Fx' & Vx & _); [lia|]. destruct (sc_in s k (-40) y S Y) as (Fy & Fy' & Vy & _); [lia|].
  pose proof (bpow_gt_0 radix2 k) as P. split.
  - rewrite (ltb_ok lm (x *! s) (y *! s) Fx' Fy'), (ltb_ok lm x y Fx Fy), Vx, Vy. case (Rlt_bool_spec (B2R x) (B2R y)); intros H.
    + apply Rlt_bool_true. apply Rmult_lt_compat_r; assumption.
    + apply Rlt_bool_false. apply Rmult_le_compat_r; lra.
  - rewrite (eqb_ok lm (x *! s) (y *! s) Fx' Fy'), (eqb_ok lm x y Fx Fy), Vx, Vy. case (Req_bool_spec (B2R x) (B2R y)); intros H.
    + apply Req_bool_true. now rewrite H.
    + apply Req_bool_false. intros E. apply H. apply Rmult_eq_reg_r with (B k); lra.
Qed.
Lemma maxi_stop s k x y : stop s k -> mid (-40) x -> mid (-40) y -> maxi N (x *! s) (y *! s) = maxi N x y *! s /\ mid (-40) (maxi N x y).
Proof. intros S X Y. unfold maxi. rewrite (proj1 (cmp_stop s k y x S Y X)). destruct (@fltb N y x); auto. Qed.
Lemma mini_stop s k x y : stop s k -> mid (-40) x -> mid (-40) y -> mini N (x *! s) (y *! s) = mini N x y *! s /\ mid (-40) (mini N x y).
Proof. intros S X Y. unfold mini. rewrite (proj1 (cmp_stop s k x y S X Y)). destruct (@fltb N x y); auto. Qed.
Lemma eqf_refl x : fin x -> eqf x x. Proof. repeat split; auto. Qed.
Lemma eqf_sym x y : eqf x y -> eqf y x. Proof. intros (A & C & D). repeat split; auto. Qed.
Lemma mod_eqf n x y a : eqf x y -> mod360 N (S n) x = Ret a -> fin a -> exists b, mod360 N (S n) y = Ret b /\ eqf a b.
Proof.
  intros E Ma Fa. destruct (Req_dec (B2R x) 0) as [Z|Nz].
  - assert (K : forall z : f32, fin z -> B2R z = 0 -> mod360 N (S n) z = Ret z).
    { intros z Fz Vz. apply (mod360_F_in lm n z Fz). lra. }
    destruct E as (Fx & Fy & V). rewrite (K x Fx Z) in Ma. injection Ma as <-. exists y. split; [apply K; [exact Fy|congruence]|]. repeat split; auto.
  - rewrite <- (eqf_eq x y E Nz). exists a. split; [exact Ma|apply eqf_refl, Fa].
Qed.

Lemma quot60_stop s k a b v mi : stop s k -> mid (-40) a -> mid (-40) b -> mid (-40) v -> mid (-40) mi -> B2R v <> B2R mi ->
  eqf (@fdiv N (@flit N 60 *! @fsub N (a *! s) (b *! s)) (@fsub N (v *! s) (mi *! s))) (@fdiv N (@flit N 60 *! @fsub N a b) (@fsub N v mi)) /\
  Rabs (B2R (@fdiv N (@flit N 60 *! @fsub N a b) (@fsub N v mi))) <= B 126.
Proof.
  intros S A Bb V M Nz. assert (Hk : kb k) by apply S. unfold kb in Hk. destruct (l60 lm) as [F60 V60].
  assert (D : forall x y, mid (-40) x -> mid (-40) y -> sc k (-63) (1 + 1) 40 (@fsub N x y) (@fsub N (x *! s) (y *! s))).
  { intros x y X Y. apply sc_sub; try lia; try exact Hk; apply (sc_in s k (-40)); auto; lia. }
  assert (P : sc k (-63 + 0) ((1 + 1) * 60) (40 + 0) (@flit N 60 *! @fsub N a b) (@flit N 60 *! @fsub N (a *! s) (b *! s))).
  { apply sc_mul'; try lia; auto. - rewrite V60. exists 60%Z. cbn. ring. - rewrite V60, Rabs_pos_eq by lra. cbn. lra. }
  enough (W : B2R (@fsub N v mi) <> 0).
  { split; [refine (proj1 (sc_div k _ _ _ _ _ _ _ _ _ _ P (D v mi V M) W _ _)); lia|].
    refine (sc_quot k _ _ _ _ _ _ _ _ _ _ P (D v mi V M) W _ _ _); lia. }
  destruct (sub_ok lm v mi) as [_ E]; [apply V|apply M| |].
  { eapply Rle_trans; [apply Rabs_triang|]. rewrite Rabs_Ropp. destruct V as (_ & _ & V), M as (_ & _ & M).
    apply Rle_trans with (B 40 + B 40); [lra|]. apply Rle_trans with (B 41); [|apply bpow_le; lia]. change (B 41) with (IZR (2 ^ 41)). change (B 40) with (IZR (2 ^ 40)). rewrite <- plus_IZR. apply IZR_le. lia. }
  rewrite E. intros Z. apply Nz. apply Rminus_diag_uniq.
  apply (Plus_error.round_plus_eq_0 radix2 fe ZnearestE (B2R v) (- B2R mi)); [apply fmt_B2R|apply generic_format_opp, fmt_B2R|exact Z].
Qed.
Lemma add_eqf x y c : eqf x y -> Rabs (B2R y) <= B 126 -> fin c /\ Rabs (B2R c) <= B 126 -> eqf (x +! c) (y +! c).
Proof.
  intros (Fx & Fy & V) L [Fc C]. assert (K : Rabs (B2R y + B2R c) <= B 127).
  { eapply Rle_trans; [apply Rabs_triang|]. change (B 127) with (B (1 + 126)). rewrite bpow_plus. change (B 1) with 2. lra. }
  destruct (add_ok lm y c Fy Fc K) as [F1 V1]. destruct (add_ok lm x c Fx Fc) as [F2 V2]; [now rewrite V|]. repeat split; auto. now rewrite V1, V2, V.
Qed.
Lemma l120' : fin (@flit N 120) /\ Rabs (B2R (@flit N 120)) <= B 126.
Proof. destruct (l120 lm) as [F V]. split; [exact F|]. rewrite V, Rabs_pos_eq by lra. apply Rle_trans with (B 7); [cbn; lra|apply bpow_le; lia]. Qed.
Lemma l240' : fin (@flit N 240) /\ Rabs (B2R (@flit N 240)) <= B 126.
Proof. destruct (l240 lm) as [F V]. split; [exact F|]. rewrite V, Rabs_pos_eq by lra. apply Rle_trans with (B 8); [cbn; lra|apply bpow_le; lia]. Qed.
Lemma hsv_stop s k t : stop s k -> allV (mid (-40)) t -> allV (fun x => 0 <= B2R x) t ->
  exists h c v h' c' v', terminates_with (fun n => toHSV N n t) (Ret (V3 h c v)) /\
    terminates_with (fun n => toHSV N n (T_scale N t s)) (Ret (V3 h' c' v')) /\ eqf h' h /\ eqf c' c /\ eqf v' (v *! s).
Proof.
  intros S T P. assert (Hk : kb k) by apply S. unfold kb in Hk. destruct t as [t0 t1 t2]. destruct T as (T0 & T1 & T2), P as (P0 & P1 & P2). cbn [v0 v1 v2] in *.
  destruct (toHSV_F lm (V3 t0 t1 t2)) as (h & c & v & E & Fh & Fc & Fv & _).
  { repeat split; cbn [v0 v1 v2]; [apply T0|apply T1|apply T2]. }
  { assert (BB : B 40 <= B 120) by (apply bpow_le; lia). repeat split; cbn [v0 v1 v2]; auto; [destruct T0 as (_ & _ & L)|destruct T1 as (_ & _ & L)|destruct T2 as (_ & _ & L)]; rewrite Rabs_pos_eq in L by assumption; lra. }
  pose proof (E 0%nat) as E0. unfold toHSV in E0. cbv zeta in E0.
  destruct (mod360 N 2 (hsv_hue_raw N (V3 t0 t1 t2))) as [h0| | |] eqn:EH; try discriminate. cbn [bind] in E0. injection E0 as -> Ec Ev.
  destruct (maxi_stop s k t0 t1 S T0 T1) as [M1 M2]. destruct (maxi_stop s k _ t2 S M2 T2) as [M3 M4].
  destruct (mini_stop s k t0 t1 S T0 T1) as [N1 N2]. destruct (mini_stop s k _ t2 S N2 T2) as [N3 N4].
  cbn [vref] in Ec, Ev.

  change ((if @feqb N (maxi N (maxi N t0 t1) t2) (@flit N 0) then @flit N 0 else @fdiv N (@fsub N (maxi N (maxi N t0 t1) t2) (mini N (mini N t0 t1) t2)) (maxi N (maxi N t0 t1) t2)) = c) in Ec.
  assert (R : eqf (hsv_hue_raw N (V3 t0 t1 t2)) (hsv_hue_raw N (T_scale N (V3 t0 t1 t2) s))).
  { apply eqf_sym. unfold hsv_hue_raw, T_scale. cbv zeta. cbn [v0 v1 v2 vref]. rewrite M1, N1, M3, N3. clear Ec Ev E EH.
    set (mx := maxi N (maxi N t0 t1) t2) in *. set (mi := mini N (mini N t0 t1) t2) in *.
    rewrite (proj2 (cmp_stop s k mx mi S M4 N4)), (proj2 (cmp_stop s k mx t0 S M4 T0)), (proj2 (cmp_stop s k mx t1 S M4 T1)).
    destruct (@feqb N mx mi) eqn:Q; [apply eqf_refl, l0|].
    assert (Nz : B2R mx <> B2R mi). { rewrite eqb_ok in Q by (apply M4 || apply N4). intros K. now rewrite (Req_bool_true _ _ K) in Q. }
    pose proof (quot60_stop s k t1 t2 mx mi S T1 T2 M4 N4 Nz) as Q0. pose proof (quot60_stop s k t2 t0 mx mi S T2 T0 M4 N4 Nz) as Q1.
    pose proof (quot60_stop s k t0 t1 mx mi S T0 T1 M4 N4 Nz) as Q2. destruct (@feqb N mx t0); [apply Q0|].
    destruct (@feqb N mx t1); apply add_eqf; [apply Q1|apply Q1|apply l120'|apply Q2|apply Q2|apply l240']. }
  destruct (mod_eqf 1 _ _ h R EH Fh) as (h' & Eh' & Qh).
  exists h, c, v, h', (if @feqb N (v *! s) (@flit N 0) then @flit N 0 else @fdiv N (@fsub N (v *! s) (mini N (mini N t0 t1) t2 *! s)) (v *! s)), (v *! s).
  split; [|split; [|split; [apply eqf_sym, Qh|split]]].
  - exists 2%nat. intros [|[|n]] L; try lia. split; [apply E|discriminate].
  - exists 2%nat. intros n L. split; [|discriminate]. unfold toHSV. rewrite (mod360_mono N 2 n _ _ Eh') by lia. cbn [bind]. unfold T_scale. cbv zeta. cbn [v0 v1 v2 vref].
    rewrite M1, N1, M3, N3, Ev. reflexivity.
  - rewrite <- Ec, Ev. rewrite Ev in M4. destruct (l0 lm) as [F0 V0]. destruct (sc_in s k (-40) v S M4) as (_ & Fvs & Vvs & _); [lia|].
    rewrite (eqb_ok lm (v *! s) _ Fvs F0), (eqb_ok lm v _ Fv F0), V0, Vvs. pose proof (bpow_gt_0 radix2 k) as Bk. case (Req_bool_spec (B2R v) 0); intros Z.
    + rewrite Req_bool_true by (rewrite Z; ring). apply eqf_refl, F0.
    + rewrite Req_bool_false by (apply Rmult_integral_contrapositive_currified; lra).
      refine (proj1 (sc_div k (-63) (-63) (1 + 1) 1 40 40 _ _ _ _ _ (sc_in s k (-40) v S M4 _) Z _ _)); try lia.
      apply sc_sub; try lia; try exact Hk; apply (sc_in s k (-40)); auto; lia.
  - apply eqf_refl. rewrite Ev in M4. apply (sc_in s k (-40) v S M4). lia.
Qed.

(** ** Chromaticity. *)
Lemma abs_f_F (x : f32) : fin x -> fin (abs_f N x) /\ B2R (abs_f N x) = Rabs (B2R x).
Proof.
  intros Fx. unfold abs_f. destruct (l0 lm) as [F0 V0]. rewrite (ltb_ok lm x _ Fx F0), V0. case Rlt_bool_spec; intros H.
  - destruct (opp_ok lm x Fx) as [F1 V1]. split; [exact F1|]. rewrite V1, Rabs_left by exact H. reflexivity.
  - split; [exact Fx|]. rewrite Rabs_pos_eq by exact H. reflexivity.
Qed.
Lemma l1e8 : fin (@flit N 1e-8) /\ B2R (@flit N 1e-8) <= B (-26).
Proof.
  assert (Q : Rabs (Rdec 1e-8%dec) <= B (-26)).
  { unfold Rdec. cbn [dm de]. change (B (-26)) with (/ IZR (2 ^ 26)). rewrite Rabs_pos_eq; cbn -[IZR]; lra. }
  destruct (lit_ok lm 1e-8%dec) as [F V]; [eapply Rle_trans; [exact Q|apply bpow_le; lia]|]. split; [exact F|].
  rewrite V. apply Rle_trans with (1 := Rle_abs _). apply rnd_abs_le; [apply fmt_bpow; lia|exact Q].
Qed.
Lemma Yxy_stop s k t : stop s k -> allV (mid (-40)) t -> allV (fun x => 0 <= B2R x) t -> (B (-5) <= B2R (v0 t) \/ B (-5) <= B2R (v1 t) \/ B (-5) <= B2R (v2 t)) ->
  let r := toYxy N t in eqV (toYxy N (T_scale N t s)) (V3 (v0 r *! s) (v1 r) (v2 r)).
Proof.
  intros S T P L. assert (Hk : kb k) by apply S. unfold kb in Hk. destruct t as [x y z]. destruct T as (X & Y & Z), P as (P0 & P1 & P2). cbn [v0 v1 v2] in *.
  pose proof (sc_in s k (-40) x S X ltac:(lia)) as SX. pose proof (sc_in s k (-40) y S Y ltac:(lia)) as SY. pose proof (sc_in s k (-40) z S Z ltac:(lia)) as SZ.
  assert (SS : sc k (-63) (1 + 1 + 1) 40 (x +! y +! z) (x *! s +! y *! s +! z *! s)) by (repeat apply sc_add; try lia; auto).
  assert (G : B (-5) <= B2R (x +! y +! z)).
  { assert (BB : B 40 + B 40 + B 40 <= B 120).
    { apply Rle_trans with (B 42); [|apply bpow_le; lia]. change (B 42) with (B (2 + 40)). rewrite bpow_plus. change (B 2) with 4. pose proof (bpow_gt_0 radix2 40). lra. }
    assert (B127 : B 120 <= B 127) by (apply bpow_le; lia).
    destruct X as (Fx & _ & X), Y as (Fy & _ & Y), Z as (Fz & _ & Z). rewrite Rabs_pos_eq in X, Y, Z by assumption.
    pose proof (bpow_gt_0 radix2 40) as B40.
    destruct (add_ok lm x y Fx Fy) as [F1 V1]; [rewrite Rabs_pos_eq by lra; lra|].
    assert (Q : 0 <= B2R (x +! y) <= 2 * B 40 /\ B2R x <= B2R (x +! y) /\ B2R y <= B2R (x +! y)).
    { rewrite V1. split; [split|split]; [apply rnd_ge_fmt; [apply fmt_0|lra]|apply rnd_le_fmt; [change 2 with (B 1); rewrite <- bpow_plus; apply fmt_bpow; lia|lra]| |];
        apply rnd_ge_fmt; [apply fmt_B2R|lra|apply fmt_B2R|lra]. }
    destruct (add_ok lm _ z F1 Fz) as [F2 V2]; [rewrite Rabs_pos_eq by lra; lra|]. rewrite V2. apply rnd_ge_fmt; [apply fmt_bpow; lia|].
    pose proof (bpow_gt_0 radix2 (-5)). destruct L as [L|[L|L]]; lra. }
  assert (Fs : fin (x +! y +! z)) by apply SS. assert (Fs' : fin (x *! s +! y *! s +! z *! s)) by apply SS.
  assert (Vs : B2R (x *! s +! y *! s +! z *! s) = B2R (x +! y +! z) * B k) by apply SS.
  assert (G' : B (-25) <= B2R (x *! s +! y *! s +! z *! s)).
  { rewrite Vs. apply Rle_trans with (B (-5) * B k); [rewrite <- bpow_plus; apply bpow_le; lia|]. apply Rmult_le_compat_r; [apply bpow_ge_0|exact G]. }
  destruct l1e8 as [F8 V8]. assert (B25 : B (-26) < B (-25) <= B (-5)) by (split; [apply bpow_lt; lia|apply bpow_le; lia]).
  assert (C : forall w, fin w -> B (-25) <= B2R w -> @fltb N (abs_f N w) (@flit N 1e-8) = false).
  { intros w Fw Hw. destruct (abs_f_F w Fw) as [Fa Va]. rewrite (ltb_ok lm _ _ Fa F8), Va. apply Rlt_bool_false. pose proof (Rle_abs (B2R w)). lra. }
  unfold toYxy, toYxy3, T_scale, Y_from_XYZ, x_from_XYZ, y_from_XYZ. cbn [v0 v1 v2 vref].
  rewrite (C _ Fs) by lra. rewrite (C _ Fs') by lra. pose proof (bpow_gt_0 radix2 (-5)).
  split; [|split]; cbn [v0 v1 v2].
  - apply eqf_refl, SY.
  - refine (proj1 (sc_div k (-63) (-63) 1 3 40 40 _ _ _ _ SX SS _ _ _)); try lia; lra.
  - refine (proj1 (sc_div k (-63) (-63) 1 3 40 40 _ _ _ _ SY SS _ _ _)); try lia; lra.
Qed.

(** ** CIELAB relative to a white that scales along, and chromatic adaptation. *)
Lemma quot_same s k x y : stop s k -> mid (-40) x -> mid (-40) y -> B2R x <> 0 -> B2R y <> 0 -> @fdiv N (x *! s) (y *! s) = @fdiv N x y.
Proof.
  intros S X Y Nx Ny. assert (Hk : kb k) by apply S. unfold kb in Hk.
  pose proof (sc_in s k (-40) x S X ltac:(lia)) as SX. pose proof (sc_in s k (-40) y S Y ltac:(lia)) as SY.
  destruct (sc_div k (-63) (-63) 1 1 40 40 _ _ _ _ SX SY Ny) as [E V]; try lia. symmetry. apply eqf_eq; [apply eqf_sym, E|]. rewrite V.
  assert (Q : B (-80) <= Rabs (B2R x / B2R y)).
  { destruct X as (_ & [X|X] & _); [contradiction|]. destruct Y as (_ & _ & Y). unfold Rdiv. rewrite Rabs_mult, Rabs_inv. change (-80)%Z with (-40 + -40)%Z. rewrite bpow_plus.
    apply Rmult_le_compat; try apply bpow_ge_0; [exact X|]. change (-40)%Z with (Z.opp 40). rewrite bpow_opp. apply Rinv_le; [now apply Rabs_pos_lt|exact Y]. }
  intros Z0. pose proof (bpow_gt_0 radix2 (-80)) as P.
  assert (K : B (-80) <= Rabs (rnd (B2R x / B2R y))).
  { rewrite <- round_NE_abs by typeclasses eauto. apply rnd_ge_fmt; [apply fmt_bpow; lia|exact Q]. }
  rewrite Z0, Rabs_R0 in K. lra.
Qed.
Lemma Lab_stop s k t w : stop s k -> allV (fun x => mid (-40) x /\ B2R x <> 0) t -> allV (fun x => mid (-40) x /\ B2R x <> 0) w ->
  toCIELAB N (T_scale N t s) (T_scale N w s) = toCIELAB N t w.
Proof.
  intros S ((T0 & N0) & (T1 & N1) & (T2 & N2)) ((W0 & M0) & (W1 & M1) & (W2 & M2)). destruct t as [x y z], w as [a b c]. cbn [v0 v1 v2] in *.
  unfold toCIELAB, T_scale. cbn [v0 v1 v2 vref]. rewrite (quot_same s k x a), (quot_same s k y b), (quot_same s k z c) by assumption. reflexivity.
Qed.

Lemma LMS_chk : forallb (midb (-6) 1) (let m := g_fromXYZ (LMS N) in [m0 m; m1 m; m2 m; m3 m; m4 m; m5 m; m6 m; m7 m; m8 m]) = true.
Proof. vm_compute. reflexivity. Qed.
Lemma listM (P : f32 -> bool) m : forallb P [m0 m; m1 m; m2 m; m3 m; m4 m; m5 m; m6 m; m7 m; m8 m] = true -> allM (fun x => P x = true) m.
Proof. cbn [forallb]. rewrite !andb_true_iff. unfold allM. tauto. Qed.
Lemma allM_impl (P Q : f32 -> Prop) m : (forall x, P x -> Q x) -> allM P m -> allM Q m.
Proof. unfold allM. intros H (A & C & D & E & F & G & I & J & K). repeat split; auto. Qed.
Lemma LMS_mid : allM (midh (-6) 1) (g_fromXYZ (LMS N)).
Proof. apply (allM_impl (fun x => midb (-6) 1 x = true)); [apply midb_ok|]. apply listM. exact LMS_chk. Qed.
Lemma lms_stop s k w : stop s k -> allV (midh (-10) 10) w ->
  let l := G_fromXYZ_t N (LMS N) w in let l' := G_fromXYZ_t N (LMS N) (T_scale N w s) in
  sc k (-62) 3 11 (v0 l) (v0 l') /\ sc k (-62) 3 11 (v1 l) (v1 l') /\ sc k (-62) 3 11 (v2 l) (v2 l').
Proof.
  intros S (W0 & W1 & W2). pose proof LMS_mid as L. unfold G_fromXYZ_t. revert L. generalize (g_fromXYZ (LMS N)). intros m L. destruct m as [a b c d e f g h i], w as [x y z].
  unfold allM in L. cbn [v0 v1 v2 m0 m1 m2 m3 m4 m5 m6 m7 m8] in *. destruct L as (L0 & L1 & L2 & L3 & L4 & L5 & L6 & L7 & L8).
  cbv zeta. cbn [M_apply T_scale v0 v1 v2 vref].
  refine (conj _ (conj _ _)); refine (row_gen s k (-6) 1 (-10) 10 _ _ _ _ _ _ S _ _ _ _ _ _ _ _ _ _); cbn; (assumption || lia).
Qed.
Lemma Bradford_stop s k a b : stop s k -> allV (midh (-10) 10) a -> allV (midh (-10) 10) b ->
  allV (fun x => B2R x <> 0) (G_fromXYZ_t N (LMS N) a) -> allV (fun x => B2R x <> 0) (G_fromXYZ_t N (LMS N) b) ->
  Bradford N (T_scale N a s) (T_scale N b s) = Bradford N a b.
Proof.
  intros S A Bb Na Nb. destruct (lms_stop s k a S A) as (A0 & A1 & A2). destruct (lms_stop s k b S Bb) as (B0 & B1 & B2).
  unfold Bradford. cbv zeta. revert A0 A1 A2 B0 B1 B2 Na Nb. generalize (G_fromXYZ_t N (LMS N) a), (G_fromXYZ_t N (LMS N) (T_scale N a s)), (G_fromXYZ_t N (LMS N) b), (G_fromXYZ_t N (LMS N) (T_scale N b s)).
  intros p p' q q' A0 A1 A2 B0 B1 B2 (P0 & P1 & P2) (Q0 & Q1 & Q2). destruct p as [x0 x1 x2], p' as [x0' x1' x2'], q as [y0 y1 y2], q' as [y0' y1' y2']. cbn [v0 v1 v2 vref] in *.
  assert (G : forall x x' y y', sc k (-62) 3 11 x x' -> sc k (-62) 3 11 y y' -> B2R x <> 0 -> B2R y <> 0 -> @fdiv N y' x' = @fdiv N y x).
  { intros x x' y y' X Y Nx Ny. destruct (sc_div k _ _ _ _ _ _ _ _ _ _ Y X Nx) as [E V]; try lia. symmetry. apply eqf_eq; [apply eqf_sym, E|]. rewrite V.
    assert (Q : B (-76) <= Rabs (B2R y / B2R x)).
    { unfold Rdiv. rewrite Rabs_mult, Rabs_inv. change (-76)%Z with (-62 + -14)%Z. rewrite bpow_plus. apply Rmult_le_compat; try apply bpow_ge_0.
      - destruct Y as (_ & _ & _ & [n Y] & _). rewrite Y, abs_scale, <- abs_IZR. rewrite <- (Rmult_1_l (B (-62))) at 1. apply Rmult_le_compat_r; [apply bpow_ge_0|].
        apply IZR_le. assert (n <> 0%Z) by (intros ->; apply Ny; rewrite Y; ring). lia.
      - change (-14)%Z with (Z.opp 14). rewrite bpow_opp. apply Rinv_le; [now apply Rabs_pos_lt|]. destruct X as (_ & _ & _ & _ & X). eapply Rle_trans; [exact X|]. cbn. lra. }
    intros Z0. pose proof (bpow_gt_0 radix2 (-76)) as Pp.
    assert (K : B (-76) <= Rabs (rnd (B2R y / B2R x))) by (rewrite <- round_NE_abs by typeclasses eauto; apply rnd_ge_fmt; [apply fmt_bpow; lia|exact Q]).
    rewrite Z0, Rabs_R0 in K. lra. }
  rewrite (G x0 x0' y0 y0'), (G x1 x1' y1 y1'), (G x2 x2' y2 y2') by assumption. reflexivity.
Qed.

(** ** The predefined gamuts. *)
Definition listOf (m : Matrix3 f32) : list f32 := [m0 m; m1 m; m2 m; m3 m; m4 m; m5 m; m6 m; m7 m; m8 m].
Lemma gams_stop_chk : forallb (fun G : Gamut f32 => forallb (midb (-50) 40) (listOf (g_toXYZ G) ++ listOf (g_fromXYZ G)) &&
  forallb (fun H : Gamut f32 => forallb (midb (-50) 40) (listOf (GamutConvert N G H))) (gams lm)) (gams lm) = true.
Proof. vm_compute. reflexivity. Qed.
Lemma list_mid m : forallb (midb (-50) 40) (listOf m) = true -> allM (mid (-50)) m.
Proof. intros H. apply (allM_impl (fun x => midb (-50) 40 x = true)); [apply midb_ok|]. apply listM. exact H. Qed.
Lemma gamut_stop s k G H t : stop s k -> In G (gams lm) -> In H (gams lm) -> allV (mid (-30)) t ->
  eqV (G_toXYZ_t N G (T_scale N t s)) (T_scale N (G_toXYZ_t N G t) s) /\
  eqV (G_fromXYZ_t N G (T_scale N t s)) (T_scale N (G_fromXYZ_t N G t) s) /\
  eqV (M_apply N (GamutConvert N G H) (T_scale N t s)) (T_scale N (M_apply N (GamutConvert N G H) t) s).
Proof.
  intros S IG IH T. pose proof gams_stop_chk as C. rewrite forallb_forall in C. specialize (C G IG). apply andb_true_iff in C as [C1 C2].
  rewrite forallb_forall in C2. specialize (C2 H IH). rewrite forallb_app in C1. apply andb_true_iff in C1 as [C0 C1].
  split; [|split]; apply (apply_stop s k (-50) (-30)); auto using list_mid; lia.
Qed.

(** ** Spectra. *)
Definition low29 (t : list dec) : bool := forallb (fun d => (dm d =? 0) || ((de d <=? 0) && (10 ^ (- de d) <=? dm d * 2 ^ 29)))%Z t.
Lemma CMF_29 : forallb low29 CMFs = true. Proof. vm_compute. reflexivity. Qed.
Lemma low29_val t d : low29 t = true -> In d t -> Rdec d = 0 \/ B (-29) <= Rdec d.
Proof.
  unfold low29. rewrite forallb_forall. intros H I. specialize (H d I). rewrite orb_true_iff, !andb_true_iff, Z.eqb_eq, !Z.leb_le in H.
  destruct d as [m e]. unfold Rdec in *. cbn [dm de] in *. destruct H as [->|[L K]].
  - left. destruct e; rewrite ?Z.mul_0_l; unfold Rdiv; ring.
  - right. assert (G : B (-29) <= IZR m / IZR (10 ^ (- e))).
    { assert (P : 0 < IZR (10 ^ (- e))) by (apply (IZR_lt 0), Z.pow_pos_nonneg; lia).
      change (B (-29)) with (/ IZR (2 ^ 29)). apply Rmult_le_reg_r with (IZR (10 ^ (- e))); [exact P|]. unfold Rdiv. rewrite Rmult_assoc, Rinv_l, Rmult_1_r by lra.
      apply Rmult_le_reg_l with (IZR (2 ^ 29)); [apply (IZR_lt 0); reflexivity|]. rewrite <- Rmult_assoc, Rinv_r, Rmult_1_l by (apply not_0_IZR; lia).
      rewrite <- mult_IZR. apply IZR_le. lia. }
    destruct e as [|p|p]; [|lia|exact G]. change (10 ^ (- 0))%Z with 1%Z in G. unfold Rdiv in G. rewrite Rinv_1, Rmult_1_r in G. exact G.
Qed.
Lemma tab_mid t i : In t CMFs -> (i < 400)%nat -> midh (-29) 2 (sref N (spectrum_of N t) i).
Proof.
  intros I H. pose proof (all_chk _ _ CMF_chk) as A. rewrite Forall_forall in A. specialize (A t I). apply PTables.chk_ok in A as [L F].
  assert (J : In (nth i t 0%dec) t) by (apply nth_In; rewrite L; exact H).
  pose proof CMF_29 as W. rewrite forallb_forall in W. pose proof (low29_val t (nth i t 0%dec) (W t I) J) as Z.
  assert (E : sref N (spectrum_of N t) i = @flit N (nth i t 0%dec)).
  { unfold sref, spectrum_of. rewrite nth_indep with (d' := @flit N 0%dec); [apply map_nth|]. rewrite map_length, L. exact H. }
  rewrite Forall_forall in F. specialize (F _ J). rewrite E.
  destruct (lit_range lm (nth i t 0%dec) 3 ltac:(lia) F) as [F1 B1]. split; [exact F1|].
  destruct (lit_ok lm (nth i t 0%dec)) as [_ V].
  { rewrite Rabs_pos_eq by lra. apply Rle_trans with (bpow radix2 2); [change (bpow radix2 2) with 4; lra|apply bpow_le; lia]. }
  rewrite (Rabs_pos_eq (B2R _)) by lra. split; [|change (B 2) with 4; lra]. rewrite V. destruct Z as [Z|Z]; [left; rewrite Z; apply rnd_0|right].
  apply rnd_ge_fmt; [apply fmt_bpow; lia|exact Z].
Qed.
Lemma norm_mid t : In t CMFs -> midh (-11) 7 (@fdiv N (@flit N 1) (S_sum N (spectrum_of N t))).
Proof.
  intros I. destruct (CMF_60 lm t I) as [RT S60]. destruct (S_sum_bound lm _ RT) as (FS & BS & MS). revert FS BS MS S60. generalize (S_sum N (spectrum_of N t)). intros z FS BS MS S60.
  assert (V1 : fin (@flit N 1) /\ B2R (@flit N 1) = 1) by f32_val. destruct V1 as [F1 V1].
  assert (Q : B (-11) <= 1 / B2R z <= B 7).
  { unfold Rdiv. rewrite Rmult_1_l. change (B (-11)) with (/ 2048). change (B 7) with 128. split.
    - apply Rinv_le; lra. - replace 128 with (/ / 128) by lra. apply Rinv_le; lra. }
  pose proof (bpow_gt_0 radix2 (-11)) as P. assert (B7 : B 7 <= B 127) by (apply bpow_le; lia).
  destruct (div_ok lm (@flit N 1) z F1) as [Fd Vd]; [lra|rewrite V1, Rabs_pos_eq by lra; lra|]. rewrite V1 in Vd.
  assert (K : B (-11) <= B2R (@fdiv N (@flit N 1) z) <= B 7).
  { rewrite Vd. split; [apply rnd_ge_fmt|apply rnd_le_fmt]; try apply fmt_bpow; try lia; apply Q. }
  split; [exact Fd|]. rewrite Rabs_pos_eq by lra. split; [right|]; apply K.
Qed.
Definition mid_spectrum (p : list f32) : Prop := length p = 400%nat /\ Forall (mid (-20)) p.
Lemma dot_sc s k p t n : stop s k -> mid_spectrum p -> In t CMFs -> (n < 400)%nat ->
  sc k (-95) (Z.of_nat (S n)) 42 (dotHelper N p (spectrum_of N t) n) (dotHelper N (S_scale N p s) (spectrum_of N t) n).
Proof.
  intros S [L P] I. assert (Hk : kb k) by apply S. unfold kb in Hk.
  assert (T : forall i, (i < 400)%nat -> sc k (-95) 1 42 (sref N p i *! sref N (spectrum_of N t) i) (sref N (S_scale N p s) i *! sref N (spectrum_of N t) i)).
  { intros i Hi. unfold S_scale. rewrite sref_tab by exact Hi. pose proof (tab_mid t i I Hi) as M.
    assert (X : mid (-20) (sref N p i)) by (rewrite Forall_forall in P; apply P, nth_In; exact (eq_ind_r (fun n => (i < n)%nat) Hi L)).
    refine (sc_mul k (-43) 1 40 _ (-52) 1 2 _ _ Hk (sc_inh s k (-20) 40 _ S X _ _) _ (mid_grid (-29) 2 _ M) _ _ _ _ _ _ _); try lia; [apply M|].
    destruct M as (_ & _ & M). lra. }
  induction n as [|n IH]; intros H; cbn [dotHelper].
  - apply (T 0%nat H).
  - replace (Z.of_nat (Datatypes.S (Datatypes.S n))) with (1 + Z.of_nat (Datatypes.S n))%Z by lia. apply sc_add; try lia; [exact Hk|apply (T (Datatypes.S n) H)|apply IH; lia].
Qed.
Local Opaque dotHelper S_sum.
Lemma comp_sc s k p t : stop s k -> mid_spectrum p -> In t CMFs ->
  let n := @fdiv N (@flit N 1) (S_sum N (spectrum_of N t)) in
  eqf (S_dot N (S_scale N p s) (spectrum_of N t) *! n) (S_dot N p (spectrum_of N t) *! n *! s).
Proof.
  intros S P I n. assert (Hk : kb k) by apply S. unfold kb in Hk. pose proof (norm_mid t I) as M. fold n in M.
  assert (D : sc k (-95) 400 42 (S_dot N p (spectrum_of N t)) (S_dot N (S_scale N p s) (spectrum_of N t))).
  { unfold S_dot. replace 400%Z with (Z.of_nat (Datatypes.S 399)) by reflexivity. apply dot_sc; auto. }
  clearbody n. revert D. generalize (S_dot N p (spectrum_of N t)) (S_dot N (S_scale N p s) (spectrum_of N t)). intros d d' D.
  apply (sc_out s k (-95 + -34) (400 * 1) (42 + 7)); try lia; [exact S|]. apply sc_mul; try lia; [exact Hk|exact D|apply M|apply (mid_grid (-11) 7), M|].
  destruct M as (_ & _ & M). lra.
Qed.
Lemma obs_stop s k p X Y Z : stop s k -> mid_spectrum p -> In X CMFs -> In Y CMFs -> In Z CMFs ->
  let o := Observer_make N (spectrum_of N X) (spectrum_of N Y) (spectrum_of N Z) in
  eqV (fromSpectrum N o (S_scale N p s)) (T_scale N (fromSpectrum N o p) s).
Proof.
  intros S P IX IY IZ o. unfold o, fromSpectrum, SpectrumIntegrate, Observer_make, T_mul, T_scale. cbn [o_X o_Y o_Z o_normalize vref v0 v1 v2].
  split; [|split]; cbn [v0 v1 v2]; now apply (comp_sc s k).
Qed.
Lemma spectrum_stop s k p : stop s k -> mid_spectrum p -> Forall (fun o : forall N : Num, Observer N =>
  eqV (fromSpectrum N (o N) (S_scale N p s)) (T_scale N (fromSpectrum N (o N) p) s)) [CIE1931; CIE31JV; CIE2012].
Proof. intros S P. constructor; [|constructor; [|constructor; [|constructor]]].
  - apply (obs_stop s k p T_CIE1931_X T_CIE1931_Y T_CIE1931_Z); auto; cbn [In CMFs]; tauto.
  - apply (obs_stop s k p T_CIE1931_JuddVos_X T_CIE1931_JuddVos_Y T_CIE1931_JuddVos_Z); auto; cbn [In CMFs]; tauto.
  - apply (obs_stop s k p T_CIE2012_X T_CIE2012_Y T_CIE2012_Z); auto; cbn [In CMFs]; tauto.
Qed.
End F.
Lemma stops_case (lm : libm) : stop (@flit (FN lm) 2) 1 /\ allV (midh (-40) 40) (Illuminant_D65 (FN lm)) /\ allV (midh (-10) 10) (Illuminant_D65 (FN lm)) /\
  allV (fun x : f32 => 0 <= B2R x) (Illuminant_D65 (FN lm)) /\ allV (fun x : f32 => B2R x <> 0) (G_fromXYZ_t (FN lm) (LMS (FN lm)) (Illuminant_D65 (FN lm))) /\
  bpow radix2 (-5) <= B2R (v1 (Illuminant_D65 (FN lm))) /\ mid_spectrum (S_E (FN lm) (@flit (FN lm) 1)).
Proof.
  assert (G : forall lo hi (v : Vector3 f32), forallb (midb lo hi) [v0 v; v1 v; v2 v] = true -> allV (midh lo hi) v).
  { intros lo hi v H. cbn [forallb] in H. rewrite !andb_true_iff in H. destruct H as (A & C & D & _). split; [|split]; apply midb_ok; assumption. }
  assert (V1 : B2R (v1 (Illuminant_D65 (FN lm))) = 1) by (assert (K : fin (@flit (FN lm) 1.0%dec) /\ B2R (@flit (FN lm) 1.0%dec) = 1) by f32_val; exact (proj2 K)).
  assert (P : forall x : f32, B2SF x <> SpecFloat.S754_nan -> (match B2SF x with SpecFloat.S754_finite false _ _ => true | _ => false end) = true -> 0 < B2R x).
  { intros [s|s| |[] m e H]; cbn; try discriminate. intros _ _. apply F2R_gt_0. reflexivity. }
  split; [unfold stop; cut (fin (@flit (FN lm) 2) /\ B2R (@flit (FN lm) 2) = 2); [intros [A E]; rewrite E; repeat split; auto; lia|f32_val]|].
  split; [apply G; vm_compute; reflexivity|]. split; [apply G; vm_compute; reflexivity|].
  split; [split; [|split]; left; apply P; vm_compute; (discriminate || reflexivity)|].
  split; [split; [|split]; apply Rgt_not_eq, P; vm_compute; (discriminate || reflexivity)|].
  split; [rewrite V1; cbn; lra|].
  split; [reflexivity|]. unfold S_E, S_tabulate. apply Forall_forall. intros x I. rewrite in_map_iff in I. destruct I as (i & <- & _). apply midb_ok. vm_compute. reflexivity.
Qed.
