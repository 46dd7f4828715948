(** * Scalar division, dot product, smallest and largest component, colour temperature,
      gamuts from charts and profiles. *)
From Coq Require Import ZArith Reals Lra Lia List Bool.
From Flocq Require Import Core BinarySingleNaN Relative.
From Verif Require Import Num NumR NumF MVec MTri MSpectrum MStream MSolver Tables SpecMat RTac F32 LMat PMat PMatF PClip PSpecF PSqrt PSqrtF PHsv PSolver PSolver2 PSolver3.
Import ListNotations.
Local Open Scope R_scope.

(** ** Division by a scalar *)
Lemma T_divf_real (t : Vector3 R) (s : R) :
  (s <> 0 -> T_divf RN (finV t) (Some s) = finV (V3 (v0 t / s) (v1 t / s) (v2 t / s))) /\
  (s = 0 -> T_divf RN (finV t) (Some s) = V3 (None : F RN) None None).
Proof.
  destruct t as [a b c]. split; intros H.
  - unfold T_divf, T_scale. rn. rewrite rdiv_ok by exact H. cbn [rx2]. unfold finV. cbn [v0 v1 v2]. fin_eq; field; exact H.
  - subst s. unfold T_divf, T_scale. rn. unfold rx_div. rewrite Req_bool_true by reflexivity. reflexivity.
Qed.
Lemma M_div_real (m : Matrix3 R) (s : R) :
  (s <> 0 -> exists d, M_div RN (finM m) (Some s) = finM d /\ forall i j, (i < 3)%nat -> (j < 3)%nat -> ent d i j = ent m i j / s) /\
  (s = 0 -> M_div RN (finM m) (Some s) = noM).
Proof.
  split; intros H.
  - exists (M3 (m0 m / s) (m1 m / s) (m2 m / s) (m3 m / s) (m4 m / s) (m5 m / s) (m6 m / s) (m7 m / s) (m8 m / s)). split.
    + destruct m as [a b c d e f g h i]. unfold M_div, M_scale. rn. rewrite rdiv_ok by exact H. cbn [rx2]. unfold finM. cbn [m0 m1 m2 m3 m4 m5 m6 m7 m8]. fin_eq; field; exact H.
    + intros i j Hi Hj. destruct i as [|[|[|i]]]; [| | |lia]; (destruct j as [|[|[|j]]]; [| | |lia]); reflexivity.
  - subst s. destruct m as [a b c d e f g h i]. unfold M_div, M_scale. rn. unfold rx_div. rewrite Req_bool_true by reflexivity. reflexivity.
Qed.
Lemma rnd_rel z : bpow radix2 (-126) <= Rabs z -> Rabs (rnd z - z) <= u * Rabs z.
Proof.
  intros H. pose proof (relative_error_N_FLT radix2 (-149) 24 eq_refl (fun x => negb (Z.even x)) z H) as E.
  replace (/ 2 * bpow radix2 (- (24) + 1)) with u in E by (rewrite half_bpow; reflexivity). exact E.
Qed.
Lemma inv_range s : bpow radix2 (-126) <= Rabs s <= bpow radix2 126 -> bpow radix2 (-126) <= Rabs (1 / s) <= bpow radix2 126.
Proof.
  intros [A B]. pose proof (bpow_gt_0 radix2 (-126)). assert (s <> 0) by (intros ->; rewrite Rabs_R0 in A; lra).
  unfold Rdiv. rewrite Rabs_mult, Rabs_R1, Rmult_1_l, Rabs_inv.
  split.
  - change (-126)%Z with (- (126))%Z. rewrite bpow_opp. apply Rinv_le; [|exact B]. now apply Rabs_pos_lt.
  - replace 126%Z with (- (-126))%Z at 1 by reflexivity. rewrite bpow_opp. apply Rinv_le; [apply bpow_gt_0|exact A].
Qed.
Lemma div_by_recip lm (x s : f32) : fin x -> fin s -> bpow radix2 (-126) <= Rabs (B2R s) <= bpow radix2 126 ->
  Rabs (B2R x / B2R s) <= bpow radix2 126 ->
  fin (@fmul (FN lm) x (@fdiv (FN lm) (@flit (FN lm) 1) s)) /\
  Rabs (B2R (@fmul (FN lm) x (@fdiv (FN lm) (@flit (FN lm) 1) s)) - B2R x / B2R s) <= 3 * u * Rabs (B2R x / B2R s) + eta.
Proof.
  intros Fx Fs Hs Hq. assert (F1 : fin (@flit (FN lm) 1)) by reflexivity. assert (V1 : B2R (@flit (FN lm) 1) = 1).
  { unfold B2R. cbn. unfold F2R. cbn. lra. }
  pose proof (inv_range _ Hs) as [I1 I2]. pose proof (bpow_gt_0 radix2 (-126)).
  assert (N0 : B2R s <> 0) by (intros E; rewrite E, Rabs_R0 in Hs; lra).
  destruct (div_ok lm (@flit (FN lm) 1) s F1 N0) as [Fd Vd].
  { rewrite V1. apply Rle_trans with (1 := I2). apply bpow_le. lia. }
  rewrite V1 in Vd. pose proof (rnd_rel _ I1) as E1. rewrite <- Vd in E1. set (d := @fdiv (FN lm) (@flit (FN lm) 1) s) in *.
  set (q := B2R x / B2R s) in *.
  assert (P : Rabs (B2R x * B2R d - q) <= u * Rabs q).
  { replace (B2R x * B2R d - q) with (B2R x * (B2R d - 1 / B2R s)) by (unfold q; field; exact N0). rewrite Rabs_mult.
    replace (Rabs q) with (Rabs (B2R x) * Rabs (1 / B2R s)) by (rewrite <- Rabs_mult; f_equal; unfold q; field; exact N0).
    replace (u * (Rabs (B2R x) * Rabs (1 / B2R s))) with (Rabs (B2R x) * (u * Rabs (1 / B2R s))) by ring. apply Rmult_le_compat_l; [apply Rabs_pos|exact E1]. }
  assert (U : u <= / 4) by (rewrite u_val; lra). pose proof F32.u_pos.
  assert (Q : Rabs (B2R x * B2R d) <= (1 + u) * Rabs q).
  { replace (B2R x * B2R d) with ((B2R x * B2R d - q) + q) by ring. eapply Rle_trans; [apply Rabs_triang|]. lra. }
  assert (Q127 : Rabs (B2R x * B2R d) <= bpow radix2 127).
  { apply Rle_trans with (1 := Q). change 127%Z with (126 + 1)%Z. rewrite bpow_plus. change (bpow radix2 1) with 2.
    pose proof (Rabs_pos q). rewrite Rmult_comm. apply Rmult_le_compat; lra. }
  destruct (mul_ok lm x d Fx Fd Q127) as [Fm Vm]. split; [exact Fm|].
  rewrite Vm. pose proof (rnd_err_abs (B2R x * B2R d)) as E2.
  replace (rnd (B2R x * B2R d) - q) with ((rnd (B2R x * B2R d) - B2R x * B2R d) + (B2R x * B2R d - q)) by ring.
  eapply Rle_trans; [apply Rabs_triang|]. pose proof (Rabs_pos q).
  assert (u * Rabs (B2R x * B2R d) <= 2 * u * Rabs q).
  { replace (2 * u * Rabs q) with (u * (2 * Rabs q)) by ring. apply Rmult_le_compat_l; [lra|]. nra. }
  lra.
Qed.
Lemma T_divf_float lm (t : Vector3 f32) (s : f32) (i : Z) (x : f32) : fin s -> bpow radix2 (-126) <= Rabs (B2R s) <= bpow radix2 126 ->
  V_index t i = Ret x -> fin x -> Rabs (B2R x / B2R s) <= bpow radix2 126 ->
  exists y, V_index (T_divf (FN lm) t s) i = Ret y /\ fin y /\ Rabs (B2R y - B2R x / B2R s) <= 3 * u * Rabs (B2R x / B2R s) + eta.
Proof.
  intros Fs Hs Q Fx Hq. pose proof (div_by_recip lm x s Fx Fs Hs Hq) as D. destruct t as [a b c].
  exists (@fmul (FN lm) x (@fdiv (FN lm) (@flit (FN lm) 1) s)). split; [|exact D].
  unfold V_index in *. destruct i as [|p|p]; try discriminate; [injection Q as ->; reflexivity|].
  destruct p as [[p|p|]|[p|p|]|]; try discriminate; injection Q as ->; reflexivity.
Qed.
Lemma M_div_float lm (m : Matrix3 f32) (s : f32) (i : Z) (x : f32) : fin s -> bpow radix2 (-126) <= Rabs (B2R s) <= bpow radix2 126 ->
  M_index m i = Ret x -> fin x -> Rabs (B2R x / B2R s) <= bpow radix2 126 ->
  exists y, M_index (M_div (FN lm) m s) i = Ret y /\ fin y /\ Rabs (B2R y - B2R x / B2R s) <= 3 * u * Rabs (B2R x / B2R s) + eta.
Proof.
  intros Fs Hs Q Fx Hq. pose proof (div_by_recip lm x s Fx Fs Hs Hq) as D. destruct m as [a b c d e f g h j].
  exists (@fmul (FN lm) x (@fdiv (FN lm) (@flit (FN lm) 1) s)). split; [|exact D].
  unfold M_index in *. destruct i as [|p|p]; try discriminate; [injection Q as ->; reflexivity|].
  destruct p as [p|p|]; [| |injection Q as ->; reflexivity]; (destruct p as [p|p|]; [| |injection Q as ->; reflexivity]);
  (destruct p as [p|p|]; [| |injection Q as ->; reflexivity]); try discriminate; (destruct p as [p|p|]; try discriminate; injection Q as ->; reflexivity).
Qed.
Lemma div_self_41 lm : exists (x y : f32), fin x /\ B2R x = 41 /\ T_divf (FN lm) (V3 x x x) x = V3 y y y /\ B2R y < 1.
Proof.
  exists (@flit (FN lm) 41), (@fmul (FN lm) (@flit (FN lm) 41) (@fdiv (FN lm) (@flit (FN lm) 1) (@flit (FN lm) 41))).
  split; [reflexivity|]. split; [|split; [reflexivity|]].
  - assert (E : fin (@flit (FN lm) 41) /\ B2R (@flit (FN lm) 41) = 41) by f32_val. apply E.
  - assert (E : fin (@fmul (FN lm) (@flit (FN lm) 41) (@fdiv (FN lm) (@flit (FN lm) 1) (@flit (FN lm) 41))) /\
      B2R (@fmul (FN lm) (@flit (FN lm) 41) (@fdiv (FN lm) (@flit (FN lm) 1) (@flit (FN lm) 41))) = 16777215 / 16777216) by f32_val.
    rewrite (proj2 E). lra.
Qed.
Lemma div_self_tiny lm : exists (x : f32), fin x /\ 0 < B2R x /\ T_divf (FN lm) (V3 x x x) x = V3 (B754_infinity false : f32) (B754_infinity false) (B754_infinity false).
Proof.
  exists (@B754_finite 24 128 false 1 (-149) eq_refl). split; [reflexivity|]. split; [|vm_compute; reflexivity].
  apply F2R_gt_0. reflexivity.
Qed.
(** ** dot, min3, max3 *)
Lemma T_dot_sym lm (a b : Vector3 f32) : T_dot (FN lm) a b = T_dot (FN lm) b a.
Proof. unfold T_dot. now rewrite (mul_comm lm a.[0]%num), (mul_comm lm a.[1]%num), (mul_comm lm a.[2]%num). Qed.
Lemma T_dot_error lm (a b : Vector3 f32) : allV fin a -> allV fin b -> absdot a b <= bpow radix2 126 ->
  fin (T_dot (FN lm) a b) /\ Rabs (B2R (T_dot (FN lm) a b) - dotR a b) <= 4 * u * absdot a b + 4 * eta.
Proof. exact (V_dot_error lm a b). Qed.
Lemma T_dot_real (a b : Vector3 R) : T_dot RN (finV a) (finV b) = Some (v0 a * v0 b + v1 a * v1 b + v2 a * v2 b).
Proof. destruct a, b. reflexivity. Qed.
Section MinMax.
Context (lm : libm).
Notation N := (FN lm).
Lemma mini_spec (a b : f32) : a <> B754_nan -> b <> B754_nan ->
  (mini N a b = a \/ mini N a b = b) /\ @fleb N (mini N a b) a = true /\ @fleb N (mini N a b) b = true.
Proof.
  intros Ha Hb. unfold mini. destruct (@fltb N a b) eqn:E; [auto using le_refl, lt_le|]. split; [auto|]. split; [|now apply le_refl].
  apply leb_cases. apply not_true_iff_false in E. rewrite ltb_cases in E.
  destruct a as [sa|[]| |sa ma ea Ea], b as [sb|[]| |sb mb eb Eb]; try congruence; auto; try (left; repeat split; auto; apply Rnot_lt_le; intros K; apply E; left; repeat split; auto);
    try (exfalso; apply E; right; left; repeat split; discriminate); try (exfalso; apply E; right; right; repeat split; discriminate).
  all: right; right; split; [reflexivity|discriminate] || right; left; split; [reflexivity|discriminate].
Qed.
Lemma maxi_spec (a b : f32) : a <> B754_nan -> b <> B754_nan ->
  (maxi N a b = a \/ maxi N a b = b) /\ @fleb N a (maxi N a b) = true /\ @fleb N b (maxi N a b) = true.
Proof.
  intros Ha Hb. unfold maxi. destruct (mini_spec b a Hb Ha) as (A & B & C). unfold mini in *. destruct (@fltb N b a) eqn:E; auto using le_refl.
Qed.
Lemma le_trans_f (x y z : f32) : @fleb N x y = true -> @fleb N y z = true -> @fleb N x z = true.
Proof.
  rewrite !leb_cases. intros [(A & B & C)|[(A & B)|(A & B)]] [(A' & B' & C')|[(A' & B')|(A' & B')]]; subst; try discriminate; try congruence; auto.
  - left. repeat split; auto. lra.
  - right. right. split; [reflexivity|]. intros ->. discriminate.
  - right. left. split; [reflexivity|]. intros ->. discriminate.
  - right. left. split; [reflexivity|discriminate].
Qed.
Lemma min3_spec (t : Vector3 f32) : allV (fun x => x <> B754_nan) t ->
  let m := T_min3 N t in (m = v0 t \/ m = v1 t \/ m = v2 t) /\ allV (fun x => @fleb N m x = true) t.
Proof.
  destruct t as [a b c]. intros (Ha & Hb & Hc). cbn [v0 v1 v2] in *. unfold T_min3. cbn [vref v0 v1 v2].
  destruct (mini_spec a b Ha Hb) as (A & B & C). assert (Hm : mini N a b <> B754_nan) by (destruct A as [->| ->]; assumption).
  destruct (mini_spec (mini N a b) c Hm Hc) as (A' & B' & C'). split; [|repeat split; cbn [v0 v1 v2]; eauto using le_trans_f].
  destruct A' as [->| ->]; [|auto]. destruct A as [->| ->]; auto.
Qed.
Lemma max3_spec (t : Vector3 f32) : allV (fun x => x <> B754_nan) t ->
  let m := T_max3 N t in (m = v0 t \/ m = v1 t \/ m = v2 t) /\ allV (fun x => @fleb N x m = true) t.
Proof.
  destruct t as [a b c]. intros (Ha & Hb & Hc). cbn [v0 v1 v2] in *. unfold T_max3. cbn [vref v0 v1 v2].
  destruct (maxi_spec a b Ha Hb) as (A & B & C). assert (Hm : maxi N a b <> B754_nan) by (destruct A as [->| ->]; assumption).
  destruct (maxi_spec (maxi N a b) c Hm Hc) as (A' & B' & C'). split; [|repeat split; cbn [v0 v1 v2]; eauto using le_trans_f].
  destruct A' as [->| ->]; [|auto]. destruct A as [->| ->]; auto.
Qed.
(** a NaN in the middle hides the first component *)
Lemma min3_nan : T_min3 N (V3 (@flit N 1) (B754_nan : f32) (@flit N 2)) = @flit N 2.
Proof. reflexivity. Qed.
Lemma min3_nan_l : exists x y : f32, fin x /\ fin y /\ @fltb N x y = true /\ T_min3 N (V3 x (B754_nan : f32) y) = y.
Proof. exists (@flit N 1), (@flit N 2). repeat split. Qed.
Lemma Tmin_spec (a b : Vector3 f32) : allV (fun x => x <> B754_nan) a -> allV (fun x => x <> B754_nan) b -> forall i x y, V_index a i = Ret x -> V_index b i = Ret y ->
  exists m M : f32, V_index (T_min N a b) i = Ret m /\ V_index (T_max N a b) i = Ret M /\
    (m = x \/ m = y) /\ @fleb N m x = true /\ @fleb N m y = true /\ (M = x \/ M = y) /\ @fleb N x M = true /\ @fleb N y M = true.
Proof.
  destruct a as [a0 a1 a2], b as [b0 b1 b2]. intros (A0 & A1 & A2) (B0 & B1 & B2) i x y X Y. cbn [v0 v1 v2] in *.
  exists (mini N x y), (maxi N x y).
  assert (K : forall p q : f32, p <> B754_nan -> q <> B754_nan -> (mini N p q = p \/ mini N p q = q) /\ @fleb N (mini N p q) p = true /\ @fleb N (mini N p q) q = true /\
    (maxi N p q = p \/ maxi N p q = q) /\ @fleb N p (maxi N p q) = true /\ @fleb N q (maxi N p q) = true).
  { intros p q P Q. destruct (mini_spec p q P Q) as (? & ? & ?). destruct (maxi_spec p q P Q) as (? & ? & ?). auto 10. }
  destruct i as [|[[]|[]|]|]; try discriminate; injection X as <-; injection Y as <-; (split; [reflexivity|]); (split; [reflexivity|]); apply K; assumption.
Qed.
(** ** fromCCT *)
Lemma fromCCT_terminates (T d Y : f32) : exists r, terminates_with (fun n => fromCCT N n T d Y) (Ret r).
Proof.
  unfold fromCCT, fromCCT_sq, CCT_x_approx, CCT_y_approx, CCT_uv. cbv zeta.
  match goal with |- context [util_sqrtf N _ ?a] => set (z := a) end.
  assert (S : exists l, terminates_with (fun n => util_sqrtf N n z) (Ret l)).
  { destruct (is_finite z) eqn:Fz; [|exists B754_nan; apply C12_nan_l; auto].
    destruct (Rlt_le_dec (B2R z) 0) as [L|L]; [exists B754_nan; apply C12_nan_l; auto|].
    destruct (C12_l lm z Fz L) as (r & H & _). exists r. exact H. }
  destruct S as (l & n & H). eexists. exists n. intros m Hm. destruct (H m Hm) as [-> _]. cbn [bind]. split; [reflexivity|discriminate].
Qed.
End MinMax.
(** ** gamuts from charts and profiles *)
Lemma makeGamut_l lm patch (l : Spectrum (FN lm)) (o : Observer (FN lm)) :
  ((length patch <= 24)%nat -> exists g, makeGamut (FN lm) (Macbeth_Patch (FN lm)) patch l o = Ret g /\
     Corrector_solve_light (FN lm) (Macbeth_Patch (FN lm)) patch l o = Ret (g_fromXYZ g) /\ g_toXYZ g = M_invert (FN lm) (g_fromXYZ g)) /\
  ((24 < length patch)%nat -> makeGamut (FN lm) (Macbeth_Patch (FN lm)) patch l o = UB).
Proof.
  destruct (C65_light_l lm patch l o) as [A B]. split; intros H; unfold makeGamut.
  - destruct (A H) as (M & ->). cbn [bind]. exists (Gamut_of_fromXYZ (FN lm) M). repeat split.
  - now rewrite (B H).
Qed.
Lemma makeGamut_few lm patch (l : Spectrum (FN lm)) (o : Observer (FN lm)) : (length patch < 2)%nat ->
  exists g, makeGamut (FN lm) (Macbeth_Patch (FN lm)) patch l o = Ret g /\
    allM (fun x : f32 => x = B754_zero false) (g_fromXYZ g) /\ allM (fun x : f32 => is_finite x = false) (g_toXYZ g).
Proof.
  intros H. unfold makeGamut, Corrector_solve_light. rewrite C65_zero_l; [|rewrite light_len; lia|exact H]. cbn [bind].
  eexists. split; [reflexivity|]. split; [repeat split|]. cbn [Gamut_of_fromXYZ g_toXYZ]. apply M_invert_det0. vm_compute. reflexivity.
Qed.
Lemma icc_l (N : Num) (d : list Z) : loadGamutFromICCProfileMemory N None = Ret (XYZ_gamut N) /\
  loadGamutFromICCProfileMemory N (Some []) = UB /\ (d <> [] -> loadGamutFromICCProfileMemory N (Some d) = Ret (XYZ_gamut N)).
Proof. split; [reflexivity|]. split; [reflexivity|]. intros H. destruct d; [now destruct H|reflexivity]. Qed.
Lemma icc_refuted (N : Num) (described : list Z -> Gamut (F N)) (d : list Z) : d <> [] -> described d <> XYZ_gamut N ->
  exists d', d' <> [] /\ loadGamutFromICCProfileMemory N (Some d') <> Ret (described d').
Proof. intros H K. exists d. split; [exact H|]. rewrite (proj2 (proj2 (icc_l N d)) H). intros E. apply K. congruence. Qed.
