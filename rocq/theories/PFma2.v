(** * Matrices, spectra and gamuts with fused multiply-add. *)
From Coq Require Import ZArith Reals Lra Lia Psatz List.
From Flocq Require Import Core BinarySingleNaN.
From Verif Require Import Num NumF MVec MTri MSpectrum MFma F32 PMatF PVec PSpecF PFma.
Import ListNotations.
Local Open Scope R_scope.

Section WithLibm.
Variable lm : libm.
Lemma b126 : 2 * bpow radix2 126 = bpow radix2 127.
Proof. change 2 with (bpow radix2 1). rewrite <- bpow_plus. reflexivity. Qed.
Lemma eta_b : eta <= bpow radix2 126 / 67108864.
Proof. replace (bpow radix2 126 / 67108864) with (bpow radix2 100); [apply bpow_le; lia|]. change 67108864 with (bpow radix2 26). change 126%Z with (100 + 26)%Z. rewrite bpow_plus. field. apply Rgt_not_eq, bpow_gt_0. Qed.
Lemma dot_fused (a b : Vector3 f32) r : allV fin a -> allV fin b -> absdot a b <= bpow radix2 126 -> ev lm (V_dot (EN lm) (inV lm a) (inV lm b)) r ->
  fin r /\ Rabs (B2R r - dotR a b) <= 4 * u * absdot a b + 4 * eta.
Proof.
  destruct a as [x0 x1 x2], b as [y0 y1 y2]. unfold allV, absdot, dotR, inV, V_dot, vref. cbn [v0 v1 v2 fadd fmul EN].
  intros (Fx0 & Fx1 & Fx2) (Fy0 & Fy1 & Fy2) S E. apply ev_error in E.
  - destruct E as (Fr & E). split; [exact Fr|]. cbn [ex] in E. eapply Rle_trans; [exact E|]. cbn [er mg]. rewrite !Rabs_mult. rewrite !Rplus_0_r.
    pose proof (Rmult_le_pos _ _ (Rabs_pos (B2R x0)) (Rabs_pos (B2R y0))) as P0. pose proof (Rmult_le_pos _ _ (Rabs_pos (B2R x1)) (Rabs_pos (B2R y1))) as P1. pose proof (Rmult_le_pos _ _ (Rabs_pos (B2R x2)) (Rabs_pos (B2R y2))) as P2.
    pose proof eta_pos. assert (U : u = / 16777216) by reflexivity. rewrite U. lra.
  - cbn [safe mg er]. rewrite !Rplus_0_r. rewrite !Rabs_mult in S.
    pose proof (Rmult_le_pos _ _ (Rabs_pos (B2R x0)) (Rabs_pos (B2R y0))) as P0. pose proof (Rmult_le_pos _ _ (Rabs_pos (B2R x1)) (Rabs_pos (B2R y1))) as P1. pose proof (Rmult_le_pos _ _ (Rabs_pos (B2R x2)) (Rabs_pos (B2R y2))) as P2.
    pose proof b126. pose proof eta_b. pose proof (bpow_gt_0 radix2 126). assert (U : u = / 16777216) by reflexivity. rewrite U. pose proof eta_pos. repeat split; try assumption; lra.
Qed.
Lemma row_ev (m : Matrix3 f32) v r : evV lm (M_apply (EN lm) (inM lm m) (inV lm v)) r ->
  ev lm (V_dot (EN lm) (inV lm (V3 (m0 m) (m1 m) (m2 m))) (inV lm v)) (v0 r) /\
  ev lm (V_dot (EN lm) (inV lm (V3 (m3 m) (m4 m) (m5 m))) (inV lm v)) (v1 r) /\
  ev lm (V_dot (EN lm) (inV lm (V3 (m6 m) (m7 m) (m8 m))) (inV lm v)) (v2 r).
Proof. destruct m, v. exact (fun H => H). Qed.
Lemma apply_fused (m : Matrix3 f32) (v r : Vector3 f32) (i : Z) : allM fin m -> allV fin v -> (0 <= i < 3)%Z ->
  evV lm (M_apply (EN lm) (inM lm m) (inV lm v)) r ->
  exists row x, M_row m i = Ret row /\ V_index r i = Ret x /\
    (absdot row v <= bpow radix2 126 -> fin x /\ Rabs (B2R x - dotR row v) <= 4 * u * absdot row v + 4 * eta).
Proof.
  intros Hm Hv Hi E. apply row_ev in E. destruct E as (E0 & E1 & E2). destruct m as [a0 a1 a2 a3 a4 a5 a6 a7 a8]. unfold allM in Hm. cbn in Hm. cbn [m0 m1 m2 m3 m4 m5 m6 m7 m8] in *.
  rewrite M_row_in by exact Hi. destruct (cases3 i Hi) as [->|[->| ->]]; eexists; eexists; (split; [reflexivity|]); (split; [destruct r; reflexivity|]); intros S.
  - apply (dot_fused (V3 a0 a1 a2) v); try assumption. unfold allV; cbn; tauto.
  - apply (dot_fused (V3 a3 a4 a5) v); try assumption. unfold allV; cbn; tauto.
  - apply (dot_fused (V3 a6 a7 a8) v); try assumption. unfold allV; cbn; tauto.
Qed.
Lemma plain_apply m v : plainV lm (M_apply (EN lm) (inM lm m) (inV lm v)) = M_apply (FN lm) m v.
Proof. destruct m, v. reflexivity. Qed.
(** ** Spectra *)
Definition pa (a b : list f32) (i : nat) : R := Rabs (val a i * val b i).
Lemma sref_in (s : list f32) i : sref (EN lm) (inS lm s) i = Val (sref (FN lm) s i).
Proof. unfold sref, inS. exact (map_nth (fun x => Val x : F (EN lm)) s (@fnan (FN lm)) i). Qed.
Lemma mg_dot a b n : mg (dotHelper (EN lm) (inS lm a) (inS lm b) n) = sum_f_R0 (pa a b) n.
Proof.
  induction n as [|n IH]; cbn [dotHelper sum_f_R0 fmul fadd EN]; rewrite !sref_in; cbn [mg].
  - unfold pa. rewrite Rabs_mult. reflexivity.
  - rewrite IH. change (pa a b (S n)) with (Rabs (val a (S n) * val b (S n))). rewrite Rabs_mult, Rplus_comm. reflexivity.
Qed.
Lemma ex_dot a b n : ex (dotHelper (EN lm) (inS lm a) (inS lm b) n) = sum_f_R0 (fun i => val a i * val b i) n.
Proof.
  induction n as [|n IH]; cbn [dotHelper sum_f_R0 fmul fadd EN]; rewrite !sref_in; cbn [ex]; [reflexivity|]. rewrite IH, Rplus_comm. reflexivity.
Qed.
Definition dl : R := 26 / 1000000.
Lemma er_dot a b n : (n < 400)%nat -> er (dotHelper (EN lm) (inS lm a) (inS lm b) n) <= (INR n + 1) * (1 + dl) * (u * sum_f_R0 (pa a b) n + eta).
Proof.
  pose proof eta_pos as Et. assert (U : u = / 16777216) by reflexivity. induction n as [|n IH]; intros L.
  - cbn [dotHelper sum_f_R0 fmul EN INR]; rewrite !sref_in; cbn [er mg]. rewrite !Rplus_0_r. unfold pa. rewrite Rabs_mult.
    change (B2R (sref (FN lm) a 0)) with (val a 0). change (B2R (sref (FN lm) b 0)) with (val b 0).
    pose proof (Rmult_le_pos _ _ (Rabs_pos (val a 0)) (Rabs_pos (val b 0))). set (p := Rabs (val a 0) * Rabs (val b 0)) in *. rewrite U. unfold dl. lra.
  - specialize (IH ltac:(lia)). cbn [dotHelper sum_f_R0 fmul fadd EN]. rewrite !sref_in. cbn [er mg]. rewrite mg_dot, !Rplus_0_r.
    change (B2R (sref (FN lm) a (S n))) with (val a (S n)). change (B2R (sref (FN lm) b (S n))) with (val b (S n)). change (pa a b (S n)) with (Rabs (val a (S n) * val b (S n))). rewrite (Rabs_mult (val a (S n))).
    pose proof (Rmult_le_pos _ _ (Rabs_pos (val a (S n))) (Rabs_pos (val b (S n)))) as P. set (p := Rabs (val a (S n)) * Rabs (val b (S n))) in *.
    assert (M : 0 <= sum_f_R0 (pa a b) n) by (apply sum_pos; intros; apply Rabs_pos). set (m := sum_f_R0 (pa a b) n) in *. set (e := er _) in *. clearbody p m e.
    rewrite S_INR. pose proof (pos_INR n) as I0. assert (I1 : INR n <= 398) by (replace 398 with (INR 398) by (rewrite INR_IZR_INZ; reflexivity); apply le_INR; lia). set (k := INR n) in *. clearbody k.
    set (w := u * m + eta) in *. assert (W : 0 <= w) by (unfold w; rewrite U; lra). rewrite U in *. unfold dl in *.
    assert (K : (k + 1) * (1 + 26 / 1000000) * w <= 400 * w) by (apply Rmult_le_compat_r; lra).
    assert (E2 : e <= (k + 1) * (1 + 26 / 1000000) * w) by exact IH. replace ((k + 1 + 1) * (1 + 26 / 1000000) * (/ 16777216 * (m + p) + eta)) with ((k + 1) * (1 + 26 / 1000000) * w + (1 + 26 / 1000000) * w + (k + 2) * (1 + 26 / 1000000) * (/ 16777216 * p)) by (unfold w; rewrite U; field).
    assert (G : 2 * (1 + 26 / 1000000) * (/ 16777216 * p) <= (k + 2) * (1 + 26 / 1000000) * (/ 16777216 * p)) by (apply Rmult_le_compat_r; lra).
    unfold w in *. rewrite U in *. lra.
Qed.
Lemma safe_dot a b n : (n < 400)%nat -> length a = 400%nat -> length b = 400%nat -> Forall fin a -> Forall fin b -> sum_f_R0 (pa a b) 399 <= bpow radix2 126 ->
  safe (dotHelper (EN lm) (inS lm a) (inS lm b) n).
Proof.
  intros L La Lb Fa Fb S. pose proof eta_pos as Et. assert (U : u = / 16777216) by reflexivity. pose proof b126. pose proof eta_b. pose proof (bpow_gt_0 radix2 126).
  assert (FS : forall s i, length s = 400%nat -> Forall fin s -> (i < 400)%nat -> fin (sref (FN lm) s i)) by (intros; now apply smf).
  assert (SM : forall i, (i < 400)%nat -> sum_f_R0 (pa a b) i <= bpow radix2 126).
  { intros i Hi. eapply Rle_trans; [|exact S]. clear - Hi. assert (Q : forall j, sum_f_R0 (pa a b) i <= sum_f_R0 (pa a b) (i + j)).
    { induction j as [|j IH]; [rewrite Nat.add_0_r; lra|]. rewrite Nat.add_succ_r. cbn [sum_f_R0]. pose proof (Rabs_pos (val a (Datatypes.S (i + j)) * val b (Datatypes.S (i + j)))) as P. fold (pa a b (Datatypes.S (i + j))) in P. lra. }
    specialize (Q (399 - i)%nat). replace (i + (399 - i))%nat with 399%nat in Q by lia. exact Q. }
  assert (PE : forall i, (i < 400)%nat -> 0 <= pa a b i <= sum_f_R0 (pa a b) i).
  { intros i Hi. split; [apply Rabs_pos|]. destruct i as [|i]; cbn [sum_f_R0]; [lra|]. assert (0 <= sum_f_R0 (pa a b) i) by (apply sum_pos; intros; apply Rabs_pos). lra. }
  induction n as [|n IH]; cbn [dotHelper fmul fadd EN]; rewrite !sref_in; cbn [safe er mg].
  - repeat split; [now apply FS..|]. rewrite !Rplus_0_r. rewrite <- Rabs_mult. change (Rabs _) with (pa a b 0). pose proof (PE 0%nat L). pose proof (SM 0%nat L). lra.
  - pose proof (PE (Datatypes.S n) L) as P1. pose proof (SM (Datatypes.S n) L) as P2. cbn [sum_f_R0] in P1, P2. assert (P3 : 0 <= sum_f_R0 (pa a b) n) by (apply sum_pos; intros; apply Rabs_pos).
    rewrite !Rplus_0_r, <- Rabs_mult. change (Rabs _) with (pa a b (Datatypes.S n)).
    split; [repeat split; [now apply FS..|lra]|]. split; [apply IH; lia|]. rewrite mg_dot. pose proof (er_dot a b n ltac:(lia)) as E.
    assert (K : (INR n + 1) * (1 + dl) * (u * sum_f_R0 (pa a b) n + eta) <= 401 * (u * sum_f_R0 (pa a b) n + eta)).
    { apply Rmult_le_compat_r; [rewrite U; lra|]. assert (I1 : INR n <= 398) by (replace 398 with (INR 398) by (rewrite INR_IZR_INZ; reflexivity); apply le_INR; lia). pose proof (pos_INR n). unfold dl. lra. }
    rewrite U in *. lra.
Qed.
Lemma spectrum_fused a b r : length a = 400%nat -> length b = 400%nat -> Forall fin a -> Forall fin b ->
  sum_f_R0 (fun i => Rabs (val a i * val b i)) 399 <= bpow radix2 126 -> ev lm (S_dot (EN lm) (inS lm a) (inS lm b)) r ->
  fin r /\ Rabs (B2R r - sum_f_R0 (fun i => val a i * val b i) 399) <= 401 * u * sum_f_R0 (fun i => Rabs (val a i * val b i)) 399 + 401 * eta.
Proof.
  intros La Lb Fa Fb S E. apply ev_error in E; [|apply safe_dot; try assumption; lia]. destruct E as (Fr & E). split; [exact Fr|]. unfold S_dot in E. rewrite ex_dot in E.
  eapply Rle_trans; [exact E|]. eapply Rle_trans; [apply er_dot; lia|]. change (sum_f_R0 (fun i => Rabs (val a i * val b i)) 399) with (sum_f_R0 (pa a b) 399).
  assert (P3 : 0 <= sum_f_R0 (pa a b) 399) by (apply sum_pos; intros; apply Rabs_pos). pose proof eta_pos. rewrite INR_IZR_INZ. change (IZR (Z.of_nat 399)) with 399. assert (U : u = / 16777216) by reflexivity. rewrite U. unfold dl. lra.
Qed.
End WithLibm.
