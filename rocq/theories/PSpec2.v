(** * Spectra from samples on another grid; colour matching functions at a wavelength. *)
From Coq Require Import ZArith Reals Lra Lia List Bool.
From Flocq Require Import Core.Raux Core.Generic_fmt Core.Defs.
From Verif Require Import Num NumR NumF MVec MTri MSpectrum SpecMat RTac PMat PSpec PSpecF.
Import ListNotations.
Local Open Scope R_scope.

(** the wavelength [t] in units of the sampling step, from the first sample. *)
Definition pos (n : nat) (lo hi t : R) : R := IZR (Z.of_nat n - 1) * (t - lo) / (hi - lo).
Section Fetch.
Variables (s : list R) (lo hi t : R).
Let n := length s.
Hypothesis Hn : (2 <= n)%nat.
Hypothesis Hb : (Z.of_nat n <= 1000000000)%Z.
Hypothesis Hl : lo < hi.
Let U := pos n lo hi t.
Lemma n1 : 1 <= IZR (Z.of_nat n - 1). Proof. apply (IZR_le 1). lia. Qed.
Lemma fetch_hi_gen : IZR (Z.of_nat n - 1) <= U <= 2000000000 ->
  fetch RN (finS s) (Z.of_nat n) (Some lo) (Some hi) (Some t) = Ret (Some (smp s (n - 1))).
Proof.
  intros H. pose proof n1. unfold fetch. rl. rewrite !rdiv_ok by lra. change (IZR (Z.of_nat n - 1) * (t - lo) / (hi - lo)) with U.
  rewrite toint_R by (change (IZR (- 2 ^ 31)) with (-2147483648); change (IZR (2 ^ 31 - 1)) with 2147483647; lra).
  set (z := Ztrunc U). assert (Z1 : (Z.of_nat n - 1 <= z)%Z) by (unfold z; rewrite <- (Ztrunc_IZR (Z.of_nat n - 1)); apply Ztrunc_le; lra).
  assert (Z2 : (z <= 2000000000)%Z) by (unfold z; rewrite <- (Ztrunc_IZR 2000000000); apply Ztrunc_le; lra).
  rl. replace (z =? 2147483647)%Z with false by (symmetry; apply Z.eqb_neq; lia).
  replace (Z.of_nat n - 1 <=? z)%Z with true by (symmetry; apply Z.leb_le; lia).
  rewrite arr_get_fin by (fold n; lia). do 3 f_equal. lia.
Qed.
Lemma fetch_lo_gen : -2000000000 <= U < 1 ->
  fetch RN (finS s) (Z.of_nat n) (Some lo) (Some hi) (Some t) = Ret (Some (smp s 0)).
Proof.
  intros H. pose proof n1. unfold fetch. rl. rewrite !rdiv_ok by lra. change (IZR (Z.of_nat n - 1) * (t - lo) / (hi - lo)) with U.
  rewrite toint_R by (change (IZR (- 2 ^ 31)) with (-2147483648); change (IZR (2 ^ 31 - 1)) with 2147483647; lra).
  set (z := Ztrunc U).
  assert (Z1 : (z <= 0)%Z).
  { unfold z, Ztrunc. destruct (Rlt_bool_spec U 0) as [L|L].
    - apply Zceil_glb. lra.
    - enough (Zfloor U < 1)%Z by lia. apply lt_IZR. eapply Rle_lt_trans; [apply Zfloor_lb|]. lra. }
  rl. replace (z =? 2147483647)%Z with false by (symmetry; apply Z.eqb_neq; lia).
  replace (Z.of_nat n - 1 <=? z)%Z with false by (symmetry; apply Z.leb_gt; lia).
  replace (z <=? 0)%Z with true by (symmetry; apply Z.leb_le; lia).
  now rewrite arr_get_fin by (fold n; lia).
Qed.
Lemma fetch_mid_gen k : (1 <= k <= n - 2)%nat -> INR k <= U < INR k + 1 ->
  fetch RN (finS s) (Z.of_nat n) (Some lo) (Some hi) (Some t) = Ret (Some ((INR k + 1 - U) * smp s k + (U - INR k) * smp s (S k))).
Proof.
  intros K H. rewrite INR_IZR_INZ in *. set (z := Z.of_nat k) in *. assert (Hz : (1 <= z <= Z.of_nat n - 2)%Z) by lia.
  pose proof n1 as N1. assert (R1 : 1 <= IZR z) by (apply (IZR_le 1); lia). assert (R2 : IZR z <= 1000000000) by (apply (IZR_le z 1000000000); lia).
  unfold fetch. rl. rewrite !rdiv_ok by lra. change (IZR (Z.of_nat n - 1) * (t - lo) / (hi - lo)) with U.
  rewrite toint_R by (change (IZR (- 2 ^ 31)) with (-2147483648); change (IZR (2 ^ 31 - 1)) with 2147483647; lra).
  replace (Ztrunc U) with z.
  2:{ rewrite Ztrunc_floor by lra. symmetry. apply Zfloor_imp. rewrite plus_IZR. lra. }
  rl. replace (z =? 2147483647)%Z with false by (symmetry; apply Z.eqb_neq; lia).
  replace (Z.of_nat n - 1 <=? z)%Z with false by (symmetry; apply Z.leb_gt; lia).
  replace (z <=? 0)%Z with false by (symmetry; apply Z.leb_gt; lia).
  rewrite !arr_get_fin by (fold n; lia). unfold lerp. rl. rewrite !(rdiv_ok _ (IZR (Z.of_nat n - 1))) by lra. rl.
  set (c := IZR (Z.of_nat n - 1)) in *.
  assert (E : (IZR (z + 1)) * (hi - lo) / c - IZR z * (hi - lo) / c = (hi - lo) / c) by (rewrite plus_IZR; field; lra).
  assert (P : 0 < (hi - lo) / c) by (apply Rdiv_lt_0_compat; lra).
  rewrite rdiv_ok by (rewrite E; lra). rl. rewrite E.
  replace (Z.to_nat z) with k by lia. replace (Z.to_nat (z + 1)) with (Datatypes.S k) by lia.
  assert (Q : (t - IZR z * (hi - lo) / c - lo) / ((hi - lo) / c) = U - IZR z) by (unfold U, pos; fold c; field; lra).
  rewrite Q. fin_eq. ring.
Qed.
End Fetch.
(** the interpolant the code uses: constant on the first interval. *)
Definition resampled (s : list R) (u : R) (y : R) : Prop :=
  (u < 1 -> y = smp s 0) /\
  (INR (length s - 1) <= u -> y = smp s (length s - 1)) /\
  (forall k, (1 <= k <= length s - 2)%nat -> INR k <= u <= INR k + 1 -> y = (INR k + 1 - u) * smp s k + (u - INR k) * smp s (S k)).
Lemma nat_floor u m : 1 <= u < INR m -> exists k, (1 <= k)%nat /\ (k < m)%nat /\ INR k <= u < INR k + 1.
Proof.
  intros H. exists (Z.to_nat (Zfloor u)). pose proof (Zfloor_lb u). pose proof (Zfloor_ub u).
  assert (A : (1 <= Zfloor u)%Z) by (apply Zfloor_lub; cbn; lra).
  assert (E : INR (Z.to_nat (Zfloor u)) = IZR (Zfloor u)) by (rewrite INR_IZR_INZ; f_equal; lia).
  split; [lia|]. split; [|rewrite E; lra]. apply INR_lt. rewrite E. lra.
Qed.
Lemma fetch_resampled s lo hi t : (2 <= length s)%nat -> (Z.of_nat (length s) <= 1000000000)%Z -> lo < hi ->
  Rabs (pos (length s) lo hi t) <= 2000000000 ->
  exists y, fetch RN (finS s) (Z.of_nat (length s)) (Some lo) (Some hi) (Some t) = Ret (Some y) /\ resampled s (pos (length s) lo hi t) y.
Proof.
  intros N B L A. set (u := pos (length s) lo hi t) in *. apply Rabs_le_inv in A.
  assert (NI : INR (length s - 1) = IZR (Z.of_nat (length s) - 1)) by (rewrite INR_IZR_INZ; f_equal; lia).
  assert (N2 : 1 <= INR (length s - 1)) by (apply (le_INR 1); lia).
  destruct (Rlt_le_dec u 1) as [U|U].
  { exists (smp s 0). split; [apply fetch_lo_gen; try assumption; fold u; lra|]. split; [auto|]. split; [lra|].
    intros k K I. assert (1 <= INR k) by (apply (le_INR 1); lia). lra. }
  destruct (Rle_lt_dec (INR (length s - 1)) u) as [V|V].
  { exists (smp s (length s - 1)). split; [apply fetch_hi_gen; try assumption; fold u; lra|]. split; [lra|]. split; [auto|].
    intros k K I. assert (KK : INR k + 1 <= INR (length s - 1)) by (rewrite <- S_INR; apply le_INR; lia).
    assert (u = INR k + 1) as -> by lra.
    assert (S k = length s - 1)%nat as E. { apply INR_eq. rewrite S_INR. lra. }
    rewrite E. ring. }
  destruct (nat_floor u (length s - 1)) as (k & K1 & K2 & K3); [lra|].
  eexists. split; [apply (fetch_mid_gen s lo hi t N B L k); [lia|exact K3]|]. fold u. split; [lra|]. split; [lra|].
  intros j J I. destruct (Nat.eq_dec j k) as [->|E]; [reflexivity|].
  assert (j + 1 = k)%nat as <-.
  { assert (INR j < INR (S k)) by (rewrite S_INR; lra). assert (INR k <= INR (S j)) by (rewrite S_INR; lra).
    apply INR_lt in H. apply INR_le in H0. lia. }
  rewrite plus_INR in *. cbn [INR] in *. assert (u = INR j + 1) as -> by lra. replace (j + 1)%nat with (S j) by lia. ring.
Qed.
Lemma resample_l s lo hi : (2 <= length s)%nat -> (Z.of_nat (length s) <= 1000000000)%Z -> lo < hi ->
  (forall i, (i < 400)%nat -> Rabs (pos (length s) lo hi (380 + INR i)) <= 2000000000) ->
  exists r, S_of_samples RN (finS s) (Z.of_nat (length s)) (Some lo) (Some hi) = Ret (finS r) /\ spectrumR r /\
    forall i, (i < 400)%nat -> resampled s (pos (length s) lo hi (380 + INR i)) (smp r i).
Proof.
  intros N B L A. unfold S_of_samples.
  destruct (mapM_all (fun i => fetch RN (finS s) (Z.of_nat (length s)) (Some lo) (Some hi) (fadd (flit 380) (fofZ (Z.of_nat i))))
    (fun i (b : F RN) => exists y, b = Some y /\ resampled s (pos (length s) lo hi (380 + INR i)) y) (seq 0 400)) as (r & E & F2).
  { intros i I. apply in_seq in I. destruct (fetch_resampled s lo hi (380 + INR i) N B L (A i ltac:(lia))) as (y & E & Y).
    exists (Some y). split; [|exists y; auto]. etransitivity; [|exact E]. apply (f_equal (fetch RN (finS s) (Z.of_nat (length s)) (Some lo) (Some hi))). rl. rewrite INR_IZR_INZ. reflexivity. }
  assert (LR : length r = 400%nat) by (clear E; assert (Q : forall (A B : Type) (P : A -> B -> Prop) l q, Forall2 P l q -> length q = length l) by (intros A0 B0 P l q H; induction H; cbn; congruence); rewrite (Q _ _ _ _ _ F2); apply seq_length).
  exists (map (fun b => match b with Some y => y | None => 0 end) r).
  assert (P : forall i, (i < 400)%nat -> exists y, nth i r None = Some y /\ resampled s (pos (length s) lo hi (380 + INR i)) y).
  { intros i I. clear E. assert (X : forall (l : list nat) (q : list (F RN)), Forall2 (fun i (b : F RN) => exists y, b = Some y /\ resampled s (pos (length s) lo hi (380 + INR i)) y) l q ->
      forall i, (i < length l)%nat -> exists y, nth i q None = Some y /\ resampled s (pos (length s) lo hi (380 + INR (nth i l 0%nat))) y).
    { intros l q H. induction H as [|a b l q H _ IH]; intros j J; cbn in J; [lia|]. destruct j as [|j]; [exact H|]. apply IH. lia. }
    destruct (X _ _ F2 i) as (y & Y1 & Y2); [rewrite seq_length; lia|]. exists y. split; [exact Y1|]. rewrite seq_nth in Y2 by exact I. exact Y2. }
  split; [|split].
  - rewrite E. f_equal. unfold finS. rewrite map_map. rewrite <- (map_id r) at 1. apply map_ext_in. intros a I.
    destruct (In_nth r a None I) as (j & J & <-). destruct (P j) as (y & -> & _); [lia|reflexivity].
  - unfold spectrumR. now rewrite map_length.
  - intros i I. destruct (P i I) as (y & Y1 & Y2). unfold smp at 1.
    assert (G : forall (q : list RX) j, nth j (map (fun b => match b with Some y => y | None => 0 end) q) 0 = match nth j q None with Some y => y | None => 0 end).
    { induction q as [|a q IH]; intros [|j]; cbn; auto. }
    rewrite G. enough (X : match nth i (r : list RX) None with Some y => y | None => 0 end = y) by (rewrite X; exact Y2).
    exact (f_equal (fun b : RX => match b with Some y => y | None => 0 end) Y1).
Qed.
(** two samples do not make a straight line. *)
Lemma resample_two a b : a <> b -> exists r, S_of_samples RN (finS [a; b]) 2 (Some 380) (Some 779) = Ret (finS r) /\ spectrumR r /\
  (forall i, (i < 399)%nat -> smp r i = a) /\ smp r 399 = b.
Proof.
  intros N. assert (E : forall t, pos 2 380 779 t = (t - 380) / 399) by (intros t; unfold pos; cbn; field).
  destruct (resample_l [a; b] 380 779) as (r & R1 & R2 & R3); [cbn; lia|cbn; lia|lra| |].
  - intros i I. cbn [length]. rewrite E. assert (0 <= INR i <= 400) by (split; [apply pos_INR|rewrite INR_IZR_INZ; apply (IZR_le _ 400); lia]). apply Rabs_le. lra.
  - exists r. split; [exact R1|]. split; [exact R2|]. split.
    + intros i I. destruct (R3 i ltac:(lia)) as (H & _ & _). cbn [length] in H. rewrite E in H. apply H.
      assert (INR i < 399) by (rewrite INR_IZR_INZ; apply (IZR_lt _ 399); lia). lra.
    + destruct (R3 399%nat ltac:(lia)) as (_ & H & _). cbn [length] in H. rewrite E in H. apply H.
      rewrite (INR_IZR_INZ 399). change (IZR (Z.of_nat 399)) with 399. cbn. lra.
Qed.
Lemma resample_refuted : exists s r, (2 <= length s)%nat /\ S_of_samples RN (finS s) (Z.of_nat (length s)) (Some 380) (Some 779) = Ret (finS r) /\
  exists k u i, (k + 1 < length s)%nat /\ (i < 400)%nat /\ u = pos (length s) 380 779 (380 + INR i) /\ INR k <= u <= INR k + 1 /\
    smp r i <> (INR k + 1 - u) * smp s k + (u - INR k) * smp s (S k).
Proof.
  destruct (resample_two 0 1) as (r & R1 & R2 & R3 & R4); [lra|]. exists [0; 1], r. split; [cbn; lia|]. split; [exact R1|].
  assert (E : forall t, pos 2 380 779 t = (t - 380) / 399) by (intros t; unfold pos; cbn; field).
  exists 0%nat, (pos 2 380 779 (380 + INR 199)), 199%nat. split; [cbn; lia|]. split; [lia|]. split; [reflexivity|].
  rewrite E. rewrite (INR_IZR_INZ 199). change (IZR (Z.of_nat 199)) with 199. cbn [INR smp nth]. rewrite R3 by lia. split; lra.
Qed.

(** ** Colour matching functions at a wavelength *)
Definition impulse (i : nat) : list R := map (fun j => if Nat.eq_dec i j then 1 else 0) (seq 0 400).
Lemma impulse_smp i j : (j < 400)%nat -> smp (impulse i) j = if Nat.eq_dec i j then 1 else 0.
Proof. intros J. unfold smp, impulse. rewrite nth_tab by exact J. reflexivity. Qed.
Lemma impulse_dot i x : (i < 400)%nat -> dotR (impulse i) x = smp x i.
Proof.
  intros I. unfold dotR. assert (G : forall m, (m < 400)%nat -> sum_f_R0 (fun j => smp (impulse i) j * smp x j) m = if le_dec i m then smp x i else 0).
  { induction m as [|m IH]; intros M.
    - cbn [sum_f_R0]. rewrite impulse_smp by lia. destruct (Nat.eq_dec i 0) as [E|]; destruct (le_dec i 0); try lia; try lra. rewrite E. lra.
    - cbn [sum_f_R0]. rewrite IH by lia. rewrite impulse_smp by exact M.
      destruct (Nat.eq_dec i (S m)) as [E|]; destruct (le_dec i m); destruct (le_dec i (S m)); try lia; try lra. rewrite E. lra. }
  rewrite G by lia. destruct (le_dec i 399); [reflexivity|lia].
Qed.
Lemma xyz_l X Y Z i : obs_ok X Y Z -> (i < 400)%nat ->
  Observer_xyz RN (observerR X Y Z) (Some (380 + INR i)) = Ret (fromSpectrum RN (observerR X Y Z) (finS (impulse i))).
Proof.
  intros O I. rewrite fromSpectrum_fin by (try assumption; unfold spectrumR, impulse; now rewrite map_length, seq_length).
  destruct O as (HX & HY & HZ & SX & SY & SZ). unfold Observer_xyz, observerR, Observer_make. cbn [o_X o_Y o_Z o_normalize].
  rewrite !fetch_grid by assumption. cbn [bind]. f_equal. rewrite !S_sum_fin by assumption. unfold T_mul, triR, finV.
  rewrite !impulse_dot by exact I. rl. rewrite Rdec1, !rdiv_ok by assumption. rl. fin_eq; field; assumption.
Qed.
Lemma resample_example : forall i, (i < 400)%nat -> Rabs (pos (length [1; 2; 4; 3]) 300 900 (380 + INR i)) <= 2000000000.
Proof.
  intros i I. assert (0 <= INR i <= 400) by (split; [apply pos_INR|rewrite INR_IZR_INZ; apply (IZR_le _ 400); lia]).
  change (pos (length [1; 2; 4; 3]) 300 900 (380 + INR i)) with (3 * (380 + INR i - 300) / (900 - 300)). apply Rabs_le. lra.
Qed.
