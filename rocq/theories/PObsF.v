(** * Integration by the predefined observers in binary32 against its exact value. *)
From Coq Require Import ZArith Reals Lra Lia List Bool.
From Flocq Require Import Core Plus_error BinarySingleNaN.
From Verif Require Import Num NumR NumF MVec MTri MSpectrum Tables RTac F32 PMatF PSpec PSpecF PTables PMono.
Import ListNotations.
Local Open Scope R_scope.

Lemma rnd_rel z : z = 0 \/ bpow radix2 (-126) <= Rabs z -> Rabs (rnd z - z) <= u * Rabs z.
Proof.
  intros [->|H]; [rewrite rnd_0, Rminus_0_r, Rabs_R0; lra|].
  destruct (rnd_err z) as (d & e & Hd & He & Z & E). rewrite E. pose proof u_pos.
  assert (Q : eta <= u * Rabs z).
  { apply Rle_trans with (u * bpow radix2 (-126)); [|apply Rmult_le_compat_l; lra]. unfold u, eta.
    rewrite <- bpow_plus. apply bpow_le. lia. }
  apply Rmult_integral in Z as [->| ->].
  - replace (z * (1 + 0) + e - z) with e by ring. lra.
  - replace (z * (1 + d) + 0 - z) with (d * z) by ring. rewrite Rabs_mult. apply Rmult_le_compat_r; [apply Rabs_pos|exact Hd].
Qed.
Lemma sum_rel (f g h : nat -> R) k n : (forall i, (i <= n)%nat -> Rabs (f i - g i) <= k * h i) ->
  Rabs (sum_f_R0 f n - sum_f_R0 g n) <= k * sum_f_R0 h n.
Proof.
  induction n as [|n IH]; intros H; cbn [sum_f_R0]; [now apply H|].
  specialize (IH ltac:(intros; apply H; lia)). specialize (H (S n) ltac:(lia)).
  replace (sum_f_R0 f n + f (S n) - (sum_f_R0 g n + g (S n))) with ((sum_f_R0 f n - sum_f_R0 g n) + (f (S n) - g (S n))) by ring.
  apply Rle_trans with (1 := Rabs_triang _ _). lra.
Qed.

(** The tables are far from underflow. *)
Definition lowchk (t : list dec) : bool :=
  forallb (fun d => (dm d =? 0) || ((-30 <=? de d) && (de d <=? 0) && (1 <=? dm d)))%Z t.
Lemma CMF_low : forallb lowchk CMFs = true. Proof. vm_compute. reflexivity. Qed.
Lemma low_val t d : lowchk t = true -> In d t -> Rdec d = 0 \/ bpow radix2 (-126) <= Rabs (Rdec d).
Proof.
  unfold lowchk. rewrite forallb_forall. intros H I. specialize (H d I). rewrite orb_true_iff, !andb_true_iff, Z.eqb_eq, !Z.leb_le in H.
  destruct d as [m e]. unfold Rdec in *. cbn [dm de] in *. destruct H as [->|[[L K] M]].
  - left. destruct e; rewrite ?Z.mul_0_l; unfold Rdiv; ring.
  - right. assert (G : bpow radix2 (-126) <= IZR m / IZR (10 ^ (- e))).
    { assert (P : 0 < IZR (10 ^ (- e)) <= IZR (10 ^ 30)).
      { split; [apply (IZR_lt 0), Z.pow_pos_nonneg; lia|apply IZR_le, Z.pow_le_mono_r; lia]. }
      apply Rle_trans with (1 * / IZR (10 ^ 30)).
      - rewrite Rmult_1_l. change (bpow radix2 (-126)) with (/ IZR (2 ^ 126)). apply Rinv_le_contravar; [apply (IZR_lt 0); reflexivity|].
        apply IZR_le. vm_compute. discriminate.
      - apply Rmult_le_compat; [lra|left; apply Rinv_0_lt_compat, (IZR_lt 0); reflexivity|apply (IZR_le 1); exact M|apply Rinv_le_contravar; lra]. }
    assert (G' : bpow radix2 (-126) <= Rabs (IZR m / IZR (10 ^ (- e)))) by (apply Rle_trans with (1 := G), RRle_abs).
    destruct e as [|p|p]; [|lia|exact G'].
    change (10 ^ (- 0))%Z with 1%Z in G'. unfold Rdiv in G'. rewrite Rinv_1, Rmult_1_r in G'. exact G'.
Qed.

Section F.
Context (lm : libm).
Notation N := (FN lm).
(** ** The sum of a table. *)
Lemma sum_err x n : rangeF 3 x -> (n < 400)%nat ->
  Rabs (B2R (sumHelper N x n) - sum_f_R0 (fun i => B2R (sm x i)) n) <= INR n * u * sum_f_R0 (fun i => Rabs (B2R (sm x i))) n.
Proof.
  intros X. induction n as [|n IH]; intros L; cbn [sumHelper sum_f_R0].
  - cbn [INR]. change (sref N x 0) with (sm x 0). unfold Rminus. rewrite Rplus_opp_r, Rabs_R0. lra.
  - specialize (IH ltac:(lia)). destruct (sum_bound lm x n X ltac:(lia)) as (F0 & B0 & _).
    change (sref N x (S n)) with (sm x (S n)).
    assert (P : fin (sm x (S n)) /\ 0 <= B2R (sm x (S n)) <= 3).
    { destruct X as [K F]. rewrite Forall_forall in F. apply F, nth_In. rewrite K. exact L. }
    destruct P as [F1 B1]. assert (I1 : IZR (Z.of_nat (S n)) <= 400) by (apply IZR_le; lia).
    destruct (add_ok lm _ _ F0 F1) as [F V].
    { rewrite Rabs_pos_eq by lra. apply Rle_trans with (bpow radix2 11); [change (bpow radix2 11) with 2048; lra|apply bpow_le; lia]. }
    rewrite V. set (d := sumHelper N x n) in *. set (p := sm x (S n)) in *.
    set (T := sum_f_R0 (fun i => B2R (sm x i)) n) in *. set (A := sum_f_R0 (fun i => Rabs (B2R (sm x i))) n) in *.
    assert (A0 : 0 <= A) by (apply sum_pos; intros; apply Rabs_pos).
    assert (TA : Rabs T <= A) by apply sum_abs.
    pose proof u_pos as U0. pose proof (pos_INR n) as I0.
    assert (K0 : 0 <= INR n * u) by (apply Rmult_le_pos; lra).
    pose proof (plus_error_le_r radix2 fe (fun x => negb (Z.even x)) (B2R d) (B2R p) (fmt_B2R d) (fmt_B2R p)) as E1.
    pose proof (rnd_add_err (B2R d) (B2R p) (fmt_B2R d) (fmt_B2R p)) as E2.
    assert (D : Rabs (B2R d + B2R p) <= Rabs (B2R p) + A + INR n * u * A).
    { replace (B2R d + B2R p) with ((B2R d - T) + T + B2R p) by ring.
      apply Rle_trans with (1 := Rabs_triang _ _). pose proof (Rabs_triang (B2R d - T) T). lra. }
    rewrite S_INR. replace (rnd (B2R d + B2R p) - (T + B2R p)) with ((rnd (B2R d + B2R p) - (B2R d + B2R p)) + (B2R d - T)) by ring.
    apply Rle_trans with (1 := Rabs_triang _ _). replace ((INR n + 1) * u) with (INR n * u + u) by ring.
    apply Rle_trans with (Rabs (rnd (B2R d + B2R p) - (B2R d + B2R p)) + INR n * u * A); [lra|].
    eapply jr; [apply Rabs_pos|exact A0|exact K0|exact E1| |reflexivity].
    apply Rle_trans with (1 := E2). apply Rmult_le_compat_l; lra.
Qed.
(** ** One component. *)
Definition absS (s : list f32) : list R := map (fun x => Rabs (B2R x)) s.
Definition valS (s : list f32) : list R := map (fun x => B2R x) s.
Lemma final (A D S Dh Sh Nh r : R) : 0 <= A -> Rabs D <= A -> 0 <= Sh -> / 128 <= Sh ->
  Rabs (Dh - D) <= 402.01 * u * A + 401 * eta -> Rabs (Sh - S) <= 400.01 * u * S -> 0 <= S ->
  Rabs (Nh - 1 / Sh) <= u * (1 / Sh) -> Rabs (r - Dh * Nh) <= u * Rabs (Dh * Nh) + eta ->
  Rabs (r - D / S) <= 805 * u * (A / S) + bpow radix2 (-134).
Proof.
  intros A0 DA _ H1 H2 H3 S0 H4 H5. pose proof u_pos as U0. pose proof u_small as U1. pose proof eta_pos as E0.
  assert (Sp : 0 < S).
  { apply Rabs_le_inv in H3. assert (400.01 * u * S <= 1 * S) by (apply Rmult_le_compat_r; lra). lra. }
  set (q := / S). assert (Q0 : 0 < q) by (apply Rinv_0_lt_compat, Sp). assert (SQ : S * q = 1) by (apply Rinv_r; lra).
  set (x := Sh * q). set (y := Nh * S).
  assert (X : Rabs (x - 1) <= 400.01 * u).
  { replace (x - 1) with ((Sh - S) * q) by (unfold x; rewrite <- SQ; ring). rewrite Rabs_mult, (Rabs_pos_eq q) by lra.
    replace (400.01 * u) with (400.01 * u * S * q) by (rewrite Rmult_assoc, SQ; ring). apply Rmult_le_compat_r; lra. }
  assert (XY : Rabs (x * y - 1) <= u).
  { assert (E : x * y - 1 = (Nh - 1 / Sh) * Sh).
    { unfold x, y. replace (Sh * q * (Nh * S)) with (Sh * Nh * (S * q)) by ring. rewrite SQ. field. lra. }
    rewrite E, Rabs_mult, (Rabs_pos_eq Sh) by lra. replace u with (u * (1 / Sh) * Sh) by (field; lra). apply Rmult_le_compat_r; lra. }
  apply Rabs_le_inv in X, XY.
  assert (Y : Rabs (y - 1) <= 401.05 * u).
  { assert (V : 0 <= u <= / 16777216) by lra. apply Rabs_le. clear -X XY V. split; nra. }
  assert (QB : q <= 129).
  { apply Rmult_le_reg_l with (1 := Sp). rewrite SQ. unfold x in X. assert (Sh = x * S) by (unfold x; rewrite Rmult_assoc, (Rmult_comm q), SQ; ring).
    assert (x * S <= 1.00003 * S) by (apply Rmult_le_compat_r; unfold x; lra). lra. }
  set (a := A / S). set (d := D / S). set (dh := Dh * q).
  assert (a0 : 0 <= a) by (apply Rmult_le_pos; fold q; lra).
  assert (da : Rabs d <= a). { unfold d, a, Rdiv. fold q. rewrite Rabs_mult, (Rabs_pos_eq q) by lra. apply Rmult_le_compat_r; lra. }
  assert (dd : Rabs (dh - d) <= 402.01 * u * a + 51729 * eta).
  { replace (dh - d) with ((Dh - D) * q) by (unfold dh, d, Rdiv; fold q; ring). rewrite Rabs_mult, (Rabs_pos_eq q) by lra.
    apply Rle_trans with ((402.01 * u * A + 401 * eta) * q); [apply Rmult_le_compat_r; lra|]. unfold a, Rdiv. fold q.
    assert (401 * eta * q <= 401 * eta * 129) by (apply Rmult_le_compat_l; lra). lra. }
  assert (Er : Dh * Nh = dh * y).
  { unfold dh, y. replace (Dh * q * (Nh * S)) with (Dh * Nh * (S * q)) by ring. rewrite SQ. ring. }
  rewrite Er in H5. assert (V : 0 <= u <= / 16777216) by lra. assert (UA : 0 <= u * a) by (apply Rmult_le_pos; lra).
  assert (G : Rabs (dh * y - d) <= 803.2 * u * a + 51800 * eta).
  { replace (dh * y - d) with ((dh - d) * y + d * (y - 1)) by ring. apply Rle_trans with (1 := Rabs_triang _ _). rewrite !Rabs_mult.
    apply Rle_trans with ((402.01 * u * a + 51729 * eta) * (1 + 401.05 * u) + a * (401.05 * u)).
    - apply Rplus_le_compat; apply Rmult_le_compat; try apply Rabs_pos; try assumption.
      pose proof (Rabs_triang (y - 1) 1) as T. rewrite Rabs_R1 in T. replace (y - 1 + 1) with y in T by ring. lra.
    - assert (402.01 * 401.05 * u * (u * a) <= 0.1 * (u * a)) by (apply Rmult_le_compat_r; [apply Rmult_le_pos|]; lra).
      assert (51729 * 401.05 * u * eta <= 70 * eta) by (apply Rmult_le_compat_r; lra).
      lra. }
  assert (AB : Rabs (dh * y) <= a + (803.2 * u * a + 51800 * eta)).
  { replace (dh * y) with ((dh * y - d) + d) by ring. apply Rle_trans with (1 := Rabs_triang _ _). lra. }
  assert (W : u * Rabs (dh * y) <= 1.1 * u * a + eta).
  { apply Rle_trans with (u * (a + (803.2 * u * a + 51800 * eta))); [apply Rmult_le_compat_l; lra|].
    assert (803.2 * u * (u * a) <= 0.1 * (u * a)) by (apply Rmult_le_compat_r; [apply Rmult_le_pos|]; lra).
    assert (51800 * u * eta <= 1 * eta) by (apply Rmult_le_compat_r; lra).
    lra. }
  replace (r - d) with ((r - dh * y) + (dh * y - d)) by ring. apply Rle_trans with (1 := Rabs_triang _ _).
  assert (B : bpow radix2 (-134) = 65536 * eta).
  { unfold eta. change 65536 with (bpow radix2 16). rewrite <- bpow_plus. reflexivity. }
  rewrite B. assert (0 <= u * a) by (apply Rmult_le_pos; lra). lra.
Qed.
Definition boundS (e : Z) (s : list f32) : Prop := length s = 400%nat /\ Forall (fun x : f32 => is_finite x = true /\ Rabs (B2R x) <= bpow radix2 e) s.
Notation okspec := (boundS 100).
Lemma ok_at {e} s i : boundS e s -> (i < 400)%nat -> fin (sm s i) /\ Rabs (B2R (sm s i)) <= bpow radix2 e.
Proof. intros [L F] H. rewrite Forall_forall in F. apply F, nth_In. now rewrite L. Qed.
Lemma smp_map (f : f32 -> R) s i : length s = 400%nat -> (i < 400)%nat -> smp (map f s) i = f (sm s i).
Proof. intros L H. unfold smp, sm. rewrite nth_indep with (d' := f B754_nan) by (rewrite map_length, L; exact H). apply map_nth. Qed.
Lemma tab_at t i : In t CMFs -> (i < 400)%nat -> let x := smp (tabR t) i in
  0 <= x <= 3 /\ fin (sm (spectrum_of N t) i) /\ 0 <= B2R (sm (spectrum_of N t) i) <= 3 /\ Rabs (B2R (sm (spectrum_of N t) i) - x) <= u * x.
Proof.
  intros I H x. pose proof (all_chk _ _ CMF_chk) as A. rewrite Forall_forall in A. specialize (A t I). apply chk_ok in A as [L F].
  assert (J : In (nth i t 0%dec) t) by (apply nth_In; rewrite L; exact H).
  pose proof CMF_low as W. rewrite forallb_forall in W. pose proof (low_val t (nth i t 0%dec) (W t I) J) as Z.
  assert (E : sm (spectrum_of N t) i = @flit N (nth i t 0%dec)).
  { unfold sm, spectrum_of. rewrite nth_indep with (d' := @flit N 0%dec); [apply map_nth|]. rewrite map_length, L. exact H. }
  assert (E2 : x = Rdec (nth i t 0%dec)).
  { unfold x, smp, tabR. rewrite nth_indep with (d' := Rdec 0%dec); [apply map_nth|]. rewrite map_length, L. exact H. }
  rewrite Forall_forall in F. specialize (F _ J). rewrite E, E2. split; [exact F|].
  destruct (lit_range lm (nth i t 0%dec) 3 ltac:(lia) F) as [F1 B1]. split; [exact F1|]. split; [exact B1|].
  destruct (lit_ok lm (nth i t 0%dec)) as [_ V].
  { rewrite Rabs_pos_eq by lra. apply Rle_trans with (bpow radix2 2); [change (bpow radix2 2) with 4; lra|apply bpow_le; lia]. }
  rewrite V. pose proof (rnd_rel _ Z) as Q. rewrite (Rabs_pos_eq (Rdec _)) in Q by lra. exact Q.
Qed.
Lemma sum_le_const (f : nat -> R) c n : (forall i, (i <= n)%nat -> f i <= c) -> sum_f_R0 f n <= (INR n + 1) * c.
Proof.
  induction n as [|n IH]; intros H; cbn [sum_f_R0]; [cbn [INR]; specialize (H 0%nat ltac:(lia)); lra|].
  specialize (IH ltac:(intros; apply H; lia)). specialize (H (S n) ltac:(lia)). rewrite S_INR. lra.
Qed.
Lemma tri3 a b c : Rabs (a - c) <= Rabs (a - b) + Rabs (b - c).
Proof. replace (a - c) with ((a - b) + (b - c)) by ring. apply Rabs_triang. Qed.
Lemma tri2 a b : Rabs a <= Rabs (a - b) + Rabs b.
Proof. pose proof (Rabs_triang (a - b) b) as T. replace (a - b + b) with a in T by ring. exact T. Qed.
Lemma sum_nn (f : nat -> R) n : (forall i, (i <= n)%nat -> 0 <= f i) -> 0 <= sum_f_R0 f n.
Proof. induction n as [|n IH]; intros H; cbn [sum_f_R0]; [now apply H|]. specialize (IH ltac:(intros; apply H; lia)). specialize (H (S n) ltac:(lia)). lra. Qed.
Lemma comp t s : In t CMFs -> okspec s ->
  let r := @fmul N (S_dot N s (spectrum_of N t)) (@fdiv N (@flit N 1) (S_sum N (spectrum_of N t))) in
  fin r /\ Rabs (B2R r - dotR (valS s) (tabR t) / sumR (tabR t)) <= 805 * u * (dotR (absS s) (tabR t) / sumR (tabR t)) + bpow radix2 (-134).
Proof.
  intros I O. pose proof (tab_at t) as T. destruct (CMF_60 lm t I) as [RT S60]. set (x := spectrum_of N t) in *.
  pose proof u_pos as U0. pose proof u_small as U1. pose proof eta_pos as E0.
  destruct (S_sum_bound lm x RT) as (FS & BS & MS).
  assert (Lx : length x = 400%nat) by apply RT. assert (Ls : length s = 400%nat) by apply O.
  assert (Fx : Forall fin x) by (destruct RT as [_ F]; revert F; apply Forall_impl; tauto).
  assert (Fs : Forall fin s) by (destruct O as [_ F]; revert F; apply Forall_impl; tauto).
  set (A := dotR (absS s) (tabR t)). set (D := dotR (valS s) (tabR t)). set (Sx := sumR (tabR t)).
  set (Ah := sum_f_R0 (fun i => Rabs (B2R (sm s i) * B2R (sm x i))) 399).
  assert (A0 : 0 <= A).
  { apply sum_nn. intros i H. unfold absS. rewrite smp_map by (assumption || lia). destruct (T i I ltac:(lia)) as [X0 _].
    apply Rmult_le_pos; [apply Rabs_pos|lra]. }
  assert (S0 : 0 <= Sx) by (apply sum_nn; intros i H; destruct (T i I ltac:(lia)) as [X0 _]; lra).
  assert (AhA : Rabs (Ah - A) <= u * A).
  { unfold Ah, A, dotR. apply sum_rel. intros i H. unfold absS. rewrite smp_map by (assumption || lia).
    destruct (T i I ltac:(lia)) as (X0 & _ & X1 & X2). rewrite Rabs_mult, (Rabs_pos_eq (B2R (sm x i))) by lra.
    replace (Rabs (B2R (sm s i)) * B2R (sm x i) - Rabs (B2R (sm s i)) * smp (tabR t) i) with (Rabs (B2R (sm s i)) * (B2R (sm x i) - smp (tabR t) i)) by ring.
    rewrite Rabs_mult, Rabs_Rabsolu. replace (u * (Rabs (B2R (sm s i)) * smp (tabR t) i)) with (Rabs (B2R (sm s i)) * (u * smp (tabR t) i)) by ring.
    apply Rmult_le_compat_l; [apply Rabs_pos|exact X2]. }
  assert (Dh : Rabs (sum_f_R0 (fun i => B2R (sm s i) * B2R (sm x i)) 399 - D) <= u * A).
  { unfold D, A, dotR. apply sum_rel. intros i H. unfold absS, valS. rewrite !smp_map by (assumption || lia).
    destruct (T i I ltac:(lia)) as (X0 & _ & X1 & X2).
    replace (B2R (sm s i) * B2R (sm x i) - B2R (sm s i) * smp (tabR t) i) with (B2R (sm s i) * (B2R (sm x i) - smp (tabR t) i)) by ring.
    rewrite Rabs_mult. replace (u * (Rabs (B2R (sm s i)) * smp (tabR t) i)) with (Rabs (B2R (sm s i)) * (u * smp (tabR t) i)) by ring.
    apply Rmult_le_compat_l; [apply Rabs_pos|exact X2]. }
  assert (DA : Rabs D <= A).
  { unfold D, A, dotR. apply Rle_trans with (1 := sum_abs _ _). apply Req_le, sum_ext. intros i H. unfold absS, valS. rewrite !smp_map by (assumption || lia).
    destruct (T i I ltac:(lia)) as (X0 & _). rewrite Rabs_mult, (Rabs_pos_eq (smp _ _)) by lra. reflexivity. }
  assert (NO : Ah <= bpow radix2 112).
  { apply Rle_trans with ((INR 399 + 1) * (3 * bpow radix2 100)).
    - apply sum_le_const. intros i H. destruct (T i I ltac:(lia)) as (_ & _ & X1 & _). destruct (ok_at s i O ltac:(lia)) as [_ B].
      rewrite Rabs_mult, (Rabs_pos_eq (B2R (sm x i))), Rmult_comm by lra. apply Rmult_le_compat; try lra. apply Rabs_pos.
    - rewrite (INR_IZR_INZ 399). change (IZR (Z.of_nat 399)) with 399. change 112%Z with (12 + 100)%Z. rewrite bpow_plus. change (bpow radix2 12) with 4096.
      pose proof (bpow_gt_0 radix2 100). lra. }
  destruct (C61_l lm s x Ls Lx Fs Fx) as [FD ED].
  { apply Rle_trans with (1 := NO), bpow_le. lia. }
  change (sum_f_R0 (fun i => Rabs (va s i * vb x i)) 399) with Ah in ED.
  change (sum_f_R0 (fun i => va s i * vb x i) 399) with (sum_f_R0 (fun i => B2R (sm s i) * B2R (sm x i)) 399) in ED.
  assert (SE : Rabs (B2R (S_sum N x) - Sx) <= 400.01 * u * Sx).
  { pose proof (sum_err x 399 RT ltac:(lia)) as Q. rewrite (INR_IZR_INZ 399) in Q. change (IZR (Z.of_nat 399)) with 399 in Q.
    assert (Q2 : Rabs (sum_f_R0 (fun i => B2R (sm x i)) 399 - Sx) <= u * Sx).
    { unfold Sx, sumR. apply sum_rel. intros i H. destruct (T i I ltac:(lia)) as (_ & _ & _ & X2). exact X2. }
    assert (Q3 : sum_f_R0 (fun i => Rabs (B2R (sm x i))) 399 = sum_f_R0 (fun i => B2R (sm x i)) 399).
    { apply sum_ext. intros i H. destruct (T i I ltac:(lia)) as (_ & _ & X1 & _). apply Rabs_pos_eq; lra. }
    rewrite Q3 in Q. unfold S_sum. set (z := B2R (sumHelper N x 399)) in *. set (w := sum_f_R0 (fun i => B2R (sm x i)) 399) in *.
    apply Rle_trans with (1 := tri3 z w Sx).
    assert (w <= (1 + u) * Sx) by (apply Rabs_le_inv in Q2; lra).
    assert (399 * u * w <= 399 * u * ((1 + u) * Sx)) by (apply Rmult_le_compat_l; lra).
    assert (399 * u * (u * Sx) <= 0.01 * (u * Sx)) by (apply Rmult_le_compat_r; [apply Rmult_le_pos; lra|lra]). lra. }
  assert (NH : / 128 <= B2R (S_sum N x)) by lra.
  destruct (norm_bound lm x RT S60) as [FN _].
  assert (V1 : fin (@flit N 1) /\ B2R (@flit N 1) = 1) by f32_val. destruct V1 as [F1 V1].
  assert (Q : / 1600 <= 1 / B2R (S_sum N x) <= 128).
  { unfold Rdiv. rewrite Rmult_1_l. split; [apply Rinv_le_contravar; lra|]. replace 128 with (/ / 128) by lra. apply Rinv_le_contravar; lra. }
  destruct (div_ok lm (@flit N 1) (S_sum N x) F1) as [_ VN]; [lra|rewrite V1, Rabs_pos_eq by lra; apply Rle_trans with (1 := proj2 Q); change 128 with (bpow radix2 7); apply bpow_le; lia|].
  rewrite V1 in VN. set (n := @fdiv N (@flit N 1) (S_sum N x)) in *. set (sh := B2R (S_sum N x)) in *.
  assert (NE : Rabs (B2R n - 1 / sh) <= u * (1 / sh)).
  { rewrite VN. pose proof (rnd_rel (1 / sh)) as Z. rewrite (Rabs_pos_eq (1 / sh)) in Z by lra. apply Z. right.
    apply Rle_trans with (bpow radix2 (-11)); [apply bpow_le; lia|change (bpow radix2 (-11)) with (/ 2048); lra]. }
  set (d := S_dot N s x) in *. set (dd := sum_f_R0 (fun i => B2R (sm s i) * B2R (sm x i)) 399) in *.
  assert (Ahb : Ah <= (1 + u) * A) by (apply Rabs_le_inv in AhA; lra).
  assert (DE : Rabs (B2R d - D) <= 402.01 * u * A + 401 * eta).
  { apply Rle_trans with (1 := tri3 (B2R d) dd D).
    assert (401 * u * Ah <= 401 * u * ((1 + u) * A)) by (apply Rmult_le_compat_l; lra).
    assert (401 * u * (u * A) <= 0.01 * (u * A)) by (apply Rmult_le_compat_r; [apply Rmult_le_pos; lra|lra]). lra. }
  assert (dB : Rabs (B2R d) <= bpow radix2 113).
  { pose proof (sum_abs (fun i => B2R (sm s i) * B2R (sm x i)) 399) as Z. fold dd in Z. change (Rabs dd <= Ah) in Z.
    apply Rle_trans with (1 := tri2 (B2R d) dd).
    assert (401 * u * Ah <= 0.1 * Ah) by (apply Rmult_le_compat_r; [unfold Ah; apply sum_pos; intros; apply Rabs_pos|lra]).
    change 113%Z with (1 + 112)%Z. rewrite bpow_plus. change (bpow radix2 1) with 2. pose proof (eta_le s x Ls Lx).
    assert (1 <= bpow radix2 112) by (apply (bpow_le radix2 0 112); lia). lra. }
  assert (nB : Rabs (B2R n) <= 129).
  { apply Rle_trans with (1 := tri2 (B2R n) (1 / sh)). rewrite (Rabs_pos_eq (1 / sh)) by lra.
    assert (u * (1 / sh) <= / 16777216 * 128) by (apply Rmult_le_compat; lra). lra. }
  destruct (mul_ok lm d n FD FN) as [FR VR].
  { rewrite Rabs_mult. apply Rle_trans with (bpow radix2 113 * bpow radix2 8); [|rewrite <- bpow_plus; apply bpow_le; lia].
    apply Rmult_le_compat; try apply Rabs_pos; [exact dB|change (bpow radix2 8) with 256; lra]. }
  intros r. split; [exact FR|]. apply (final A D Sx (B2R d) sh (B2R n) (B2R r)); try assumption; try lra.
  unfold r. rewrite VR. apply rnd_err_abs.
Qed.
Lemma val_len {e} s : boundS e s -> spectrumR (valS s). Proof. intros [L _]. unfold spectrumR, valS. now rewrite map_length. Qed.
Lemma abs_len {e} s : boundS e s -> spectrumR (absS s). Proof. intros [L _]. unfold spectrumR, absS. now rewrite map_length. Qed.
Definition closeT (K : R) (e : Z) (r : Vector3 f32) (t a : Vector3 R) : Prop :=
  let ok (x : f32) y b := is_finite x = true /\ Rabs (B2R x - y) <= K * u * b + bpow radix2 e in
  ok (v0 r) (v0 t) (v0 a) /\ ok (v1 r) (v1 t) (v1 a) /\ ok (v2 r) (v2 t) (v2 a).
Lemma obs_spec (X Y Z : list dec) s : In X CMFs -> In Y CMFs -> In Z CMFs -> okspec s ->
  exists t a, fromSpectrum RN (Observer_make RN (spectrum_of RN X) (spectrum_of RN Y) (spectrum_of RN Z)) (finS (valS s)) = finV t /\
    fromSpectrum RN (Observer_make RN (spectrum_of RN X) (spectrum_of RN Y) (spectrum_of RN Z)) (finS (absS s)) = finV a /\
    closeT 805 (-134) (fromSpectrum N (Observer_make N (spectrum_of N X) (spectrum_of N Y) (spectrum_of N Z)) s) t a.
Proof.
  intros IX IY IZ O. destruct (tab_obs X Y Z IX IY IZ) as [OK _]. rewrite obs_of.
  exists (triR (tabR X) (tabR Y) (tabR Z) (valS s)), (triR (tabR X) (tabR Y) (tabR Z) (absS s)).
  split; [apply fromSpectrum_fin; [exact OK|exact (val_len s O)]|]. split; [apply fromSpectrum_fin; [exact OK|exact (abs_len s O)]|].
  unfold closeT. cbv zeta. split; [|split]; [exact (comp X s IX O)|exact (comp Y s IY O)|exact (comp Z s IZ O)].
Qed.
Lemma integrate_acc s : okspec s -> Forall (fun o : forall N : Num, Observer N => exists t a,
    fromSpectrum RN (o RN) (finS (valS s)) = finV t /\ fromSpectrum RN (o RN) (finS (absS s)) = finV a /\
    closeT 805 (-134) (fromSpectrum N (o N) s) t a) [CIE1931; CIE31JV; CIE2012].
Proof.
  intros O. repeat apply Forall_cons; [..|apply Forall_nil]; apply obs_spec; try exact O; cbn [In CMFs]; tauto.
Qed.
(** ** Reflectance and light. *)
Lemma mul_bound r l : boundS 50 r -> boundS 50 l -> okspec (S_mul N r l) /\ forall i, (i < 400)%nat ->
  Rabs (B2R (sm (S_mul N r l) i) - B2R (sm r i) * B2R (sm l i)) <= u * Rabs (B2R (sm r i) * B2R (sm l i)) + eta.
Proof.
  intros OR OL. assert (G : forall i, (i < 400)%nat -> let p := sm (S_mul N r l) i in
    fin p /\ Rabs (B2R p) <= bpow radix2 100 /\ B2R p = rnd (B2R (sm r i) * B2R (sm l i))).
  { intros i H p. destruct (ok_at r i OR H) as [F1 B1], (ok_at l i OL H) as [F2 B2].
    assert (E : p = @fmul N (sm r i) (sm l i)) by exact (sref_tab N (fun i => @fmul N (sref N r i) (sref N l i)) i H).
    assert (B : Rabs (B2R (sm r i) * B2R (sm l i)) <= bpow radix2 100).
    { rewrite Rabs_mult. change 100%Z with (50 + 50)%Z. rewrite bpow_plus. apply Rmult_le_compat; try apply Rabs_pos; assumption. }
    destruct (mul_ok lm (sm r i) (sm l i) F1 F2) as [F V]; [apply Rle_trans with (1 := B), bpow_le; lia|].
    rewrite E. split; [exact F|]. rewrite V. split; [|reflexivity]. apply rnd_abs_le; [apply fmt_bpow; lia|exact B]. }
  split.
  - split; [apply (tab_len N)|]. rewrite Forall_forall. intros x I. apply (In_nth _ _ (B754_nan : f32)) in I as (i & H & <-).
    change (i < length (S_tabulate N (fun i => @fmul N (sref N r i) (sref N l i))))%nat in H. rewrite (tab_len N) in H. destruct (G i H) as (F & B & _). split; assumption.
  - intros i H. destruct (G i H) as (_ & _ & V). cbv zeta in V. rewrite V. apply rnd_err_abs.
Qed.
Lemma sum_two (f h x : nat -> R) a b n : sum_f_R0 (fun i => a * h i + b * x i) n = a * sum_f_R0 h n + b * sum_f_R0 x n.
Proof. induction n as [|n IH]; cbn [sum_f_R0]; [ring|]. rewrite IH. ring. Qed.
Lemma refl_dot t r l : In t CMFs -> boundS 50 r -> boundS 50 l -> let p := S_mul N r l in
  let A := dotR (mulS (absS r) (absS l)) (tabR t) in
  0 <= A /\ Rabs (dotR (valS p) (tabR t) - dotR (mulS (valS r) (valS l)) (tabR t)) <= u * A + eta * sumR (tabR t) /\
  Rabs (dotR (absS p) (tabR t) - A) <= u * A + eta * sumR (tabR t).
Proof.
  intros I OR OL. destruct (mul_bound r l OR OL) as [OP E]. intros p A. assert (Lr : length r = 400%nat) by apply OR. assert (Ll : length l = 400%nat) by apply OL.
  assert (Lp : length p = 400%nat) by apply OP. pose proof (tab_at t) as T.
  assert (M : forall i, (i <= 399)%nat -> smp (mulS (absS r) (absS l)) i = Rabs (B2R (sm r i) * B2R (sm l i))).
  { intros i H. unfold mulS. rewrite smp_pw by lia. unfold absS. rewrite !smp_map, Rabs_mult by (assumption || lia). reflexivity. }
  assert (M2 : forall i, (i <= 399)%nat -> smp (mulS (valS r) (valS l)) i = B2R (sm r i) * B2R (sm l i)).
  { intros i H. unfold mulS. rewrite smp_pw by lia. unfold valS. rewrite !smp_map by (assumption || lia). reflexivity. }
  assert (S : u * A + eta * sumR (tabR t) = 1 * sum_f_R0 (fun i => u * (smp (mulS (absS r) (absS l)) i * smp (tabR t) i) + eta * smp (tabR t) i) 399).
  { rewrite (sum_two (smp (tabR t)) (fun i => smp (mulS (absS r) (absS l)) i * smp (tabR t) i) (smp (tabR t)) u eta). unfold A, dotR, sumR. ring. }
  rewrite S. split; [|split].
  - apply sum_nn. intros i H. rewrite M by exact H. destruct (T i I ltac:(lia)) as [X0 _]. apply Rmult_le_pos; [apply Rabs_pos|lra].
  - apply sum_rel. intros i H. rewrite M, M2 by exact H. unfold valS. rewrite smp_map by (assumption || lia). destruct (T i I ltac:(lia)) as [X0 _].
    specialize (E i ltac:(lia)). fold p in E. rewrite <- Rmult_minus_distr_r, Rabs_mult, (Rabs_pos_eq (smp (tabR t) i)) by lra. rewrite Rmult_1_l.
    replace (u * (Rabs (B2R (sm r i) * B2R (sm l i)) * smp (tabR t) i) + eta * smp (tabR t) i) with ((u * Rabs (B2R (sm r i) * B2R (sm l i)) + eta) * smp (tabR t) i) by ring.
    apply Rmult_le_compat_r; lra.
  - apply sum_rel. intros i H. rewrite M by exact H. unfold absS. rewrite smp_map by (assumption || lia). destruct (T i I ltac:(lia)) as [X0 _].
    specialize (E i ltac:(lia)). fold p in E. rewrite <- Rmult_minus_distr_r, Rabs_mult, (Rabs_pos_eq (smp (tabR t) i)) by lra. rewrite Rmult_1_l.
    replace (u * (Rabs (B2R (sm r i) * B2R (sm l i)) * smp (tabR t) i) + eta * smp (tabR t) i) with ((u * Rabs (B2R (sm r i) * B2R (sm l i)) + eta) * smp (tabR t) i) by ring.
    apply Rmult_le_compat_r; [lra|]. apply Rle_trans with (2 := E). apply Rabs_triang_inv2.
Qed.
Lemma refl_final (x d a d' a' : R) : 0 <= a -> Rabs (x - d') <= 805 * u * a' + bpow radix2 (-134) ->
  Rabs (d' - d) <= u * a + eta -> Rabs (a' - a) <= u * a + eta -> Rabs (x - d) <= 807 * u * a + bpow radix2 (-133).
Proof.
  intros A0 H1 H2 H3. pose proof u_pos as U0. pose proof u_small as U1. pose proof eta_pos as E0. apply Rle_trans with (1 := tri3 x d' d).
  assert (B : bpow radix2 (-134) = 65536 * eta).
  { unfold eta. change 65536 with (bpow radix2 16). rewrite <- bpow_plus. reflexivity. }
  assert (B' : bpow radix2 (-133) = 131072 * eta).
  { unfold eta. change 131072 with (bpow radix2 17). rewrite <- bpow_plus. reflexivity. }
  rewrite B in H1. rewrite B'. apply Rabs_le_inv in H3.
  assert (805 * u * a' <= 805 * u * (a + u * a + eta)) by (apply Rmult_le_compat_l; lra).
  assert (UA : 0 <= u * a) by (apply Rmult_le_pos; lra).
  assert (805 * u * (u * a) <= 0.5 * (u * a)) by (apply Rmult_le_compat_r; lra).
  assert (805 * u * eta <= 1 * eta) by (apply Rmult_le_compat_r; lra). lra.
Qed.
Lemma refl_comp t r l : In t CMFs -> boundS 50 r -> boundS 50 l -> let p := S_mul N r l in
  let x := @fmul N (S_dot N p (spectrum_of N t)) (@fdiv N (@flit N 1) (S_sum N (spectrum_of N t))) in
  fin x /\ Rabs (B2R x - dotR (mulS (valS r) (valS l)) (tabR t) / sumR (tabR t)) <=
    807 * u * (dotR (mulS (absS r) (absS l)) (tabR t) / sumR (tabR t)) + bpow radix2 (-133).
Proof.
  intros I OR OL p x. destruct (mul_bound r l OR OL) as [OP _]. destruct (comp t p I OP) as [F E]. split; [exact F|].
  destruct (refl_dot t r l I OR OL) as (A0 & E1 & E2). fold p in E1, E2.
  assert (SP : 0 < sumR (tabR t)).
  { destruct (tab_obs t t t I I I) as [(_ & _ & _ & NZ & _) [NN _]]. assert (0 <= sumR (tabR t)); [|lra].
    apply sum_nn. intros i H. now apply nonneg_smp. }
  revert A0 E1 E2 E. change (@fmul N (S_dot N p (spectrum_of N t)) (@fdiv N (@flit N 1) (S_sum N (spectrum_of N t)))) with x.
  generalize (dotR (valS p) (tabR t)) (dotR (absS p) (tabR t)) (dotR (mulS (valS r) (valS l)) (tabR t)) (dotR (mulS (absS r) (absS l)) (tabR t)).
  generalize (sumR (tabR t)) SP. intros S S0 d' a' d a A0 E1 E2 E.
  assert (Q0 : 0 < / S) by (apply Rinv_0_lt_compat, S0).
  assert (G : forall y z, Rabs (y - z) <= u * a + eta * S -> Rabs (y / S - z / S) <= u * (a / S) + eta).
  { intros y z H. replace (y / S - z / S) with ((y - z) * / S) by (field; lra). rewrite Rabs_mult, (Rabs_pos_eq (/ S)) by lra.
    replace (u * (a / S) + eta) with ((u * a + eta * S) * / S) by (field; lra). apply Rmult_le_compat_r; lra. }
  apply (refl_final (B2R x) (d / S) (a / S) (d' / S) (a' / S)); [apply Rmult_le_pos; lra|exact E|now apply G|now apply G].
Qed.
Lemma obs_refl (X Y Z : list dec) r l : In X CMFs -> In Y CMFs -> In Z CMFs -> boundS 50 r -> boundS 50 l ->
  let o := Observer_make RN (spectrum_of RN X) (spectrum_of RN Y) (spectrum_of RN Z) in
  exists t a, fromReflectanceAndLight RN o (finS (valS r)) (finS (valS l)) = finV t /\
    fromReflectanceAndLight RN o (finS (absS r)) (finS (absS l)) = finV a /\
    closeT 807 (-133) (fromReflectanceAndLight N (Observer_make N (spectrum_of N X) (spectrum_of N Y) (spectrum_of N Z)) r l) t a.
Proof.
  intros IX IY IZ OR OL o. destruct (tab_obs X Y Z IX IY IZ) as [OK _]. unfold o. rewrite obs_of.
  exists (triR (tabR X) (tabR Y) (tabR Z) (mulS (valS r) (valS l))), (triR (tabR X) (tabR Y) (tabR Z) (mulS (absS r) (absS l))).
  rewrite !C57_l, !S_mul_fin by (eapply val_len || eapply abs_len; eassumption).
  split; [apply fromSpectrum_fin; [exact OK|apply pw_len]|]. split; [apply fromSpectrum_fin; [exact OK|apply pw_len]|].
  unfold closeT. cbv zeta. split; [|split]; [exact (refl_comp X r l IX OR OL)|exact (refl_comp Y r l IY OR OL)|exact (refl_comp Z r l IZ OR OL)].
Qed.
Lemma reflect_acc r l : boundS 50 r -> boundS 50 l -> Forall (fun o : forall N : Num, Observer N => exists t a,
    fromReflectanceAndLight RN (o RN) (finS (valS r)) (finS (valS l)) = finV t /\
    fromReflectanceAndLight RN (o RN) (finS (absS r)) (finS (absS l)) = finV a /\
    closeT 807 (-133) (fromReflectanceAndLight N (o N) r l) t a) [CIE1931; CIE31JV; CIE2012].
Proof.
  intros OR OL. repeat apply Forall_cons; [..|apply Forall_nil]; apply obs_refl; try assumption; cbn [In CMFs]; tauto.
Qed.
(** ** The built-in reflectances under D65. *)
Lemma low_Patch : forallb lowchk T_Patch = true. Proof. vm_compute. reflexivity. Qed.
Lemma low_D65 : lowchk T_CIE_D65 = true. Proof. vm_compute. reflexivity. Qed.
Lemma lit_close p t i : (0 <= p <= 2 ^ 24)%Z -> chk p t = true -> lowchk t = true -> (i < 400)%nat -> let x := smp (tabR t) i in
  0 <= x /\ 0 <= B2R (sm (spectrum_of N t) i) /\ Rabs (B2R (sm (spectrum_of N t) i) - x) <= u * x.
Proof.
  intros P A W H x. apply chk_ok in A as [L F].
  assert (J : In (nth i t 0%dec) t) by (apply nth_In; rewrite L; exact H).
  pose proof (low_val t (nth i t 0%dec) W J) as Z.
  assert (E : sm (spectrum_of N t) i = @flit N (nth i t 0%dec)).
  { unfold sm, spectrum_of. rewrite nth_indep with (d' := @flit N 0%dec); [apply map_nth|]. rewrite map_length, L. exact H. }
  assert (E2 : x = Rdec (nth i t 0%dec)).
  { unfold x, smp, tabR. rewrite nth_indep with (d' := Rdec 0%dec); [apply map_nth|]. rewrite map_length, L. exact H. }
  rewrite Forall_forall in F. specialize (F _ J). rewrite E, E2. split; [apply F|].
  destruct (lit_range lm (nth i t 0%dec) p P F) as [F1 B1]. split; [apply B1|].
  destruct (lit_ok lm (nth i t 0%dec)) as [_ V].
  { rewrite Rabs_pos_eq by lra. apply Rle_trans with (1 := proj2 F). apply Rle_trans with (bpow radix2 24); [|apply bpow_le; lia].
    change (bpow radix2 24) with (IZR (2 ^ 24)). apply IZR_le. lia. }
  rewrite V. pose proof (rnd_rel _ Z) as Q. rewrite (Rabs_pos_eq (Rdec _)) in Q by lra. exact Q.
Qed.
Lemma lit_bound p t : (0 <= p <= 2 ^ 24)%Z -> chk p t = true -> boundS 50 (spectrum_of N t).
Proof.
  intros P A. destruct (chk_F lm p t P A) as [L F]. split; [exact L|]. revert F. apply Forall_impl. intros x [F B]. split; [exact F|].
  rewrite Rabs_pos_eq by lra. apply Rle_trans with (1 := proj2 B). apply Rle_trans with (bpow radix2 24); [|apply bpow_le; lia].
  change (bpow radix2 24) with (IZR (2 ^ 24)). apply IZR_le. lia.
Qed.
Lemma prod_close (a b a' b' : R) : 0 <= a -> 0 <= b -> 0 <= a' -> Rabs (a' - a) <= u * a -> Rabs (b' - b) <= u * b -> Rabs (a' * b' - a * b) <= 2.01 * u * (a * b).
Proof.
  intros A B A' HA HB. pose proof u_pos as U0. pose proof u_small as U1. replace (a' * b' - a * b) with (a' * (b' - b) + (a' - a) * b) by ring.
  apply Rle_trans with (1 := Rabs_triang _ _). rewrite !Rabs_mult, (Rabs_pos_eq a'), (Rabs_pos_eq b) by lra.
  assert (a' <= (1 + u) * a) by (apply Rabs_le_inv in HA; lra).
  assert (a' * Rabs (b' - b) <= (1 + u) * a * (u * b)) by (apply Rmult_le_compat; try assumption; apply Rabs_pos).
  assert (Rabs (a' - a) * b <= u * a * b) by (apply Rmult_le_compat_r; lra).
  assert (0 <= u * (a * b)) by (apply Rmult_le_pos; [lra|now apply Rmult_le_pos]).
  assert (u * (u * (a * b)) <= 0.01 * (u * (a * b))) by (apply Rmult_le_compat_r; lra). lra.
Qed.
Lemma tab_final (x d a e : R) : 0 <= e -> Rabs (x - d) <= 807 * u * a + bpow radix2 (-133) -> a = d ->
  Rabs (d - e) <= 2.01 * u * e -> Rabs (x - e) <= 810 * u * e + bpow radix2 (-133).
Proof.
  intros E0 H1 -> H2. pose proof u_pos as U0. pose proof u_small as U1. apply Rle_trans with (1 := tri3 x d e).
  apply Rabs_le_inv in H2 as H3. assert (0 <= u * e) by (apply Rmult_le_pos; lra).
  assert (807 * u * d <= 807 * u * (e + 2.01 * u * e)) by (apply Rmult_le_compat_l; lra).
  assert (807 * 2.01 * u * (u * e) <= 0.9 * (u * e)) by (apply Rmult_le_compat_r; lra). lra.
Qed.
Section T.
Context (p q : Z) (tr tl : list dec) (Pp : (0 <= p <= 2 ^ 24)%Z) (Pq : (0 <= q <= 2 ^ 24)%Z)
  (Cr : chk p tr = true) (Cl : chk q tl = true) (Wr : lowchk tr = true) (Wl : lowchk tl = true).
Notation r := (spectrum_of N tr).
Notation l := (spectrum_of N tl).
Lemma tab_comp t : In t CMFs -> let x := @fmul N (S_dot N (S_mul N r l) (spectrum_of N t)) (@fdiv N (@flit N 1) (S_sum N (spectrum_of N t))) in
  let e := dotR (mulS (tabR tr) (tabR tl)) (tabR t) / sumR (tabR t) in 0 <= e /\
  fin x /\ Rabs (B2R x - e) <= 810 * u * e + bpow radix2 (-133).
Proof.
  intros I x e. pose proof (lit_bound p tr Pp Cr) as BR. pose proof (lit_bound q tl Pq Cl) as BL. destruct (refl_comp t r l I BR BL) as [F E].
  assert (SP : 0 < sumR (tabR t)).
  { destruct (tab_obs t t t I I I) as [(_ & _ & _ & NZ & _) [NN _]]. assert (0 <= sumR (tabR t)); [|lra].
    apply sum_nn. intros i H. now apply nonneg_smp. }
  assert (Q0 : 0 < / sumR (tabR t)) by (apply Rinv_0_lt_compat, SP).
  assert (Lr : length r = 400%nat) by apply BR. assert (Ll : length l = 400%nat) by apply BL.
  assert (H0 : 0 <= dotR (mulS (tabR tr) (tabR tl)) (tabR t)).
  { apply sum_nn. intros i H. unfold mulS. rewrite smp_pw by lia. destruct (lit_close p tr i Pp Cr Wr ltac:(lia)) as (A1 & A2 & A3).
    destruct (lit_close q tl i Pq Cl Wl ltac:(lia)) as (B1 & B2 & B3). destruct (tab_at t i I ltac:(lia)) as [X0 _].
    apply Rmult_le_pos; [now apply Rmult_le_pos|lra]. }
  assert (H1 : dotR (mulS (absS r) (absS l)) (tabR t) = dotR (mulS (valS r) (valS l)) (tabR t)).
  { apply sum_ext. intros i H. unfold mulS. rewrite !smp_pw by lia. unfold absS, valS. rewrite !smp_map by (assumption || lia).
    destruct (lit_close p tr i Pp Cr Wr ltac:(lia)) as (A1 & A2 & A3). destruct (lit_close q tl i Pq Cl Wl ltac:(lia)) as (B1 & B2 & B3).
    rewrite !Rabs_pos_eq by assumption. reflexivity. }
  assert (H2 : Rabs (dotR (mulS (valS r) (valS l)) (tabR t) - dotR (mulS (tabR tr) (tabR tl)) (tabR t)) <= 2.01 * u * dotR (mulS (tabR tr) (tabR tl)) (tabR t)).
  { apply sum_rel. intros i H. unfold mulS. rewrite !smp_pw by lia. unfold valS. rewrite !smp_map by (assumption || lia).
    destruct (lit_close p tr i Pp Cr Wr ltac:(lia)) as (A1 & A2 & A3). destruct (lit_close q tl i Pq Cl Wl ltac:(lia)) as (B1 & B2 & B3).
    destruct (tab_at t i I ltac:(lia)) as [X0 _]. rewrite <- Rmult_minus_distr_r, Rabs_mult, (Rabs_pos_eq (smp (tabR t) i)), <- Rmult_assoc by lra.
    apply Rmult_le_compat_r; [lra|]. now apply prod_close. }
  split; [apply Rmult_le_pos; lra|]. split; [exact F|].
  apply (tab_final (B2R x) (dotR (mulS (valS r) (valS l)) (tabR t) / sumR (tabR t)) (dotR (mulS (absS r) (absS l)) (tabR t) / sumR (tabR t)) e);
    [apply Rmult_le_pos; lra|exact E|now rewrite H1|].
  unfold e, Rdiv. rewrite <- Rmult_minus_distr_r, Rabs_mult, (Rabs_pos_eq (/ sumR (tabR t))), <- Rmult_assoc by lra. apply Rmult_le_compat_r; lra.
Qed.
Lemma obs_tab (X Y Z : list dec) : In X CMFs -> In Y CMFs -> In Z CMFs ->
  exists t, fromReflectanceAndLight RN (Observer_make RN (spectrum_of RN X) (spectrum_of RN Y) (spectrum_of RN Z)) (spectrum_of RN tr) (spectrum_of RN tl) = finV t /\
    (0 <= v0 t /\ 0 <= v1 t /\ 0 <= v2 t) /\
    closeT 810 (-133) (fromReflectanceAndLight N (Observer_make N (spectrum_of N X) (spectrum_of N Y) (spectrum_of N Z)) r l) t t.
Proof.
  intros IX IY IZ. destruct (tab_obs X Y Z IX IY IZ) as [OK _]. rewrite obs_of, !spectrum_of_fin.
  exists (triR (tabR X) (tabR Y) (tabR Z) (mulS (tabR tr) (tabR tl))).
  assert (Lr : spectrumR (tabR tr)) by (unfold spectrumR, tabR; rewrite map_length; apply (chk_ok p), Cr).
  assert (Ll : spectrumR (tabR tl)) by (unfold spectrumR, tabR; rewrite map_length; apply (chk_ok q), Cl).
  rewrite !C57_l, !S_mul_fin by assumption. split; [apply fromSpectrum_fin; [exact OK|apply pw_len]|].
  destruct (tab_comp X IX) as [PX CX], (tab_comp Y IY) as [PY CY], (tab_comp Z IZ) as [PZ CZ]. split; [repeat split; assumption|].
  unfold closeT. cbv zeta. repeat split; try apply CX; try apply CY; try apply CZ.
Qed.
End T.
Lemma chart_acc : Forall (fun o : forall N : Num, Observer N => forall k, (k < 24)%nat -> exists t,
    nth_error (Macbeth_reference RN (Macbeth_Patch RN) (CIE_D65 RN) (o RN)) k = Some (finV t) /\ (0 <= v0 t /\ 0 <= v1 t /\ 0 <= v2 t) /\
    exists r, nth_error (Macbeth_reference N (Macbeth_Patch N) (CIE_D65 N) (o N)) k = Some r /\ closeT 810 (-133) r t t) [CIE1931; CIE31JV; CIE2012].
Proof.
  assert (G : forall X Y Z k, In X CMFs -> In Y CMFs -> In Z CMFs -> (k < 24)%nat ->
    let o M := Observer_make M (spectrum_of M X) (spectrum_of M Y) (spectrum_of M Z) in exists t,
    nth_error (Macbeth_reference RN (Macbeth_Patch RN) (CIE_D65 RN) (o RN)) k = Some (finV t) /\ (0 <= v0 t /\ 0 <= v1 t /\ 0 <= v2 t) /\
    exists r, nth_error (Macbeth_reference N (Macbeth_Patch N) (CIE_D65 N) (o N)) k = Some r /\ closeT 810 (-133) r t t).
  { intros X Y Z k IX IY IZ K o. assert (KL : (k < length T_Patch)%nat) by exact K. set (tr := nth k T_Patch []).
    assert (It : In tr T_Patch) by now apply nth_In.
    assert (E : nth_error T_Patch k = Some tr) by now apply nth_error_nth'.
    pose proof (all_chk _ _ Patch_chk) as C. rewrite Forall_forall in C. pose proof low_Patch as W. rewrite forallb_forall in W.
    destruct (obs_tab 1 200 tr T_CIE_D65 ltac:(lia) ltac:(lia) (C tr It) D65_chk (W tr It) low_D65 X Y Z IX IY IZ) as (t & T1 & T2 & T3).
    exists t. split; [|split; [exact T2|]].
    - unfold Macbeth_reference, Macbeth_Patch. rewrite map_map. rewrite (map_nth_error _ _ _ E). f_equal. exact T1.
    - eexists. split; [|exact T3]. unfold Macbeth_reference, Macbeth_Patch. rewrite map_map. rewrite (map_nth_error _ _ _ E). reflexivity. }
  repeat apply Forall_cons; [..|apply Forall_nil]; intros k K; apply G; try exact K; cbn [In CMFs]; tauto.
Qed.
End F.
Lemma obsF_case (lm : libm) : boundS 50 (CIE_D65 (FN lm)) /\ boundS 100 (CIE_D65 (FN lm)) /\
  B2SF (nth 180 (CIE_D65 (FN lm)) (B754_nan : f32)) = SpecFloat.S754_finite false 13107200 (-17).
Proof.
  pose proof (lit_bound lm 200 T_CIE_D65 ltac:(lia) D65_chk) as B. split; [exact B|]. split; [|vm_compute; reflexivity].
  destruct B as [L F]. split; [exact L|]. revert F. apply Forall_impl. intros x [P Q]. split; [exact P|]. apply Rle_trans with (1 := Q), bpow_le. lia.
Qed.
