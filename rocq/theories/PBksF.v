(** * Back-substitution ([SOLVER::svbksb]) in binary32: rounding error for any size. *)
From Coq Require Import ZArith Reals Lra Lia Bool List.
From Flocq Require Import Core BinarySingleNaN.
From Verif Require Import Num NumR NumF MVec MSolver RTac RLin F32 PHsvF PSolver3.
Import ListNotations.
Local Open Scope R_scope.

(** vectors and matrices of floats given by their elements. *)
Definition vecF {A} (n : nat) (x : nat -> A) : list A := map x (seq 0 n).
Definition matF {A} (m n : nat) (M : nat -> nat -> A) : list (list A) := map (fun i => vecF n (M i)) (seq 0 m).

Section F.
Context (lm : libm).
Notation N := (FN lm).
Fixpoint fsum (n : nat) (f : nat -> F N) : F N := match n with O => @flit N 0.0%dec | S k => @fadd N (fsum k f) (f k) end.
Definition dotF (n : nat) (a b : nat -> F N) : F N := fsum n (fun i => @fmul N (a i) (b i)).
Definition tF (m : nat) (U : nat -> nat -> F N) (w b : nat -> F N) (k : nat) : F N :=
  if @ftrue N (w k) then @fdiv N (dotF m (fun i => U i k) b) (w k) else @flit N 0.0%dec.

Lemma vget_vecF {A} n (x : nat -> A) i : (i < n)%nat -> vget (vecF n x) i = Ret (x i).
Proof using. intros H. unfold vget, vecF. now rewrite tab_nth. Qed.
Lemma mget_matF {T} m n (A : nat -> nat -> T) i j : (i < m)%nat -> (j < n)%nat -> mget (matF m n A) i j = Ret (A i j).
Proof using. intros Hi Hj. unfold mget, matF. rewrite tab_nth by exact Hi. cbn [of_option bind]. now apply vget_vecF. Qed.
Lemma vecF_ext {A} n (x y : nat -> A) : (forall i, (i < n)%nat -> x i = y i) -> vecF n x = vecF n y.
Proof using. intros H. apply tab_ext. intros i Hi. now rewrite H. Qed.
Lemma vset_vecF {A} n (x : nat -> A) i y : (i < n)%nat -> vset (vecF n x) i y = Ret (vecF n (fun j => if Nat.eqb j i then y else x j)).
Proof using. intros H. unfold vset, vecF. rewrite tab_len, (proj2 (Nat.ltb_lt i n) H). f_equal. now rewrite upd_tab by exact H. Qed.
Lemma loop_fsum n f (g : nat -> F N) : (forall k (s : F N), (k < n)%nat -> f k s = Ret (@fadd N s (g k))) -> loop 0 n (@flit N 0.0%dec : F N) f = Ret (fsum n g).
Proof using.
  intros H. rewrite (loop_eq (fun k => fsum k g) 0 n f); [reflexivity|lia|reflexivity|]. intros k Hk. rewrite H by lia. replace (k + 1)%nat with (S k) by lia. reflexivity.
Qed.
Lemma svbksb_float m n (U : nat -> nat -> F N) (w : nat -> F N) (V : nat -> nat -> F N) (b x0 : nat -> F N) : (0 < m)%nat ->
  svbksb N (matF m n U) (vecF n w) (matF n n V) (vecF m b) (vecF n x0) = Ret (vecF n (fun j => dotF n (V j) (tF m U w b))).
Proof using.
  intros Hm. unfold svbksb. assert (Rm : rows (matF m n U) = m) by apply tab_len. assert (Cn : cols (matF m n U) = n) by (unfold matF; destruct m; [lia|]; cbn; apply tab_len).
  rewrite Rm, Cn. set (t := tF m U w b).
  assert (E0 : newVector N n = vecF n (fun j => if Nat.ltb j 0 then t j else @fofZ N 0)).
  { unfold newVector, vecF. clear. cut (forall k, repeat (@fofZ N 0) n = map (fun j => if Nat.ltb j 0 then t j else @fofZ N 0) (seq k n)); [intros H; apply H|]. induction n as [|n IH]; intros k; [reflexivity|]. cbn [repeat seq map]. rewrite (IH (S k)). reflexivity. }
  rewrite (loop_eq (fun k => vecF n (fun j => if Nat.ltb j k then t j else @fofZ N 0)) 0 n); [|lia|exact E0|].
  - cbn [bind]. rewrite (loop_eq (fun k => vecF n (fun j => if Nat.ltb j k then dotF n (V j) t else x0 j)) 0 n); [|lia| |].
    + f_equal. apply vecF_ext. intros i Hi. now rewrite (proj2 (Nat.ltb_lt i n) Hi).
    + apply vecF_ext. intros i Hi. reflexivity.
    + intros k Hk. rewrite (loop_fsum n _ (fun jj => @fmul N (V k jj) (t jj))).
      * cbn [bind]. rewrite vset_vecF by lia. f_equal. apply vecF_ext. intros i Hi.
        destruct (Nat.eqb_spec i k) as [->|Q].
        -- rewrite (proj2 (Nat.ltb_lt k (k + 1))) by lia. reflexivity.
        -- destruct (Nat.ltb_spec i k), (Nat.ltb_spec i (k + 1)); try lia; reflexivity.
      * intros jj s Hj. rewrite mget_matF by lia. cbn [bind]. rewrite vget_vecF by lia. cbn [bind].
        rewrite (proj2 (Nat.ltb_lt jj n)) by lia. reflexivity.
  - intros k Hk. rewrite vget_vecF by lia. cbn [bind].
    match goal with |- bind ?c _ = _ => assert (E : c = Ret (t k)) end.
    { unfold t, tF. destruct (@ftrue N (w k)); [|reflexivity].
      rewrite (loop_fsum m _ (fun i => @fmul N (U i k) (b i))); [reflexivity|].
      intros i s Hi. rewrite mget_matF by lia. cbn [bind]. rewrite vget_vecF by lia. reflexivity. }
    rewrite E. cbn [bind]. rewrite vset_vecF by lia. f_equal. apply vecF_ext. intros i Hi.
    destruct (Nat.eqb_spec i k) as [->|Q].
    + now rewrite (proj2 (Nat.ltb_lt k (k + 1))) by lia.
    + destruct (Nat.ltb_spec i k), (Nat.ltb_spec i (k + 1)); try lia; reflexivity.
Qed.

Lemma dot_step (s x y : f32) S A k : fin s -> fin x -> fin y -> 0 <= k -> k * u <= 0.004 -> let p := B2R x * B2R y in
  Rabs S <= A -> Rabs (B2R s - S) <= 1.01 * (k + 1) * (u * A) + 2 * k * eta -> A + Rabs p <= bpow radix2 120 ->
  fin (@fadd N s (@fmul N x y)) /\ Rabs (B2R (@fadd N s (@fmul N x y)) - (S + p)) <= 1.01 * (k + 1 + 1) * (u * (A + Rabs p)) + 2 * (k + 1) * eta.
Proof using.
  intros Fs Fx Fy K0 Ku. cbv zeta. set (p := B2R x * B2R y). intros HS E G. pose proof u16 as U. pose proof eta16 as Et.
  assert (A0 : 0 <= A) by (eapply Rle_trans; [apply Rabs_pos|exact HS]). assert (P0 := Rabs_pos p).
  assert (B : bpow radix2 127 = 128 * bpow radix2 120) by (change 127%Z with (7 + 120)%Z; rewrite bpow_plus; reflexivity). assert (B1 : 1 <= bpow radix2 120) by (change 1 with (bpow radix2 0); apply bpow_le; lia).
  destruct (mul_ok lm x y Fx Fy) as [Fp Vp]; [fold p; lra|]. fold p in Vp. assert (Ep := rnd_err_abs p). rewrite <- Vp in Ep. set (pf := @fmul N x y) in *. clearbody pf.
  assert (UA : 0 <= u * A) by (apply Rmult_le_pos; lra). assert (UP : 0 <= u * Rabs p) by (apply Rmult_le_pos; lra). assert (KA : 0 <= k * (u * A)) by (apply Rmult_le_pos; lra). assert (KP : 0 <= k * (u * Rabs p)) by (apply Rmult_le_pos; lra).
  assert (KE : 0 <= k * eta) by (apply Rmult_le_pos; lra).
  assert (KUA : k * u * (u * A) <= 0.004 * (u * A)) by (apply Rmult_le_compat_r; lra). assert (KUE : k * u * eta <= 0.004 * eta) by (apply Rmult_le_compat_r; lra).
  assert (UUA : u * (u * A) <= 0.00001 * (u * A)) by (apply Rmult_le_compat_r; rewrite ?U; lra). assert (UUP : u * (u * Rabs p) <= 0.00001 * (u * Rabs p)) by (apply Rmult_le_compat_r; rewrite ?U; lra). assert (UE : u * eta <= 0.00001 * eta) by (apply Rmult_le_compat_r; rewrite ?U; lra).
  set (e := 1.01 * (k + 1) * (u * A) + 2 * k * eta) in *.
  assert (Ee : u * e <= 1.01 * (0.00401 * (u * A)) + 0.008 * eta). { unfold e. replace (u * (1.01 * (k + 1) * (u * A) + 2 * k * eta)) with (1.01 * (k * u * (u * A) + u * (u * A)) + 2 * (k * u * eta)) by ring. lra. }
  assert (Z : Rabs (B2R s + B2R pf) <= A + e + ((1 + u) * Rabs p + eta)).
  { replace (B2R s + B2R pf) with (S + (B2R s - S) + (p + (B2R pf - p))) by ring. eapply Rle_trans; [apply Rabs_triang|]. apply Rplus_le_compat.
    - eapply Rle_trans; [apply Rabs_triang|]. lra.
    - eapply Rle_trans; [apply Rabs_triang|]. lra. }
  destruct (add_ok lm s pf Fs Fp) as [F V].
  { eapply Rle_trans; [exact Z|]. assert (k * (u * A) <= 0.004 * A) by (rewrite <- Rmult_assoc; apply Rmult_le_compat_r; lra). assert (u * A <= 0.001 * A) by (apply Rmult_le_compat_r; rewrite ?U; lra). assert (u * Rabs p <= 0.001 * Rabs p) by (apply Rmult_le_compat_r; rewrite ?U; lra).
    assert (k * eta <= 1). { apply Rle_trans with (k * u); [apply Rmult_le_compat_l; [lra|]; rewrite U in *; lra|lra]. } unfold e. rewrite U in *. lra. }
  split; [exact F|]. rewrite V.
  assert (Er : Rabs (rnd (B2R s + B2R pf) - (B2R s + B2R pf)) <= u * Rabs (B2R s + B2R pf)) by (apply rnd_add_err; apply fmt_B2R).
  assert (W : u * Rabs (B2R s + B2R pf) <= u * A + u * e + u * ((1 + u) * Rabs p + eta)). { rewrite <- !Rmult_plus_distr_l. apply Rmult_le_compat_l; lra. }
  replace (rnd (B2R s + B2R pf) - (S + p)) with ((rnd (B2R s + B2R pf) - (B2R s + B2R pf)) + (B2R s - S) + (B2R pf - p)) by ring.
  eapply Rle_trans; [apply Rabs_triang|]. eapply Rle_trans; [apply Rplus_le_compat_r, Rabs_triang|].
  eapply Rle_trans; [apply Rplus_le_compat; [apply Rplus_le_compat; [exact (Rle_trans _ _ _ Er W)|exact E]|exact Ep]|].
  unfold e. unfold e in Ee. replace (u * ((1 + u) * Rabs p + eta)) with (u * Rabs p + u * (u * Rabs p) + u * eta) by ring. lra.
Qed.
Lemma bsum_abs n f : Rabs (bsum n f) <= bsum n (fun i => Rabs (f i)).
Proof using. induction n as [|n IH]; cbn [bsum]; [rewrite Rabs_R0; lra|]. eapply Rle_trans; [apply Rabs_triang|]. lra. Qed.
Lemma dot_err n (a b : nat -> f32) : (forall i, (i < n)%nat -> fin (a i) /\ fin (b i)) -> INR n <= 65536 -> bsum n (fun i => Rabs (B2R (a i) * B2R (b i))) <= bpow radix2 120 ->
  fin (dotF n a b) /\ Rabs (B2R (dotF n a b) - bsum n (fun i => B2R (a i) * B2R (b i))) <= 1.01 * (INR n + 1) * (u * bsum n (fun i => Rabs (B2R (a i) * B2R (b i)))) + 2 * INR n * eta.
Proof using.
  unfold dotF. induction n as [|n IH]; intros Hf Hn G.
  - cbn [fsum bsum INR]. assert (L : fin (@flit N 0.0%dec) /\ B2R (@flit N 0.0%dec) = 0) by f32_val. destruct L as [F V]. split; [exact F|]. rewrite V, Rminus_0_r, Rabs_R0, Rmult_0_r. lra.
  - rewrite S_INR in *. cbn [fsum bsum] in *. pose proof (pos_INR n) as Pn. destruct IH as [F E]; [intros; apply Hf; lia|lra|pose proof (Rabs_pos (B2R (a n) * B2R (b n))); lra|].
    destruct (Hf n ltac:(lia)) as [Fa Fb]. apply dot_step; try assumption; [|apply bsum_abs]. rewrite u16. lra.
Qed.

Definition rv (x : nat -> f32) : nat -> R := fun i => B2R (x i).
Definition rm (M : nat -> nat -> f32) : nat -> nat -> R := fun i j => B2R (M i j).
(** the terms of back-substitution with absolute values. *)
Definition absT (m : nat) (U : nat -> nat -> R) (w b : nat -> R) (k : nat) : R := if Req_bool (w k) 0 then 0 else bsum m (fun i => Rabs (U i k * b i)) / Rabs (w k).
Lemma b60 : bpow radix2 60 = 1152921504606846976. Proof using. reflexivity. Qed.
Lemma bsum_const n f c : (forall i, (i < n)%nat -> f i <= c) -> bsum n f <= INR n * c.
Proof using. intros H. induction n as [|n IH]; [cbn; lra|]. rewrite S_INR. cbn [bsum]. assert (f n <= c) by (apply H; lia). assert (bsum n f <= INR n * c) by (apply IH; intros; apply H; lia). lra. Qed.
Context (m n : nat) (U V : nat -> nat -> f32) (w b : nat -> f32).
Context (Hm : INR m <= 65536) (Hn : INR n <= 65536).
Context (HU : forall i k, (i < m)%nat -> (k < n)%nat -> fin (U i k) /\ Rabs (B2R (U i k)) <= 2).
Context (HV : forall j k, (j < n)%nat -> (k < n)%nat -> fin (V j k) /\ Rabs (B2R (V j k)) <= 2).
Context (Hb : forall i, (i < m)%nat -> fin (b i) /\ Rabs (B2R (b i)) <= bpow radix2 40).
Context (Hw : forall k, (k < n)%nat -> fin (w k) /\ (B2R (w k) = 0 \/ bpow radix2 (-40) <= Rabs (B2R (w k)))).
Lemma absT_bound k : (k < n)%nat -> 0 <= absT m (rm U) (rv w) (rv b) k <= bpow radix2 98.
Proof using Hm HU Hb Hw.
  intros Hk. unfold absT, rv, rm. destruct (Req_bool_spec (B2R (w k)) 0) as [Z|Z]; [split; [lra|apply bpow_ge_0]|]. destruct (Hw k Hk) as [_ [Z'|W]]; [contradiction|].
  assert (S : 0 <= bsum m (fun i => Rabs (B2R (U i k) * B2R (b i))) <= bpow radix2 58).
  { split; [apply bsum_nonneg; intros; apply Rabs_pos|]. eapply Rle_trans; [apply (bsum_const m _ (2 * bpow radix2 40))|].
    - intros i Hi. rewrite Rabs_mult. destruct (HU i k Hi Hk), (Hb i Hi). apply Rmult_le_compat; try apply Rabs_pos; assumption.
    - apply Rle_trans with (65536 * (2 * bpow radix2 40)); [apply Rmult_le_compat_r; [pose proof (bpow_gt_0 radix2 40); lra|exact Hm]|]. replace (65536 * (2 * bpow radix2 40)) with (bpow radix2 17 * bpow radix2 40) by (change (bpow radix2 17) with 131072; ring). rewrite <- bpow_plus. apply bpow_le. lia. }
  assert (W0 := bpow_gt_0 radix2 (-40)). split; [apply Rmult_le_pos; [lra|left; apply Rinv_0_lt_compat; lra]|]. apply (Rmult_le_reg_r (Rabs (B2R (w k)))); [lra|]. unfold Rdiv. rewrite Rmult_assoc, Rinv_l by lra. rewrite Rmult_1_r.
  apply Rle_trans with (bpow radix2 98 * bpow radix2 (-40)); [rewrite <- bpow_plus; apply S|]. apply Rmult_le_compat_l; [apply bpow_ge_0|exact W].
Qed.
Lemma t_err k : (k < n)%nat -> let A := absT m (rm U) (rv w) (rv b) k in let t := tvec m (rm U) (rv w) (rv b) k in
  fin (tF m U w b k) /\ Rabs t <= A /\ Rabs (B2R (tF m U w b k) - t) <= 1.01 * (INR m + 2) * (u * A) + bpow radix2 (-91).
Proof using Hm HU Hb Hw.
  intros Hk. cbv zeta. pose proof (absT_bound k Hk) as AB. revert AB. unfold tF, tvec, absT, rv, rm. destruct (Hw k Hk) as [Fw W].
  assert (L0 : fin (@flit N 0.0%dec) /\ B2R (@flit N 0.0%dec) = 0) by f32_val. destruct L0 as [F0 V0].
  assert (Q : @ftrue N (w k) = negb (Req_bool (B2R (w k)) 0)). { unfold ftrue. f_equal. destruct (ofZ_ok lm 0 ltac:(lia)) as [Fz Vz]. rewrite eqb_ok by assumption. now rewrite Vz. }
  rewrite Q. clear Q. destruct (Req_bool_spec (B2R (w k)) 0) as [Z|Z]; cbn [negb]; intros AB.
  { split; [exact F0|]. rewrite V0, Rminus_0_r, Rabs_R0, Rmult_0_r, Rmult_0_r. pose proof (bpow_gt_0 radix2 (-91)). lra. }
  destruct W as [W|W]; [contradiction|]. assert (W0 := bpow_gt_0 radix2 (-40)).
  destruct (dot_err m (fun i => U i k) b) as [Fs Es].
  { intros i Hi. split; [apply HU; assumption|apply Hb; assumption]. } { exact Hm. }
  { apply Rle_trans with (bpow radix2 58); [|apply bpow_le; lia]. eapply Rle_trans; [apply (bsum_const m _ (2 * bpow radix2 40))|].
    - intros i Hi. rewrite Rabs_mult. destruct (HU i k Hi Hk), (Hb i Hi). apply Rmult_le_compat; try apply Rabs_pos; assumption.
    - apply Rle_trans with (65536 * (2 * bpow radix2 40)); [apply Rmult_le_compat_r; [pose proof (bpow_gt_0 radix2 40); lra|exact Hm]|]. replace (65536 * (2 * bpow radix2 40)) with (bpow radix2 17 * bpow radix2 40) by (change (bpow radix2 17) with 131072; ring). rewrite <- bpow_plus. apply bpow_le. lia. }
  pose proof (bsum_abs m (fun i => B2R (U i k) * B2R (b i))) as SA.
  assert (SA0 : 0 <= bsum m (fun i => Rabs (B2R (U i k) * B2R (b i)))) by (apply bsum_nonneg; intros; apply Rabs_pos).
  set (sf := dotF m (fun i => U i k) b) in *. clearbody sf. set (S := bsum m (fun i => B2R (U i k) * B2R (b i))) in *. set (A := bsum m (fun i => Rabs (B2R (U i k) * B2R (b i)))) in *. clearbody S A.
  set (wk := B2R (w k)) in *. pose proof u16 as UU. pose proof eta16 as Et. pose proof (pos_INR m) as Pm.
  assert (Wp : 0 < Rabs wk) by lra. assert (WI : 0 < / Rabs wk) by (apply Rinv_0_lt_compat; lra).
  assert (WI40 : / Rabs wk <= bpow radix2 40). { replace (bpow radix2 40) with (/ bpow radix2 (-40)) by (change (-40)%Z with (- (40))%Z; rewrite bpow_opp, Rinv_inv; reflexivity). apply Rinv_le_contravar; lra. }
  assert (D : forall x, Rabs (x / wk) = Rabs x * / Rabs wk) by (intros; unfold Rdiv; rewrite Rabs_mult, Rabs_inv; reflexivity).
  set (a := A / Rabs wk) in *.
  assert (T1 : Rabs (S / wk) <= a) by (rewrite D; apply Rmult_le_compat_r; lra).
  assert (EI : eta * / Rabs wk <= bpow radix2 (-110)). { apply Rle_trans with (eta * bpow radix2 40); [apply Rmult_le_compat_l; lra|]. unfold eta. rewrite <- bpow_plus. apply bpow_le. lia. }
  assert (EI0 : 0 <= eta * / Rabs wk) by (apply Rmult_le_pos; lra).
  assert (T2 : Rabs (B2R sf / wk - S / wk) <= 1.01 * (INR m + 1) * (u * a) + 131072 * bpow radix2 (-110)).
  { replace (B2R sf / wk - S / wk) with ((B2R sf - S) / wk) by (unfold Rdiv; ring). rewrite D. apply Rle_trans with ((1.01 * (INR m + 1) * (u * A) + 2 * INR m * eta) * / Rabs wk); [apply Rmult_le_compat_r; lra|].
    rewrite Rmult_plus_distr_r. apply Rplus_le_compat; [unfold a, Rdiv; right; ring|]. rewrite Rmult_assoc. apply Rmult_le_compat; [lra|exact EI0|lra|exact EI]. }
  assert (A0 : 0 <= u * a) by (apply Rmult_le_pos; lra). assert (MA : INR m * (u * a) <= 0.004 * a) by (rewrite <- Rmult_assoc; apply Rmult_le_compat_r; [lra|rewrite UU; lra]).
  assert (UA : u * a <= 0.0001 * a) by (apply Rmult_le_compat_r; rewrite ?UU; lra).
  assert (B110 : 0 < bpow radix2 (-110) <= / 1048576). { split; [apply bpow_gt_0|]. change (/ 1048576) with (bpow radix2 (-20)). apply bpow_le. lia. }
  assert (T3 : Rabs (B2R sf / wk) <= 1.005 * a + 131072 * bpow radix2 (-110)). { replace (B2R sf / wk) with (S / wk + (B2R sf / wk - S / wk)) by ring. eapply Rle_trans; [apply Rabs_triang|]. lra. }
  destruct (div_ok lm sf (w k) Fs Z) as [F Vq].
  { fold wk. eapply Rle_trans; [exact T3|]. replace (bpow radix2 127) with (536870912 * bpow radix2 98) by (change 127%Z with (29 + 98)%Z; rewrite bpow_plus; reflexivity). assert (1 <= bpow radix2 98) by (change 1 with (bpow radix2 0); apply bpow_le; lia). lra. }
  split; [exact F|]. split; [exact T1|]. fold wk in Vq. rewrite Vq. assert (K := rnd_err_abs (B2R sf / wk)).
  replace (rnd (B2R sf / wk) - S / wk) with ((rnd (B2R sf / wk) - B2R sf / wk) + (B2R sf / wk - S / wk)) by ring. eapply Rle_trans; [apply Rabs_triang|].
  assert (K2 : u * Rabs (B2R sf / wk) <= u * (1.005 * a + 131072 * bpow radix2 (-110))) by (apply Rmult_le_compat_l; lra).
  assert (K3 : bpow radix2 (-91) = 524288 * bpow radix2 (-110)) by (change (-91)%Z with (19 + -110)%Z; rewrite bpow_plus; reflexivity). rewrite K3.
  assert (K4 : eta <= bpow radix2 (-110)) by (unfold eta; apply bpow_le; lia). assert (K5 : u * bpow radix2 (-110) <= bpow radix2 (-110)). { rewrite <- (Rmult_1_l (bpow radix2 (-110))) at 2. apply Rmult_le_compat_r; rewrite ?UU; lra. }
  lra.
Qed.

Lemma bks_err j : (j < n)%nat -> let B := bsum n (fun k => Rabs (B2R (V j k)) * absT m (rm U) (rv w) (rv b) k) in
  fin (dotF n (V j) (tF m U w b)) /\ Rabs (B2R (dotF n (V j) (tF m U w b)) - mulv n (rm V) (tvec m (rm U) (rv w) (rv b)) j) <= 1.02 * (INR m + INR n + 3) * (u * B) + bpow radix2 (-73).
Proof using Hm Hn HU HV Hb Hw.
  intros Hj. cbv zeta. pose proof u16 as UU. pose proof eta16 as Et. pose proof (pos_INR m) as Pm. pose proof (pos_INR n) as Pn.
  set (A := absT m (rm U) (rv w) (rv b)). set (t := tvec m (rm U) (rv w) (rv b)). set (tf := tF m U w b).
  assert (HT : forall k, (k < n)%nat -> fin (tf k) /\ Rabs (t k) <= A k /\ Rabs (B2R (tf k) - t k) <= 1.01 * (INR m + 2) * (u * A k) + bpow radix2 (-91)) by (intros k Hk; exact (t_err k Hk)).
  assert (HA : forall k, (k < n)%nat -> 0 <= A k <= bpow radix2 98) by (intros k Hk; exact (absT_bound k Hk)). clearbody A t tf.
  set (d := bpow radix2 (-91)) in *. assert (D0 : 0 < d) by apply bpow_gt_0. assert (D1 : d <= / 1048576) by (change (/ 1048576) with (bpow radix2 (-20)); apply bpow_le; lia).
  (* the two sums that bound everything *)
  set (B := bsum n (fun k => Rabs (B2R (V j k)) * A k)). set (W := bsum n (fun k => Rabs (B2R (V j k)))).
  assert (HW : 0 <= W <= 131072). { split; [apply bsum_nonneg; intros; apply Rabs_pos|]. eapply Rle_trans; [apply (bsum_const n _ 2); intros k Hk; apply HV; assumption|lra]. }
  assert (HB : 0 <= B <= 131072 * bpow radix2 98).
  { split; [apply bsum_nonneg; intros k Hk; apply Rmult_le_pos; [apply Rabs_pos|apply HA, Hk]|]. eapply Rle_trans; [apply (bsum_const n _ (2 * bpow radix2 98))|].
    - intros k Hk. apply Rmult_le_compat; [apply Rabs_pos|apply HA, Hk|apply HV; assumption|apply HA, Hk].
    - replace (131072 * bpow radix2 98) with (65536 * (2 * bpow radix2 98)) by ring. apply Rmult_le_compat_r; [pose proof (bpow_gt_0 radix2 98); lra|exact Hn]. }
  assert (E1 : bsum n (fun k => Rabs (B2R (V j k) * (B2R (tf k) - t k))) <= 1.01 * (INR m + 2) * (u * B) + d * W).
  { unfold B, W. replace (1.01 * (INR m + 2) * (u * bsum n (fun k => Rabs (B2R (V j k)) * A k)) + d * bsum n (fun k => Rabs (B2R (V j k)))) with (1.01 * (INR m + 2) * u * bsum n (fun k => Rabs (B2R (V j k)) * A k) + d * bsum n (fun k => Rabs (B2R (V j k)))) by ring.
    rewrite <- !bsum_scal, <- bsum_add. apply bsum_le. intros k Hk. rewrite Rabs_mult. destruct (HT k Hk) as (_ & _ & E). eapply Rle_trans; [apply Rmult_le_compat_l; [apply Rabs_pos|exact E]|]. right. ring. }
  assert (E2 : bsum n (fun k => Rabs (B2R (V j k) * B2R (tf k))) <= B + bsum n (fun k => Rabs (B2R (V j k) * (B2R (tf k) - t k)))).
  { unfold B. rewrite <- bsum_add. apply bsum_le. intros k Hk. replace (B2R (V j k) * B2R (tf k)) with (B2R (V j k) * t k + B2R (V j k) * (B2R (tf k) - t k)) by ring. eapply Rle_trans; [apply Rabs_triang|]. apply Rplus_le_compat_r. rewrite Rabs_mult. apply Rmult_le_compat_l; [apply Rabs_pos|]. apply HT, Hk. }
  assert (E3 : Rabs (bsum n (fun k => B2R (V j k) * B2R (tf k)) - mulv n (rm V) t j) <= bsum n (fun k => Rabs (B2R (V j k) * (B2R (tf k) - t k)))).
  { unfold mulv, rm. rewrite <- bsum_sub. eapply Rle_trans; [apply bsum_abs|]. apply bsum_le. intros k Hk. right. f_equal. ring. }
  assert (DW : 0 <= d * W <= 131072 * d) by (split; [apply Rmult_le_pos; lra|rewrite Rmult_comm; apply Rmult_le_compat_r; lra]).
  assert (UB : 0 <= u * B) by (apply Rmult_le_pos; lra). assert (MB : 0 <= INR m * (u * B) <= 0.004 * B) by (split; [apply Rmult_le_pos; lra|]; rewrite <- Rmult_assoc; apply Rmult_le_compat_r; [lra|rewrite UU; lra]). assert (UB' : u * B <= 0.0001 * B) by (apply Rmult_le_compat_r; rewrite ?UU; lra).
  set (C := bsum n (fun k => Rabs (B2R (V j k) * B2R (tf k)))) in *. assert (C0 : 0 <= C) by (apply bsum_nonneg; intros; apply Rabs_pos).
  assert (HC : C <= 1.005 * B + 131072 * d) by lra.
  destruct (dot_err n (V j) tf) as [F E].
  { intros k Hk. split; [apply HV; assumption|apply HT, Hk]. } { exact Hn. }
  { fold C. eapply Rle_trans; [exact HC|]. replace (bpow radix2 120) with (4194304 * bpow radix2 98) by (change 120%Z with (22 + 98)%Z; rewrite bpow_plus; reflexivity). assert (1 <= bpow radix2 98) by (change 1 with (bpow radix2 0); apply bpow_le; lia). lra. }
  fold C in E. split; [exact F|].
  replace (B2R (dotF n (V j) tf) - mulv n (rm V) t j) with ((B2R (dotF n (V j) tf) - bsum n (fun k => B2R (V j k) * B2R (tf k))) + (bsum n (fun k => B2R (V j k) * B2R (tf k)) - mulv n (rm V) t j)) by ring.
  eapply Rle_trans; [apply Rabs_triang|]. eapply Rle_trans; [apply Rplus_le_compat; [exact E|exact E3]|].
  assert (NB : 0 <= INR n * (u * B)) by (apply Rmult_le_pos; lra).
  assert (UC : u * C <= u * (1.005 * B + 131072 * d)) by (apply Rmult_le_compat_l; lra).
  assert (UD : INR n * (u * d) <= 0.004 * d) by (rewrite <- Rmult_assoc; apply Rmult_le_compat_r; [lra|rewrite UU; lra]). assert (UD' : 0 <= u * d <= 0.004 * d) by (split; [apply Rmult_le_pos; lra|]; apply Rmult_le_compat_r; rewrite ?UU; lra).
  assert (NC : (INR n + 1) * (u * C) <= (INR n + 1) * (u * (1.005 * B + 131072 * d))) by (apply Rmult_le_compat_l; lra).
  assert (NE : INR n * eta <= d). { apply Rle_trans with (65536 * bpow radix2 (-110)); [apply Rmult_le_compat; try lra; unfold eta; apply bpow_le; lia|]. change 65536 with (bpow radix2 16). rewrite <- bpow_plus. apply bpow_le. lia. }
  assert (K3 : bpow radix2 (-73) = 262144 * d) by (unfold d; change (-73)%Z with (18 + -91)%Z; rewrite bpow_plus; reflexivity). rewrite K3.
  (* the first factor is sharp: B enters dot_err as C, so bound C by B plus the propagated error *)
  assert (C2 : C <= B + (1.01 * (INR m + 2) * (u * B) + d * W)) by lra.
  assert (X : (INR n + 1) * (u * C) <= (INR n + 1) * (1.0045 * (u * B)) + 525 * d).
  { apply Rle_trans with ((INR n + 1) * (u * (1.0045 * B + 131072 * d))); [apply Rmult_le_compat_l; [lra|]; apply Rmult_le_compat_l; lra|]. replace ((INR n + 1) * (u * (1.0045 * B + 131072 * d))) with ((INR n + 1) * (1.0045 * (u * B)) + 131072 * (INR n * (u * d) + u * d)) by ring. assert (u * d <= 0.0000001 * d) by (apply Rmult_le_compat_r; rewrite ?UU; lra). lra. }
  lra.
Qed.
Lemma bks_float x0 y0 : (0 < m)%nat -> exists x X,
  svbksb N (matF m n U) (vecF n w) (matF n n V) (vecF m b) (vecF n x0) = Ret (vecF n x) /\
  svbksb RN (mat m n (rm U)) (vec n (rv w)) (mat n n (rm V)) (vec m (rv b)) (vec n y0) = Ret (vec n X) /\
  forall j, (j < n)%nat -> is_finite (x j : f32) = true /\
    Rabs (B2R (x j : f32) - X j) <= 1.02 * (INR m + INR n + 3) * (u * bsum n (fun k => Rabs (B2R (V j k)) * absT m (rm U) (rv w) (rv b) k)) + bpow radix2 (-73).
Proof using Hm Hn HU HV Hb Hw.
  intros M0. eexists _, _. split; [apply (svbksb_float m n U w V b x0 M0)|]. split; [apply (svbksb_real m n (rm U) (rv w) (rm V) (rv b) y0 M0)|]. intros j Hj. exact (bks_err j Hj).
Qed.
End F.
Lemma bks_case lm : let one := @flit (FN lm) 1%dec in let half := @flit (FN lm) 0.5%dec in
  INR 3 <= 65536 /\ is_finite one = true /\ Rabs (B2R one) <= 2 /\ Rabs (B2R one) <= bpow radix2 40 /\ is_finite half = true /\ bpow radix2 (-40) <= Rabs (B2R half).
Proof.
  assert (A : fin (@flit (FN lm) 1%dec) /\ B2R (@flit (FN lm) 1%dec) = 1) by f32_val. assert (B : fin (@flit (FN lm) 0.5%dec) /\ B2R (@flit (FN lm) 0.5%dec) = / 2) by f32_val.
  cbv zeta. destruct A as [Fa Va], B as [Fb Vb]. rewrite Va, Vb, !Rabs_pos_eq by lra. split; [cbn; lra|]. split; [exact Fa|]. split; [lra|]. split; [change 1 with (bpow radix2 0); apply bpow_le; lia|]. split; [exact Fb|]. change (/ 2) with (bpow radix2 (-1)). apply bpow_le. lia.
Qed.
