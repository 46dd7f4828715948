(** * A NaN in the right-hand side of the linear solver. *)
From Coq Require Import ZArith Reals Lra Lia Bool List.
From Flocq Require Import Core IEEE754.BinarySingleNaN.
From Verif Require Import Num NumF MVec MTri MSolver F32 PHsvF PSolver PSolver2 PSolver3 PBksF PIvF PNan.
Import ListNotations.

Section Lm.
Variable lm : libm.
Local Notation N := (FN lm).
Local Notation nan := (B754_nan : f32).
Lemma fsum_nan n (f : nat -> F N) k : (k < n)%nat -> f k = nan -> fsum lm n f = nan.
Proof.
  induction n as [|n IH]; intros L H; [lia|]. cbn [fsum]. destruct (Nat.eq_dec k n) as [<-|Q]; [rewrite H; apply addr|rewrite IH by (try lia; exact H); apply addl].
Qed.
Lemma bks_nan m n (U V : nat -> nat -> f32) (w b x0 : nat -> f32) i k : (i < m)%nat -> (k < n)%nat -> b i = nan -> @ftrue N (w k) = true ->
  svbksb N (matF m n U) (vecF n w) (matF n n V) (vecF m b) (vecF n x0) = Ret (vecF n (fun _ => nan)).
Proof.
  intros Hi Hk Hb Hw. refine (eq_trans (svbksb_float lm m n U w V b x0 _) _); [lia|]. f_equal. apply vecF_ext. intros j Hj.
  apply (fsum_nan n _ k Hk). cbv beta. unfold tF, dotF. rewrite Hw. rewrite (fsum_nan m _ i Hi); [rewrite divl; apply mulr|]. cbv beta. rewrite Hb. apply mulr.
Qed.
Lemma vecF_of {A} (d : A) l : l = vecF (length l) (fun i => nth i l d).
Proof.
  symmetry. unfold vecF. induction l as [|a l IH]; [reflexivity|]. cbn [length seq map nth]. f_equal. rewrite <- seq_shift, map_map. exact IH.
Qed.
Lemma matF_of {A} (d : A) m n a : shape m n a -> a = matF m n (fun i j => nth j (nth i a []) d).
Proof.
  intros [L H]. rewrite (vecF_of [] a) at 1. rewrite L. unfold matF. apply vecF_ext. intros i Hi.
  assert (E : length (nth i a []) = n) by (rewrite Forall_forall in H; apply H, nth_In; lia). rewrite <- E at 1. apply vecF_of.
Qed.
Lemma vecF_const {A} n (d : A) : vecF n (fun _ => d) = repeat d n.
Proof using. unfold vecF. generalize 0%nat. induction n as [|n IH]; intros k; [reflexivity|]. cbn. now rewrite IH. Qed.
Lemma bks_list m n (U V : list (list f32)) (w b x0 : list f32) k y : shape m n U -> shape n n V -> length w = n -> length b = m -> length x0 = n -> In nan b ->
  nth_error w k = Some y -> @ftrue N y = true -> svbksb N U w V b x0 = Ret (repeat nan n).
Proof.
  intros HU HV Hw Hb Hx Hn Hk Hy. destruct (In_nth _ _ nan Hn) as (i & Li & Ei).
  assert (K : (k < n)%nat) by (rewrite <- Hw; apply nth_error_Some; rewrite Hk; discriminate).
  pose proof (nth_error_nth _ _ nan Hk) as Kn.
  pose proof (matF_of nan m n U HU) as EU. pose proof (matF_of nan n n V HV) as EV. pose proof (vecF_of nan w) as Ew. pose proof (vecF_of nan b) as Eb. pose proof (vecF_of nan x0) as Ex.
  rewrite Hw in Ew. rewrite Hb in Eb. rewrite Hx in Ex. rewrite <- vecF_const. rewrite Hb in Li.
  pose proof (bks_nan m n (fun i j => nth j (nth i U []) nan) (fun i j => nth j (nth i V []) nan) (fun i => nth i w nan) (fun i => nth i b nan) (fun i => nth i x0 nan) i k Li K Ei) as B.
  cbv beta in B. rewrite Kn in B. rewrite <- EU, <- EV, <- Ew, <- Eb, <- Ex in B. exact (B Hy).
Qed.
(** the largest singular value survives the threshold *)
Lemma keep_max (tol mx : f32) : fin tol -> (0 <= B2R tol <= 1)%R -> is_nan mx = false -> Bltb mx (B754_zero false) = false -> Bltb mx (Bmult mode_NE tol mx) = false.
Proof.
  intros Ft Ht Hn Hm. destruct (is_finite mx) eqn:Fx.
  - change (@fltb N mx (@fmul N tol mx) = false). change (@fltb N mx (B754_zero false) = false) in Hm.
    rewrite (ltb_ok lm mx (B754_zero false)) in Hm by (exact Fx || reflexivity). destruct (Rlt_bool_spec (B2R mx) (B2R (B754_zero false : f32))) as [Q|Q]; [discriminate|]. cbn in Q.
    pose proof (fmt_B2R mx) as G. assert (P : (0 <= B2R tol * B2R mx <= B2R mx)%R) by nra.
    assert (R1 : (rnd (B2R tol * B2R mx) <= B2R mx)%R) by (apply rnd_le_fmt; [exact G|apply P]).
    assert (R0 : (0 <= rnd (B2R tol * B2R mx))%R) by (apply rnd_ge_fmt; [apply fmt_0|apply P]).
    destruct (mul_gen lm tol mx Ft Fx) as [Fm Vm].
    { rewrite Rabs_pos_eq by exact R0. apply Rle_lt_trans with (1 := R1). apply Rle_lt_trans with (1 := Rle_abs _). apply abs_B2R_lt_emax. }
    rewrite ltb_ok, Vm by assumption. apply Rlt_bool_false. exact R1.
  - destruct mx as [s|[]| |s mm e He]; try discriminate. destruct tol as [[]|[]| |[] mt et Et]; try discriminate; reflexivity.
Qed.
Lemma solve_nan m n (a : list (list f32)) (b x : list f32) tol U W V y : (n <= m)%nat -> shape m n a -> cols a = n -> length b = m -> length x = n -> In nan b ->
  fin tol -> (0 <= B2R tol <= 1)%R ->
  svdcmp N a (newVector N n) (newMatrix N n n) = Ret (1%Z, U, W, V) -> In y W -> (y = nan \/ Bltb (B754_zero false) y = true) ->
  SOLVER_solve N a b x tol = Ret (0%Z, repeat nan n).
Proof.
  intros L Ha C Hb Hx Hn Ft Ht E Hy Y.
  destruct (C66_thr_l lm m n a b x tol L Ha C) as (U1 & W1 & V1 & W' & mx & x' & E1 & (M1 & M2 & M3 & M4) & (S1 & S2) & S & R); [exact (Nat.eq_le_incl _ _ (eq_sym Hb))|exact (Nat.eq_le_incl _ _ (eq_sym Hx))|].
  destruct (C62_l lm m n a (newVector N n) (newMatrix N n n) L Ha C) as (U2 & W2 & V2 & E2 & K1 & K2 & K3).
  { apply repeat_length. }
  { split; [apply repeat_length|]. apply Forall_forall. intros r Hr. apply repeat_spec in Hr. subst r. apply repeat_length. }
  rewrite E in E1. injection E1 as <- <- <-. rewrite E in E2. injection E2 as <- <- <-.
  assert (Z : exists k z, nth_error W' k = Some z /\ @ftrue N z = true).
  { destruct Y as [->|Y].
    - destruct (In_nth_error _ _ Hy) as (k & Hk). exists k, nan. specialize (S2 k _ Hk). cbn in S2. split; [exact S2|reflexivity].
    - assert (P : Bltb (B754_zero false) mx = true).
      { specialize (M4 y Hy). clear - M1 M3 M4 Y. destruct mx as [s|[]| |[] mm e He]; try discriminate; try reflexivity. destruct y as [sy|[]| |[] my ey Hey]; discriminate. }
      destruct M2 as [M2|M2]; [subst mx; discriminate|]. destruct (In_nth_error _ _ M2) as (k & Hk). exists k, mx. specialize (S2 k _ Hk).
      rewrite (keep_max tol mx Ft Ht M1 M3) in S2. split; [exact S2|]. destruct mx as [s|[]| |[] mm e He]; try discriminate; reflexivity. }
  destruct Z as (k & z & Z1 & Z2). rewrite R. rewrite (bks_list m n U V W' b x k z K1 K3) in S; try assumption; [injection S as <-; reflexivity|congruence].
Qed.
Lemma corr_b_nan (ts : list (Vector3 f32)) t : In t ts -> is_nan3 t -> In nan (corr_b N ts).
Proof.
  intros H K. unfold corr_b. apply in_or_app. left. apply in_flat_map. exists t. split; [exact H|]. destruct t as [p q r]. cbn. unfold is_nan3 in K. cbn in K. intuition auto.
Qed.
Lemma tol_val : fin (SOLVER_TOL N : f32) /\ (0 <= B2R (SOLVER_TOL N : f32) <= 1)%R.
Proof. change (iv (SOLVER_TOL N) 0 1). litv. Qed.
Lemma corr_nan (patch target : list (Vector3 f32)) t U W V y : (length patch <= length target)%nat -> (2 <= length patch)%nat ->
  In t (firstn (length patch) target) -> is_nan3 t ->
  svdcmp N (corr_matrix N patch) (newVector N 9) (newMatrix N 9 9) = Ret (1%Z, U, W, V) -> In y W -> (y = nan \/ Bltb (B754_zero false) y = true) ->
  Corrector_solve N patch target = Ret nan9.
Proof.
  intros H G Ht Hn E Hy Y. unfold Corrector_solve. rewrite corr_result_ok by exact H. cbn [bind].
  pose proof (corr_b_nan _ t Ht Hn) as Hb.
  assert (Lb : length (corr_b N (firstn (length patch) target)) = (3 * (length patch + 1))%nat) by (rewrite corr_b_len, firstn_length; f_equal; lia).
  assert (S : SOLVER_solve N (corr_matrix N patch) (corr_b N (firstn (length patch) target)) (newVector N 9) (SOLVER_TOL N) = Ret (0%Z, repeat nan 9)).
  { refine (solve_nan (3 * (length patch + 1)) 9 _ _ _ _ U W V y _ (corr_shape N patch) (corr_cols N patch) Lb _ Hb (proj1 tol_val) (proj2 tol_val) E Hy Y); [lia|reflexivity]. }
  match goal with |- bind ?c ?k = _ => refine (eq_trans (f_equal (fun o => bind o k) (S : c = _)) _) end. reflexivity.
Qed.
(** the case in which a NaN disappears *)
Lemma corr_lost (p t : Vector3 f32) : Corrector_solve N [p] [t] = Ret (let z := (B754_zero false : f32) in M3 z z z z z z z z z).
Proof. apply C65_zero_l; cbn; lia. Qed.
Lemma solve_lost : SOLVER_solve N [[@flit N 0%dec]] [nan : F N] [@flit N 0%dec] (SOLVER_TOL N) = Ret (0%Z, [B754_zero false : F N]).
Proof. vm_compute. reflexivity. Qed.
Lemma corr_refuted : exists p t : Vector3 f32, is_nan3 t /\ exists M, Corrector_solve N [p] [t] = Ret M /\ ~ is_nan9 M.
Proof.
  exists nan3, nan3. split; [left; reflexivity|]. eexists. split; [apply corr_lost|]. intros (i & Hi & E).
  assert (Q : (i = 0 \/ i = 1 \/ i = 2 \/ i = 3 \/ i = 4 \/ i = 5 \/ i = 6 \/ i = 7 \/ i = 8)%Z) by lia.
  destruct Q as [->|[->|[->|[->|[->|[->|[->|[->| ->]]]]]]]]; discriminate.
Qed.
Lemma bks_nan' m n (U V : nat -> nat -> f32) (w b x0 : nat -> f32) i k : (i < m)%nat -> (k < n)%nat -> b i = nan -> is_nan (w k) = true \/ Beqb (w k) (B754_zero false) = false ->
  svbksb N (matF m n U) (vecF n w) (matF n n V) (vecF m b) (vecF n x0) = Ret (vecF n (fun _ => nan)).
Proof.
  intros Hi Hk Hb Hw. apply (bks_nan m n U V w b x0 i k Hi Hk Hb). destruct (w k) as [[]|[]| |[] mm e He]; destruct Hw; try discriminate; reflexivity.
Qed.
Lemma nan_case : let l := fun d => @flit N d in
  (exists U W V y, svdcmp N [[l 2%dec]; [l 0%dec]] (newVector N 1) (newMatrix N 1 1) = Ret (1%Z, U, W, V) /\ In y W /\ Bltb (B754_zero false) y = true) /\
  SOLVER_solve N [[l 2%dec]; [l 0%dec]] [l 1%dec; nan] [l 0%dec] (SOLVER_TOL N) = Ret (0%Z, [nan : F N]).
Proof.
  cbv zeta. split; [|vm_compute; reflexivity].
  assert (B : match svdcmp N [[@flit N 2%dec]; [@flit N 0%dec]] (newVector N 1) (newMatrix N 1 1) with Ret (r, _, W, _) => Z.eqb r 1 && existsb (fun y : f32 => Bltb (B754_zero false) y) W | _ => false end = true) by (vm_compute; reflexivity).
  destruct (svdcmp N [[@flit N 2%dec]; [@flit N 0%dec]] (newVector N 1) (newMatrix N 1 1)) as [[[[r U] W] V]| | |]; try discriminate.
  apply andb_true_iff in B. destruct B as [B1 B2]. apply Z.eqb_eq in B1. apply existsb_exists in B2. destruct B2 as (y & B2 & B3). exists U, W, V, y. subst r. split; [reflexivity|]. split; assumption.
Qed.
End Lm.
