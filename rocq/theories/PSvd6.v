(** * Solving with the decomposition; where it goes wrong. *)
From Coq Require Import ZArith Reals Lra Lia List Bool.
From Flocq Require Import Core BinarySingleNaN.
From Verif Require Import Num NumR NumF MVec MTri MSolver RTac SpecMat RLin RSvd F32 PSolver PSolver2 PSolver3 PSvd PSvd2 PSvd3 PSvd4 PSvd5.
Import ListNotations.
Local Open Scope R_scope.

(** the sum of the squares of the entries *)
Definition frob2 (m n : nat) (A : nat -> nat -> R) : R := bsum m (fun i => bsum n (fun j => sq (A i j))).
Definition msub (A B : nat -> nat -> R) : nat -> nat -> R := fun i j => A i j - B i j.
Lemma bsum_const n c : bsum n (fun _ => c) = INR n * c.
Proof. induction n as [|n IH]; [cbn; ring|]. cbn [bsum]. rewrite IH, S_INR. ring. Qed.
Lemma svd_frob m n A U w V : is_svd m n A U w V -> frob2 m n A = bsum n (fun p => sq (w p)).
Proof.
  intros (OU & OV & E). unfold frob2. rewrite bsum_swap.
  transitivity (bsum n (fun j => norm2 n (fun p => w p * V j p))).
  - apply bsum_ext. intros j Hj. rewrite <- (ortho_norm m n U _ OU). apply bsum_ext. intros i Hi. f_equal. rewrite (E i j Hi Hj). apply bsum_ext. intros p _. ring.
  - unfold norm2. rewrite bsum_swap. apply bsum_ext. intros p Hp. rewrite (bsum_ext n _ (fun j => sq (w p) * (V j p * V j p))) by (intros; unfold sq; ring).
    rewrite bsum_scal, (OV p p Hp Hp), delta_eq. ring.
Qed.

(** ** the largest value and the threshold *)
Definition rmax (n : nat) (w : nat -> R) : R := fold_right Rmax 0 (map w (rev (seq 0 n))).
Lemma rmax_S n w : rmax (S n) w = Rmax (w n) (rmax n w).
Proof. unfold rmax. rewrite seq_S, rev_app_distr. reflexivity. Qed.
Lemma rmax_nonneg n w : 0 <= rmax n w.
Proof. induction n as [|n IH]; [apply Rle_refl|]. rewrite rmax_S. apply Rle_trans with (rmax n w); [exact IH|apply Rmax_r]. Qed.
Lemma rmax_ge n w p : (p < n)%nat -> w p <= rmax n w.
Proof.
  induction n as [|n IH]; intros Hp; [lia|]. rewrite rmax_S. destruct (Nat.eq_dec p n) as [->|N]; [apply Rmax_l|].
  apply Rle_trans with (rmax n w); [apply IH; lia|apply Rmax_r].
Qed.
Lemma rmax_sq n w : sq (rmax n w) <= bsum n (fun p => sq (w p)).
Proof.
  induction n as [|n IH]; [unfold rmax, sq; cbn; lra|]. rewrite rmax_S. cbn [bsum]. unfold Rmax.
  pose proof (bsum_nonneg n (fun p => sq (w p)) ltac:(intros; unfold sq; nra)). assert (0 <= sq (w n)) by (unfold sq; nra).
  destruct (Rle_dec (w n) (rmax n w)); lra.
Qed.
Lemma wmax_real n w : wmax RN n (vec n w) = Ret (Some (rmax n w)).
Proof.
  unfold wmax. rewrite lit00. rewrite (loop_eq (fun k => Some (rmax k w)) 0 n); [reflexivity|lia|reflexivity|].
  intros k Hk. mg. replace (k + 1)%nat with (S k) by lia. rewrite rmax_S. rn. f_equal. unfold Rmax. destruct (Rle_dec (w k) (rmax k w)).
  - rewrite Rlt_bool_false by lra. reflexivity.
  - rewrite Rlt_bool_true by lra. reflexivity.
Qed.
Definition cutw (n : nat) (tol : R) (w : nat -> R) : nat -> R := fun p => if Rlt_bool (w p) (tol * rmax n w) then 0 else w p.
Lemma cutoff_real n w t : cutoff RN n (Some t) (vec n w) = Ret (vec n (fun p => if Rlt_bool (w p) t then 0 else w p)).
Proof.
  unfold cutoff. rewrite lit00. rewrite (loop_eq (fun k => vec n (fun p => if Nat.ltb p k then (if Rlt_bool (w p) t then 0 else w p) else w p)) 0 n); [|lia| |].
  - f_equal. apply vec_ext. intros p Hp. nats. reflexivity.
  - apply vec_ext. intros p Hp. reflexivity.
  - intros k Hk. mg. nats. rn. destruct (Rlt_bool (w k) t) eqn:E; mg; f_equal; apply vec_ext; intros p Hp; unfold updv; nats; subst; try (replace p with k by lia); rewrite ?E; reflexivity.
Qed.
Lemma newMatrix_real n : newMatrix RN n n = mat n n (fun _ _ => 0).
Proof.
  unfold newMatrix, mat. change (repeat (@fofZ RN 0) n) with (newVector RN n). rewrite vec0. assert (H : forall k (y : list RX), repeat y k = map (fun _ => y) (seq 0 k)).
  { intros k y. cut (forall s, repeat y k = map (fun _ => y) (seq s k)); [auto|]. induction k as [|k IH]; intros s; [reflexivity|]. cbn [repeat seq map]. now rewrite <- (IH (S s)). }
  apply H.
Qed.
Lemma solve_given m n A U w V b x0 tol : (1 <= n)%nat -> (n <= m)%nat -> 0 <= tol ->
  svdcmp RN (mat m n A) (vec n (fun _ => 0)) (mat n n (fun _ _ => 0)) = Ret (1%Z, mat m n U, vec n w, mat n n V) ->
  is_svd m n A U w V -> (forall p, (p < n)%nat -> 0 <= w p) ->
  exists x A', SOLVER_solve RN (mat m n A) (vec m b) (vec n x0) (Some tol) = Ret (0%Z, vec n x) /\
    frob2 m n (msub A A') <= INR n * (tol * tol) * frob2 m n A /\
    ((forall p, (p < n)%nat -> w p = 0 \/ forall q, (q < n)%nat -> tol * w q <= w p) -> forall i j, (i < m)%nat -> (j < n)%nat -> A' i j = A i j) /\
    forall y, residual2 m n A' b x <= residual2 m n A' b y /\ (residual2 m n A' b y = residual2 m n A' b x -> norm2 n x <= norm2 n y).
Proof.
  intros Hn Hm Ht Q S NN. unfold SOLVER_solve. rewrite cols_mat by lia. rewrite vec0, newMatrix_real, Q. cbn [bind Z.eqb Pos.eqb].
  rewrite wmax_real. cbn [bind fmul RN rx2]. rewrite cutoff_real. cbn [bind].
  set (w' := fun p => if Rlt_bool (w p) (tol * rmax n w) then 0 else w p).
  set (A' := fun i j => bsum n (fun p => U i p * w' p * V j p)).
  destruct S as (OU & OV & EA).
  assert (S' : is_svd m n A' U w' V) by (split; [exact OU|split; [exact OV|reflexivity]]).
  destruct (C64_l m n A' U w' V b x0 ltac:(lia) S') as (x & Qx & LS). rewrite Qx. cbn [bind].
  exists x, A'. split; [reflexivity|]. split; [|split; [|exact LS]].
  - assert (SD : is_svd m n (msub A A') U (fun p => w p - w' p) V).
    { split; [exact OU|]. split; [exact OV|]. intros i j Hi Hj. unfold msub, A'. rewrite (EA i j Hi Hj), <- bsum_sub. apply bsum_ext. intros. ring. }
    rewrite (svd_frob _ _ _ _ _ _ SD), (svd_frob m n A U w V) by (split; [exact OU|split; [exact OV|exact EA]]).
    apply Rle_trans with (bsum n (fun _ => tol * tol * bsum n (fun p => sq (w p)))).
    + apply bsum_le. intros p Hp. unfold w'. pose proof (rmax_sq n w) as B. pose proof (rmax_nonneg n w) as P. set (SS := bsum n (fun p => sq (w p))) in *.
      assert (0 <= SS) by (eapply Rle_trans; [|exact B]; unfold sq; nra). specialize (NN p Hp). destruct (Rlt_bool_spec (w p) (tol * rmax n w)) as [L|L].
      * apply Rle_trans with (tol * tol * sq (rmax n w)); [unfold sq; nra|]. apply Rmult_le_compat_l; [nra|exact B].
      * replace (sq (w p - w p)) with 0 by (unfold sq; ring). nra.
    + rewrite bsum_const. apply Req_le. ring.
  - intros H i j Hi Hj. unfold A'. rewrite (EA i j Hi Hj). apply bsum_ext. intros p Hp. unfold w'. destruct (Rlt_bool_spec (w p) (tol * rmax n w)) as [L|L]; [|reflexivity].
    destruct (H p Hp) as [->|H']; [reflexivity|]. exfalso.
    assert (M : rmax n w = 0 \/ exists q, (q < n)%nat /\ rmax n w = w q).
    { clear. induction n as [|n IH]; [left; reflexivity|]. rewrite rmax_S. unfold Rmax. destruct (Rle_dec (w n) (rmax n w)).
      - destruct IH as [E|(q & Hq & E)]; [left; exact E|right; exists q; split; [lia|exact E]].
      - right. exists n. split; [lia|reflexivity]. }
    destruct M as [E|(q & Hq & E)]; rewrite E in L.
    + specialize (NN p Hp). lra.
    + specialize (H' q Hq). lra.
Qed.

Lemma solve_two m n A b x0 tol : (1 <= n <= 2)%nat -> (n <= m)%nat -> 0 <= tol ->
  exists x A', SOLVER_solve RN (mat m n A) (vec m b) (vec n x0) (Some tol) = Ret (0%Z, vec n x) /\
    frob2 m n (msub A A') <= INR n * (tol * tol) * frob2 m n A /\
    forall y, residual2 m n A' b x <= residual2 m n A' b y /\ (residual2 m n A' b y = residual2 m n A' b x -> norm2 n x <= norm2 n y).
Proof.
  intros Hn Hm Ht. destruct (svdcmp_two m n A (fun _ => 0) (fun _ _ => 0) Hn Hm) as (U & w & V & Q & S & NN).
  destruct (solve_given m n A U w V b x0 tol ltac:(lia) Hm Ht Q S NN) as (x & A' & H1 & H2 & _ & H3). exists x, A'. auto.
Qed.

(** ** The corrector, given a good decomposition of its system *)
Lemma tolR : exists t, SOLVER_TOL RN = Some t /\ t = 1 / 100000.
Proof. eexists. split; [reflexivity|]. unfold Rdec. cbn. lra. Qed.
Lemma vec9_array x : M_fromArray (vec 9 x) = Ret (M3 (Some (x 0%nat)) (Some (x 1%nat)) (Some (x 2%nat)) (Some (x 3%nat)) (Some (x 4%nat)) (Some (x 5%nat)) (Some (x 6%nat)) (Some (x 7%nat)) (Some (x 8%nat))).
Proof. reflexivity. Qed.
Lemma residual_ext m n A b x y : (forall k, (k < n)%nat -> x k = y k) -> residual2 m n A b x = residual2 m n A b y.
Proof. intros E. unfold residual2, norm2, mulv. apply bsum_ext. intros i _. do 2 f_equal. apply bsum_ext. intros k Hk. now rewrite (E k Hk). Qed.
Lemma residual_extA m n A A' b x : meq m n A A' -> residual2 m n A b x = residual2 m n A' b x.
Proof. intros E. unfold residual2, norm2, mulv. apply bsum_ext. intros i Hi. do 2 f_equal. apply bsum_ext. intros k Hk. now rewrite (E i k Hi Hk). Qed.
