(** * Matrices with orthogonal columns: the decomposition is exact. *)
From Coq Require Import ZArith Reals Lra Lia List Bool.
From Flocq Require Import Core.Raux.
From Verif Require Import Num NumR MVec MSolver RTac RLin RSvd PSolver PSolver3 PSvd PSvd2 PSvd3 PSvd4 PSvd5.
Import ListNotations.
Local Open Scope R_scope.

(** nonzero pairwise orthogonal columns *)
Definition orth_cols (m n : nat) (A : nat -> nat -> R) : Prop :=
  (forall p q, (p < n)%nat -> (q < n)%nat -> p <> q -> bsum m (fun i => A i p * A i q) = 0) /\
  (forall p, (p < n)%nat -> bsum m (fun i => A i p * A i p) <> 0).
Lemma orth_full_rank m n A : orth_cols m n A -> full_rank m n A.
Proof.
  intros [O N] x Z j Hj. apply (Rmult_eq_reg_r (bsum m (fun i => A i j * A i j))); [|now apply N]. rewrite Rmult_0_l.
  transitivity (bsum m (fun i => A i j * mulv n A x i)).
  - transitivity (bsum m (fun i => bsum n (fun q => x q * (A i j * A i q)))).
    2: { apply bsum_ext. intros i _. unfold mulv. rewrite <- bsum_scal. apply bsum_ext. intros. ring. }
    rewrite bsum_swap. rewrite (bsum_one n _ j Hj); [now rewrite bsum_scal|]. intros q Hq NQ. rewrite bsum_scal, (O j q) by auto. ring.
  - apply bsum_zero. intros i Hi. rewrite Z by exact Hi. ring.
Qed.
Lemma accL_fix n b u r j : (forall i, (i < r)%nat -> b i = 0) -> (forall i k, (k <= i)%nat -> u i k = 0) -> (j <= r)%nat -> forall k X,
  (forall p, (p < n)%nat -> X p j = delta p j) -> forall p, (p < n)%nat -> accL n b u k X p j = delta p j.
Proof.
  intros B U Hj. induction k as [|k IH]; intros X HX p Hp; [now apply HX|]. cbn [accL]. apply IH; [|exact Hp]. intros i Hi. unfold HL.
  destruct (le_lt_dec r k) as [L|L].
  - unfold refl, dot. rewrite bsum_zero; [rewrite HX by exact Hi; ring|]. intros t Ht. rewrite HX by exact Ht.
    destruct (Nat.eq_dec t j) as [->|N]; [rewrite U by lia; ring|rewrite delta_neq by exact N; ring].
  - rewrite B, refl_0 by exact L. now apply HX.
Qed.
Lemma ortho_dot m n U c d : orthonormal m n U -> bsum m (fun i => mulv n U c i * mulv n U d i) = bsum n (fun p => c p * d p).
Proof.
  intros O. rewrite (bsum_ext m _ (fun i => bsum n (fun p => c p * (U i p * mulv n U d i)))).
  - rewrite bsum_swap. apply bsum_ext. intros p Hp. rewrite bsum_scal. f_equal. now apply ortho_inv.
  - intros i _. unfold mulv at 1. rewrite <- bsum_scal_r. apply bsum_ext. intros p _. ring.
Qed.
Lemma AV_col m n A U B V q i : orthonormal n n V -> meq m n A (prod3 n U B V) -> (q < n)%nat -> (i < m)%nat ->
  bsum n (fun j => A i j * V j q) = mulv n U (fun p => B p q) i.
Proof.
  intros OV EA Hq Hi. transitivity (mulv n (prod3 n U B V) (mulv n V (delta q)) i).
  - unfold mulv at 1. apply bsum_ext. intros j Hj. rewrite (EA i j Hi Hj). f_equal. unfold mulv.
    rewrite (bsum_ext n _ (fun t => delta q t * V j t)) by (intros; ring). now rewrite (bsum_delta n (fun t => V j t) q Hq).
  - rewrite prod3_mulv by exact OV. unfold mulv at 1 3. apply bsum_ext. intros p Hp. f_equal. unfold mulv.
    rewrite (bsum_ext n _ (fun t => delta q t * B p t)) by (intros; ring). exact (bsum_delta n (fun t => B p t) q Hq).
Qed.
(** the superdiagonal vanishes *)
Lemma orth_bid m n A U V w e b u : (n <= m)%nat -> orth_cols m n A -> orthonormal m n U -> orthonormal n n V -> meq m n A (prod3 n U (bid w e) V) ->
  (forall p, (p < n)%nat -> w p <> 0) -> e 0%nat = 0 ->
  meq n n V (accL n b u n delta) -> (forall r, e (r + 1)%nat = 0 -> b r = 0) -> (forall r k, (k <= r)%nat -> u r k = 0) ->
  forall r, (r < n)%nat -> e r = 0.
Proof.
  intros Hm [OA NA] OU OV EA Hw E0 EV Hb Hu. induction r as [r IH] using lt_wf_ind. intros Hr. destruct r as [|r]; [exact E0|].
  assert (F : forall p, (p < n)%nat -> V p r = delta p r).
  { intros p Hp. rewrite (EV p r Hp ltac:(lia)). apply (accL_fix n b u r r); try lia; auto. intros i Hi. apply Hb. apply IH; lia. }
  apply (Rmult_eq_reg_l (w r)); [|apply Hw; lia]. rewrite Rmult_0_r.
  transitivity (bsum n (fun p => bid w e p r * bid w e p (S r))).
  - rewrite (bsum_one n _ r ltac:(lia)); [unfold bid; nats; reflexivity|]. intros i Hi N. unfold bid. nats; ring.
  - rewrite <- (ortho_dot m n U _ _ OU).
    rewrite (bsum_ext m _ (fun i => bsum n (fun j => V j (S r) * (A i r * A i j)))).
    + rewrite bsum_swap. apply bsum_zero. intros j Hj. rewrite bsum_scal. destruct (Nat.eq_dec j r) as [->|N]; [|rewrite (OA r j) by (auto; lia); ring].
      assert (Z : V r (S r) = 0); [|rewrite Z; ring].
      rewrite <- (bsum_delta n (fun t => V t (S r)) r ltac:(lia)). rewrite <- (delta_neq r (S r)) by lia. rewrite <- (OV r (S r)) by lia. apply bsum_ext. intros t Ht. rewrite F by exact Ht.
      unfold delta. rewrite Nat.eqb_sym. reflexivity.
    + intros i Hi. rewrite <- (AV_col m n A U (bid w e) V r i OV EA ltac:(lia) Hi), <- (AV_col m n A U (bid w e) V (S r) i OV EA Hr Hi).
      rewrite (bsum_ext n (fun j => A i j * V j r) (fun j => delta r j * A i j)); [|intros t Ht; rewrite F by exact Ht; unfold delta; rewrite Nat.eqb_sym; ring].
      rewrite (bsum_delta n (fun t => A i t) r ltac:(lia)). rewrite <- bsum_scal. apply bsum_ext. intros. ring.
Qed.
Lemma its_zero m n A D an k fuel U V w e : (k < n)%nat -> (n <= m)%nat -> e k = 0 -> dec m n A (k + 1) D (bid w e) U V w ->
  exists w' V', its_loop RN m n (Some an) k (S fuel) (svdst m n U w V e) = Ret (Some (svdst m n U w' V' e)) /\
    (forall p, p <> k -> w' p = w p) /\ w' k = Rabs (w k) /\ dec m n A k (addk D k) (bid w' e) U V' w'.
Proof.
  intros Hk Hm Ek Dc. destruct (nonneg_dec m n A D k U V w e e Hk Dc ltac:(auto)) as (w' & V' & Q & W & Wk & Dn).
  exists w', V'. split; [|auto]. cbn [its_loop]. unfold svd_round, svdst. cbn [s_a s_w s_v s_rv1].
  assert (ST : split_test RN (Some an) (vec n w) (vec n e) k = Ret (false, k)).
  { destruct k; cbn [split_test]; mg; rewrite lost_iff, Ek, Req_bool_true by reflexivity; reflexivity. }
  rewrite ST. cbn [bind]. mg. rewrite Nat.eqb_refl. rewrite Q. reflexivity.
Qed.
Lemma diag_zero m n A an U V w e : (n <= m)%nat -> (forall r, (r < n)%nat -> e r = 0) -> dec m n A n (fun _ => False) (bid w e) U V w ->
  exists D w' V', diagonalize RN m n (Some an) (svdst m n U w V e) = Ret (Some (svdst m n U w' V' e)) /\
    dec m n A 0 D (bid w' e) U V' w' /\ (forall q, (q < n)%nat -> D q) /\ (forall p, (p < n)%nat -> w' p = Rabs (w p)).
Proof.
  intros Hm E0 Dc. unfold diagonalize.
  match goal with |- context [loop_down n ?s0 ?f] => destruct (loop_down_ex (fun k st => exists D w' V', st = Some (svdst m n U w' V' e) /\
    dec m n A k D (bid w' e) U V' w' /\ (forall q, (k <= q < n)%nat -> D q) /\ (forall p, (p < n)%nat -> w' p = if Nat.ltb p k then w p else Rabs (w p))) n f s0) as (st & Q & D & w' & V' & -> & Dc' & All & W) end.
  - exists (fun _ => False), w, V. split; [reflexivity|]. split; [exact Dc|]. split; [intros; lia|]. intros p Hp. now rewrite (proj2 (Nat.ltb_lt p n) Hp).
  - intros k st Hk (D & w' & V' & -> & Dc' & All & W).
    destruct (its_zero m n A D an k 29 U V' w' e Hk Hm (E0 k Hk) Dc') as (w2 & V2 & Q & W1 & W2 & Dn).
    eexists. split; [exact Q|]. exists (addk D k), w2, V2. split; [reflexivity|]. split; [exact Dn|]. split.
    + intros q Hq. destruct (Nat.eq_dec q k) as [->|N]; [right; reflexivity|left; apply All; lia].
    + intros p Hp. destruct (Nat.eq_dec p k) as [->|N].
      * rewrite W2, W by exact Hk. nats. reflexivity.
      * rewrite W1, W by assumption. nats; reflexivity.
  - exists D, w', V'. split; [exact Q|]. split; [exact Dc'|]. split; [intros; apply All; lia|]. intros p Hp. apply (W p Hp).
Qed.
Lemma dec_all_svd m n A D w e U V : dec m n A 0 D (bid w e) U V w -> (forall q, (q < n)%nat -> D q) -> is_svd m n A U w V /\ (forall p, (p < n)%nat -> 0 <= w p).
Proof.
  intros (OU & OV & NN & C & EA & [L G B DD]) All. split.
  - split; [exact OU|]. split; [exact OV|]. intros i j Hi Hj. rewrite (EA i j Hi Hj). rewrite prod3_diag.
    + apply bsum_ext. intros p Hp. rewrite G by lia. reflexivity.
    + intros p q Hp Hq N. destruct (le_lt_dec q p) as [K|K]; [apply L; lia|]. apply DD; [lia|apply All; lia|exact K].
  - intros p Hp. apply NN; [lia|]. apply All; lia.
Qed.
(** the singular values are the lengths of the columns *)
Lemma svdcmp_orth m n A w0 X : (1 <= n)%nat -> (n <= m)%nat -> orth_cols m n A ->
  exists U w V, svdcmp RN (mat m n A) (vec n w0) (mat n n X) = Ret (1%Z, mat m n U, vec n w, mat n n V) /\
    is_svd m n A U w V /\ (forall p, (p < n)%nat -> w p = sqrt (bsum m (fun i => A i p * A i p))).
Proof.
  intros Hn Hm OA. unfold svdcmp. rewrite rows_mat, cols_mat by lia. rewrite (proj2 (Nat.ltb_ge m n)) by lia.
  destruct (bidiagonal m n A w0 X Hm) as (a & w & e & an & U & V & g & s & Q1 & Q2 & Q3 & OU & OV & EA & E0 & b & u & EV & Hb & Hu).
  rewrite Q1. cbn [bind hh_a hh_rv1 hh_w hh_anorm]. rewrite Q2. cbn [bind]. rewrite Q3. cbn [bind].
  assert (Dc : dec m n A n (fun _ => False) (bid w e) U V w).
  { split; [exact OU|]. split; [exact OV|]. split; [contradiction|]. exists (bid w e). split; [exact EA|]. split; try lia; [reflexivity]. }
  assert (Hw : forall p, (p < n)%nat -> w p <> 0) by (apply (dec_full_rank m n A n (fun _ => False) w e U V (orth_full_rank m n A OA) (Nat.le_refl n) Dc)).
  assert (Z : forall r, (r < n)%nat -> e r = 0) by (apply (orth_bid m n A U V w e b u); assumption).
  destruct (diag_zero m n A an U V w e Hm Z Dc) as (D & w' & V' & Q & Dc' & All & W).
  unfold svdst in Q. rewrite Q. cbn [bind s_a s_w s_v]. exists U, w', V'. split; [reflexivity|]. split; [apply (dec_all_svd m n A D w' e U V' Dc' All)|].
  intros p Hp. rewrite W by exact Hp. rewrite <- sqrt_Rsqr_abs. f_equal. unfold Rsqr.
  assert (FV : forall t, (t < n)%nat -> V t p = delta t p).
  { intros t Ht. rewrite (EV t p Ht Hp). apply (accL_fix n b u (n - 1) p); try lia; auto. intros k Hk. apply Hb, Z. lia. }
  assert (AV : forall i, (i < m)%nat -> A i p = U i p * w p).
  { intros i Hi. pose proof (AV_col m n A U (bid w e) V p i OV EA Hp Hi) as H.
    rewrite (bsum_ext n _ (fun j => delta p j * A i j)) in H by (intros t Ht; rewrite FV by exact Ht; unfold delta; rewrite Nat.eqb_sym; ring).
    rewrite (bsum_delta n (fun t => A i t) p Hp) in H. rewrite H. unfold mulv. rewrite (bsum_one n _ p Hp); [unfold bid; nats; reflexivity|].
    intros t Ht N. unfold bid. nats; try ring. rewrite Z by lia. ring. }
  rewrite (bsum_ext m _ (fun i => w p * w p * (U i p * U i p))) by (intros i Hi; rewrite AV by exact Hi; ring).
  rewrite bsum_scal, (OU p p Hp Hp), delta_eq. ring.
Qed.
