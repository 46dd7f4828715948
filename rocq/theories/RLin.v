(** * Finite sums, and real vectors and matrices as functions of their indices. *)
From Coq Require Import ZArith Reals Lra Lia List.
From Verif Require Import Num NumR MSolver.
Import ListNotations.
Local Open Scope R_scope.

(** [bsum n f] is f 0 + ... + f (n-1). *)
Fixpoint bsum (n : nat) (f : nat -> R) : R := match n with O => 0 | S k => bsum k f + f k end.
Lemma bsum_ext n f g : (forall i, (i < n)%nat -> f i = g i) -> bsum n f = bsum n g.
Proof. intros H. induction n as [|n IH]; [reflexivity|]. cbn [bsum]. rewrite IH, H; auto. Qed.
Lemma bsum_0 n : bsum n (fun _ => 0) = 0.
Proof. induction n as [|n IH]; [reflexivity|]. cbn [bsum]. rewrite IH. ring. Qed.
Lemma bsum_zero n f : (forall i, (i < n)%nat -> f i = 0) -> bsum n f = 0.
Proof. intros H. rewrite (bsum_ext n f (fun _ => 0)) by exact H. apply bsum_0. Qed.
Lemma bsum_add n f g : bsum n (fun i => f i + g i) = bsum n f + bsum n g.
Proof. induction n as [|n IH]; cbn [bsum]; [ring|]. rewrite IH. ring. Qed.
Lemma bsum_sub n f g : bsum n (fun i => f i - g i) = bsum n f - bsum n g.
Proof. induction n as [|n IH]; cbn [bsum]; [ring|]. rewrite IH. ring. Qed.
Lemma bsum_scal n c f : bsum n (fun i => c * f i) = c * bsum n f.
Proof. induction n as [|n IH]; cbn [bsum]; [ring|]. rewrite IH. ring. Qed.
Lemma bsum_scal_r n c f : bsum n (fun i => f i * c) = bsum n f * c.
Proof. induction n as [|n IH]; cbn [bsum]; [ring|]. rewrite IH. ring. Qed.
Lemma bsum_swap m n f : bsum m (fun i => bsum n (f i)) = bsum n (fun j => bsum m (fun i => f i j)).
Proof. induction m as [|m IH]; cbn [bsum]; [now rewrite bsum_0|]. rewrite IH, <- bsum_add. reflexivity. Qed.
Lemma bsum_mul m n f g : bsum m f * bsum n g = bsum m (fun i => bsum n (fun j => f i * g j)).
Proof. rewrite <- bsum_scal_r. apply bsum_ext. intros i _. now rewrite bsum_scal. Qed.
Lemma bsum_nonneg n f : (forall i, (i < n)%nat -> 0 <= f i) -> 0 <= bsum n f.
Proof. intros H. induction n as [|n IH]; cbn [bsum]; [lra|]. pose proof (H n (Nat.lt_succ_diag_r n)). specialize (IH (fun i Hi => H i (Nat.lt_lt_succ_r i n Hi))). lra. Qed.
Lemma bsum_le n f g : (forall i, (i < n)%nat -> f i <= g i) -> bsum n f <= bsum n g.
Proof.
  intros H. pose proof (bsum_nonneg n (fun i => g i - f i)) as P. rewrite bsum_sub in P.
  assert (0 <= bsum n g - bsum n f); [apply P; intros i Hi; specialize (H i Hi); lra|lra].
Qed.
Lemma bsum_zero_inv n f : (forall i, (i < n)%nat -> 0 <= f i) -> bsum n f = 0 -> forall i, (i < n)%nat -> f i = 0.
Proof.
  intros H E. induction n as [|n IH]; intros i Hi; [lia|]. cbn [bsum] in E.
  assert (P : 0 <= bsum n f) by (apply bsum_nonneg; intros; apply H; lia). pose proof (H n ltac:(lia)) as Q.
  destruct (Nat.eq_dec i n) as [->|N]; [lra|]. apply IH; [intros; apply H; lia|lra|lia].
Qed.
Definition delta (i j : nat) : R := if Nat.eqb i j then 1 else 0.
Lemma delta_eq i : delta i i = 1. Proof. unfold delta. now rewrite Nat.eqb_refl. Qed.
Lemma delta_neq i j : i <> j -> delta i j = 0. Proof. intros H. unfold delta. now rewrite (proj2 (Nat.eqb_neq i j) H). Qed.
Lemma bsum_delta n f k : (k < n)%nat -> bsum n (fun i => delta k i * f i) = f k.
Proof.
  intros H. induction n as [|n IH]; [lia|]. cbn [bsum]. destruct (Nat.eq_dec k n) as [->|N].
  - rewrite delta_eq, bsum_zero; [ring|]. intros i Hi. rewrite delta_neq by lia. ring.
  - rewrite IH by lia. rewrite delta_neq by exact N. ring.
Qed.
Lemma bsum_split k n f : (k <= n)%nat -> bsum n f = bsum k f + bsum (n - k) (fun i => f (k + i)%nat).
Proof.
  intros H. induction n as [|n IH]; [replace k with 0%nat by lia; cbn; ring|]. destruct (Nat.eq_dec k (S n)) as [->|N].
  - rewrite Nat.sub_diag. cbn [bsum]. ring.
  - replace (S n - k)%nat with (S (n - k)) by lia. cbn [bsum]. rewrite IH by lia. replace (k + (n - k))%nat with n by lia. ring.
Qed.
(** two non-zero terms *)
Lemma bsum_one n f k : (k < n)%nat -> (forall i, (i < n)%nat -> i <> k -> f i = 0) -> bsum n f = f k.
Proof.
  intros H Z. rewrite <- (bsum_delta n f k H). apply bsum_ext. intros i Hi. destruct (Nat.eq_dec k i) as [->|N].
  - rewrite delta_eq. ring.
  - rewrite delta_neq by exact N. rewrite Z by auto. ring.
Qed.

(** ** Columns, norms, least squares. *)
Definition sq (x : R) : R := x * x.
Definition norm2 (n : nat) (x : nat -> R) : R := bsum n (fun i => sq (x i)).
Definition mulv (n : nat) (A : nat -> nat -> R) (x : nat -> R) : nat -> R := fun i => bsum n (fun j => A i j * x j).
(** the first [n] columns, [m] long, are orthonormal *)
Definition orthonormal (m n : nat) (U : nat -> nat -> R) : Prop :=
  forall p q, (p < n)%nat -> (q < n)%nat -> bsum m (fun i => U i p * U i q) = delta p q.
(** A = U diag(w) V^T *)
Definition is_svd (m n : nat) (A U : nat -> nat -> R) (w : nat -> R) (V : nat -> nat -> R) : Prop :=
  orthonormal m n U /\ orthonormal n n V /\
  forall i j, (i < m)%nat -> (j < n)%nat -> A i j = bsum n (fun p => U i p * w p * V j p).
Definition residual2 (m n : nat) (A : nat -> nat -> R) (b x : nat -> R) : R := norm2 m (fun i => mulv n A x i - b i).
(** matrices and vectors of the model *)
Definition vec (n : nat) (x : nat -> R) : list RX := map (fun i => Some (x i)) (seq 0 n).
Definition mat (m n : nat) (A : nat -> nat -> R) : list (list RX) := map (fun i => vec n (A i)) (seq 0 m).

Lemma norm2_nonneg n x : 0 <= norm2 n x.
Proof. apply bsum_nonneg. intros. unfold sq. nra. Qed.
(** |U c|^2 = |c|^2 *)
Lemma ortho_norm m n U c : orthonormal m n U -> norm2 m (mulv n U c) = norm2 n c.
Proof.
  intros H. unfold norm2, mulv, sq.
  rewrite (bsum_ext m _ (fun i => bsum n (fun p => bsum n (fun q => c p * c q * (U i p * U i q))))).
  - rewrite bsum_swap. apply bsum_ext. intros p Hp. rewrite bsum_swap.
    rewrite (bsum_ext n _ (fun q => delta p q * (c p * c q))); [now rewrite bsum_delta|]. intros q Hq. rewrite bsum_scal, H by assumption. ring.
  - intros i _. rewrite bsum_mul. apply bsum_ext. intros p _. apply bsum_ext. intros q _. ring.
Qed.
(** U^T U c = c *)
Lemma ortho_inv m n U c p : orthonormal m n U -> (p < n)%nat -> bsum m (fun i => U i p * mulv n U c i) = c p.
Proof.
  intros H Hp. unfold mulv. rewrite (bsum_ext m _ (fun i => bsum n (fun q => c q * (U i p * U i q)))).
  - rewrite bsum_swap. rewrite (bsum_ext n _ (fun q => delta p q * c q)); [now rewrite bsum_delta|]. intros q Hq. rewrite bsum_scal, H by assumption. ring.
  - intros i _. rewrite <- bsum_scal. apply bsum_ext. intros. ring.
Qed.
(** Bessel: |V^T y|^2 <= |y|^2 *)
Lemma bessel m n V y : orthonormal m n V -> norm2 n (fun p => bsum m (fun j => V j p * y j)) <= norm2 m y.
Proof.
  intros H. set (z := fun p => bsum m (fun j => V j p * y j)).
  pose proof (norm2_nonneg m (fun j => y j - mulv n V z j)) as P.
  assert (E : norm2 m (fun j => y j - mulv n V z j) = norm2 m y - 2 * norm2 n z + norm2 m (mulv n V z)).
  { assert (X : bsum m (fun j => y j * mulv n V z j) = norm2 n z).
    { unfold mulv. rewrite (bsum_ext m _ (fun j => bsum n (fun p => z p * (V j p * y j)))).
      - rewrite bsum_swap. unfold norm2. apply bsum_ext. intros p _. rewrite bsum_scal. reflexivity.
      - intros j _. rewrite <- bsum_scal. apply bsum_ext. intros. ring. }
    rewrite <- X. unfold norm2. rewrite <- bsum_scal, <- bsum_sub, <- bsum_add. apply bsum_ext. intros. unfold sq. ring. }
  rewrite ortho_norm in E by exact H. lra.
Qed.

(** A x = U (w . (V^T x)) *)
Lemma svd_mul m n A U w V x i : is_svd m n A U w V -> (i < m)%nat ->
  mulv n A x i = mulv n U (fun p => w p * bsum n (fun j => V j p * x j)) i.
Proof.
  intros (_ & _ & E) Hi. unfold mulv. rewrite (bsum_ext n _ (fun j => bsum n (fun p => U i p * w p * (V j p * x j)))).
  - rewrite bsum_swap. apply bsum_ext. intros p _. rewrite bsum_scal. ring.
  - intros j Hj. rewrite (E i j Hi Hj), <- bsum_scal_r. apply bsum_ext. intros. ring.
Qed.

(** The vector x = V t with w_p t_p = (U^T b)_p where w_p <> 0 and t_p = 0 elsewhere is the
    least-norm least-squares solution. *)
Lemma least_squares m n A U w V b t : is_svd m n A U w V ->
  (forall p, (p < n)%nat -> w p = 0 -> t p = 0) ->
  (forall p, (p < n)%nat -> w p <> 0 -> w p * t p = bsum m (fun i => U i p * b i)) ->
  let x := mulv n V t in
  forall y, residual2 m n A b x <= residual2 m n A b y /\
            (residual2 m n A b y = residual2 m n A b x -> norm2 n x <= norm2 n y).
Proof.
  intros S T0 T1 x y. pose proof S as (HU & HV & E).
  set (z := fun p => bsum n (fun j => V j p * y j)).
  assert (X : forall p, (p < n)%nat -> bsum n (fun j => V j p * x j) = t p) by (intros p Hp; now apply ortho_inv).
  set (d := fun p => w p * (z p - t p)).
  assert (D : forall i, (i < m)%nat -> mulv n A y i = mulv n A x i + mulv n U d i).
  { intros i Hi. rewrite !(svd_mul m n A U w V) by assumption. unfold mulv. rewrite <- bsum_add. apply bsum_ext. intros p Hp.
    rewrite X by exact Hp. unfold d, z. ring. }
  assert (C : bsum m (fun i => mulv n U d i * (mulv n A x i - b i)) = 0).
  { rewrite (bsum_ext m _ (fun i => bsum n (fun p => d p * (U i p * mulv n A x i - U i p * b i)))).
    - rewrite bsum_swap. apply bsum_zero. intros p Hp. rewrite bsum_scal, bsum_sub.
      replace (bsum m (fun i => U i p * mulv n A x i)) with (w p * t p).
      + unfold d. destruct (Req_dec (w p) 0) as [W|W]; [rewrite W; ring|]. rewrite (T1 p Hp W). ring.
      + rewrite (bsum_ext m _ (fun i => U i p * mulv n U (fun q => w q * t q) i)); [now rewrite (ortho_inv m n U (fun q => w q * t q)) by assumption|].
        intros i Hi. rewrite (svd_mul m n A U w V) by assumption. f_equal. unfold mulv. apply bsum_ext. intros q Hq. now rewrite X.
    - intros i _. unfold mulv at 1. rewrite <- bsum_scal_r. apply bsum_ext. intros. ring. }
  assert (R : residual2 m n A b y = residual2 m n A b x + norm2 n d).
  { rewrite <- (ortho_norm m n U d HU). unfold residual2, norm2.
    replace (bsum m (fun i => sq (mulv n A x i - b i))) with (bsum m (fun i => sq (mulv n A x i - b i)) + 2 * bsum m (fun i => mulv n U d i * (mulv n A x i - b i))) by (rewrite C; ring).
    rewrite <- bsum_scal, <- !bsum_add. apply bsum_ext. intros i Hi. rewrite D by exact Hi. unfold sq. ring. }
  pose proof (norm2_nonneg n d). split; [lra|]. intros Q.
  assert (Z : forall p, (p < n)%nat -> sq (d p) = 0) by (apply bsum_zero_inv; [intros; unfold sq; nra|fold (norm2 n d); lra]).
  unfold x. rewrite (ortho_norm n n V t HV). apply Rle_trans with (norm2 n z); [|now apply bessel].
  apply bsum_le. intros p Hp. specialize (Z p Hp). unfold sq, d in Z. destruct (Req_dec (w p) 0) as [W|W].
  - rewrite (T0 p Hp W). unfold sq. nra.
  - replace (t p) with (z p); [lra|]. assert (w p * (z p - t p) = 0) by nra. assert (z p - t p = 0) by nra. lra.
Qed.

(** ** Running the model on [vec] and [mat]. *)
Definition updv (x : nat -> R) (i : nat) (y : R) : nat -> R := fun j => if Nat.eqb j i then y else x j.
Definition updm (A : nat -> nat -> R) (i j : nat) (y : R) : nat -> nat -> R := fun r => if Nat.eqb r i then updv (A r) j y else A r.
Lemma updv_eq x i y : updv x i y i = y. Proof. unfold updv. now rewrite Nat.eqb_refl. Qed.
Lemma updv_neq x i y j : j <> i -> updv x i y j = x j. Proof. intros H. unfold updv. now rewrite (proj2 (Nat.eqb_neq j i) H). Qed.
Lemma tab_ext {A} (f g : nat -> A) n : (forall i, (i < n)%nat -> f i = g i) -> map f (seq 0 n) = map g (seq 0 n).
Proof. intros H. apply map_ext_in. intros i Hi. apply in_seq in Hi. apply H. lia. Qed.
Lemma vec_ext n x y : (forall i, (i < n)%nat -> x i = y i) -> vec n x = vec n y.
Proof. intros H. apply tab_ext. intros i Hi. now rewrite H. Qed.
Lemma mat_ext m n A B : (forall i j, (i < m)%nat -> (j < n)%nat -> A i j = B i j) -> mat m n A = mat m n B.
Proof. intros H. apply tab_ext. intros i Hi. apply vec_ext. intros j Hj. now apply H. Qed.
Lemma tab_nth {A} (f : nat -> A) n i : (i < n)%nat -> nth_error (map f (seq 0 n)) i = Some (f i).
Proof. intros H. rewrite nth_error_map. rewrite (nth_error_nth' (seq 0 n) 0%nat) by (rewrite seq_length; exact H). cbn [option_map]. now rewrite seq_nth. Qed.
Lemma tab_len {A} (f : nat -> A) n : length (map f (seq 0 n)) = n.
Proof. now rewrite map_length, seq_length. Qed.
Lemma upd_tab {A} (f : nat -> A) n i y : (i < n)%nat -> upd (map f (seq 0 n)) i y = map (fun j => if Nat.eqb j i then y else f j) (seq 0 n).
Proof.
  cut (forall k, (k <= i < k + n)%nat -> upd (map f (seq k n)) (i - k) y = map (fun j => if Nat.eqb j i then y else f j) (seq k n)).
  { intros H Hi. rewrite <- H by lia. now rewrite Nat.sub_0_r. }
  revert i. induction n as [|n IH]; intros i k H; [lia|]. cbn [seq map]. destruct (Nat.eq_dec i k) as [->|Q].
  - rewrite Nat.sub_diag, Nat.eqb_refl. cbn [upd]. f_equal. apply map_ext_in. intros j Hj. apply in_seq in Hj.
    now rewrite (proj2 (Nat.eqb_neq j k)) by lia.
  - rewrite (proj2 (Nat.eqb_neq k i)) by lia. replace (i - k)%nat with (S (i - S k)) by lia. cbn [upd]. f_equal. apply IH. lia.
Qed.
Lemma vget_vec n x i : (i < n)%nat -> vget (vec n x) i = Ret (Some (x i)).
Proof. intros H. unfold vget, vec. now rewrite tab_nth. Qed.
Lemma vset_vec n x i y : (i < n)%nat -> vset (vec n x) i (Some y) = Ret (vec n (updv x i y)).
Proof.
  intros H. unfold vset, vec. rewrite tab_len, (proj2 (Nat.ltb_lt i n) H). f_equal. rewrite upd_tab by exact H.
  apply tab_ext. intros j _. unfold updv. now destruct (Nat.eqb j i).
Qed.
Lemma mget_mat m n A i j : (i < m)%nat -> (j < n)%nat -> mget (mat m n A) i j = Ret (Some (A i j)).
Proof. intros Hi Hj. unfold mget, mat. rewrite tab_nth by exact Hi. cbn [of_option bind]. now apply vget_vec. Qed.
Lemma mset_mat m n A i j y : (i < m)%nat -> (j < n)%nat -> mset (mat m n A) i j (Some y) = Ret (mat m n (updm A i j y)).
Proof.
  intros Hi Hj. unfold mset, mat. rewrite tab_nth by exact Hi. cbn [of_option bind]. rewrite vset_vec by exact Hj. cbn [bind].
  f_equal. rewrite upd_tab by exact Hi. apply tab_ext. intros r _. unfold updm. destruct (Nat.eqb r i) eqn:E; [|reflexivity].
  apply Nat.eqb_eq in E. now subst.
Qed.
Lemma rows_mat m n A : rows (mat m n A) = m. Proof. apply tab_len. Qed.
Lemma cols_mat m n A : (0 < m)%nat -> cols (mat m n A) = n.
Proof. destruct m; [lia|]. intros _. cbn. apply tab_len. Qed.

(** A loop whose state after [k] rounds is known. *)
Lemma loop_eq {S} (g : nat -> S) lo hi f s : (lo <= hi)%nat -> s = g lo ->
  (forall k, (lo <= k < hi)%nat -> f k (g k) = Ret (g (k + 1)%nat)) -> loop lo hi s f = Ret (g hi).
Proof.
  intros L -> H. unfold loop. remember (hi - lo)%nat as d eqn:D. revert lo L H D. induction d as [|d IH]; intros lo L H D.
  - replace hi with lo by lia. reflexivity.
  - cbn [seq foldM]. rewrite H by lia. cbn [bind]. replace (Datatypes.S lo) with (lo + 1)%nat by lia. apply IH; [lia| |lia].
    intros k Hk. apply H. lia.
Qed.
Lemma loop_none {S} lo hi f (s : S) : (hi <= lo)%nat -> loop lo hi s f = Ret s.
Proof. intros H. unfold loop. now replace (hi - lo)%nat with 0%nat by lia. Qed.
Lemma loop_down_eq {S} (g : nat -> S) n f s : s = g n ->
  (forall k, (k < n)%nat -> f k (g (k + 1)%nat) = Ret (g k)) -> loop_down n s f = Ret (g 0%nat).
Proof.
  intros -> H. unfold loop_down. induction n as [|n IH]; [reflexivity|].
  rewrite seq_S, rev_app_distr. cbn [rev app foldM plus]. replace (Datatypes.S n) with (n + 1)%nat by lia. rewrite H by lia. cbn [bind].
  apply IH. intros k Hk. apply H. lia.
Qed.
(** f lo + ... + f (hi-1) *)
Definition rsum (lo hi : nat) (f : nat -> R) : R := bsum (hi - lo) (fun i => f (lo + i)%nat).
Lemma loop_sum lo hi s0 f (g : nat -> R) :
  (forall k s, (lo <= k < hi)%nat -> f k (Some s) = Ret (Some (s + g k))) -> loop lo hi (Some s0 : F RN) f = Ret (Some (s0 + rsum lo hi g)).
Proof.
  intros H. destruct (le_lt_dec lo hi) as [L|L].
  - rewrite (loop_eq (fun k => Some (s0 + rsum lo k g)) lo hi f); [reflexivity|exact L| |].
    + unfold rsum. rewrite Nat.sub_diag. cbn [bsum]. f_equal. ring.
    + intros k Hk. rewrite H by exact Hk. f_equal. f_equal. unfold rsum. replace (k + 1 - lo)%nat with (S (k - lo)) by lia. cbn [bsum].
      replace (lo + (k - lo))%nat with k by lia. ring.
  - rewrite loop_none by lia. unfold rsum. replace (hi - lo)%nat with 0%nat by lia. cbn [bsum]. f_equal. f_equal. ring.
Qed.
Lemma rsum_0 n f : rsum 0 n f = bsum n f.
Proof. unfold rsum. rewrite Nat.sub_0_r. reflexivity. Qed.
