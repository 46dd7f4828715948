(** * Reflections and rotations of real matrices. *)
From Coq Require Import Reals Lra Lia Arith Bool.
From Flocq Require Import Core.Raux.
From Verif Require Import RLin.
Local Open Scope R_scope.

(** [dot n x y] *)
Definition dot (n : nat) (x y : nat -> R) : R := bsum n (fun i => x i * y i).
Lemma dot_ext n x y x' y' : (forall i, (i < n)%nat -> x i * y i = x' i * y' i) -> dot n x y = dot n x' y'.
Proof. apply bsum_ext. Qed.
Lemma dot_sym n x y : dot n x y = dot n y x.
Proof. apply dot_ext. intros. ring. Qed.
Lemma dot_add_r n x y z : dot n x (fun i => y i + z i) = dot n x y + dot n x z.
Proof. unfold dot. rewrite <- bsum_add. apply bsum_ext. intros. ring. Qed.
Lemma dot_scal_r n x c y : dot n x (fun i => c * y i) = c * dot n x y.
Proof. unfold dot. rewrite <- bsum_scal. apply bsum_ext. intros. ring. Qed.

(** ** x + b (u . x) u *)
Definition refl (n : nat) (b : R) (u x : nat -> R) : nat -> R := fun k => x k + b * dot n u x * u k.
Definition mask (lo : nat) (u : nat -> R) : nat -> R := fun k => if Nat.leb lo k then u k else 0.
Lemma mask_ge lo u k : (lo <= k)%nat -> mask lo u k = u k.
Proof. intros H. unfold mask. now rewrite (proj2 (Nat.leb_le lo k) H). Qed.
Lemma mask_lt lo u k : (k < lo)%nat -> mask lo u k = 0.
Proof. intros H. unfold mask. now rewrite (proj2 (Nat.leb_gt lo k) H). Qed.
(** b is 0, or -2/|u|^2: the map is orthogonal. *)
Definition refl_ok (n : nat) (b : R) (u : nat -> R) : Prop := b * (2 + b * dot n u u) = 0.
Lemma refl_dot n b u x y : refl_ok n b u -> dot n (refl n b u x) (refl n b u y) = dot n x y.
Proof.
  intros H. unfold refl. set (p := dot n u x). set (q := dot n u y).
  transitivity (dot n x y + b * q * dot n u x + b * p * dot n u y + (b * p) * (b * q) * dot n u u).
  - unfold dot. rewrite <- !bsum_scal, <- !bsum_add. apply bsum_ext. intros. ring.
  - fold p q. replace (dot n x y + b * q * p + b * p * q + b * p * (b * q) * dot n u u) with (dot n x y + p * q * (b * (2 + b * dot n u u))) by ring.
    rewrite H. ring.
Qed.
Lemma refl_inv n b u x k : refl_ok n b u -> refl n b u (refl n b u x) k = x k.
Proof.
  intros H. unfold refl at 1. assert (E : dot n u (refl n b u x) = dot n u x + b * dot n u x * dot n u u).
  { unfold refl. rewrite dot_add_r. f_equal. apply dot_scal_r. }
  rewrite E. unfold refl. replace (x k + b * dot n u x * u k + b * (dot n u x + b * dot n u x * dot n u u) * u k)
    with (x k + dot n u x * u k * (b * (2 + b * dot n u u))) by ring. rewrite H. ring.
Qed.
Lemma refl_0 n u x k : refl n 0 u x k = x k.
Proof. unfold refl. ring. Qed.
Lemma refl_ext n b u x y k : (forall i, (i < n)%nat -> u i * x i = u i * y i) -> x k = y k -> refl n b u x k = refl n b u y k.
Proof. intros H E. unfold refl. rewrite (dot_ext n u x u y) by exact H. now rewrite E. Qed.
Lemma refl_ext_u n b u u' x k : (forall i, (i < n)%nat -> u i = u' i) -> (k < n)%nat -> refl n b u x k = refl n b u' x k.
Proof. intros H L. unfold refl. rewrite (dot_ext n u x u' x) by (intros i Hi; now rewrite H). now rewrite H. Qed.
Lemma refl_lt n b lo u x k : (k < lo)%nat -> refl n b (mask lo u) x k = x k.
Proof. intros H. unfold refl. rewrite mask_lt by exact H. ring. Qed.
Lemma refl_zero n b lo u x k : (forall i, (i < n)%nat -> (lo <= i)%nat -> x i = 0) -> refl n b (mask lo u) x k = x k.
Proof.
  intros H. unfold refl. replace (dot n (mask lo u) x) with 0; [ring|]. symmetry. apply bsum_zero. intros i Hi.
  destruct (le_lt_dec lo i) as [L|L]; [rewrite H by assumption; ring|rewrite mask_lt by exact L; ring].
Qed.
Lemma refl_sum n b u p (f : nat -> nat -> R) k : refl n b u (fun r => bsum p (fun q => f q r)) k = bsum p (fun q => refl n b u (f q) k).
Proof.
  unfold refl. rewrite bsum_add. f_equal.
  assert (E : dot n u (fun r => bsum p (fun q => f q r)) = bsum p (fun q => dot n u (f q))).
  { unfold dot. rewrite bsum_swap. apply bsum_ext. intros r _. now rewrite bsum_scal. }
  rewrite E, bsum_scal_r, bsum_scal. reflexivity.
Qed.
Lemma refl_scal n b u c x k : refl n b u (fun r => c * x r) k = c * refl n b u x k.
Proof. unfold refl. rewrite dot_scal_r. ring. Qed.

(** ** Acting on the rows (left) and on the columns (right) of a matrix. *)
Definition HL (m : nat) (b : R) (u : nat -> R) (X : nat -> nat -> R) : nat -> nat -> R := fun i j => refl m b u (fun r => X r j) i.
Definition GR (n : nat) (b : R) (v : nat -> R) (X : nat -> nat -> R) : nat -> nat -> R := fun i j => refl n b v (X i) j.
Definition meq (m n : nat) (A B : nat -> nat -> R) : Prop := forall i j, (i < m)%nat -> (j < n)%nat -> A i j = B i j.
Lemma meq_trans m n A B C : meq m n A B -> meq m n B C -> meq m n A C.
Proof. intros P Q i j Hi Hj. rewrite P by assumption. now apply Q. Qed.
Lemma meq_sym m n A B : meq m n A B -> meq m n B A.
Proof. intros P i j Hi Hj. symmetry. now apply P. Qed.
Lemma HL_ext m n b u X Y : meq m n X Y -> meq m n (HL m b u X) (HL m b u Y).
Proof. intros H i j Hi Hj. apply refl_ext; [intros r Hr; now rewrite H|now apply H]. Qed.
Lemma GR_ext m n b v X Y : meq m n X Y -> meq m n (GR n b v X) (GR n b v Y).
Proof. intros H i j Hi Hj. apply refl_ext; [intros r Hr; now rewrite H|now apply H]. Qed.

(** X C Y^T *)
Definition prod3 (n : nat) (X C Y : nat -> nat -> R) : nat -> nat -> R :=
  fun i j => bsum n (fun p => bsum n (fun q => X i p * C p q * Y j q)).
Lemma HL_prod m n b u X C Y i j : HL m b u (prod3 n X C Y) i j = prod3 n (HL m b u X) C Y i j.
Proof.
  unfold HL, prod3. rewrite refl_sum. apply bsum_ext. intros p _. rewrite refl_sum. apply bsum_ext. intros q _.
  transitivity ((C p q * Y j q) * refl m b u (fun r => X r p) i); [|ring]. rewrite <- refl_scal. unfold refl. f_equal; [ring|].
  rewrite (dot_ext m u (fun r => X r p * C p q * Y j q) u (fun r => C p q * Y j q * X r p)) by (intros; ring). ring.
Qed.
Lemma GR_prod n b v X C Y i j : GR n b v (prod3 n X C Y) i j = prod3 n X C (HL n b v Y) i j.
Proof.
  unfold GR, prod3. rewrite refl_sum. apply bsum_ext. intros p _. rewrite refl_sum. apply bsum_ext. intros q _.
  transitivity ((X i p * C p q) * refl n b v (fun r => Y r q) j); [|reflexivity]. rewrite <- refl_scal. reflexivity.
Qed.
Lemma prod3_ext m n X C Y X' C' Y' : meq m n X X' -> meq n n C C' -> meq n n Y Y' -> meq m n (prod3 n X C Y) (prod3 n X' C' Y').
Proof. intros A B D i j Hi Hj. apply bsum_ext. intros p Hp. apply bsum_ext. intros q Hq. now rewrite A, B, D. Qed.
Lemma HL_ortho m n b u X : refl_ok m b u -> orthonormal m n X -> orthonormal m n (HL m b u X).
Proof. intros H O p q Hp Hq. rewrite <- (O p q Hp Hq). exact (refl_dot m b u (fun r => X r p) (fun r => X r q) H). Qed.
Lemma delta_ortho m n : (n <= m)%nat -> orthonormal m n delta.
Proof.
  intros H p q Hp Hq. rewrite (bsum_ext m _ (fun i => delta p i * delta i q)); [rewrite bsum_delta by lia; reflexivity|].
  intros i _. f_equal. unfold delta. rewrite Nat.eqb_sym. reflexivity.
Qed.
Lemma ortho_ext m n X Y : meq m n X Y -> orthonormal m n X -> orthonormal m n Y.
Proof. intros E O p q Hp Hq. rewrite <- (O p q Hp Hq). apply bsum_ext. intros i Hi. now rewrite <- !E. Qed.

(** ** Rotation of columns p and q: (y, z) -> (y c + z s, z c - y s). *)
Definition rot (p q : nat) (c s : R) (X : nat -> nat -> R) : nat -> nat -> R :=
  fun i j => if Nat.eqb j p then X i p * c + X i q * s else if Nat.eqb j q then X i q * c - X i p * s else X i j.
Definition tr (X : nat -> nat -> R) : nat -> nat -> R := fun i j => X j i.
Lemma bsum_two n f g p q : (p < n)%nat -> (q < n)%nat -> p <> q -> f p + f q = g p + g q ->
  (forall i, (i < n)%nat -> i <> p -> i <> q -> f i = g i) -> bsum n f = bsum n g.
Proof.
  intros Hp Hq N E H. apply Rminus_diag_uniq. rewrite <- bsum_sub.
  rewrite (bsum_ext n _ (fun i => delta p i * (f p - g p) + delta q i * (f q - g q))).
  - rewrite bsum_add, (bsum_delta n (fun _ => f p - g p) p Hp), (bsum_delta n (fun _ => f q - g q) q Hq). lra.
  - intros i Hi. destruct (Nat.eq_dec i p) as [->|P].
    + rewrite delta_eq, delta_neq by auto. ring.
    + destruct (Nat.eq_dec i q) as [->|Q]; [rewrite delta_eq, delta_neq by auto; ring|].
      rewrite H by assumption. rewrite !delta_neq by auto. ring.
Qed.
Lemma rot_prod_r n X C V p q c s i j : (p < n)%nat -> (q < n)%nat -> p <> q -> c * c + s * s = 1 ->
  prod3 n X (rot p q c s C) (rot p q c s V) i j = prod3 n X C V i j.
Proof.
  intros Hp Hq N E. apply bsum_ext. intros r _. apply (bsum_two n _ _ p q Hp Hq N).
  - unfold rot. rewrite !Nat.eqb_refl. rewrite (proj2 (Nat.eqb_neq q p)) by auto.
    transitivity (X i r * C r p * V j p * (c * c + s * s) + X i r * C r q * V j q * (c * c + s * s)); [ring|rewrite E; ring].
  - intros t _ P Q. unfold rot. now rewrite (proj2 (Nat.eqb_neq t p) P), (proj2 (Nat.eqb_neq t q) Q).
Qed.
Lemma prod3_tr n X C V i j : prod3 n X C V i j = prod3 n V (tr C) X j i.
Proof. unfold prod3, tr. rewrite bsum_swap. apply bsum_ext. intros p _. apply bsum_ext. intros q _. ring. Qed.
(** rows of the middle factor *)
Definition rotrow (p q : nat) (c s : R) (C : nat -> nat -> R) : nat -> nat -> R := tr (rot p q c s (tr C)).
Lemma rot_prod_l n U C V p q c s i j : (p < n)%nat -> (q < n)%nat -> p <> q -> c * c + s * s = 1 ->
  prod3 n (rot p q c s U) (rotrow p q c s C) V i j = prod3 n U C V i j.
Proof. intros. rewrite prod3_tr. unfold rotrow. rewrite (prod3_tr n U C V). exact (rot_prod_r n V (tr C) U p q c s j i H H0 H1 H2). Qed.
Lemma rot_ortho m n p q c s X : (p < n)%nat -> (q < n)%nat -> p <> q -> c * c + s * s = 1 -> orthonormal m n X -> orthonormal m n (rot p q c s X).
Proof.
  intros Hp Hq N E O a b Ha Hb. pose proof (O p q Hp Hq) as Opq. pose proof (O p p Hp Hp) as Opp. pose proof (O q q Hq Hq) as Oqq.
  pose proof (O q p Hq Hp) as Oqp. rewrite delta_eq in Opp, Oqq. rewrite delta_neq in Opq by auto. rewrite delta_neq in Oqp by auto.
  assert (K : forall (f g x y z t : nat -> R) (al be ga de : R), (forall i, f i = x i * al + y i * be) -> (forall i, g i = z i * ga + t i * de) ->
    bsum m (fun i => f i * g i) =
    al * ga * bsum m (fun i => x i * z i) + al * de * bsum m (fun i => x i * t i) + be * ga * bsum m (fun i => y i * z i) + be * de * bsum m (fun i => y i * t i)).
  { intros f g x y z t al be ga de F G. rewrite <- !bsum_scal, <- !bsum_add. apply bsum_ext. intros. rewrite F, G. ring. }
  assert (X1 : forall k, (k < n)%nat ->
     (k = p /\ forall i, rot p q c s X i k = X i p * c + X i q * s) \/
     (k = q /\ forall i, rot p q c s X i k = X i q * c + X i p * (- s)) \/
     (k <> p /\ k <> q /\ forall i, rot p q c s X i k = X i k * 1 + X i k * 0)).
  { intros k _. unfold rot. destruct (Nat.eqb_spec k p) as [->|P]; [left; auto|].
    destruct (Nat.eqb_spec k q) as [->|Q]; right; [left|right]; repeat split; auto; intros; ring. }
  assert (Z : forall k l, k <> l -> delta k l = 0) by (intros; now apply delta_neq).
  destruct (X1 a Ha) as [(-> & Ea)|[(-> & Ea)|(Pa & Qa & Ea)]]; destruct (X1 b Hb) as [(-> & Eb)|[(-> & Eb)|(Pb & Qb & Eb)]];
  rewrite (K _ _ _ _ _ _ _ _ _ _ Ea Eb), !O by assumption;
  rewrite ?delta_eq, ?(Z p q), ?(Z q p), ?(Z a p), ?(Z a q), ?(Z p b), ?(Z q b) by auto; lra.
Qed.

(** ** Accumulated products. *)
Record hdata := mkHD { hb : nat -> R; hu : nat -> nat -> R; gb : nat -> R; gv : nat -> nat -> R }.
Fixpoint AB (m n : nat) (h : hdata) (i : nat) (X : nat -> nat -> R) : nat -> nat -> R :=
  match i with
  | O => X
  | S k => AB m n h k (HL m (hb h k) (hu h k) (GR n (gb h k) (gv h k) X))
  end.
Fixpoint accL (m : nat) (b : nat -> R) (u : nat -> nat -> R) (i : nat) (X : nat -> nat -> R) : nat -> nat -> R :=
  match i with O => X | S k => accL m b u k (HL m (b k) (u k) X) end.
Lemma AB_ext m n h i X Y : meq m n X Y -> meq m n (AB m n h i X) (AB m n h i Y).
Proof. revert X Y. induction i as [|i IH]; intros X Y H; [exact H|]. cbn [AB]. apply IH, HL_ext, GR_ext, H. Qed.
Lemma accL_ext m n b u i X Y : meq m n X Y -> meq m n (accL m b u i X) (accL m b u i Y).
Proof. revert X Y. induction i as [|i IH]; intros X Y H; [exact H|]. cbn [accL]. apply IH, HL_ext, H. Qed.
Lemma AB_prod m n h i C : forall X Y, meq m n (AB m n h i (prod3 n X C Y)) (prod3 n (accL m (hb h) (hu h) i X) C (accL n (gb h) (gv h) i Y)).
Proof.
  induction i as [|i IH]; intros X Y; [intros ? ? _ _; reflexivity|]. cbn [AB accL]. eapply meq_trans; [|apply IH].
  apply AB_ext. intros p q Hp Hq. rewrite <- HL_prod.
  apply (HL_ext m n (hb h i) (hu h i) (GR n (gb h i) (gv h i) (prod3 n X C Y)) (prod3 n X C (HL n (gb h i) (gv h i) Y))); [|assumption..].
  intros a b _ _. apply GR_prod.
Qed.
Lemma accL_ortho m n b u i X : (forall r, (r < i)%nat -> refl_ok m (b r) (u r)) -> orthonormal m n X -> orthonormal m n (accL m b u i X).
Proof. revert X. induction i as [|i IH]; intros X H O; [exact O|]. cbn [accL]. apply IH; [intros r Hr; apply H; lia|]. apply HL_ortho; [apply H; lia|exact O]. Qed.
(** two descriptions that agree *)
Definition hagree (m n i : nat) (h h' : hdata) : Prop :=
  forall r, (r < i)%nat -> hb h r = hb h' r /\ gb h r = gb h' r /\
    (forall k, (k < m)%nat -> hu h r k = hu h' r k) /\ (forall k, (k < n)%nat -> gv h r k = gv h' r k).
Lemma AB_agree m n h h' i X : hagree m n i h h' -> meq m n (AB m n h i X) (AB m n h' i X).
Proof.
  revert X. induction i as [|i IH]; intros X H; [intros ? ? _ _; reflexivity|]. cbn [AB].
  destruct (H i ltac:(lia)) as (E1 & E2 & E3 & E4). eapply meq_trans; [apply IH; intros r Hr; apply H; lia|]. apply AB_ext.
  rewrite E1, E2. intros p q Hp Hq. unfold HL. rewrite (refl_ext_u m (hb h' i) (hu h i) (hu h' i)) by assumption.
  apply refl_ext.
  - intros r Hr. unfold GR. now rewrite (refl_ext_u n (gb h' i) (gv h i) (gv h' i)) by assumption.
  - unfold GR. now apply refl_ext_u.
Qed.
