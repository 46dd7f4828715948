(** * The decomposition over the reals: the whole function. *)
From Coq Require Import ZArith Reals Lra Lia List Bool.
From Flocq Require Import Core.Raux.
From Verif Require Import Num NumR MVec MSolver RTac RLin RSvd PSolver PSolver3 PSvd PSvd2 PSvd3 PSvd4.
Import ListNotations.
Local Open Scope R_scope.

(** ** Full column rank forces nonzero diagonal entries. *)
Definition full_rank (m n : nat) (A : nat -> nat -> R) : Prop :=
  forall x, (forall i, (i < m)%nat -> mulv n A x i = 0) -> forall j, (j < n)%nat -> x j = 0.
Lemma mulv_upd n C x r d i : (r < n)%nat -> mulv n C (updv x r (x r + d)) i = mulv n C x i + C i r * d.
Proof.
  intros Hr. unfold mulv. rewrite <- (bsum_delta n (fun q => C i q * d) r Hr). rewrite <- bsum_add. apply bsum_ext. intros q _.
  unfold updv, delta. rewrite (Nat.eqb_sym r q). destruct (Nat.eqb_spec q r) as [->|N]; ring.
Qed.
Lemma tri_kernel n C p : (forall p q, (p < n)%nat -> (q < p)%nat -> C p q = 0) -> (p < n)%nat -> C p p = 0 ->
  exists x, (exists j, (j < n)%nat /\ x j <> 0) /\ forall i, (i < n)%nat -> mulv n C x i = 0.
Proof.
  intros T. induction p as [p IHp] using lt_wf_ind. intros Hp Z.
  assert (J : forall j, (j <= p)%nat -> (exists q, (q < p)%nat /\ C q q = 0) \/ exists x, x p = 1 /\ forall r, (p - j <= r < n)%nat -> mulv n C x r = 0).
  { induction j as [|j IH]; intros Hj.
    - right. exists (fun q => delta p q). split; [apply delta_eq|]. intros r Hr. unfold mulv.
      rewrite (bsum_ext n _ (fun q => delta p q * C r q)) by (intros; ring). rewrite (bsum_delta n (fun q => C r q) p Hp).
      destruct (Nat.eq_dec r p) as [->|N]; [exact Z|apply T; lia].
    - destruct (IH ltac:(lia)) as [L|(x & X1 & X2)]; [left; exact L|]. set (r := (p - S j)%nat).
      destruct (Req_dec (C r r) 0) as [E|N]; [left; exists r; split; [lia|exact E]|]. right.
      exists (updv x r (x r + - mulv n C x r / C r r)). split; [rewrite updv_neq by lia; exact X1|].
      intros q Hq. rewrite mulv_upd by lia. destruct (Nat.eq_dec q r) as [->|NQ]; [field; exact N|].
      rewrite X2 by lia. rewrite (T q r) by lia. ring. }
  destruct (J p (Nat.le_refl p)) as [(q & Hq & E)|(x & X1 & X2)].
  - apply (IHp q Hq); [lia|exact E].
  - exists x. split; [exists p; split; [exact Hp|lra]|]. intros i Hi. apply X2. lia.
Qed.
Lemma prod3_mulv n U C V x i : orthonormal n n V -> mulv n (prod3 n U C V) (mulv n V x) i = mulv n U (mulv n C x) i.
Proof.
  intros O. unfold mulv at 1, prod3. transitivity (bsum n (fun j => bsum n (fun p => U i p * bsum n (fun q => C p q * (V j q * mulv n V x j))))).
  - apply bsum_ext. intros j _. rewrite <- bsum_scal_r. apply bsum_ext. intros p _. rewrite <- bsum_scal_r, <- bsum_scal. apply bsum_ext. intros q _. ring.
  - rewrite bsum_swap. unfold mulv at 2. apply bsum_ext. intros p _. rewrite bsum_scal. f_equal. rewrite bsum_swap. apply bsum_ext. intros q Hq. rewrite bsum_scal. f_equal.
    apply ortho_inv; assumption.
Qed.
Lemma dec_full_rank m n A kk D w e U V : full_rank m n A -> (kk <= n)%nat -> dec m n A kk D (bid w e) U V w -> forall p, (p < n)%nat -> w p <> 0.
Proof.
  intros FR Hk (OU & OV & NN & C & EA & [L G B DD]) p Hp Z.
  destruct (tri_kernel n C p) as (x & (j & Hj & NZ) & K).
  - intros r q Hr Hq. destruct (le_lt_dec kk r) as [K|K]; [apply L; assumption|]. rewrite B by lia. unfold bid. nats. reflexivity.
  - exact Hp.
  - destruct (le_lt_dec kk p) as [K|K]; [rewrite G by lia; exact Z|]. rewrite B by lia. unfold bid. nats. exact Z.
  - apply NZ. rewrite <- (ortho_inv n n V x j OV Hj). apply bsum_zero. intros i Hi. rewrite (FR (mulv n V x)); [ring| |exact Hi].
    intros r Hr. transitivity (mulv n (prod3 n U C V) (mulv n V x) r).
    + unfold mulv at 1 3. apply bsum_ext. intros q Hq. now rewrite (EA r q Hr Hq).
    + rewrite prod3_mulv by exact OV. unfold mulv at 1. apply bsum_zero. intros q Hq. rewrite K by exact Hq. ring.
Qed.

(** ** The iterations *)
Definition safe (m n : nat) (A : nat -> nat -> R) : Prop := (n <= 2)%nat \/ full_rank m n A.
Lemma dec_safe m n A kk D w e U V : safe m n A -> (kk <= n)%nat -> dec m n A kk D (bid w e) U V w -> (n <= 2)%nat \/ forall p, (p < n)%nat -> w p <> 0.
Proof. intros [H|H] Hk Dc; [left; exact H|right]. now apply (dec_full_rank m n A kk D w e U V). Qed.
Lemma its_spec m n A D an k : (k < n)%nat -> (n <= m)%nat -> safe m n A -> ~ D k -> forall fuel U V w e, (fuel <= 30)%nat -> e 0%nat = 0 ->
  dec m n A (k + 1) D (bid w e) U V w ->
  exists D' U' w' V' e', e' 0%nat = 0 /\ its_loop RN m n (Some an) k fuel (svdst m n U w V e) = Ret (Some (svdst m n U' w' V' e')) /\
    dec m n A k D' (bid w' e') U' V' w' /\ (forall q, D' q -> D q \/ q = k) /\ (forall q, D q -> D' q) /\
    ((n <= 2)%nat -> (2 <= fuel)%nat \/ ((1 <= fuel)%nat /\ (k = 1%nat -> e 1%nat = 0 \/ w 0%nat = 0)) -> D' k).
Proof.
  intros Hk Hm Sf ND. induction fuel as [|fuel IH]; intros U V w e Hf E0 Dc.
  - exists D, U, w, V, e. split; [exact E0|]. split; [reflexivity|]. split; [now apply dec_weaken|]. split; [auto|]. split; [auto|]. intros _ H. lia.
  - cbn [its_loop].
    destruct (svd_round_spec m n A D an k (30 - S fuel) U V w e Hk Hm ltac:(lia) E0 (dec_safe m n A (k + 1) D w e U V Sf ltac:(lia) Dc) ND Dc) as (U' & w' & V' & e' & E0' & [(Q & Dc')|(Q & Dc' & Ek & K1)]);
    rewrite Q; cbn [bind].
    + exists (addk D k), U', w', V', e'. split; [exact E0'|]. split; [reflexivity|]. split; [exact Dc'|]. split; [auto|]. split; [left; assumption|]. intros _ _. right. reflexivity.
    + destruct (IH U' V' w' e' ltac:(lia) E0' Dc') as (D' & U2 & w2 & V2 & e2 & I1 & I2 & I3 & I4 & I5 & I6).
      exists D', U2, w2, V2, e2. split; [exact I1|]. split; [exact I2|]. split; [exact I3|]. split; [exact I4|]. split; [exact I5|].
      intros Hn H. assert (k = 1%nat) by (destruct (Nat.eq_dec k 0) as [->|]; [contradiction|lia]). destruct (K1 H0) as [W0 W1].
      apply (I6 Hn). destruct H as [H|[_ H]].
      * right. split; [lia|]. intros _. exact W1.
      * exfalso. destruct (H H0); [subst k; contradiction|contradiction].
Qed.
Lemma diag_spec m n A an U V w e : (n <= m)%nat -> safe m n A -> e 0%nat = 0 -> dec m n A n (fun _ => False) (bid w e) U V w ->
  exists D U' w' V' e', diagonalize RN m n (Some an) (svdst m n U w V e) = Ret (Some (svdst m n U' w' V' e')) /\
    dec m n A 0 D (bid w' e') U' V' w' /\ ((n <= 2)%nat -> forall q, (q < n)%nat -> D q).
Proof.
  intros Hm Sf E0 Dc. unfold diagonalize.
  match goal with |- context [loop_down n ?s0 ?f] => destruct (loop_down_ex (fun k st => exists D U' w' V' e', st = Some (svdst m n U' w' V' e') /\ e' 0%nat = 0 /\
    dec m n A k D (bid w' e') U' V' w' /\ (forall q, D q -> (k <= q < n)%nat) /\ ((n <= 2)%nat -> forall q, (k <= q < n)%nat -> D q)) n f s0) as (st & Q & D & U' & w' & V' & e' & -> & _ & Dc' & _ & All) end.
  - exists (fun _ => False), U, w, V, e. split; [reflexivity|]. split; [exact E0|]. split; [exact Dc|]. split; [contradiction|]. intros _ q Hq. lia.
  - intros k st Hk (D & U' & w' & V' & e' & -> & E0' & Dc' & DB & All).
    destruct (its_spec m n A D an k Hk Hm Sf) with (fuel := 30%nat) (U := U') (V := V') (w := w') (e := e') as (D' & U2 & w2 & V2 & e2 & I1 & I2 & I3 & I4 & I5 & I6).
    + intros Dk. apply DB in Dk. lia.
    + lia.
    + exact E0'.
    + exact Dc'.
    + eexists. split; [exact I2|]. exists D', U2, w2, V2, e2. split; [reflexivity|]. split; [exact I1|]. split; [exact I3|]. split.
      * intros q Dq. destruct (I4 q Dq) as [H| ->]; [apply DB in H|]; lia.
      * intros Hn q Hq. destruct (Nat.eq_dec q k) as [->|N]; [apply (I6 Hn); lia|]. apply I5. apply (All Hn). lia.
  - exists D, U', w', V', e'. split; [exact Q|]. split; [exact Dc'|]. intros Hn q Hq. apply (All Hn). lia.
Qed.
(** ** The whole decomposition *)
Lemma svdcmp_dec m n A w0 X : (1 <= n)%nat -> (n <= m)%nat -> safe m n A ->
  exists D U w V e, svdcmp RN (mat m n A) (vec n w0) (mat n n X) = Ret (1%Z, mat m n U, vec n w, mat n n V) /\
    dec m n A 0 D (bid w e) U V w /\ ((n <= 2)%nat -> forall q, (q < n)%nat -> D q).
Proof.
  intros Hn Hm Sf. unfold svdcmp. rewrite rows_mat, cols_mat by lia. rewrite (proj2 (Nat.ltb_ge m n)) by lia.
  destruct (bidiagonal m n A w0 X Hm) as (a & w & e & an & U & V & g & s & Q1 & Q2 & Q3 & OU & OV & EA & E0 & _).
  rewrite Q1. cbn [bind hh_a hh_rv1 hh_w hh_anorm]. rewrite Q2. cbn [bind]. rewrite Q3. cbn [bind].
  destruct (diag_spec m n A an U V w e Hm Sf E0) as (D & U' & w' & V' & e' & Q & Dc & All).
  { split; [exact OU|]. split; [exact OV|]. split; [contradiction|]. exists (bid w e). split; [exact EA|]. split; try lia; [reflexivity]. }
  unfold svdst in Q. rewrite Q. cbn [bind s_a s_w s_v]. exists D, U', w', V', e'. split; [reflexivity|]. split; [exact Dc|exact All].
Qed.
Lemma svdcmp_triangular m n A w0 X : (1 <= n)%nat -> (n <= m)%nat -> safe m n A ->
  exists U w V C, svdcmp RN (mat m n A) (vec n w0) (mat n n X) = Ret (1%Z, mat m n U, vec n w, mat n n V) /\
    orthonormal m n U /\ orthonormal n n V /\ meq m n A (prod3 n U C V) /\
    (forall p q, (p < n)%nat -> (q < p)%nat -> C p q = 0) /\ (forall p, (p < n)%nat -> C p p = w p).
Proof.
  intros Hn Hm Sf. destruct (svdcmp_dec m n A w0 X Hn Hm Sf) as (D & U & w & V & e & Q & (OU & OV & NN & C & EA & [L G B DD]) & _).
  exists U, w, V, C. split; [exact Q|]. split; [exact OU|]. split; [exact OV|]. split; [exact EA|]. split; [intros; apply L; lia|intros; apply G; lia].
Qed.
Lemma prod3_diag n U C V i j : (forall p q, (p < n)%nat -> (q < n)%nat -> p <> q -> C p q = 0) -> prod3 n U C V i j = bsum n (fun p => U i p * C p p * V j p).
Proof. intros Z. apply bsum_ext. intros p Hp. apply (bsum_one n (fun q => U i p * C p q * V j q) p Hp). intros q Hq N. rewrite Z by auto. ring. Qed.
Lemma svdcmp_two m n A w0 X : (1 <= n <= 2)%nat -> (n <= m)%nat ->
  exists U w V, svdcmp RN (mat m n A) (vec n w0) (mat n n X) = Ret (1%Z, mat m n U, vec n w, mat n n V) /\
    is_svd m n A U w V /\ (forall p, (p < n)%nat -> 0 <= w p).
Proof.
  intros Hn Hm. destruct (svdcmp_dec m n A w0 X ltac:(lia) Hm ltac:(left; lia)) as (D & U & w & V & e & Q & (OU & OV & NN & C & EA & [L G B DD]) & All).
  exists U, w, V. split; [exact Q|]. split.
  - split; [exact OU|]. split; [exact OV|]. intros i j Hi Hj. rewrite (EA i j Hi Hj). rewrite prod3_diag.
    + apply bsum_ext. intros p Hp. rewrite G by lia. reflexivity.
    + intros p q Hp Hq N. destruct (le_lt_dec q p) as [K|K]; [apply L; lia|]. apply DD; [lia|apply All; lia|exact K].
  - intros p Hp. apply NN; [lia|]. apply All; lia.
Qed.
