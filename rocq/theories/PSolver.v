(** * Memory safety and totality of the solver: a small calculus of
    postconditions over [outcome], applied to every loop of [svdcmp]. *)
From Coq Require Import ZArith List Bool Lia.
From Verif Require Import Num MVec MTri MSpectrum MSolver.
Import ListNotations.
Local Open Scope num_scope.

(** [wp o P]: [o] returns a value satisfying [P]. *)
Definition wp {A} (o : outcome A) (P : A -> Prop) : Prop := match o with Ret x => P x | _ => False end.
Lemma wp_ret {A} (x : A) (P : A -> Prop) : P x -> wp (Ret x) P.
Proof. exact (fun H => H). Qed.
Lemma wp_bind {A B} (c : outcome A) (k : A -> outcome B) (P : B -> Prop) : wp c (fun x => wp (k x) P) -> wp (bind c k) P.
Proof. destruct c; exact (fun H => H). Qed.
Lemma wp_mono {A} (o : outcome A) (P Q : A -> Prop) : wp o P -> (forall x, P x -> Q x) -> wp o Q.
Proof. intros H I. destruct o; [apply I, H|destruct H..]. Qed.
Lemma wp_if {A} (b : bool) (x y : outcome A) (P : A -> Prop) :
  (b = true -> wp x P) -> (b = false -> wp y P) -> wp (if b then x else y) P.
Proof. destruct b; auto. Qed.
Lemma wp_inv {A} (o : outcome A) (P : A -> Prop) : wp o P -> exists x, o = Ret x /\ P x.
Proof. destruct o as [x| | |]; intros H; [exists x; auto|destruct H..]. Qed.

Lemma wp_foldM {A S} (f : A -> S -> outcome S) (I : S -> Prop) (l : list A) (s : S) :
  (forall x s, In x l -> I s -> wp (f x s) I) -> I s -> wp (foldM f l s) I.
Proof.
  revert s. induction l as [|x l IH]; intros s H Hs; [exact Hs|]. cbn [foldM]. apply wp_bind.
  apply wp_mono with I; [apply H; [now left|exact Hs]|]. intros s' Hs'. apply IH; [|exact Hs'].
  intros y s'' Hy. apply H. now right.
Qed.
Lemma wp_loop {S} (I : S -> Prop) lo hi (s : S) f (P : S -> Prop) :
  I s -> (forall k s, lo <= k < hi -> I s -> wp (f k s) I)%nat -> (forall s, I s -> P s) -> wp (loop lo hi s f) P.
Proof.
  intros Hs H HP. apply wp_mono with I; [|exact HP]. apply wp_foldM; [|exact Hs].
  intros k s' Hk Hs'. apply in_seq in Hk. apply H; [lia|exact Hs'].
Qed.
Lemma wp_loop_down {S} (I : S -> Prop) n (s : S) f (P : S -> Prop) :
  I s -> (forall k s, k < n -> I s -> wp (f k s) I)%nat -> (forall s, I s -> P s) -> wp (loop_down n s f) P.
Proof.
  intros Hs H HP. apply wp_mono with I; [|exact HP]. apply wp_foldM; [|exact Hs].
  intros k s' Hk Hs'. apply in_rev, in_seq in Hk. apply H; [lia|exact Hs'].
Qed.

Lemma wp_loop_ix {S} (I : nat -> S -> Prop) lo hi (s : S) f (P : S -> Prop) : (lo <= hi)%nat ->
  I lo s -> (forall k s, lo <= k < hi -> I k s -> wp (f k s) (I (k + 1)))%nat -> (forall s, I hi s -> P s) -> wp (loop lo hi s f) P.
Proof.
  intros L Hs H HP. apply wp_mono with (I hi); [|exact HP]. unfold loop. clear P HP. remember (hi - lo)%nat as d eqn:D.
  revert lo s L Hs H D. induction d as [|d IH]; intros lo s L Hs H D.
  - replace hi with lo by lia. exact Hs.
  - cbn [seq foldM]. apply wp_bind. apply wp_mono with (I (lo + 1)%nat); [apply H; [lia|exact Hs]|]. intros s' Hs'.
    replace (Datatypes.S lo) with (lo + 1)%nat by lia. apply IH; [lia|exact Hs'| |lia]. intros k s'' Hk. apply H. lia.
Qed.
Lemma wp_loop_down_ix {S} (I : nat -> S -> Prop) n (s : S) f (P : S -> Prop) :
  I n s -> (forall k s, k < n -> I (k + 1)%nat s -> wp (f k s) (I k))%nat -> (forall s, I 0%nat s -> P s) -> wp (loop_down n s f) P.
Proof.
  intros Hs H HP. apply wp_mono with (I 0%nat); [|exact HP]. unfold loop_down. clear P HP.
  revert s Hs. induction n as [|n IH]; intros s Hs; [exact Hs|].
  rewrite seq_S, rev_app_distr. cbn [rev app foldM plus]. apply wp_bind. apply wp_mono with (I n).
  - apply H; [lia|]. now replace (n + 1)%nat with (Datatypes.S n) by lia.
  - intros s' Hs'. apply IH; [|exact Hs']. intros k s'' Hk. apply H. lia.
Qed.

(** ** Element access. *)
Definition shape {A} (m n : nat) (a : list (list A)) : Prop := length a = m /\ Forall (fun r => length r = n) a.
Lemma upd_length {A} (l : list A) i x : length (upd l i x) = length l.
Proof. revert i. induction l as [|h t IH]; intros [|i]; cbn [upd length]; auto. Qed.
Lemma nth_upd_eq {A} (l : list A) i x : (i < length l)%nat -> nth_error (upd l i x) i = Some x.
Proof. revert i. induction l as [|h t IH]; intros [|i]; cbn [upd length nth_error]; intros; try lia; [reflexivity|apply IH; lia]. Qed.
Lemma nth_upd_neq {A} (l : list A) i j x : i <> j -> nth_error (upd l i x) j = nth_error l j.
Proof. revert i j. induction l as [|h t IH]; intros [|i] [|j] H; cbn [upd nth_error]; try reflexivity; [congruence|apply IH; congruence]. Qed.
Lemma Forall_upd {A} (P : A -> Prop) (l : list A) i x : Forall P l -> P x -> Forall P (upd l i x).
Proof. intros H. revert i. induction H as [|h t Hh Ht IH]; intros [|i] Hx; cbn [upd]; constructor; auto. Qed.
Lemma nth_some {A} (l : list A) i : (i < length l)%nat -> exists x, nth_error l i = Some x.
Proof. intros H. destruct (nth_error l i) as [x|] eqn:E; [now exists x|]. apply nth_error_None in E. lia. Qed.

Lemma wp_vget {A} (l : list A) i (P : A -> Prop) : (i < length l)%nat -> (forall x, nth_error l i = Some x -> P x) -> wp (vget l i) P.
Proof. intros H HP. unfold vget. destruct (nth_some l i H) as [x E]. rewrite E. exact (HP x E). Qed.
Lemma wp_vset {A} (l : list A) i x (P : list A -> Prop) : (i < length l)%nat -> P (upd l i x) -> wp (vset l i x) P.
Proof. intros H HP. unfold vset. apply Nat.ltb_lt in H. rewrite H. exact HP. Qed.
Lemma wp_mget {A} m n (a : list (list A)) i j (P : A -> Prop) :
  shape m n a -> (i < m)%nat -> (j < n)%nat -> (forall x, P x) -> wp (mget a i j) P.
Proof.
  intros [L R] Hi Hj HP. unfold mget. destruct (nth_some a i) as [r E]; [lia|]. rewrite E. cbn [of_option bind].
  apply wp_vget; [|auto]. apply nth_error_In in E. rewrite Forall_forall in R. rewrite (R r E). exact Hj.
Qed.
Lemma wp_mset {A} m n (a : list (list A)) i j x (P : list (list A) -> Prop) :
  shape m n a -> (i < m)%nat -> (j < n)%nat -> (forall a', shape m n a' -> P a') -> wp (mset a i j x) P.
Proof.
  intros [L R] Hi Hj HP. unfold mset. destruct (nth_some a i) as [r E]; [lia|]. rewrite E. cbn [of_option bind].
  assert (Lr : length r = n) by (apply nth_error_In in E; rewrite Forall_forall in R; exact (R r E)).
  apply wp_bind, wp_vset; [lia|]. apply HP. split; [now rewrite upd_length|]. apply Forall_upd; [exact R|]. now rewrite upd_length.
Qed.

(** [rv1]: its first element stays a zero. *)
Definition rvok {A} (zero : A -> Prop) (n : nat) (r : list A) : Prop :=
  length r = n /\ forall x, nth_error r 0 = Some x -> zero x.
Lemma rvok_len {A} z n (r : list A) : rvok z n r -> length r = n.
Proof. intros [H _]. exact H. Qed.
Lemma rvok_upd {A} z n (r : list A) i x : rvok z n r -> (i < n)%nat -> ((i = 0)%nat -> z x) -> rvok z n (upd r i x).
Proof.
  intros [L Z] Hi Hx. split; [now rewrite upd_length|]. intros y. destruct i as [|i].
  - rewrite nth_upd_eq by lia. intros [= <-]. now apply Hx.
  - rewrite nth_upd_neq by discriminate. apply Z.
Qed.
Lemma wp_vset_rv {A} z n (r : list A) i x (P : list A -> Prop) :
  rvok z n r -> (i < n)%nat -> (1 <= i)%nat -> (forall r', rvok z n r' -> P r') -> wp (vset r i x) P.
Proof.
  intros H Hi H1 HP. apply wp_vset; [rewrite (rvok_len _ _ _ H); exact Hi|]. apply HP, rvok_upd; [exact H|exact Hi|lia].
Qed.
Lemma rotate_ok (N : Num) m n r p q c s (a : list (list (F N))) : (r <= m)%nat -> (p < n)%nat -> (q < n)%nat -> shape m n a ->
  wp (rotate N r p q c s a) (shape m n).
Proof.
  intros Hr Hp Hq Ha. unfold rotate. apply (wp_loop (shape m n)); [exact Ha| |auto]. intros k a' Hk Ha'.
  apply wp_bind, (wp_mget m n); [exact Ha'|lia|exact Hp|]. intros y. apply wp_bind, (wp_mget m n); [exact Ha'|lia|exact Hq|]. intros z.
  apply wp_bind, (wp_mset m n); [exact Ha'|lia|exact Hp|]. intros a2 H2. apply (wp_mset m n); [exact H2|lia|exact Hq|auto].
Qed.

(** ** The tactic: one step of execution.  A loop gets the invariant "same shape
    as at the start". *)
Ltac inv_of s :=
  match goal with
  | H : @shape ?A ?m ?n s |- _ => constr:(@shape A m n)
  | H : @rvok ?A ?z ?n s |- _ => constr:(@rvok A z n)
  | H : @length ?A s = ?n |- _ => constr:(fun x : list A => length x = n)
  | _ => let t := type of s in constr:(fun _ : t => True)
  end.
Ltac fin := repeat match goal with |- _ /\ _ => split end; try assumption; try exact Logic.I.
Ltac vlen := rewrite ?upd_length; lia.
Ltac step :=
  match goal with
  | |- wp (bind _ _) _ => apply wp_bind
  | |- wp (Ret _) _ => apply wp_ret
  | |- wp (rotate _ _ _ _ _ _ ?a) _ =>
      match goal with H : shape _ _ a |- _ => eapply wp_mono; [eapply rotate_ok; [| | |exact H]; lia|cbv beta; intros ? ?] end
  | H : rvok _ _ ?r |- wp (vset ?r _ _) _ => eapply wp_vset_rv; [exact H|lia|lia|intros ? ?]
  | H : rvok _ _ ?r |- wp (vget ?r _) _ => eapply wp_vget; [rewrite (rvok_len _ _ _ H); lia|intros ? ?]
  | |- wp (vget _ _) _ => apply wp_vget; [vlen|intros ? ?]
  | |- wp (vset _ _ _) _ => apply wp_vset; [vlen|]
  | |- wp (mget ?a _ _) _ =>
      match goal with H : shape _ _ a |- _ => eapply wp_mget; [exact H|lia|lia|intros ?] end
  | |- wp (mset ?a _ _ _) _ =>
      match goal with H : shape _ _ a |- _ => eapply wp_mset; [exact H|lia|lia|intros ? ?] end
  | |- wp (if ?b then _ else _) _ => apply wp_if; intros ?
  | |- wp (loop ?lo ?hi (?s1, ?s2, ?s3) _) _ =>
      let i1 := inv_of s1 in let i2 := inv_of s2 in let i3 := inv_of s3 in
      apply (wp_loop (fun x => i1 (fst (fst x)) /\ i2 (snd (fst x)) /\ i3 (snd x)));
      [fin|intros ? [[? ?] ?] ? (? & ? & ?)|intros [[? ?] ?] (? & ? & ?)]
  | |- wp (loop ?lo ?hi (?s1, ?s2) _) _ =>
      let i1 := inv_of s1 in let i2 := inv_of s2 in
      apply (wp_loop (fun x => i1 (fst x) /\ i2 (snd x)));
      [fin|intros ? [? ?] ? (? & ?)|intros [? ?] (? & ?)]
  | |- wp (loop ?lo ?hi ?s _) _ =>
      let i := inv_of s in apply (wp_loop i); [fin|intros ? ? ? ?|intros ? ?]
  end; cbn [fst snd] in *.
Ltac bnd := repeat match goal with
  | H : Nat.ltb _ _ = true |- _ => apply Nat.ltb_lt in H
  | H : Nat.ltb _ _ = false |- _ => apply Nat.ltb_ge in H
  | H : Nat.eqb _ _ = true |- _ => apply Nat.eqb_eq in H
  | H : Nat.eqb _ _ = false |- _ => apply Nat.eqb_neq in H
  end.
Ltac run := repeat (step; bnd); fin; try vlen.

Section WithNum.
Context (N : Num).
Local Notation F := (F N).
Local Notation Vec := (list F).
Local Notation Mat := (list (list F)).
(** [zero]: values whose magnitude is lost when added to a [good] norm. *)
Variable good : F -> Prop.
Variable zero : F -> Prop.
Hypothesis zero_lost : forall x n, zero x -> good n -> feqb (ffabs x + n) n = true.
Hypothesis zero_0 : zero #0.0.
Hypothesis zero_00 : zero (#0.0 * #0.0).
Hypothesis zero_Z0 : zero (fofZ 0).
Hypothesis good_0 : good #0.0.
Hypothesis good_max : forall a b, good a -> good (std_max N a b).
Local Notation rv := (rvok zero).

Lemma hh_left_ok m n i (a : Mat) : (n <= m)%nat -> (i < n)%nat -> shape m n a ->
  wp (hh_left N m n i a) (fun '(a', _, _) => shape m n a').
Proof. intros L I Ha. unfold hh_left. run. Qed.
Lemma hh_right_ok m n i (a : Mat) (rv1 : Vec) : (n <= m)%nat -> (i < n)%nat -> shape m n a -> rv n rv1 ->
  wp (hh_right N m n i a rv1) (fun '(a', rv1', _, _) => shape m n a' /\ rv n rv1').
Proof.
  intros L I Ha Hr. unfold hh_right. apply wp_if; [intros _; run|]. intros C.
  rewrite negb_false_iff, andb_true_iff, negb_true_iff in C. destruct C as [_ C]. bnd. run.
Qed.
Definition hhok m n (st : hh_state N) : Prop :=
  shape m n (hh_a N st) /\ length (hh_w N st) = n /\ rv n (hh_rv1 N st) /\ good (hh_anorm N st).
Lemma hh_step_ok m n i (st : hh_state N) : (n <= m)%nat -> (i < n)%nat ->
  hhok m n st -> ((i = 0)%nat -> hh_scale N st = #0.0 /\ hh_g N st = #0.0) -> wp (hh_step N m n i st) (hhok m n).
Proof.
  intros L I (Ha & Hw & Hr & Hn) H0. unfold hh_step. apply wp_bind, wp_vset; [rewrite (rvok_len _ _ _ Hr); exact I|].
  assert (Hr' : rv n (upd (hh_rv1 N st) i (hh_scale N st * hh_g N st))).
  { apply rvok_upd; [exact Hr|exact I|]. intros E. destruct (H0 E) as [-> ->]. exact zero_00. }
  apply wp_bind. eapply wp_mono; [apply (hh_left_ok m n i); assumption|]. intros [[a1 g1] s1] Ha1.
  apply wp_bind, wp_vset; [lia|]. apply wp_bind. eapply wp_mono; [apply (hh_right_ok m n i); eassumption|].
  intros [[[a2 r2] g2] s2] [Ha2 Hr2]. run. unfold hhok. cbn [hh_a hh_w hh_rv1 hh_anorm]. fin; [vlen|]. now apply good_max.
Qed.
Lemma new_len d : length (newVector N d) = d.
Proof. apply repeat_length. Qed.
Lemma new_rv n : rv n (newVector N n).
Proof. split; [apply new_len|]. intros x. destruct n; cbn [newVector repeat nth_error]; [discriminate|]. intros [= <-]. exact zero_Z0. Qed.
Lemma householder_ok m n (a : Mat) w : (n <= m)%nat -> shape m n a -> length w = n ->
  wp (householder N m n a w (newVector N n)) (hhok m n).
Proof.
  intros L Ha Hw. unfold householder.
  apply (wp_loop_ix (fun i st => hhok m n st /\ ((i = 0)%nat -> hh_scale N st = #0.0 /\ hh_g N st = #0.0))); [lia| | |intros s [H _]; exact H].
  - split; [|intros _; split; reflexivity]. unfold hhok. cbn [hh_a hh_w hh_rv1 hh_anorm]. fin. apply new_rv.
  - intros k s Hk [Hs H0]. eapply wp_mono; [apply hh_step_ok; [exact L|lia|exact Hs|exact H0]|]. intros s' H'. split; [exact H'|lia].
Qed.
Lemma acc_right_ok m n (a : Mat) rv1 (v : Mat) : (n <= m)%nat -> shape m n a -> length rv1 = n -> shape n n v ->
  wp (acc_right N n a rv1 v) (shape n n).
Proof.
  intros L Ha Hr Hv. unfold acc_right. apply (wp_loop_down (shape n n)); [exact Hv| |auto]. intros i v' Hi Hv'.
  unfold acc_right_step. run.
Qed.
Lemma acc_left_ok m n w (a : Mat) : (n <= m)%nat -> shape m n a -> length w = n -> wp (acc_left N m n w a) (shape m n).
Proof.
  intros L Ha Hw. unfold acc_left. apply (wp_loop_down (shape m n)); [exact Ha| |auto]. intros i a' Hi Ha'.
  unfold acc_left_step. run.
Qed.

Lemma split_ok n anorm w rv1 l : good anorm -> length w = n -> rv n rv1 -> (l < n)%nat ->
  wp (split_test N anorm w rv1 l) (fun '(flag, l') => (l' <= l)%nat /\ (flag = true -> (1 <= l')%nat)).
Proof.
  intros G Hw Hr. induction l as [|l IH]; intros L; cbn [split_test].
  - apply wp_bind. eapply wp_vget; [rewrite (rvok_len _ _ _ Hr); exact L|]. intros x E. destruct Hr as [_ Z].
    rewrite (zero_lost x anorm (Z x E) G). apply wp_ret. split; [lia|discriminate].
  - run. eapply wp_mono; [apply IH; lia|]. intros [fl l'] [Q1 Q2]. split; [lia|exact Q2].
Qed.
Lemma cancel_ok m n anorm rv1 l k w (a : Mat) : (1 <= l <= k)%nat -> (k < n)%nat -> rv n rv1 -> length w = n -> shape m n a ->
  wp (cancel N m anorm rv1 l k w a) (fun '(w', a') => length w' = n /\ shape m n a').
Proof.
  intros Hl Hk Hr Hw Ha. unfold cancel. destruct l as [|nm]; [lia|]. run.
Qed.
Definition stok m n (st : svd_state N) : Prop :=
  shape m n (s_a N st) /\ length (s_w N st) = n /\ shape n n (s_v N st) /\ rv n (s_rv1 N st).
Lemma make_nonneg_ok m n k z st : (k < n)%nat -> stok m n st -> wp (make_nonneg N n k z st) (stok m n).
Proof.
  intros Hk Hst. pose proof Hst as (Ha & Hw & Hv & Hr). unfold make_nonneg. run. unfold stok. cbn [s_a s_w s_v s_rv1]. fin. vlen.
Qed.
Lemma svd_round_ok m n anorm k its st : (n <= m)%nat -> (k < n)%nat -> (its < 30)%nat -> good anorm -> stok m n st ->
  wp (svd_round N m n anorm k its st) (fun r => match r with Break _ st' | Continue _ st' => stok m n st' | Return_minus_1 _ => False end).
Proof.
  intros L Hk Hi G (Ha & Hw & Hv & Hr). unfold svd_round. apply wp_bind.
  eapply wp_mono; [apply (split_ok n anorm _ _ k); assumption|]. intros [flag l] [Hl Hf]. apply wp_bind.
  apply wp_mono with (fun '(w', a') => length w' = n /\ shape m n a').
  { destruct flag; [|apply wp_ret; split; assumption]. apply cancel_ok; try assumption. specialize (Hf eq_refl). lia. }
  intros [w a] [Hw' Ha']. run; [| |].
  - eapply wp_mono; [apply (make_nonneg_ok m); [exact Hk|]|]. { unfold stok. cbn [s_a s_w s_v s_rv1]. fin. }
    intros st' H'. apply wp_ret. exact H'.
  - apply Nat.leb_le in H1. lia.
  - apply wp_mono with (fun _ => True); [unfold qr_shift; run|]. intros [xx ff] _. apply wp_bind.
    pose (RI := fun r : Vec => length r = n /\ ((1 <= l)%nat -> rv n r)).
    assert (RU : forall r j y, RI r -> (l <= j < n)%nat -> RI (upd r j y)).
    { intros r j y [R1 R2] Hj. split; [vlen|]. intros Hl'. apply rvok_upd; [auto|lia|lia]. }
    apply (wp_loop (fun q => shape m n (q_a N q) /\ length (q_w N q) = n /\ shape n n (q_v N q) /\ RI (q_rv1 N q))).
    + cbn [q_a q_w q_v q_rv1]. fin. split; [exact (rvok_len _ _ _ Hr)|]. intros _. exact Hr.
    + intros j q Hj (Qa & Qw & Qv & Qr). pose proof (proj1 Qr) as Qr1. unfold qr_step. run.
      all: match goal with |- context [if ?b then (_, _) else (_, _)] => destruct b end; run; cbn [q_a q_w q_v q_rv1]; fin; try vlen;
        (apply RU; [exact Qr|lia]).
    + intros q (Qa & Qw & Qv & Qr). pose proof (proj1 Qr) as Qr1. run. unfold stok. cbn [s_a s_w s_v s_rv1]. fin; [vlen|].
      apply rvok_upd; [|exact Hk|lia]. destruct (Nat.eq_dec l 0) as [E|E].
      * subst l. split; [vlen|]. intros y. rewrite nth_upd_eq by lia. intros [= <-]. exact zero_0.
      * apply rvok_upd; [apply (proj2 Qr); lia|lia|intros; exact zero_0].
Qed.
Lemma its_ok m n anorm k fuel st : (n <= m)%nat -> (k < n)%nat -> (fuel <= 30)%nat -> good anorm -> stok m n st ->
  wp (its_loop N m n anorm k fuel st) (fun o => exists st', o = Some st' /\ stok m n st').
Proof.
  intros L Hk. revert st. induction fuel as [|fuel IH]; intros st Hf G Hs; [exists st; auto|].
  cbn [its_loop]. apply wp_bind. eapply wp_mono; [apply svd_round_ok; try eassumption; lia|].
  intros [st'|st'|] H; [exists st'; auto|apply IH; [lia|exact G|exact H]|destruct H].
Qed.
Lemma diagonalize_ok m n anorm st : (n <= m)%nat -> good anorm -> stok m n st ->
  wp (diagonalize N m n anorm st) (fun o => exists st', o = Some st' /\ stok m n st').
Proof.
  intros L G Hs. unfold diagonalize. apply (wp_loop_down (fun o => exists st', o = Some st' /\ stok m n st')); [exists st; auto| |auto].
  intros k o Hk (st' & -> & H). apply its_ok; try assumption. lia.
Qed.
Lemma svdcmp_never_fails m n (a : Mat) w v : (n <= m)%nat -> shape m n a -> cols a = n -> length w = n -> shape n n v ->
  wp (svdcmp N a w v) (fun '(r, a', w', v') => r = 1%Z /\ shape m n a' /\ length w' = n /\ shape n n v').
Proof.
  intros L Ha C Hw Hv. unfold svdcmp, rows. rewrite C, (proj1 Ha).
  replace (Nat.ltb m n) with false by (symmetry; apply Nat.ltb_ge; exact L).
  apply wp_bind. eapply wp_mono; [apply (householder_ok m n); assumption|]. intros h (H1 & H2 & H3 & H4).
  apply wp_bind. eapply wp_mono; [apply (acc_right_ok m n); try assumption; exact (rvok_len _ _ _ H3)|]. intros v1 Hv1.
  apply wp_bind. eapply wp_mono; [apply (acc_left_ok m n); assumption|]. intros a1 Ha1.
  apply wp_bind. eapply wp_mono; [apply (diagonalize_ok m n); [exact L|exact H4|unfold stok; cbn [s_a s_w s_v s_rv1]; fin]|].
  intros o (st & -> & A & W & V & _). apply wp_ret. fin. reflexivity.
Qed.
Lemma svbksb_ok m n (u : Mat) w v b x : shape m n u -> cols u = n -> (n <= length w)%nat -> shape n n v -> (m <= length b)%nat -> (n <= length x)%nat ->
  wp (svbksb N u w v b x) (fun x' => length x' = length x).
Proof.
  intros Hu C Hw Hv Hb Hx. unfold svbksb, rows. rewrite C, (proj1 Hu). pose proof (new_len n) as Hn.
  apply wp_bind. apply (wp_loop (fun t => length t = n)); [exact Hn| |].
  - intros j t Hj Ht. run.
  - intros t Ht. apply (wp_loop (fun y => length y = length x)); [reflexivity| |auto]. intros j y Hj Hy. run.
Qed.
(** ** [SOLVER::solve] *)
Definition maxof (W : Vec) : F := fold_left (fun m x => if x >? m then x else m) W #0.0.
Definition cut (t x : F) : F := if x <? t then #0.0 else x.
Lemma foldM_vget {S} (f : S -> F -> S) (l W : Vec) (k : nat) s :
  (forall j, nth_error W (k + j) = nth_error l j) ->
  foldM (fun j s => let! x := vget W j in Ret (f s x)) (seq k (length l)) s = Ret (fold_left f l s).
Proof.
  revert k s. induction l as [|x l IH]; intros k s E; [reflexivity|]. cbn [length seq foldM fold_left].
  unfold vget at 1. pose proof (E 0%nat) as E0. rewrite Nat.add_0_r in E0. rewrite E0. cbn [nth_error of_option bind].
  apply IH. intros j. change (nth_error l j) with (nth_error (x :: l) (Datatypes.S j)). rewrite <- E. f_equal. lia.
Qed.
Lemma wmax_eq (W : Vec) : wmax N (length W) W = Ret (maxof W).
Proof. unfold wmax, loop. rewrite Nat.sub_0_r. apply (foldM_vget (fun m x => if x >? m then x else m) W W 0). reflexivity. Qed.
Lemma upd_app {A} (p : list A) x y t : upd (p ++ x :: t) (length p) y = p ++ y :: t.
Proof. induction p as [|h p IH]; [reflexivity|]. cbn [app length upd]. now rewrite IH. Qed.
Lemma cutoff_gen t (l p : Vec) :
  foldM (fun j W => let! wj := vget W j in if wj <? t then vset W j #0.0 else Ret W) (seq (length p) (length l)) (p ++ l)
  = Ret (p ++ map (cut t) l).
Proof.
  revert p. induction l as [|x l IH]; intros p; [reflexivity|]. cbn [length seq foldM map].
  unfold vget at 1. rewrite nth_error_app2, Nat.sub_diag by lia. cbn [nth_error of_option bind].
  replace (if x <? t then vset (p ++ x :: l) (length p) #0.0 else Ret (p ++ x :: l)) with (Ret (p ++ cut t x :: l)).
  - cbn [bind]. pose proof (IH (p ++ [cut t x])) as E. rewrite app_length in E. cbn [length] in E.
    replace (length p + 1)%nat with (Datatypes.S (length p)) in E by lia. rewrite <- !app_assoc in E. exact E.
  - unfold cut. destruct (x <? t); [|reflexivity]. unfold vset. rewrite app_length. cbn [length].
    replace (Nat.ltb (length p) (length p + Datatypes.S (length l))) with true by (symmetry; apply Nat.ltb_lt; lia). now rewrite upd_app.
Qed.
Lemma cutoff_eq t (W : Vec) : cutoff N (length W) t W = Ret (map (cut t) W).
Proof. unfold cutoff, loop. rewrite Nat.sub_0_r. exact (cutoff_gen t W []). Qed.
Lemma solve_eq (a : Mat) b x tol r U W V : svdcmp N a (newVector N (cols a)) (newMatrix N (cols a) (cols a)) = Ret (r, U, W, V) ->
  (r <> 0)%Z -> length W = cols a ->
  SOLVER_solve N a b x tol = (let! x' := svbksb N U (map (cut (tol * maxof W)) W) V b x in Ret (0%Z, x')).
Proof.
  intros E R L. unfold SOLVER_solve. rewrite E. cbn [bind]. replace (r =? 0)%Z with false by (symmetry; apply Z.eqb_neq; exact R).
  rewrite <- L, wmax_eq. cbn [bind]. rewrite cutoff_eq. reflexivity.
Qed.
Lemma new_shape r c : shape r c (newMatrix N r c).
Proof. split; [apply repeat_length|]. rewrite Forall_forall. intros q Hr. apply repeat_spec in Hr. subst q. apply repeat_length. Qed.
Lemma solve_ok m n a b x tol : (n <= m)%nat -> shape m n a -> cols a = n -> (m <= length b)%nat -> (n <= length x)%nat ->
  exists U W V x', svdcmp N a (newVector N n) (newMatrix N n n) = Ret (1%Z, U, W, V) /\
  shape m n U /\ length W = n /\ shape n n V /\ svbksb N U (map (cut (tol * maxof W)) W) V b x = Ret x' /\
  SOLVER_solve N a b x tol = Ret (0%Z, x') /\ length x' = length x.
Proof.
  intros L Ha C Hb Hx. pose proof (svdcmp_never_fails m n a (newVector N n) (newMatrix N n n) L Ha C (new_len n) (new_shape n n)) as H.
  apply wp_inv in H. destruct H as ([[[r U] W] V] & E & -> & HU & HW & HV).
  assert (HC : cols U = n).
  { destruct HU as [HU1 HU2]. destruct U as [|r U]; cbn [cols]; [|now inversion HU2]. cbn [length] in HU1. subst m.
    destruct Ha as [Ha _]. destruct a; [|discriminate]. exact C. }
  pose proof (svbksb_ok m n U (map (cut (tol * maxof W)) W) V b x HU HC) as S. rewrite map_length, HW in S.
  specialize (S (le_n n) HV Hb Hx). apply wp_inv in S. destruct S as (x' & S & LX). exists U, W, V, x'. fin.
  rewrite (solve_eq a b x tol 1 U W V); [now rewrite S|now rewrite C|discriminate|congruence].
Qed.
(** [m < n]: refused, the arguments untouched. *)
Lemma svdcmp_refuses (a : Mat) w v : (rows a < cols a)%nat -> svdcmp N a w v = Ret ((-1)%Z, a, w, v).
Proof. intros H. unfold svdcmp. apply Nat.ltb_lt in H. now rewrite H. Qed.
End WithNum.
