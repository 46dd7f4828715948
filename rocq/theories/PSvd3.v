(** * The decomposition over the reals: accumulating the transformations. *)
From Coq Require Import ZArith Reals Lra Lia List Bool.
From Flocq Require Import Core.Raux.
From Verif Require Import Num NumR MVec MSolver RTac RLin RSvd PSolver PSolver3 PSvd PSvd2.
Import ListNotations.
Local Open Scope R_scope.

Definition ar (n i : nat) (a : nat -> nat -> R) (g : R) (X : nat -> nat -> R) : nat -> nat -> R := fun p q =>
  if Nat.eqb p i then (if Nat.eqb q i then 1 else if Nat.ltb i q then 0 else X p q)
  else if Nat.ltb i p then
    (if Nat.eqb q i then 0 else if Nat.ltb i q then (if Req_bool g 0 then X p q else X p q + rsum (i + 1) n (fun k => a i k * X k q) * (a i p / a i (i + 1)%nat / g)) else X p q)
  else X p q.
Lemma acc_right_step_eq m n i a e X : (i < n)%nat -> (n <= m)%nat -> ((i + 1 < n)%nat -> e (i + 1)%nat <> 0 -> a i (i + 1)%nat <> 0) ->
  acc_right_step RN n (mat m n a) (vec n e) i (mat n n X) = Ret (mat n n (ar n i a (e (i + 1)%nat) X)).
Proof.
  intros Hi Hm NZ. unfold acc_right_step. rewrite !lit00, lit1. set (l := (i + 1)%nat).
  destruct (Nat.ltb_spec i (n - 1)) as [L|L].
  2: { cbn [bind]. mg. f_equal. apply mat_ext. intros p q Hp Hq. unfold updm, updv, ar. nats; reflexivity. }
  mg. rewrite ftrueR. set (g := e l).
  set (Y := fun p q => if Req_bool g 0 then X p q else if Nat.ltb i p && Nat.ltb i q then X p q + rsum l n (fun k => a i k * X k q) * (a i p / a i l / g) else
    if Nat.ltb i p && Nat.eqb q i then a i p / a i l / g else X p q).
  match goal with |- context [bind (if ?b then ?A else ?B) _] => assert (E1 : (if b then A else B) = Ret (mat n n Y)) end.
  { unfold Y. destruct (Req_bool_spec g 0) as [G|G]; cbn [negb]; [reflexivity|].
    assert (D : a i l <> 0) by (apply NZ; [lia|exact G]).
    set (X1 := fun p q => if Nat.ltb i p && Nat.eqb q i then a i p / a i l / g else X p q).
    rewrite (loop_eq (fun j => mat n n (fun p q => if Nat.ltb i p && Nat.ltb p j && Nat.eqb q i then a i p / a i l / g else X p q)) l n); [|lia| |].
    2: { apply mat_ext. intros p q Hp Hq. nats; reflexivity. }
    2: { intros j Hj. mg. rewrite !divS by assumption. mg. f_equal. apply mat_ext. intros p q Hp Hq. unfold updm, updv. nats; subst; try reflexivity; lia. }
    cbn [bind]. rewrite (mat_ext n n _ X1).
    2: { intros p q Hp Hq. unfold X1. nats; reflexivity. }
    rewrite (loop_eq (fun j => mat n n (fun p q => if Nat.ltb i p && Nat.ltb i q && Nat.ltb q j then X p q + rsum l n (fun k => a i k * X k q) * (a i p / a i l / g) else X1 p q)) l n); [|lia| |].
    - f_equal. apply mat_ext. intros p q Hp Hq. unfold X1. nats; reflexivity.
    - apply mat_ext. intros p q Hp Hq. nats; reflexivity.
    - intros j Hj. rewrite (loop_sum0 l n _ (fun k => a i k * X k j)).
      2: { intros k t Hk. mg. f_equal. rn. do 3 f_equal; unfold X1; nats; reflexivity. }
      cbn [bind].
      rewrite (loop_eq (fun k => mat n n (fun p q => if Nat.ltb i p && Nat.ltb i q && (Nat.ltb q j || (Nat.eqb q j && Nat.ltb p k)) then X p q + rsum l n (fun k => a i k * X k q) * (a i p / a i l / g) else X1 p q)) l n); [|lia| |].
      + f_equal. apply mat_ext. intros p q Hp Hq. nats; subst; reflexivity.
      + apply mat_ext. intros p q Hp Hq. nats; subst; reflexivity.
      + intros k Hk. mg. rn. mg. f_equal. apply mat_ext. intros p q Hp Hq. unfold updm, updv, X1. nats; subst; try reflexivity; try lia. }
  rewrite E1. clear E1. cbn [bind].
  rewrite (loop_eq (fun j => mat n n (fun p q => if (Nat.eqb q i && Nat.ltb i p && Nat.ltb p j) || (Nat.eqb p i && Nat.ltb i q && Nat.ltb q j) then 0 else Y p q)) l n); [|lia| |].
  - mg. f_equal. apply mat_ext. intros p q Hp Hq. unfold updm, updv, ar, Y. fold l. destruct (Req_bool g 0); nats; subst; try reflexivity; lia.
  - apply mat_ext. intros p q Hp Hq. nats; subst; reflexivity.
  - intros j Hj. mg. f_equal. apply mat_ext. intros p q Hp Hq. unfold updm, updv. nats; subst; try reflexivity; lia.
Qed.

Definition blk (i : nat) (X : nat -> nat -> R) : nat -> nat -> R := fun p q => if Nat.ltb p i || Nat.ltb q i then delta p q else X p q.
Lemma ar_blk n i a e X : (i < n)%nat ->
  meq n n (HL n (betaw (a i (i + 1)%nat) (e (i + 1)%nat)) (mask (i + 1) (a i)) (blk (i + 1) X)) (blk i (ar n i a (e (i + 1)%nat) X)).
Proof.
  intros Hi p q Hp Hq. unfold HL. destruct (le_lt_dec q i) as [Q|Q].
  - rewrite refl_zero by (intros k Hk Lk; unfold blk, delta; nats; reflexivity).
    unfold blk, ar, delta. nats; subst; try reflexivity; lia.
  - destruct (le_lt_dec p i) as [P|P].
    + rewrite refl_lt by lia. unfold blk, ar, delta. nats; subst; try reflexivity; lia.
    + set (g := e (i + 1)%nat). unfold blk at 2. unfold ar. nats. unfold refl. rewrite mask_ge by lia.
      unfold blk at 1. nats. unfold betaw. destruct (Req_bool_spec g 0) as [G|G]; [ring|].
      rewrite (rsum_mask (i + 1) n (fun k => mask (i + 1) (a i) k * blk (i + 1) X k q)).
      * unfold dot. unfold Rdiv. rewrite Rinv_mult. ring.
      * lia.
      * intros k Hk. rewrite mask_lt by lia. ring.
      * intros k Hk. rewrite mask_ge by lia. unfold blk. nats. reflexivity.
Qed.
Lemma acc_right_spec m n a e X : (n <= m)%nat -> (forall r, (r < n)%nat -> e (r + 1)%nat <> 0 -> a r (r + 1)%nat <> 0) -> e n = 0 ->
  exists V, acc_right RN n (mat m n a) (vec n e) (mat n n X) = Ret (mat n n V) /\
    meq n n V (accL n (fun r => betaw (a r (r + 1)%nat) (e (r + 1)%nat)) (fun r => mask (r + 1) (a r)) n delta).
Proof.
  intros Hm NZ E0. set (b := fun r => betaw (a r (r + 1)%nat) (e (r + 1)%nat)). set (u := fun r => mask (r + 1) (a r)).
  destruct (loop_down_ex (fun i st => exists Y, st = mat n n Y /\ meq n n (accL n b u n delta) (accL n b u i (blk i Y))) n
    (acc_right_step RN n (mat m n a) (vec n e)) (mat n n X)) as (st & Q & V & -> & H).
  - exists X. split; [reflexivity|]. apply accL_ext. intros p q Hp Hq. unfold blk. nats. reflexivity.
  - intros i st Hi (Y & -> & H). rewrite acc_right_step_eq; [|exact Hi|exact Hm|intros _; apply NZ; exact Hi]. eexists. split; [reflexivity|]. eexists. split; [reflexivity|].
    eapply meq_trans; [exact H|]. replace (i + 1)%nat with (S i) at 1 by lia. cbn [accL]. apply accL_ext. unfold b, u. apply ar_blk. exact Hi.
  - exists V. split; [exact Q|]. apply meq_sym. eapply meq_trans; [exact H|]. intros p q Hp Hq. unfold blk. nats. reflexivity.
Qed.

Definition al (m i : nat) (g : R) (X : nat -> nat -> R) : nat -> nat -> R := fun p q =>
  if Nat.ltb p i || Nat.ltb q i then X p q
  else if Nat.eqb q i then delta p i + (if Req_bool g 0 then 0 else X p i * (1 / g))
  else (if Nat.eqb p i then 0 else X p q) + (if Req_bool g 0 then 0 else rsum (i + 1) m (fun k => X k i * X k q) / X i i * (1 / g) * X p i).
Lemma acc_left_step_eq m n i w X : (i < n)%nat -> (n <= m)%nat -> (w i <> 0 -> X i i <> 0) ->
  acc_left_step RN m n (vec n w) i (mat m n X) = Ret (mat m n (al m i (w i) X)).
Proof.
  intros Hi Hm NZ. unfold acc_left_step. rewrite !lit00, lit1. set (l := (i + 1)%nat). mg. set (g := w i).
  set (X1 := fun p q => if Nat.eqb p i && Nat.ltb i q then 0 else X p q).
  match goal with |- context [bind (if Nat.ltb i (n - 1) then ?A else ?B) _] => assert (E1 : (if Nat.ltb i (n - 1) then A else B) = Ret (mat m n X1)) end.
  { destruct (Nat.ltb_spec i (n - 1)) as [L|L].
    - rewrite (loop_eq (fun j => mat m n (fun p q => if Nat.eqb p i && Nat.ltb i q && Nat.ltb q j then 0 else X p q)) l n); [|lia| |].
      + f_equal. apply mat_ext. intros p q Hp Hq. unfold X1. nats; reflexivity.
      + apply mat_ext. intros p q Hp Hq. nats; reflexivity.
      + intros j Hj. mg. f_equal. apply mat_ext. intros p q Hp Hq. unfold updm, updv. nats; subst; try reflexivity; lia.
    - f_equal. apply mat_ext. intros p q Hp Hq. unfold X1. nats; reflexivity. }
  rewrite E1. clear E1. cbn [bind]. rewrite ftrueR.
  set (X2 := fun p q => if Nat.ltb p i || Nat.ltb q i then X p q else if Nat.eqb q i then (if Req_bool g 0 then 0 else X p i * (1 / g))
    else (if Nat.eqb p i then 0 else X p q) + (if Req_bool g 0 then 0 else rsum (i + 1) m (fun k => X k i * X k q) / X i i * (1 / g) * X p i)).
  match goal with |- context [bind (if negb (Req_bool g 0) then ?A else ?B) _] => assert (E1 : (if negb (Req_bool g 0) then A else B) = Ret (mat m n X2)) end.
  { unfold X2. destruct (Req_bool_spec g 0) as [G|G]; cbn [negb].
    - rewrite (loop_eq (fun j => mat m n (fun p q => if Nat.eqb q i && Nat.leb i p && Nat.ltb p j then 0 else X1 p q)) i m); [|lia| |].
      + f_equal. apply mat_ext. intros p q Hp Hq. unfold X1. nats; subst; try lia; ring.
      + apply mat_ext. intros p q Hp Hq. nats; reflexivity.
      + intros j Hj. mg. f_equal. apply mat_ext. intros p q Hp Hq. unfold updm, updv. nats; subst; try reflexivity; lia.
    - assert (D : X i i <> 0) by exact (NZ G). rewrite divS by exact G.
      set (X3 := fun p q => if Nat.ltb i q && Nat.leb i p then (if Nat.eqb p i then 0 else X p q) + rsum l m (fun k => X k i * X k q) / X i i * (1 / g) * X p i else X p q).
      match goal with |- context [bind (if Nat.eqb i (n - 1) then ?A else ?B) _] => assert (E1 : (if Nat.eqb i (n - 1) then A else B) = Ret (mat m n X3)) end.
      { destruct (Nat.eqb_spec i (n - 1)) as [L|L].
        - f_equal. apply mat_ext. intros p q Hp Hq. unfold X3, X1. nats; reflexivity.
        - rewrite (loop_eq (fun j => mat m n (fun p q => if Nat.ltb i q && Nat.ltb q j then X3 p q else X1 p q)) l n); [|lia| |].
          + f_equal. apply mat_ext. intros p q Hp Hq. unfold X3, X1. nats; reflexivity.
          + apply mat_ext. intros p q Hp Hq. nats; reflexivity.
          + intros j Hj. rewrite (loop_sum0 l m _ (fun k => X k i * X k j)).
            2: { intros k t Hk. mg. f_equal. rn. do 3 f_equal; unfold X1; nats; reflexivity. }
            mg. nats. rewrite divS by (unfold X1; nats; exact D). cbn [fmul RN rx2].
            rewrite (loop_eq (fun k => mat m n (fun p q => if Nat.ltb i q && (Nat.ltb q j || (Nat.eqb q j && Nat.leb i p && Nat.ltb p k)) then X3 p q else X1 p q)) i m); [|lia| |].
            * f_equal. apply mat_ext. intros p q Hp Hq. unfold X3, X1. nats; subst; try reflexivity; lia.
            * apply mat_ext. intros p q Hp Hq. nats; subst; reflexivity.
            * intros k Hk. mg. rn. mg. f_equal. apply mat_ext. intros p q Hp Hq. unfold updm, updv, X3, X1. nats; subst; try reflexivity; try lia. }
      rewrite E1. clear E1. cbn [bind].
      rewrite (loop_eq (fun j => mat m n (fun p q => if Nat.eqb q i && Nat.leb i p && Nat.ltb p j then X p i * (1 / g) else X3 p q)) i m); [|lia| |].
      + f_equal. apply mat_ext. intros p q Hp Hq. unfold X3. fold l. nats; subst; try reflexivity; lia.
      + apply mat_ext. intros p q Hp Hq. nats; reflexivity.
      + intros j Hj. mg. rn. mg. f_equal. apply mat_ext. intros p q Hp Hq. unfold updm, updv, X3. nats; subst; try reflexivity; lia. }
  rewrite E1. clear E1. mg. rn. mg. f_equal. apply mat_ext. intros p q Hp Hq. unfold updm, updv, al, X2, delta. nats; subst; try lia; ring.
Qed.
Lemma al_blk m n i a w X : (i < n)%nat -> (n <= m)%nat -> (forall p, X p i = a p i) -> (w i <> 0 -> a i i <> 0) ->
  meq m n (HL m (betaw (a i i) (w i)) (mask i (fun k => a k i)) (blk (i + 1) X)) (blk i (al m i (w i) X)).
Proof.
  intros Hi Hm Col NZ p q Hp Hq. unfold HL. destruct (lt_eq_lt_dec q i) as [[Q|Q]|Q].
  - rewrite refl_zero by (intros k Hk Lk; unfold blk, delta; nats; reflexivity).
    unfold blk, delta. nats; subst; try reflexivity; lia.
  - subst q. destruct (le_lt_dec i p) as [P|P]; [|rewrite refl_lt by lia; unfold blk; nats; reflexivity].
    unfold blk at 2. unfold al. nats. unfold refl. rewrite mask_ge by lia. replace (blk (i + 1) X p i) with (delta p i) by (unfold blk; nats; reflexivity). rewrite Col.
    unfold betaw. destruct (Req_bool_spec (w i) 0) as [G|G]; [ring|]. unfold dot.
    rewrite (bsum_one m _ i ltac:(lia)).
    + rewrite mask_ge by lia. unfold blk. nats. rewrite delta_eq. field. split; [exact G|apply NZ, G].
    + intros k Hk N. unfold blk, delta. nats; ring.
  - destruct (le_lt_dec i p) as [P|P]; [|rewrite refl_lt by lia; unfold blk; nats; reflexivity].
    unfold blk at 2. unfold al. nats; unfold refl; rewrite mask_ge by lia; unfold blk at 1; nats; rewrite ?delta_neq by lia; unfold betaw;
    (destruct (Req_bool_spec (w i) 0) as [G|G]; [ring|]); rewrite !Col;
    (rewrite (rsum_mask (i + 1) m (fun k => mask i (fun k => a k i) k * blk (i + 1) X k q));
     [unfold dot, Rdiv; rewrite Rinv_mult; ring|lia| |]).
    + intros k Hk. unfold blk. nats. rewrite delta_neq by lia. ring.
    + intros k Hk. rewrite mask_ge by lia. unfold blk. nats. now rewrite Col.
    + intros k Hk. unfold blk. nats. rewrite delta_neq by lia. ring.
    + intros k Hk. rewrite mask_ge by lia. unfold blk. nats. now rewrite Col.
Qed.
Lemma acc_left_spec m n a w : (n <= m)%nat -> (forall r, (r < n)%nat -> w r <> 0 -> a r r <> 0) ->
  exists U, acc_left RN m n (vec n w) (mat m n a) = Ret (mat m n U) /\
    meq m n U (accL m (fun r => betaw (a r r) (w r)) (fun r => mask r (fun k => a k r)) n delta).
Proof.
  intros Hm NZ. set (b := fun r => betaw (a r r) (w r)). set (u := fun r => mask r (fun k => a k r)).
  destruct (loop_down_ex (fun i st => exists Y, st = mat m n Y /\ (forall p q, (q < i)%nat -> Y p q = a p q) /\ meq m n (accL m b u n delta) (accL m b u i (blk i Y))) n
    (acc_left_step RN m n (vec n w)) (mat m n a)) as (st & Q & V & -> & _ & H).
  - exists a. split; [reflexivity|]. split; [reflexivity|]. apply accL_ext. intros p q Hp Hq. unfold blk. nats; reflexivity.
  - intros i st Hi (Y & -> & K & H). rewrite acc_left_step_eq; [|exact Hi|exact Hm|rewrite K by lia; apply NZ; exact Hi]. eexists. split; [reflexivity|]. eexists. split; [reflexivity|].
    split; [intros p q Hq; unfold al; nats; apply K; lia|].
    eapply meq_trans; [exact H|]. replace (i + 1)%nat with (S i) at 1 by lia. cbn [accL]. apply accL_ext. unfold b, u. apply al_blk; [exact Hi|exact Hm|intros; apply K; lia|apply NZ, Hi].
  - exists V. split; [exact Q|]. apply meq_sym. eapply meq_trans; [exact H|]. intros p q Hp Hq. unfold blk. nats. reflexivity.
Qed.

Lemma bid_prod m n w e : (n <= m)%nat -> meq m n (Lmat n (fun _ _ => 0) w e) (prod3 n delta (bid w e) delta).
Proof.
  intros Hm p q Hp Hq. unfold prod3, Lmat. destruct (Nat.ltb_spec p n) as [P|P].
  - rewrite (bsum_one n _ p P).
    + rewrite (bsum_one n _ q Hq); [rewrite !delta_eq; ring|]. intros j _ N. rewrite (delta_neq q j) by auto. ring.
    + intros i _ N. apply bsum_zero. intros j _. rewrite (delta_neq p i) by auto. ring.
  - nats. symmetry. apply bsum_zero. intros i Hi. apply bsum_zero. intros j _. rewrite (delta_neq p i) by lia. ring.
Qed.
Lemma valid_left_ok m n a w e r : valid m n a w e r -> refl_ok m (betaw (a r r) (w r)) (mask r (fun k => a k r)).
Proof.
  intros [H _]. unfold refl_ok, betaw. destruct (Req_bool_spec (w r) 0) as [G|G]; [ring|]. destruct (H G) as [P Q]. rewrite Q. field. auto.
Qed.
Lemma valid_right_ok m n a w e r : valid m n a w e r -> refl_ok n (betaw (a r (r + 1)%nat) (e (r + 1)%nat)) (mask (r + 1) (a r)).
Proof.
  intros [_ H]. unfold refl_ok, betaw. destruct (Req_bool_spec (e (r + 1)%nat) 0) as [G|G]; [ring|]. destruct (H G) as [P Q]. rewrite Q. field. auto.
Qed.
(** ** The first three phases: A = U B V' with U, V orthonormal and B bidiagonal. *)
Lemma bidiagonal m n A w0 X : (n <= m)%nat ->
  exists a w e an U V g s, householder RN m n (mat m n A) (vec n w0) (newVector RN n) = Ret (mkHH RN (mat m n a) (vec n w) (vec n e) (Some g) (Some s) (Some an)) /\
    acc_right RN n (mat m n a) (vec n e) (mat n n X) = Ret (mat n n V) /\ acc_left RN m n (vec n w) (mat m n a) = Ret (mat m n U) /\
    orthonormal m n U /\ orthonormal n n V /\ meq m n A (prod3 n U (bid w e) V) /\ e 0%nat = 0 /\
    exists b u, meq n n V (accL n b u n delta) /\ (forall r, e (r + 1)%nat = 0 -> b r = 0) /\ (forall r k, (k <= r)%nat -> u r k = 0).
Proof.
  intros Hm. destruct (householder_inv m n A w0 Hm) as (a & w & e & E & g & s & an & Q & H).
  assert (Ee : vec n e = vec n E) by (apply vec_ext; intros; apply (hi_e _ _ _ _ _ _ _ _ _ H); assumption).
  destruct (acc_right_spec m n a E X Hm) as (V & QV & HV).
  { intros r Hr Nr. exact (proj1 (proj2 (hi_v _ _ _ _ _ _ _ _ _ H r Hr) Nr)). }
  { apply (hi_n _ _ _ _ _ _ _ _ _ H). reflexivity. }
  destruct (acc_left_spec m n a w Hm) as (U & QU & HU).
  { intros r Hr Nr. exact (proj1 (proj1 (hi_v _ _ _ _ _ _ _ _ _ H r Hr) Nr)). }
  exists a, w, E, an, U, V, g, s. rewrite Q, Ee. split; [reflexivity|]. split; [exact QV|]. split; [exact QU|]. split; [|split; [|split; [|split]]].
  - eapply ortho_ext; [apply meq_sym, HU|]. apply accL_ortho; [|apply delta_ortho, Hm]. intros r Hr. apply (valid_left_ok m n a w E), (hi_v _ _ _ _ _ _ _ _ _ H r Hr).
  - eapply ortho_ext; [apply meq_sym, HV|]. apply accL_ortho; [|apply delta_ortho; lia]. intros r Hr. apply (valid_right_ok m n a w E), (hi_v _ _ _ _ _ _ _ _ _ H r Hr).
  - eapply meq_trans; [exact (hi_A _ _ _ _ _ _ _ _ _ H)|]. eapply meq_trans.
    + apply AB_ext. intros p q Hp Hq. transitivity (Lmat n (fun _ _ => 0) w E p q); [|apply (bid_prod m n w E Hm p q Hp Hq)]. unfold Lmat. nats; reflexivity.
    + eapply meq_trans; [apply AB_prod|]. apply prod3_ext; [apply meq_sym, HU|intros ? ? _ _; reflexivity|apply meq_sym, HV].
  - apply (hi_0 _ _ _ _ _ _ _ _ _ H).
  - exists (fun r => betaw (a r (r + 1)%nat) (E (r + 1)%nat)), (fun r => mask (r + 1) (a r)). split; [exact HV|]. split; [intros r ->; apply betaw_0|]. intros r k Hk. apply mask_lt. lia.
Qed.
