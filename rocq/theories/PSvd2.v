(** * The decomposition over the reals: reduction to bidiagonal form. *)
From Coq Require Import ZArith Reals Lra Lia List Bool.
From Flocq Require Import Core.Raux.
From Verif Require Import Num NumR MVec MSolver RTac RLin RSvd PSolver PSolver3 PSvd.
Import ListNotations.
Local Open Scope R_scope.

(** the bidiagonal matrix with diagonal w and superdiagonal e (e_q above the diagonal in column q) *)
Definition bid (w e : nat -> R) : nat -> nat -> R := fun p q => if Nat.eqb q p then w p else if Nat.eqb q (p + 1) then e q else 0.
(** the first i rows reduced, the rest of the matrix stored in a *)
Definition Lmat (i : nat) (a : nat -> nat -> R) (w e : nat -> R) : nat -> nat -> R :=
  fun p q => if Nat.ltb p i then bid w e p q else if Nat.ltb q i then 0 else a p q.
Definition hd (a : nat -> nat -> R) (w e : nat -> R) : hdata :=
  mkHD (fun r => betaw (a r r) (w r)) (fun r => mask r (fun k => a k r)) (fun r => betaw (a r (r + 1)%nat) (e (r + 1)%nat)) (fun r => mask (r + 1) (a r)).
Definition valid (m n : nat) (a : nat -> nat -> R) (w e : nat -> R) (r : nat) : Prop :=
  (w r <> 0 -> a r r <> 0 /\ dot m (mask r (fun k => a k r)) (mask r (fun k => a k r)) = -2 * (a r r * w r)) /\
  (e (r + 1)%nat <> 0 -> a r (r + 1)%nat <> 0 /\ dot n (mask (r + 1) (a r)) (mask (r + 1) (a r)) = -2 * (a r (r + 1)%nat * e (r + 1)%nat)).
Record hinv (m n : nat) (A : nat -> nat -> R) (i : nat) (a : nat -> nat -> R) (w e E : nat -> R) (sg : R) : Prop := mkHinv {
  hi_e : forall q, (q < i)%nat -> e q = E q;
  hi_g : sg = E i;
  hi_0 : E 0%nat = 0;
  hi_v : forall r, (r < i)%nat -> valid m n a w E r;
  hi_A : meq m n A (AB m n (hd a w E) i (Lmat i a w E));
  hi_n : i = n -> E n = 0 }.

Lemma valid_ext m n a w e a' w' e' r : w' r = w r -> e' (r + 1)%nat = e (r + 1)%nat -> (forall k, a' k r = a k r) -> (forall k, a' r k = a r k) ->
  valid m n a w e r -> valid m n a' w' e' r.
Proof.
  intros W E C1 C2 [P Q]. split; rewrite ?W, ?E, ?C1, ?C2; intros H; [destruct (P H) as [P1 P2]|destruct (Q H) as [P1 P2]]; (split; [exact P1|]);
  rewrite <- P2; apply dot_ext; intros k _; unfold mask; rewrite ?C1, ?C2; reflexivity.
Qed.
Lemma std_max_real x y : exists z, std_max RN (Some x) (Some y) = Some z.
Proof. unfold std_max. rn. destruct (Rlt_bool x y); eauto. Qed.

Lemma step_matrix m n i a a1 a2 w E W1 W2 : (i < n)%nat -> (n <= m)%nat ->
  (forall p q, (p < i \/ q < i)%nat -> a1 p q = a p q) ->
  reflects m i (fun k => a k i) (fun k => a1 k i) W1 ->
  (forall p q, (i <= p < m)%nat -> (i < q)%nat -> a p q = refl m (betaw (a1 i i) W1) (mask i (fun k => a1 k i)) (fun r => a1 r q) p) ->
  (forall p q, (p < i \/ q <= i)%nat -> a2 p q = a1 p q) ->
  ((i + 1 = n)%nat -> W2 = 0) ->
  ((i + 1 < n)%nat -> reflects n (i + 1) (a1 i) (a2 i) W2) ->
  (forall p q, (i < p)%nat -> (i < q < n)%nat -> a1 p q = refl n (betaw (a2 i (i + 1)%nat) W2) (mask (i + 1) (a2 i)) (a2 p) q) ->
  let w1 := updv w i W1 in let E1 := updv E (i + 1) W2 in
  meq m n (Lmat i a w E) (HL m (betaw (a2 i i) (w1 i)) (mask i (fun k => a2 k i)) (GR n (betaw (a2 i (i + 1)%nat) (E1 (i + 1)%nat)) (mask (i + 1) (a2 i)) (Lmat (i + 1) a2 w1 E1))).
Proof.
  intros Hi Hm K1 R1 C1 K2 Z2 R2 C2 w1 E1. unfold w1, E1. rewrite !updv_eq. fold w1 E1.
  set (X := fun p q => if Nat.ltb p i then bid w E p q else if Nat.ltb q i then 0 else if Nat.eqb q i then unit_at i W1 p else a1 p q).
  assert (HX : meq m n (GR n (betaw (a2 i (i + 1)%nat) W2) (mask (i + 1) (a2 i)) (Lmat (i + 1) a2 w1 E1)) X).
  { intros p q Hp Hq. unfold GR. destruct (lt_eq_lt_dec p i) as [[L|L]|L].
    - rewrite refl_zero.
      + unfold X, Lmat. rewrite (proj2 (Nat.ltb_lt p i) L), (proj2 (Nat.ltb_lt p (i + 1))) by lia. unfold bid, w1, E1, updv. nats; reflexivity.
      + intros k Hk Lk. unfold Lmat, bid. nats; reflexivity.
    - subst p. assert (EX : Lmat (i + 1) a2 w1 E1 i = bid w1 E1 i).
      { unfold Lmat. rewrite (proj2 (Nat.ltb_lt i (i + 1))) by lia. reflexivity. }
      rewrite EX. clear EX. unfold X. rewrite Nat.ltb_irrefl. destruct (le_lt_dec q i) as [Q|Q].
      + rewrite refl_lt by lia. unfold bid, w1, unit_at, updv. nats; reflexivity.
      + destruct R2 as [_ R2]; [lia|]. nats. rewrite (R2 q ltac:(lia)). apply refl_ext.
        * intros k Hk. destruct (le_lt_dec (i + 1) k) as [G|G]; [|rewrite !mask_lt by exact G; ring]. f_equal. unfold bid, unit_at, E1, updv. nats; reflexivity.
        * unfold bid, unit_at, E1, updv. nats; reflexivity.
    - unfold X. rewrite (proj2 (Nat.ltb_ge p i)) by lia. destruct (le_lt_dec q i) as [Q|Q].
      + rewrite refl_lt by lia. unfold Lmat, unit_at. nats; reflexivity.
      + nats. rewrite (C2 p q L ltac:(lia)). apply refl_ext.
        * intros k Hk. destruct (le_lt_dec (i + 1) k) as [G|G]; [|rewrite !mask_lt by exact G; ring]. f_equal. unfold Lmat. nats; reflexivity.
        * unfold Lmat. nats; reflexivity. }
  apply meq_sym. eapply meq_trans; [apply HL_ext; exact HX|]. intros p q Hp Hq. unfold HL.
  rewrite (K2 i i) by lia.
  rewrite (refl_ext_u m _ (mask i (fun k => a2 k i)) (mask i (fun k => a1 k i)) _ p); [|intros k _; apply mask_ext; intros; apply K2; lia|exact Hp].
  unfold Lmat. destruct (Nat.ltb_spec p i) as [L|L].
  - rewrite refl_lt by exact L. unfold X. now rewrite (proj2 (Nat.ltb_lt p i) L).
  - destruct (Nat.ltb_spec q i) as [Q|Q].
    + rewrite refl_zero; [unfold X; nats; reflexivity|]. intros k Hk Lk. unfold X. nats; reflexivity.
    + destruct (Nat.eq_dec q i) as [->|N].
      * destruct R1 as [_ R1]. rewrite (R1 p ltac:(lia)). apply refl_ext.
        -- intros k Hk. destruct (le_lt_dec i k) as [G|G]; [|rewrite !mask_lt by exact G; ring]. f_equal. unfold X. nats; reflexivity.
        -- unfold X. nats; reflexivity.
      * rewrite (C1 p q ltac:(lia) ltac:(lia)). apply refl_ext.
        -- intros k Hk. destruct (le_lt_dec i k) as [G|G]; [|rewrite !mask_lt by exact G; ring]. f_equal. unfold X. nats; reflexivity.
        -- unfold X. nats; reflexivity.
Qed.

Lemma hh_step_inv m n A i a w e E g s an : (i < n)%nat -> (n <= m)%nat -> hinv m n A i a w e E (s * g) ->
  exists a' w' e' E' g' s' an', hh_step RN m n i (mkHH RN (mat m n a) (vec n w) (vec n e) (Some g) (Some s) (Some an)) =
    Ret (mkHH RN (mat m n a') (vec n w') (vec n e') (Some g') (Some s') (Some an')) /\ hinv m n A (i + 1) a' w' e' E' (s' * g').
Proof.
  intros Hi Hm H. unfold hh_step. cbn [hh_a hh_w hh_rv1 hh_g hh_scale hh_anorm fmul RN rx2]. mg.
  destruct (hh_left_spec m n i a Hi Hm) as (a1 & g1 & S1 & Q1 & K1 & R1 & C1). rewrite Q1. cbn [bind fmul RN rx2]. mg.
  destruct (hh_right_spec m n i a1 (updv e i (s * g)) Hi Hm) as (a2 & e2 & g2 & S2 & Q2 & Ke & K2 & Z2 & R2 & C2). rewrite Q2. cbn [bind]. mg.
  cbn [ffabs fadd RN rx1 rx2]. match goal with |- context [std_max RN (Some ?x) (Some ?y)] => destruct (std_max_real x y) as [an' Ean] end. rewrite Ean.
  exists a2, (updv w i (S1 * g1)), e2, (updv E (i + 1) (S2 * g2)), g2, S2, an'. split; [reflexivity|].
  assert (KA : forall p q, (p < i \/ q < i)%nat -> a2 p q = a p q) by (intros p q Hpq; rewrite K2 by lia; apply K1, Hpq).
  destruct H as [H1 H2 H3 H4 H5 H6]. split.
  - intros q Hq. rewrite Ke by lia. rewrite (updv_neq E) by lia. destruct (Nat.eq_dec q i) as [->|N]; [now rewrite updv_eq|]. rewrite updv_neq by exact N. apply H1. lia.
  - now rewrite updv_eq.
  - rewrite updv_neq by lia. exact H3.
  - intros r Hr. destruct (Nat.eq_dec r i) as [->|N].
    + split.
      * intros W. rewrite updv_eq in *. destruct (proj1 R1 W) as [P Q]. rewrite !K2 by lia. split; [exact P|]. rewrite <- Q. apply dot_ext. intros k _.
        rewrite !(mask_ext i (fun k => a2 k i) (fun k => a1 k i)) by (intros; apply K2; lia). reflexivity.
      * intros W. rewrite updv_eq in *. destruct (Nat.eq_dec (i + 1) n) as [EN|NN]; [exfalso; apply W, Z2, EN|]. destruct (proj1 (R2 ltac:(lia)) W) as [P Q]. split; [exact P|exact Q].
    + apply (valid_ext m n a w E); [now rewrite updv_neq by lia|now rewrite updv_neq by lia|intros; apply KA; lia|intros; apply KA; lia|apply H4; lia].
  - eapply meq_trans; [exact H5|]. replace (i + 1)%nat with (S i) by lia. cbn [AB]. eapply meq_trans; [|apply AB_ext].
    + apply AB_agree with (h' := hd a2 (updv w i (S1 * g1)) (updv E (S i) (S2 * g2))). intros r Hr. cbn [hd hb hu gb gv].
      rewrite !KA, !updv_neq by lia. repeat split; try reflexivity; intros k Hk; apply mask_ext; intros; symmetry; apply KA; lia.
    + cbn [hd hb hu gb gv]. replace (S i) with (i + 1)%nat by lia. apply (step_matrix m n i a a1 a2 w E (S1 * g1) (S2 * g2)); assumption.
  - intros EN. rewrite <- EN. rewrite updv_eq. apply Z2. exact EN.
Qed.
(** A loop with an invariant, as a finished computation. *)
Lemma loop_ex {S} (I : nat -> S -> Prop) lo hi f s : (lo <= hi)%nat -> I lo s ->
  (forall k s, (lo <= k < hi)%nat -> I k s -> exists s', f k s = Ret s' /\ I (k + 1)%nat s') -> exists s', loop lo hi s f = Ret s' /\ I hi s'.
Proof.
  intros L HI H. unfold loop. remember (hi - lo)%nat as d eqn:D. revert lo s L HI H D. induction d as [|d IH]; intros lo s L HI H D.
  - replace hi with lo by lia. exists s. split; [reflexivity|exact HI].
  - cbn [seq foldM]. destruct (H lo s ltac:(lia) HI) as (s' & E & HI'). rewrite E. cbn [bind].
    replace (Datatypes.S lo) with (lo + 1)%nat by lia. apply IH; [lia|exact HI'| |lia]. intros k t Hk. apply H. lia.
Qed.
Lemma loop_down_ex {S} (I : nat -> S -> Prop) n f s : I n s ->
  (forall k s, (k < n)%nat -> I (k + 1)%nat s -> exists s', f k s = Ret s' /\ I k s') -> exists s', loop_down n s f = Ret s' /\ I 0%nat s'.
Proof.
  unfold loop_down. revert s. induction n as [|n IH]; intros s HI H; [exists s; split; [reflexivity|exact HI]|].
  rewrite seq_S, rev_app_distr. cbn [rev app foldM plus]. destruct (H n s ltac:(lia)) as (s' & E & HI'); [replace (n + 1)%nat with (Datatypes.S n) by lia; exact HI|].
  rewrite E. cbn [bind]. apply IH; [exact HI'|]. intros k t Hk. apply H. lia.
Qed.

Lemma householder_inv m n A w0 : (n <= m)%nat ->
  exists a w e E g s an, householder RN m n (mat m n A) (vec n w0) (newVector RN n) = Ret (mkHH RN (mat m n a) (vec n w) (vec n e) (Some g) (Some s) (Some an)) /\
    hinv m n A n a w e E (s * g).
Proof.
  intros Hm. unfold householder. rewrite lit00, vec0.
  destruct (loop_ex (fun i st => exists a w e E g s an, st = mkHH RN (mat m n a) (vec n w) (vec n e) (Some g) (Some s) (Some an) /\ hinv m n A i a w e E (s * g))
    0 n (hh_step RN m n) (mkHH RN (mat m n A) (vec n w0) (vec n (fun _ => 0)) (Some 0) (Some 0) (Some 0))) as (st & Q & a & w & e & E & g & s & an & -> & H).
  - lia.
  - exists A, w0, (fun _ => 0), (fun _ => 0), 0, 0, 0. split; [reflexivity|]. split; auto; try lia.
    + ring.
    + intros i j Hi Hj. cbn [AB]. unfold Lmat. nats. reflexivity.
  - intros i st Hi (a & w & e & E & g & s & an & -> & H).
    destruct (hh_step_inv m n A i a w e E g s an ltac:(lia) Hm H) as (a' & w' & e' & E' & g' & s' & an' & Q & H').
    exists (mkHH RN (mat m n a') (vec n w') (vec n e') (Some g') (Some s') (Some an')). split; [exact Q|].
    exists a', w', e', E', g', s', an'. split; [reflexivity|exact H'].
  - exists a, w, e, E, g, s, an. split; [exact Q|exact H].
Qed.
