(** * The decomposition over the reals: each loop as a function of matrices. *)
From Coq Require Import ZArith Reals Lra Lia List Bool.
From Flocq Require Import Core.Raux.
From Verif Require Import Num NumR MVec MSolver RTac RLin RSvd PSolver3.
Import ListNotations.
Local Open Scope R_scope.

Ltac nats := repeat (match goal with
  | |- context [Nat.eqb ?a ?b] => destruct (Nat.eqb_spec a b)
  | |- context [Nat.leb ?a ?b] => destruct (Nat.leb_spec a b)
  | |- context [Nat.ltb ?a ?b] => destruct (Nat.ltb_spec a b)
  end; try lia; cbn [andb orb negb]).
(** read and write entries *)
Ltac mg := repeat first [rewrite mget_mat by lia | rewrite vget_vec by lia | rewrite mset_mat by lia | rewrite vset_vec by lia | progress cbn [bind]].

Lemma sqrt_scale a b : 0 < a -> a * sqrt (1 + (b / a) * (b / a)) = sqrt (a * a + b * b).
Proof.
  intros H. rewrite <- (sqrt_square a) at 1 by lra. rewrite <- sqrt_mult_alt by nra. f_equal. field. lra.
Qed.
Lemma PYTHAG_real a b : PYTHAG RN (Some a) (Some b) = Some (sqrt (a * a + b * b)).
Proof.
  unfold PYTHAG. replace (a * a + b * b) with (Rabs a * Rabs a + Rabs b * Rabs b) by (rewrite <- !Rabs_mult, !Rabs_pos_eq by nra; reflexivity).
  rn. set (x := Rabs a). set (y := Rabs b). assert (0 <= x /\ 0 <= y) as [Hx Hy] by (split; apply Rabs_pos).
  destruct (Rlt_bool_spec y x) as [L|L].
  - rewrite rdiv_ok by lra. rn. unfold rx_sqrt. replace (10 / 10) with 1 by lra. rewrite Rlt_bool_false by nra. rn. now rewrite sqrt_scale by lra.
  - replace (0 / 10) with 0 by lra. destruct (Rlt_bool_spec 0 y) as [P|P].
    + rewrite rdiv_ok by lra. rn. unfold rx_sqrt. replace (10 / 10) with 1 by lra. rewrite Rlt_bool_false by nra. rn.
      rewrite sqrt_scale by lra. do 2 f_equal. ring.
    + f_equal. replace x with 0 by lra. replace y with 0 by lra. rewrite Rmult_0_l, Rplus_0_l, sqrt_0. reflexivity.
Qed.
Definition dsign (a b : R) : R := if Rlt_bool 0 b then Rabs a else - Rabs a.
Lemma DSIGN_real a b : DSIGN RN (Some a) (Some b) = Some (dsign a b).
Proof. unfold DSIGN, dsign. rn. destruct (Rlt_bool 0 b); reflexivity. Qed.

Lemma rotate_real m n r p q c s X : (r <= m)%nat -> (p < n)%nat -> (q < n)%nat -> p <> q ->
  rotate RN r p q (Some c) (Some s) (mat m n X) = Ret (mat m n (fun i j => if Nat.ltb i r then rot p q c s X i j else X i j)).
Proof.
  intros Hr Hp Hq N. unfold rotate.
  rewrite (loop_eq (fun k => mat m n (fun i j => if Nat.ltb i k then rot p q c s X i j else X i j)) 0 r); [reflexivity|lia| |].
  - apply mat_ext. intros i j Hi Hj. reflexivity.
  - intros k Hk. mg. rn. mg. f_equal. apply mat_ext. intros i j Hi Hj. unfold updm, updv, rot. nats; subst; try reflexivity; try lia.
Qed.
Lemma rotate_full m n p q c s X : (p < n)%nat -> (q < n)%nat -> p <> q ->
  rotate RN m p q (Some c) (Some s) (mat m n X) = Ret (mat m n (rot p q c s X)).
Proof.
  intros Hp Hq N. rewrite rotate_real by auto. f_equal. apply mat_ext. intros i j Hi Hj. now rewrite (proj2 (Nat.ltb_lt i m) Hi).
Qed.

Lemma rsum_S lo k f : (lo <= k)%nat -> rsum lo (k + 1) f = rsum lo k f + f k.
Proof. intros H. unfold rsum. replace (k + 1 - lo)%nat with (S (k - lo)) by lia. cbn [bsum]. now replace (lo + (k - lo))%nat with k by lia. Qed.
Lemma rsum_nil lo f : rsum lo lo f = 0.
Proof. unfold rsum. now rewrite Nat.sub_diag. Qed.
Lemma rsum_nonneg lo hi f : (forall k, (lo <= k < hi)%nat -> 0 <= f k) -> 0 <= rsum lo hi f.
Proof. intros H. apply bsum_nonneg. intros i Hi. apply H. lia. Qed.
Lemma rsum_ext lo hi f g : (forall k, (lo <= k < hi)%nat -> f k = g k) -> rsum lo hi f = rsum lo hi g.
Proof. intros H. apply bsum_ext. intros i Hi. apply H. lia. Qed.
Lemma rsum_zero_inv lo hi f : (forall k, (lo <= k < hi)%nat -> 0 <= f k) -> rsum lo hi f = 0 -> forall k, (lo <= k < hi)%nat -> f k = 0.
Proof.
  intros H E k Hk. replace k with (lo + (k - lo))%nat by lia. apply (bsum_zero_inv (hi - lo) (fun i => f (lo + i)%nat)); [|exact E|lia].
  intros i Hi. apply H. lia.
Qed.
Lemma rsum_mask lo n f u : (lo <= n)%nat -> (forall k, (k < lo)%nat -> f k = 0) -> (forall k, (lo <= k < n)%nat -> f k = u k) -> rsum lo n u = bsum n f.
Proof.
  intros H Z E. rewrite (bsum_split lo n f H), (bsum_zero lo f) by (intros; now apply Z). unfold rsum.
  rewrite (bsum_ext (n - lo) _ (fun i => f (lo + i)%nat)); [ring|]. intros i Hi. symmetry. apply E. lia.
Qed.

(** ** The left-hand reduction. *)
Definition betaw (d w : R) : R := if Req_bool w 0 then 0 else / (d * w).
Definition unit_at (i : nat) (x : R) : nat -> R := fun k => if Nat.eqb k i then x else 0.
(** the vector x, from index i on, is mapped to W times the i-th unit vector by the
    reflection given by u and d = u_i W *)
Definition reflects (n i : nat) (x u : nat -> R) (W : R) : Prop :=
  (W <> 0 -> u i <> 0 /\ dot n (mask i u) (mask i u) = -2 * (u i * W)) /\
  (forall k, (i <= k < n)%nat -> x k = refl n (betaw (u i) W) (mask i u) (unit_at i W) k).

Section Reflection.
Context (n i : nat) (x : nat -> R).
Hypothesis Hi : (i < n)%nat.
Let S := rsum i n (fun k => Rabs (x k)).
Let s := rsum i n (fun k => sq (x k / S)).
Let f := x i / S.
Let g := - dsign (sqrt s) f.
Let h := f * g - s.
Let u := fun k => if Nat.eqb k i then f - g else x k / S.
Hypothesis HS : S <> 0.

Lemma S_pos : 0 < S.
Proof. assert (0 <= S) by (apply rsum_nonneg; intros; apply Rabs_pos). lra. Qed.
Lemma s_pos : 0 < s.
Proof.
  assert (P : 0 <= s) by (apply rsum_nonneg; intros; unfold sq; nra). destruct (Req_dec s 0) as [E|E]; [|lra]. exfalso. apply HS.
  assert (Z : forall k, (i <= k < n)%nat -> x k = 0).
  { intros k Hk. pose proof (rsum_zero_inv i n (fun k => sq (x k / S)) ltac:(intros; unfold sq; nra) E k Hk) as Q. cbv beta in Q. unfold sq in Q.
    assert (D : x k / S = 0) by nra. apply (Rmult_eq_compat_r S) in D. unfold Rdiv in D. rewrite Rmult_assoc, Rinv_l in D by exact HS. lra. }
  unfold S. rewrite (rsum_ext i n _ (fun _ => 0)) by (intros k Hk; now rewrite Z, Rabs_R0). unfold rsum. apply bsum_0.
Qed.
Lemma g_sq : g * g = s.
Proof.
  unfold g, dsign. pose proof s_pos. pose proof (sqrt_pos s). rewrite (Rabs_pos_eq (sqrt s)) by assumption.
  pose proof (sqrt_sqrt s ltac:(lra)). destruct (Rlt_bool 0 f); lra.
Qed.
Lemma fg_nonpos : f * g <= 0.
Proof.
  unfold g, dsign. pose proof (sqrt_pos s). rewrite (Rabs_pos_eq (sqrt s)) by assumption. destruct (Rlt_bool_spec 0 f); nra.
Qed.
Lemma h_neg : h < 0.
Proof. unfold h. pose proof fg_nonpos. pose proof s_pos. lra. Qed.
Lemma u_i : u i <> 0.
Proof. unfold u. rewrite Nat.eqb_refl. pose proof g_sq. pose proof h_neg as H1. unfold h in H1. intros E. assert (f = g) by lra. assert (f * g = s) by (rewrite H0; exact H). lra. Qed.
Lemma W_nz : S * g <> 0.
Proof. pose proof g_sq. pose proof s_pos. pose proof S_pos. intros E. apply Rmult_integral in E. destruct E as [E|E]; [lra|]. rewrite E in H. lra. Qed.
Lemma u_norm : rsum i n (fun k => sq (u k)) = - 2 * h.
Proof.
  assert (E : rsum i n (fun k => sq (u k)) = s + (sq (f - g) - sq f)).
  { unfold s, rsum. rewrite (bsum_split 1 (n - i)) by lia. rewrite (bsum_split 1 (n - i) (fun k => sq (x (i + k)%nat / S))) by lia. cbn [bsum].
    rewrite Nat.add_0_r. unfold u at 1. rewrite Nat.eqb_refl.
    rewrite (bsum_ext _ (fun k => sq (u (i + (1 + k))%nat)) (fun k => sq (x (i + (1 + k))%nat / S))).
    - unfold f. ring.
    - intros k Hk. unfold u. now rewrite (proj2 (Nat.eqb_neq (i + (1 + k)) i)) by lia. }
  rewrite E. unfold h. pose proof g_sq. unfold sq. nra.
Qed.
(** the scaled vector, as stored *)
Let us := fun k => u k * S.
Lemma us_W : us i * (S * g) = S * S * h.
Proof. unfold us, u. rewrite Nat.eqb_refl. unfold h. pose proof g_sq. nra. Qed.
Lemma us_dot y : dot n (mask i us) y = S * rsum i n (fun k => u k * y k).
Proof.
  rewrite (rsum_mask i n (fun k => mask i u k * y k)).
  - unfold dot. rewrite <- bsum_scal. apply bsum_ext. intros k Hk. unfold mask, us. destruct (Nat.leb i k); ring.
  - lia.
  - intros k Hk. rewrite mask_lt by exact Hk. ring.
  - intros k Hk. rewrite mask_ge by lia. reflexivity.
Qed.
Lemma us_norm : dot n (mask i us) (mask i us) = -2 * (us i * (S * g)).
Proof.
  rewrite us_W, us_dot. rewrite (rsum_ext i n _ (fun k => S * sq (u k))).
  - unfold rsum. rewrite bsum_scal. change (bsum (n - i) (fun k => sq (u (i + k)%nat))) with (rsum i n (fun k => sq (u k))). rewrite u_norm. ring.
  - intros k Hk. rewrite mask_ge by lia. unfold us, sq. ring.
Qed.
Lemma us_beta : betaw (us i) (S * g) = / (S * S * h).
Proof. unfold betaw. rewrite Req_bool_false by exact W_nz. now rewrite us_W. Qed.
Lemma us_refl_ok : refl_ok n (betaw (us i) (S * g)) (mask i us).
Proof. unfold refl_ok. rewrite us_beta, us_norm, us_W. pose proof h_neg. pose proof S_pos. field. split; lra. Qed.
(** what the code computes on another column *)
Lemma us_apply y k : (i <= k)%nat -> y k + rsum i n (fun r => u r * y r) / h * u k = refl n (betaw (us i) (S * g)) (mask i us) y k.
Proof.
  intros Hk. unfold refl. rewrite us_beta, us_dot, mask_ge by exact Hk. unfold us. pose proof h_neg. pose proof S_pos. field. split; lra.
Qed.
Lemma us_reflects : reflects n i x us (S * g).
Proof.
  split.
  - intros _. split; [|exact us_norm]. unfold us. pose proof u_i. pose proof S_pos. intros E. apply Rmult_integral in E. destruct E; [auto|lra].
  - intros k Hk. unfold refl. assert (D : dot n (mask i us) (unit_at i (S * g)) = us i * (S * g)).
    { unfold dot. rewrite (bsum_one n _ i Hi); [unfold unit_at; rewrite Nat.eqb_refl, mask_ge by lia; reflexivity|].
      intros r _ N. unfold unit_at. rewrite (proj2 (Nat.eqb_neq r i) N). ring. }
    rewrite D, us_beta, us_W, mask_ge by lia. pose proof h_neg. pose proof S_pos. unfold unit_at, us, u.
    destruct (Nat.eqb_spec k i) as [->|N]; [unfold f|]; field; split; lra.
Qed.
End Reflection.

Lemma lit1 : @flit RN 1.0 = Some 1.
Proof. cbn. f_equal. qn. lra. Qed.
Lemma ftrue_0 : @ftrue RN (Some 0) = false.
Proof. rewrite ftrueR. now rewrite Req_bool_true. Qed.
Lemma ftrue_nz x : x <> 0 -> @ftrue RN (Some x) = true.
Proof. intros H. rewrite ftrueR. now rewrite Req_bool_false. Qed.
Lemma divS x y : y <> 0 -> @fdiv RN (Some x) (Some y) = Some (x / y).
Proof. intros H. rn. now apply rdiv_ok. Qed.
Lemma loop_sum0 lo hi f (g : nat -> R) :
  (forall k s, (lo <= k < hi)%nat -> f k (Some s) = Ret (Some (s + g k))) -> loop lo hi (Some 0 : F RN) f = Ret (Some (rsum lo hi g)).
Proof. intros H. rewrite (loop_sum lo hi 0 f g H). now rewrite Rplus_0_l. Qed.

(** the matrix after the left-hand reduction at step i *)
Definition hl (m i : nat) (a : nat -> nat -> R) : nat -> nat -> R :=
  let x := fun k => a k i in
  let S := rsum i m (fun k => Rabs (x k)) in
  let s := rsum i m (fun k => sq (x k / S)) in
  let f := x i / S in
  let g := - dsign (sqrt s) f in
  let h := f * g - s in
  let u := fun k => if Nat.eqb k i then f - g else x k / S in
  fun p q => if Nat.ltb p i || Nat.ltb q i then a p q
             else if Nat.eqb q i then u p * S
             else a p q + rsum i m (fun k => u k * a k q) / h * u p.
Lemma hh_left_eq m n i a : (i < n)%nat -> (n <= m)%nat ->
  let x := fun k => a k i in
  let S := rsum i m (fun k => Rabs (x k)) in
  let s := rsum i m (fun k => sq (x k / S)) in
  let f := x i / S in
  let g := - dsign (sqrt s) f in
  hh_left RN m n i (mat m n a) = if Req_bool S 0 then Ret (mat m n a, Some 0, Some 0) else Ret (mat m n (hl m i a), Some g, Some S).
Proof.
  intros Hi Hm x S s f g. unfold hh_left. rewrite (proj2 (Nat.ltb_lt i m)) by lia. cbn [negb]. rewrite !lit00.
  rewrite (loop_sum0 i m _ (fun k => Rabs (x k))) by (intros k t Hk; mg; reflexivity). cbn [bind]. fold S. rewrite ftrueR, negb_involutive.
  destruct (Req_bool_spec S 0) as [E|NZ]; [rewrite E; reflexivity|].
  rewrite (loop_eq (fun k => (mat m n (fun p q => if Nat.eqb q i && Nat.leb i p && Nat.ltb p k then a p q / S else a p q), Some (rsum i k (fun k => sq (x k / S))))) i m); [|lia| |].
  2: { f_equal; [|now rewrite rsum_nil]. apply mat_ext. intros p q Hp Hq. nats; reflexivity. }
  2: { intros k Hk. mg. rewrite Nat.eqb_refl. rewrite (proj2 (Nat.leb_le i k)) by lia. rewrite Nat.ltb_irrefl. cbn [andb]. rewrite divS by exact NZ. mg. f_equal. f_equal.
    - apply mat_ext. intros p q Hp Hq. unfold updm, updv. nats; subst; try reflexivity; lia.
    - rewrite rsum_S by lia. unfold updm. rewrite !Nat.eqb_refl, updv_eq. reflexivity. }
  cbn [bind]. fold s. mg. rewrite Nat.eqb_refl, (proj2 (Nat.leb_le i i)), (proj2 (Nat.ltb_lt i m)) by lia. cbn [andb].
  fold (x i) f. cbn [fsqrt RN rx1]. rewrite rsqrt_ok by (apply rsum_nonneg; intros; unfold sq; nra). rewrite DSIGN_real. cbn [fopp RN rx1]. fold g. cbn [fsub fmul RN rx2]. mg.
  set (h := f * g - s). set (u := fun k => if Nat.eqb k i then f - g else x k / S).
  assert (Hh : h < 0) by exact (h_neg m i x NZ).
  rewrite (mat_ext m n _ (fun p q => if Nat.eqb q i && Nat.leb i p then u p else a p q)).
  2: { intros p q Hp Hq. unfold updm, updv, u. nats; subst; try reflexivity; lia. }
  match goal with |- context [if Nat.eqb i (n - 1) then ?A else ?B] => assert (E1 : (if Nat.eqb i (n - 1) then A else B) = B) end.
  { destruct (Nat.eqb_spec i (n - 1)) as [->|_]; [rewrite loop_none by lia; reflexivity|reflexivity]. }
  rewrite E1. clear E1.
  set (a2 := fun p q => if Nat.eqb q i && Nat.leb i p then u p else a p q).
  rewrite (loop_eq (fun j => mat m n (fun p q => if Nat.leb i p && Nat.ltb i q && Nat.ltb q j then a p q + rsum i m (fun k => u k * a k q) / h * u p else a2 p q)) (i + 1) n); [|lia| |].
  2: { apply mat_ext. intros p q Hp Hq. nats; reflexivity. }
  2: { intros j Hj. rewrite (loop_sum0 i m _ (fun k => u k * a k j)).
    2: { intros k t Hk. mg. f_equal. rn. do 3 f_equal; unfold a2; nats; reflexivity. }
    cbn [bind]. rewrite divS by lra. set (c := rsum i m (fun k => u k * a k j) / h).
    rewrite (loop_eq (fun k => mat m n (fun p q => if Nat.leb i p && Nat.ltb i q && (Nat.ltb q j || (Nat.eqb q j && Nat.ltb p k)) then a p q + rsum i m (fun k => u k * a k q) / h * u p else a2 p q)) i m); [|lia| |].
    - f_equal. apply mat_ext. intros p q Hp Hq. nats; subst; reflexivity.
    - apply mat_ext. intros p q Hp Hq. nats; subst; reflexivity.
    - intros k Hk. mg. rn. mg. f_equal. apply mat_ext. intros p q Hp Hq. unfold updm, updv, a2. nats; subst; try reflexivity; try lia. }
  cbn [bind]. rewrite (loop_eq (fun k => mat m n (fun p q => if Nat.eqb q i && Nat.leb i p && Nat.ltb p k then u p * S else
       if Nat.leb i p && Nat.ltb i q && Nat.ltb q n then a p q + rsum i m (fun k => u k * a k q) / h * u p else a2 p q)) i m); [|lia| |].
  - cbn [bind]. do 3 f_equal. apply mat_ext. intros p q Hp Hq. change (hl m i a p q) with (if Nat.ltb p i || Nat.ltb q i then a p q else if Nat.eqb q i then u p * S else a p q + rsum i m (fun k => u k * a k q) / h * u p). unfold a2. nats; subst; try reflexivity; lia.
  - apply mat_ext. intros p q Hp Hq. nats; subst; reflexivity.
  - intros k Hk. mg. rn. mg. f_equal. apply mat_ext. intros p q Hp Hq. unfold updm, updv, a2. nats; subst; try reflexivity; try lia.
Qed.
Lemma mask_ext i u u' k : (forall k, (i <= k)%nat -> u k = u' k) -> mask i u k = mask i u' k.
Proof. intros H. unfold mask. destruct (Nat.leb_spec i k); auto. Qed.
Lemma reflects_ext n i x x' u u' W : (i < n)%nat -> (forall k, (i <= k < n)%nat -> x k = x' k) -> (forall k, (i <= k)%nat -> u k = u' k) -> reflects n i x u W -> reflects n i x' u' W.
Proof.
  intros Hi X E [A B]. split.
  - intros H. destruct (A H) as [P Q]. rewrite <- (E i) by lia. split; [exact P|]. rewrite <- Q. apply dot_ext. intros k _. now rewrite !(mask_ext i u' u k) by (intros; symmetry; now apply E).
  - intros k Hk. rewrite <- X by exact Hk. rewrite (B k Hk), <- (E i) by lia. apply refl_ext_u; [|lia]. intros r _. now apply mask_ext.
Qed.
Lemma reflects_0 n i x u : (forall k, (i <= k < n)%nat -> x k = 0) -> reflects n i x u 0.
Proof.
  intros H. split; [lra|]. intros k Hk. unfold betaw. rewrite Req_bool_true by reflexivity. rewrite refl_0, H by exact Hk. unfold unit_at. now destruct (Nat.eqb k i).
Qed.
Lemma reflects_ok n i x u W : reflects n i x u W -> refl_ok n (betaw (u i) W) (mask i u).
Proof.
  intros [A _]. unfold refl_ok, betaw. destruct (Req_bool_spec W 0) as [E|E]; [ring|]. destruct (A E) as [P Q]. rewrite Q. field. now split.
Qed.
Lemma betaw_0 d : betaw d 0 = 0.
Proof. unfold betaw. now rewrite Req_bool_true. Qed.
Lemma col_zero i m x : rsum i m (fun k => Rabs (x k)) = 0 -> forall k, (i <= k < m)%nat -> x k = 0.
Proof.
  intros E k Hk. pose proof (rsum_zero_inv i m (fun k => Rabs (x k)) ltac:(intros; apply Rabs_pos) E k Hk) as Z. cbv beta in Z.
  destruct (Req_dec (x k) 0) as [|N]; [assumption|]. apply Rabs_no_R0 in N. lra.
Qed.

Lemma hh_left_spec m n i a : (i < n)%nat -> (n <= m)%nat -> exists a' g S,
  hh_left RN m n i (mat m n a) = Ret (mat m n a', Some g, Some S) /\
  (forall p q, (p < i \/ q < i)%nat -> a' p q = a p q) /\
  reflects m i (fun k => a k i) (fun k => a' k i) (S * g) /\
  (forall p q, (i <= p < m)%nat -> (i < q)%nat -> a p q = refl m (betaw (a' i i) (S * g)) (mask i (fun k => a' k i)) (fun r => a' r q) p).
Proof.
  intros Hi Hm. set (x := fun k => a k i). set (S := rsum i m (fun k => Rabs (x k))).
  set (s := rsum i m (fun k => sq (x k / S))). set (f := x i / S). set (g := - dsign (sqrt s) f).
  pose proof (hh_left_eq m n i a Hi Hm : hh_left RN m n i (mat m n a) = if Req_bool S 0 then Ret (mat m n a, Some 0, Some 0) else Ret (mat m n (hl m i a), Some g, Some S)) as Q.
  rewrite Q. clear Q. destruct (Req_bool_spec S 0) as [E|NZ].
  - exists a, 0, 0. split; [reflexivity|]. split; [reflexivity|]. rewrite Rmult_0_l. split; [apply reflects_0, col_zero, E|].
    intros p q _ _. now rewrite betaw_0, refl_0.
  - exists (hl m i a), g, S. split; [reflexivity|]. set (h := f * g - s). set (u := fun k => if Nat.eqb k i then f - g else x k / S).
    assert (HL : forall p q, hl m i a p q = if Nat.ltb p i || Nat.ltb q i then a p q else if Nat.eqb q i then u p * S else a p q + rsum i m (fun k => u k * a k q) / h * u p) by reflexivity.
    assert (C : forall k, (i <= k)%nat -> u k * S = hl m i a k i).
    { intros k Hk. rewrite HL. nats. reflexivity. }
    assert (Ci : u i * S = hl m i a i i) by (apply C; lia).
    split; [intros p q H; rewrite HL; nats; reflexivity|]. split.
    + apply (reflects_ext m i x x (fun k => u k * S)); [lia|reflexivity|exact C|]. exact (us_reflects m i x ltac:(lia) NZ).
    + intros p q Hp Hq. rewrite <- Ci. 
      transitivity (refl m (betaw (u i * S) (S * g)) (mask i (fun k => u k * S)) (refl m (betaw (u i * S) (S * g)) (mask i (fun k => u k * S)) (fun r => a r q)) p).
      * symmetry. apply (refl_inv m _ _ (fun r => a r q) p). exact (us_refl_ok m i x ltac:(lia) NZ).
      * rewrite (refl_ext_u m _ (mask i (fun k => u k * S)) (mask i (fun k => hl m i a k i)) _ p) by (try lia; intros r _; now apply mask_ext).
        apply refl_ext.
        -- intros r Hr. destruct (le_lt_dec i r) as [L|L]; [|rewrite !mask_lt by exact L; ring]. f_equal.
           transitivity (a r q + rsum i m (fun k => u k * a k q) / h * u r); [symmetry; exact (us_apply m i x ltac:(lia) NZ (fun r => a r q) r L)|].
           rewrite HL. nats. reflexivity.
        -- transitivity (a p q + rsum i m (fun k => u k * a k q) / h * u p); [symmetry; exact (us_apply m i x ltac:(lia) NZ (fun r => a r q) p ltac:(lia))|].
           rewrite HL. nats. reflexivity.
Qed.

(** ** The right-hand reduction. *)
Definition hr (n i : nat) (a : nat -> nat -> R) : nat -> nat -> R :=
  let x := fun k => a i k in
  let l := (i + 1)%nat in
  let S := rsum l n (fun k => Rabs (x k)) in
  let s := rsum l n (fun k => sq (x k / S)) in
  let f := x l / S in
  let g := - dsign (sqrt s) f in
  let h := f * g - s in
  let u := fun k => if Nat.eqb k l then f - g else x k / S in
  fun p q => if Nat.ltb p i || Nat.leb q i then a p q
             else if Nat.eqb p i then u q * S
             else a p q + rsum l n (fun k => a p k * u k) * (u q / h).
Lemma hh_right_eq m n i a e : (i + 1 < n)%nat -> (n <= m)%nat -> exists e', (forall k, (k <= i)%nat -> e' k = e k) /\
  let x := fun k => a i k in
  let l := (i + 1)%nat in
  let S := rsum l n (fun k => Rabs (x k)) in
  let s := rsum l n (fun k => sq (x k / S)) in
  let f := x l / S in
  let g := - dsign (sqrt s) f in
  hh_right RN m n i (mat m n a) (vec n e) =
    if Req_bool S 0 then Ret (mat m n a, vec n e', Some 0, Some 0) else Ret (mat m n (hr n i a), vec n e', Some g, Some S).
Proof.
  intros Hi Hm. set (x := fun k => a i k). set (l := (i + 1)%nat). set (S := rsum l n (fun k => Rabs (x k))). set (s := rsum l n (fun k => sq (x k / S))).
  set (f := x l / S). set (g := - dsign (sqrt s) f). set (h := f * g - s). set (u := fun k => if Nat.eqb k l then f - g else x k / S).
  exists (if Req_bool S 0 then e else fun k => if Nat.leb l k then u k / h else e k). split.
  { intros k Hk. destruct (Req_bool S 0); [reflexivity|]. now rewrite (proj2 (Nat.leb_gt l k)) by lia. }
  unfold hh_right. rewrite (proj2 (Nat.ltb_lt i m)) by lia. rewrite (proj2 (Nat.eqb_neq i (n - 1))) by lia. cbn [andb negb]. rewrite !lit00. fold l.
  rewrite (loop_sum0 l n _ (fun k => Rabs (x k))) by (intros k t Hk; mg; reflexivity). cbn [bind]. fold S. rewrite ftrueR, negb_involutive.
  destruct (Req_bool_spec S 0) as [E|NZ]; [rewrite E; reflexivity|].
  rewrite (loop_eq (fun k => (mat m n (fun p q => if Nat.eqb p i && Nat.leb l q && Nat.ltb q k then a p q / S else a p q), Some (rsum l k (fun k => sq (x k / S))))) l n); [|lia| |].
  2: { f_equal; [|now rewrite rsum_nil]. apply mat_ext. intros p q Hp Hq. nats; reflexivity. }
  2: { intros k Hk. mg. rewrite Nat.eqb_refl. rewrite (proj2 (Nat.leb_le l k)) by lia. rewrite Nat.ltb_irrefl. cbn [andb]. rewrite divS by exact NZ. mg. f_equal. f_equal.
    - apply mat_ext. intros p q Hp Hq. unfold updm, updv. nats; subst; try reflexivity; lia.
    - rewrite rsum_S by lia. unfold updm. rewrite !Nat.eqb_refl, updv_eq. reflexivity. }
  cbn [bind]. fold s. mg. rewrite Nat.eqb_refl, (proj2 (Nat.leb_le l l)), (proj2 (Nat.ltb_lt l n)) by lia. cbn [andb].
  fold (x l) f. cbn [fsqrt RN rx1]. rewrite rsqrt_ok by (apply rsum_nonneg; intros; unfold sq; nra). rewrite DSIGN_real. cbn [fopp RN rx1]. fold g. cbn [fsub fmul RN rx2]. fold h. mg.
  assert (Hh : h < 0) by exact (h_neg n l x NZ).
  set (a2 := fun p q => if Nat.eqb p i && Nat.leb l q then u q else a p q).
  rewrite (mat_ext m n _ a2).
  2: { intros p q Hp Hq. unfold updm, updv, a2, u. nats; subst; try reflexivity; lia. }
  rewrite (loop_eq (fun j => vec n (fun k => if Nat.leb l k && Nat.ltb k j then u k / h else e k)) l n); [|lia| |].
  2: { apply vec_ext. intros k Hk. nats; reflexivity. }
  2: { intros k Hk. mg. rewrite divS by lra. mg. f_equal. apply vec_ext. intros r Hr. unfold updv, a2. nats; subst; try reflexivity; lia. }
  cbn [bind]. rewrite (vec_ext n _ (fun k => if Nat.leb l k then u k / h else e k)).
  2: { intros k Hk. nats; reflexivity. }
  match goal with |- context [if Nat.eqb i (m - 1) then ?A else ?B] => assert (E1 : (if Nat.eqb i (m - 1) then A else B) = B) end.
  { destruct (Nat.eqb_spec i (m - 1)) as [->|_]; [rewrite loop_none by lia; reflexivity|reflexivity]. }
  rewrite E1. clear E1.
  rewrite (loop_eq (fun j => mat m n (fun p q => if Nat.ltb i p && Nat.ltb p j && Nat.leb l q then a p q + rsum l n (fun k => a p k * u k) * (u q / h) else a2 p q)) l m); [|lia| |].
  2: { apply mat_ext. intros p q Hp Hq. nats; reflexivity. }
  2: { intros j Hj. rewrite (loop_sum0 l n _ (fun k => a j k * u k)).
    2: { intros k t Hk. mg. f_equal. rn. do 3 f_equal; unfold a2; nats; reflexivity. }
    cbn [bind].
    rewrite (loop_eq (fun k => mat m n (fun p q => if Nat.ltb i p && Nat.leb l q && (Nat.ltb p j || (Nat.eqb p j && Nat.ltb q k)) then a p q + rsum l n (fun k => a p k * u k) * (u q / h) else a2 p q)) l n); [|lia| |].
    - f_equal. apply mat_ext. intros p q Hp Hq. nats; subst; reflexivity.
    - apply mat_ext. intros p q Hp Hq. nats; subst; reflexivity.
    - intros k Hk. mg. rewrite (proj2 (Nat.leb_le l k)) by lia. rn. mg. f_equal. apply mat_ext. intros p q Hp Hq. unfold updm, updv, a2. nats; subst; try reflexivity; try lia. }
  cbn [bind]. rewrite (loop_eq (fun k => mat m n (fun p q => if Nat.eqb p i && Nat.leb l q && Nat.ltb q k then u q * S else
       if Nat.ltb i p && Nat.ltb p m && Nat.leb l q then a p q + rsum l n (fun k => a p k * u k) * (u q / h) else a2 p q)) l n); [|lia| |].
  - cbn [bind]. do 4 f_equal. apply mat_ext. intros p q Hp Hq.
    change (hr n i a p q) with (if Nat.ltb p i || Nat.leb q i then a p q else if Nat.eqb p i then u q * S else a p q + rsum l n (fun k => a p k * u k) * (u q / h)). unfold a2. nats; subst; try reflexivity; lia.
  - apply mat_ext. intros p q Hp Hq. nats; subst; reflexivity.
  - intros k Hk. mg. rn. mg. f_equal. apply mat_ext. intros p q Hp Hq. unfold updm, updv, a2. nats; subst; try reflexivity; try lia.
Qed.
Lemma hh_right_spec m n i a e : (i < n)%nat -> (n <= m)%nat -> exists a' e' g S,
  hh_right RN m n i (mat m n a) (vec n e) = Ret (mat m n a', vec n e', Some g, Some S) /\
  (forall k, (k <= i)%nat -> e' k = e k) /\
  (forall p q, (p < i \/ q <= i)%nat -> a' p q = a p q) /\
  ((i + 1 = n)%nat -> S * g = 0) /\
  ((i + 1 < n)%nat -> reflects n (i + 1) (a i) (a' i) (S * g)) /\
  (forall p q, (i < p)%nat -> (i < q < n)%nat -> a p q = refl n (betaw (a' i (i + 1)%nat) (S * g)) (mask (i + 1) (a' i)) (a' p) q).
Proof.
  intros Hi Hm. destruct (Nat.eq_dec (i + 1) n) as [EN|NN].
  { exists a, e, 0, 0. unfold hh_right. replace (i =? n - 1) with true by (symmetry; apply Nat.eqb_eq; lia). rewrite andb_false_r. cbn [negb]. rewrite !lit00.
    split; [reflexivity|]. split; [reflexivity|]. split; [reflexivity|]. split; [intros _; ring|]. split; [lia|]. intros p q _ Hq. lia. }
  destruct (hh_right_eq m n i a e ltac:(lia) Hm) as (e' & He & Q).
  set (x := fun k => a i k) in Q. set (l := (i + 1)%nat) in Q. set (S := rsum l n (fun k => Rabs (x k))) in Q.
  set (s := rsum l n (fun k => sq (x k / S))) in Q. set (f := x l / S) in Q. set (g := - dsign (sqrt s) f) in Q.
  change (hh_right RN m n i (mat m n a) (vec n e) = if Req_bool S 0 then Ret (mat m n a, vec n e', Some 0, Some 0) else Ret (mat m n (hr n i a), vec n e', Some g, Some S)) in Q.
  rewrite Q. clear Q. fold l. destruct (Req_bool_spec S 0) as [E|NZ].
  - exists a, e', 0, 0. split; [reflexivity|]. split; [exact He|]. split; [reflexivity|]. split; [intros _; ring|]. rewrite Rmult_0_l. split; [intros _; apply reflects_0, col_zero, E|].
    intros p q _ _. now rewrite betaw_0, refl_0.
  - exists (hr n i a), e', g, S. split; [reflexivity|]. split; [exact He|]. set (h := f * g - s). set (u := fun k => if Nat.eqb k l then f - g else x k / S).
    assert (HR : forall p q, hr n i a p q = if Nat.ltb p i || Nat.leb q i then a p q else if Nat.eqb p i then u q * S else a p q + rsum l n (fun k => a p k * u k) * (u q / h)) by reflexivity.
    assert (C : forall k, (l <= k)%nat -> u k * S = hr n i a i k).
    { intros k Hk. rewrite HR. nats. reflexivity. }
    assert (Ci : u l * S = hr n i a i l) by (apply C; lia).
    assert (Hl : (l < n)%nat) by lia.
    split; [intros p q H; rewrite HR; nats; reflexivity|]. split; [lia|]. split.
    + intros _. apply (reflects_ext n l x (a i) (fun k => u k * S)); [lia|reflexivity|exact C|]. exact (us_reflects n l x Hl NZ).
    + intros p q Hp Hq. rewrite <- Ci.
      assert (AP : forall r, (l <= r)%nat -> hr n i a p r = refl n (betaw (u l * S) (S * g)) (mask l (fun k => u k * S)) (a p) r).
      { intros r Hr. transitivity (a p r + rsum l n (fun k => u k * a p k) / h * u r); [|exact (us_apply n l x Hl NZ (a p) r Hr)].
        rewrite HR. nats. rewrite (rsum_ext l n (fun k => a p k * u k) (fun k => u k * a p k)) by (intros; ring). unfold Rdiv. ring. }
      transitivity (refl n (betaw (u l * S) (S * g)) (mask l (fun k => u k * S)) (refl n (betaw (u l * S) (S * g)) (mask l (fun k => u k * S)) (a p)) q).
      * symmetry. apply refl_inv. exact (us_refl_ok n l x Hl NZ).
      * rewrite (refl_ext_u n _ (mask l (fun k => u k * S)) (mask l (hr n i a i)) _ q) by (try lia; intros r _; now apply mask_ext).
        apply refl_ext.
        -- intros r Hr. destruct (le_lt_dec l r) as [L|L]; [|rewrite !mask_lt by exact L; ring]. f_equal. symmetry. apply AP, L.
        -- symmetry. apply AP. lia.
Qed.
