(** * The solver in binary32 and over the reals; the colour corrector. *)
From Coq Require Import ZArith Reals Lra List Bool Lia.
From Flocq Require Import Core BinarySingleNaN.
From Verif Require Import Num NumR NumF MVec MTri MSpectrum MSolver Tables PSolver.
Import ListNotations.
Local Open Scope num_scope.

(** ** The two instances of the hypotheses of PSolver.v. *)
Definition goodF (x : f32) : Prop := is_nan x = false.
Definition zeroF (x : f32) : Prop := exists s, x = B754_zero s.
Lemma litF0 lm : (@flit (FN lm) 0.0) = (B754_zero false : f32).
Proof. reflexivity. Qed.
Lemma Beqb_refl (x : f32) : is_nan x = false -> Beqb x x = true.
Proof.
  intros H. unfold Beqb, SpecFloat.SFeqb. replace (SpecFloat.SFcompare (B2SF x) (B2SF x)) with (Some Eq); [reflexivity|].
  destruct x as [s|s| |s m e B]; try discriminate; cbn [B2SF SpecFloat.SFcompare]; [reflexivity|destruct s; reflexivity|].
  destruct s; rewrite Z.compare_refl, Pos.compare_cont_refl; reflexivity.
Qed.
Lemma zero_lostF lm (x n : F (FN lm)) : zeroF x -> goodF n -> feqb (ffabs x + n) n = true.
Proof.
  intros [s ->] G. cbn [feqb ffabs fadd FN Babs]. destruct n as [t|t| |t m e B]; try discriminate.
  - destruct t; reflexivity.
  - destruct t; reflexivity.
  - cbn [Bplus]. apply Beqb_refl. reflexivity.
Qed.
Lemma good_maxF lm (a b : F (FN lm)) : goodF a -> goodF (std_max (FN lm) a b).
Proof.
  intros G. unfold std_max. cbn [fltb FN]. destruct (Bltb a b) eqn:E; [|exact G]. destruct b; try reflexivity. destruct a; discriminate.
Qed.
Definition goodR (x : RX) : Prop := x <> None.
Definition zeroR (x : RX) : Prop := x = Some 0%R.
Lemma zero_lostR (x n : F RN) : zeroR x -> goodR n -> feqb (ffabs x + n) n = true.
Proof.
  intros -> G. destruct n as [n|]; [|congruence]. cbn. rewrite Rabs_R0. apply Req_bool_true. ring.
Qed.
Lemma good_maxR (a b : F RN) : goodR a -> goodR (std_max RN a b).
Proof. intros G. unfold std_max. destruct a as [a|]; [|congruence]. destruct b as [b|]; cbn [fltb RN rxb]; [|exact G]. destruct (Rlt_bool a b); discriminate. Qed.

Lemma C62_l lm m n (a : list (list f32)) (w : list f32) (v : list (list f32)) :
  (n <= m)%nat -> shape m n a -> cols a = n -> length w = n -> shape n n v ->
  exists a' w' v', svdcmp (FN lm) a w v = Ret (1%Z, a', w', v') /\ shape m n a' /\ length w' = n /\ shape n n v'.
Proof.
  intros L Ha C Hw Hv.
  assert (H := svdcmp_never_fails (FN lm) goodF zeroF (zero_lostF lm) (ex_intro _ false eq_refl) (ex_intro _ false eq_refl)
    (ex_intro _ false eq_refl) eq_refl (good_maxF lm) m n a w v L Ha C Hw Hv).
  apply wp_inv in H. destruct H as ([[[r a'] w'] v'] & E & -> & H1 & H2 & H3). exists a', w', v'. auto.
Qed.
Lemma zR0 : zeroR (@flit RN 0.0). Proof. unfold zeroR. cbn. f_equal. unfold Rdec. cbn. lra. Qed.
Lemma zR00 : zeroR (@flit RN 0.0 * @flit RN 0.0). Proof. rewrite zR0. unfold zeroR. cbn. f_equal. ring. Qed.
Lemma C62_real_l m n (a : list (list RX)) (w : list RX) (v : list (list RX)) :
  (n <= m)%nat -> shape m n a -> cols a = n -> length w = n -> shape n n v ->
  exists a' w' v', svdcmp RN a w v = Ret (1%Z, a', w', v') /\ shape m n a' /\ length w' = n /\ shape n n v'.
Proof.
  intros L Ha C Hw Hv.
  assert (G : goodR (@flit RN 0.0)) by (rewrite zR0; discriminate).
  assert (H := svdcmp_never_fails RN goodR zeroR zero_lostR zR0 zR00 eq_refl G good_maxR m n a w v L Ha C Hw Hv).
  apply wp_inv in H. destruct H as ([[[r a'] w'] v'] & E & -> & H1 & H2 & H3). exists a', w', v'. auto.
Qed.
Lemma C66_l lm m n (a : list (list f32)) (b x : list f32) (tol : f32) :
  (n <= m)%nat -> shape m n a -> cols a = n -> (m <= length b)%nat -> (n <= length x)%nat ->
  exists U W V x', svdcmp (FN lm) a (newVector (FN lm) n) (newMatrix (FN lm) n n) = Ret (1%Z, U, W, V) /\
  shape m n U /\ length W = n /\ shape n n V /\
  svbksb (FN lm) U (map (cut (FN lm) (@fmul (FN lm) tol (maxof (FN lm) W))) W) V b x = Ret x' /\
  SOLVER_solve (FN lm) a b x tol = Ret (0%Z, x') /\ length x' = length x.
Proof.
  exact (solve_ok (FN lm) goodF zeroF (zero_lostF lm) (ex_intro _ false eq_refl) (ex_intro _ false eq_refl)
    (ex_intro _ false eq_refl) eq_refl (good_maxF lm) m n a b x tol).
Qed.

(** The running maximum: not a NaN, 0 or an element, at least every element. *)
Lemma Bltb_true_fin (x y : f32) : Bltb x y = true -> is_nan x = false /\ is_nan y = false.
Proof. destruct x, y; auto; discriminate. Qed.
Lemma Bltb_fin (x y : f32) : is_finite x = true -> is_finite y = true -> Bltb x y = Rlt_bool (B2R x) (B2R y).
Proof. intros Hx Hy. now apply Bltb_correct. Qed.
Lemma Bltb_trans (x y z : f32) : Bltb x y = true -> Bltb y z = true -> Bltb x z = true.
Proof.
  intros H1 H2. destruct (is_finite y) eqn:Fy.
  - destruct (is_finite x) eqn:Fx, (is_finite z) eqn:Fz.
    + rewrite Bltb_fin in * by assumption. apply Rlt_bool_true.
      destruct (Rlt_bool_spec (B2R x) (B2R y)); [|discriminate]. destruct (Rlt_bool_spec (B2R y) (B2R z)); [|discriminate]. lra.
    + destruct z as [?|[]| |]; try discriminate; destruct y as [?|?| |[]]; try discriminate; destruct x as [?|?| |[]]; try discriminate; reflexivity.
    + destruct x as [?|[]| |]; try discriminate; destruct y as [?|?| |[]]; try discriminate; destruct z as [?|?| |[]]; try discriminate; reflexivity.
    + destruct x as [?|[]| |]; try discriminate; destruct y as [?|?| |[]]; try discriminate; destruct z as [?|[]| |]; try discriminate; reflexivity.
  - destruct y as [?|[]| |]; try discriminate.
    + destruct x as [?|[]| |[]]; discriminate.
    + destruct z as [?|[]| |[]]; discriminate.
Qed.
Lemma Bltb_cotrans (x y z : f32) : is_nan y = false -> Bltb x z = true -> Bltb x y = true \/ Bltb y z = true.
Proof.
  intros Ny H. destruct (is_finite y) eqn:Fy.
  - destruct (is_finite x) eqn:Fx, (is_finite z) eqn:Fz.
    + rewrite !Bltb_fin in * by assumption. destruct (Rlt_bool_spec (B2R x) (B2R z)); [|discriminate].
      destruct (Rlt_le_dec (B2R x) (B2R y)); [left|right]; apply Rlt_bool_true; lra.
    + right. destruct z as [?|[]| |]; try discriminate; destruct y as [?|?| |[]]; try discriminate; destruct x as [?|?| |[]]; try discriminate; reflexivity.
    + left. destruct x as [?|[]| |]; try discriminate; destruct y as [?|?| |[]]; try discriminate; destruct z as [?|?| |[]]; try discriminate; reflexivity.
    + left. destruct x as [?|[]| |]; try discriminate; destruct y as [?|?| |[]]; try discriminate; destruct z as [?|[]| |]; try discriminate; reflexivity.
  - destruct y as [?|[]| |]; try discriminate.
    + right. destruct z as [?|[]| |[]]; try reflexivity; try discriminate; destruct x as [?|[]| |[]]; discriminate.
    + left. destruct x as [?|[]| |[]]; try reflexivity; try discriminate; destruct z as [?|[]| |[]]; discriminate.
Qed.
Lemma maxof_gen (W : list f32) (m0 : f32) : is_nan m0 = false ->
  let mx := fold_left (fun m x => if Bltb m x then x else m) W m0 in
  is_nan mx = false /\ (mx = m0 \/ In mx W) /\ Bltb mx m0 = false /\ forall x, In x W -> Bltb mx x = false.
Proof.
  revert m0. induction W as [|x W IH]; intros m0 H; cbn [fold_left].
  - cbv zeta. repeat split; [exact H|now left| |intros x []]. destruct m0 as [?|[]| |s m e B]; try reflexivity.
    rewrite Bltb_fin by reflexivity. apply Rlt_bool_false. lra.
  - destruct (Bltb m0 x) eqn:E.
    + pose proof (Bltb_true_fin _ _ E) as [_ Hx]. generalize (IH x Hx). cbv zeta.
      set (mx := fold_left (fun m x => if Bltb m x then x else m) W x). intros (I1 & I2 & I3 & I4). repeat split.
      * exact I1.
      * right. destruct I2 as [->|I2]; [now left|now right].
      * destruct (Bltb mx m0) eqn:E2; [|reflexivity]. rewrite (Bltb_trans _ _ _ E2 E) in I3. discriminate.
      * intros y [<-|Hy]; [exact I3|exact (I4 y Hy)].
    + generalize (IH m0 H). cbv zeta.
      set (mx := fold_left (fun m x => if Bltb m x then x else m) W m0). intros (I1 & I2 & I3 & I4). repeat split.
      * exact I1.
      * destruct I2 as [->|I2]; [now left|right; now right].
      * exact I3.
      * intros y [<-|Hy]; [|exact (I4 y Hy)]. destruct (Bltb mx x) eqn:E2; [|reflexivity].
        destruct (Bltb_cotrans mx m0 x H E2); congruence.
Qed.
Lemma maxof_l lm (W : list f32) : let mx := maxof (FN lm) W in
  is_nan mx = false /\ (mx = (B754_zero false : f32) \/ In mx W) /\ Bltb mx (B754_zero false) = false /\
  forall x, In x W -> Bltb mx x = false.
Proof. exact (maxof_gen W (B754_zero false) eq_refl). Qed.

(** ** Refused systems: zero solution. *)
Lemma foldM_const {A S} (f : A -> S -> outcome S) (l : list A) (s : S) : (forall x, In x l -> f x s = Ret s) -> foldM f l s = Ret s.
Proof. intros H. induction l as [|x l IH]; [reflexivity|]. cbn [foldM]. rewrite H by now left. apply IH. intros y Hy. apply H. now right. Qed.
Section Refused.
Context (N : Num).
Hypothesis H1 : ftrue (@fofZ N 0) = false.
Hypothesis H2 : @flit N 0.0 + fofZ 0 * flit 0.0 = @flit N 0.0.
Lemma fill n (x : list (F N)) g : length x = n -> (forall j y, (j < n)%nat -> g j y = vset y j (flit 0.0)) ->
  loop 0 n x g = Ret (repeat (flit 0.0) n).
Proof.
  intros Hx Hf.
  assert (W : wp (loop 0 n x g) (fun y => length y = n /\ forall i, (i < n)%nat -> nth_error y i = Some (@flit N 0.0))).
  { apply (wp_loop_ix (fun k y => length y = n /\ forall i, (i < k)%nat -> nth_error y i = Some (@flit N 0.0))); [lia|split; [exact Hx|lia]| |auto].
    intros k s Hk [L Hi]. rewrite Hf by lia. apply wp_vset; [lia|]. split; [now rewrite upd_length|]. intros i Hi'.
    destruct (Nat.eq_dec k i) as [->|Q]; [apply nth_upd_eq; lia|rewrite nth_upd_neq by exact Q; apply Hi; lia]. }
  apply wp_inv in W. destruct W as (y & -> & L & Hy). f_equal. apply (nth_ext y _ (flit 0.0) (flit 0.0)); [now rewrite repeat_length|].
  intros i Hi. rewrite nth_repeat. apply nth_error_nth. apply Hy. lia.
Qed.
Lemma nth_error_repeat' {A} (x : A) n i : (i < n)%nat -> nth_error (repeat x n) i = Some x.
Proof. revert i. induction n as [|n IH]; intros [|i] H; cbn; try lia; [reflexivity|apply IH; lia]. Qed.
Lemma svbksb_zero (u : list (list (F N))) b x : length x = cols u ->
  svbksb N u (newVector N (cols u)) (newMatrix N (cols u) (cols u)) b x = Ret (repeat (flit 0.0) (cols u)).
Proof.
  intros Hx. unfold svbksb. set (n := cols u) in *. rewrite (fill n (newVector N n)).
  - cbn [bind]. apply fill; [exact Hx|].
    intros j y Hj. unfold loop. rewrite foldM_const; [reflexivity|]. intros k Hk. apply in_seq in Hk.
    unfold mget, newMatrix. rewrite nth_error_repeat' by exact Hj. cbn [of_option bind]. unfold vget. rewrite !nth_error_repeat' by lia.
    cbn [of_option bind]. now rewrite H2.
  - apply repeat_length.
  - intros j y Hj. unfold vget, newVector. rewrite nth_error_repeat' by exact Hj. cbn [of_option bind]. now rewrite H1.
Qed.
(** [maxof] and [cut] of a zero vector. *)
Hypothesis H3 : (flit 0.0 <? @fofZ N 0) = false.
Hypothesis H4 : forall t, cut N t (@fofZ N 0) = flit 0.0 \/ cut N t (@fofZ N 0) = fofZ 0.
Hypothesis H5 : @flit N 0.0 = fofZ 0.
Lemma map_rep {A B} (f : A -> B) x n : map f (repeat x n) = repeat (f x) n.
Proof. induction n as [|n IH]; [reflexivity|]. cbn [repeat map]. now rewrite IH. Qed.
Lemma solve_refused (a : list (list (F N))) b x tol : (rows a < cols a)%nat -> length x = cols a ->
  SOLVER_solve N a b x tol = Ret (0%Z, repeat (fofZ 0) (cols a)).
Proof.
  intros R Hx. rewrite (solve_eq N a b x tol (-1) a (newVector N (cols a)) (newMatrix N (cols a) (cols a))).
  - replace (map _ (newVector N (cols a))) with (newVector N (cols a)); [rewrite svbksb_zero by exact Hx; cbn [bind]; now rewrite H5|].
    unfold newVector. symmetry. rewrite map_rep. f_equal. destruct (H4 (tol * maxof N (repeat (fofZ 0) (cols a)))) as [->| ->]; congruence.
  - now apply svdcmp_refuses.
  - discriminate.
  - apply repeat_length.
Qed.
End Refused.

Lemma solve_refused_F lm (a : list (list f32)) (b x : list f32) (tol : f32) : (rows a < cols a)%nat -> length x = cols a ->
  SOLVER_solve (FN lm) a b x tol = Ret (0%Z, repeat (B754_zero false : f32) (cols a)).
Proof.
  apply (solve_refused (FN lm)); try reflexivity. intros t. unfold cut. destruct (fltb _ t); [now left|now right].
Qed.

(** ** The colour corrector. *)
Section Corrector.
Context (N : Num).
Lemma corr_rows_shape p : shape 3 9 (corr_rows N p).
Proof. split; [reflexivity|]. repeat constructor. Qed.
Lemma corr_shape patch : shape (3 * (length patch + 1)) 9 (corr_matrix N patch).
Proof.
  unfold corr_matrix. induction patch as [|p patch [L R]].
  - apply corr_rows_shape.
  - cbn [flat_map]. rewrite <- app_assoc. destruct (corr_rows_shape p) as [Lp Rp]. split.
    + rewrite app_length, Lp. cbn [length] in *. lia.
    + rewrite Forall_app. auto.
Qed.
Lemma corr_cols patch : cols (corr_matrix N patch) = 9%nat.
Proof. destruct patch; reflexivity. Qed.
Lemma mapM_nth {A} (l : list A) n : (n <= length l)%nat -> mapM (fun i => of_option (nth_error l i)) (seq 0 n) = Ret (firstn n l).
Proof.
  cut (forall k d, (k + d <= length l)%nat -> mapM (fun i => of_option (nth_error l i)) (seq k d) = Ret (firstn d (skipn k l))).
  { intros H Hn. rewrite H by lia. reflexivity. }
  intros k d. revert k. induction d as [|d IH]; intros k H; [reflexivity|]. cbn [seq mapM].
  destruct (nth_some l k) as [x E]; [lia|]. rewrite E. cbn [of_option bind]. rewrite IH by lia. cbn [bind]. f_equal.
  clear -E. revert k E. induction l as [|y l IH]; intros [|k] E; cbn in *; try discriminate; [congruence|]. now apply IH.
Qed.
Lemma mapM_short {A} (l : list A) n : (length l < n)%nat -> mapM (fun i => of_option (nth_error l i)) (seq 0 n) = UB.
Proof.
  cut (forall k d, (k <= length l < k + d)%nat -> mapM (fun i => of_option (nth_error l i)) (seq k d) = UB).
  { intros H Hn. apply H. lia. }
  intros k d. revert k. induction d as [|d IH]; intros k H; [lia|]. cbn [seq mapM].
  destruct (Nat.eq_dec k (length l)) as [->|Q].
  - rewrite (proj2 (nth_error_None l (length l)) (le_n _)). reflexivity.
  - destruct (nth_some l k) as [x E]; [lia|]. rewrite E. cbn [of_option bind]. rewrite IH by lia. reflexivity.
Qed.
Definition corr_b (ts : list (Vector3 (F N))) : list (F N) := flat_map (fun t => [t.[0]; t.[1]; t.[2]]) ts ++ [#0; #0; #0].
Lemma corr_b_len ts : length (corr_b ts) = (3 * (length ts + 1))%nat.
Proof. unfold corr_b. rewrite app_length. induction ts as [|t ts IH]; [reflexivity|]. cbn [flat_map app length] in *. lia. Qed.
Lemma corr_result_ok patch target : (length patch <= length target)%nat ->
  corr_result N patch target = Ret (corr_b (firstn (length patch) target)).
Proof. intros H. unfold corr_result. rewrite mapM_nth by exact H. reflexivity. Qed.
Lemma corr_result_ub patch target : (length target < length patch)%nat -> corr_result N patch target = UB.
Proof. intros H. unfold corr_result. now rewrite mapM_short. Qed.
End Corrector.
Lemma fromArray_ok {A} (x : list A) : length x = 9%nat -> exists m, M_fromArray x = Ret m.
Proof. intros H. do 9 (destruct x as [|? x]; [discriminate|]). eexists. reflexivity. Qed.
Lemma corr_cols_F lm patch : @cols f32 (corr_matrix (FN lm) patch) = 9%nat.
Proof. exact (corr_cols (FN lm) patch). Qed.
Lemma corr_rows_F lm patch : @rows f32 (corr_matrix (FN lm) patch) = (3 * (length patch + 1))%nat.
Proof. exact (proj1 (corr_shape (FN lm) patch)). Qed.
Lemma C65_safe_l lm patch target : (length patch <= length target)%nat -> exists M, Corrector_solve (FN lm) patch target = Ret M.
Proof.
  intros H. unfold Corrector_solve. rewrite corr_result_ok by exact H. cbn [bind].
  set (b := corr_b _ _). assert (Lb : length b = (3 * (length patch + 1))%nat) by (unfold b; rewrite corr_b_len, firstn_length; f_equal; lia).
  assert (E : exists x, SOLVER_solve (FN lm) (corr_matrix (FN lm) patch) b (newVector (FN lm) 9) (SOLVER_TOL (FN lm)) = Ret (0%Z, x) /\ length x = 9%nat).
  { destruct (le_lt_dec 9 (3 * (length patch + 1))) as [G|G].
    - destruct (C66_l lm (3 * (length patch + 1)) 9 (corr_matrix (FN lm) patch) b (newVector (FN lm) 9) (SOLVER_TOL (FN lm))
        G (corr_shape _ patch) (corr_cols _ patch)) as (U & W & V & x & _ & _ & _ & _ & _ & S & L); [rewrite <- Lb; apply le_n|apply le_n|]. exists x. split; [exact S|exact L].
    - exists (repeat (B754_zero false : f32) 9). split; [|reflexivity].
      rewrite (solve_refused_F lm (corr_matrix (FN lm) patch)); [now rewrite corr_cols_F|rewrite corr_cols_F, corr_rows_F; exact G|now rewrite corr_cols_F]. }
  destruct E as (x & -> & L). cbn [bind]. now apply fromArray_ok.
Qed.
Lemma C65_ub_l lm patch target : (length target < length patch)%nat -> Corrector_solve (FN lm) patch target = UB.
Proof. intros H. unfold Corrector_solve. now rewrite corr_result_ub. Qed.
Lemma C65_zero_l lm patch target : (length patch <= length target)%nat -> (length patch < 2)%nat ->
  Corrector_solve (FN lm) patch target = Ret (let z := (B754_zero false : f32) in M3 z z z z z z z z z).
Proof.
  intros H G. unfold Corrector_solve. rewrite corr_result_ok by exact H. cbn [bind].
  rewrite (solve_refused_F lm (corr_matrix (FN lm) patch)).
  - rewrite corr_cols_F. reflexivity.
  - rewrite corr_cols_F, corr_rows_F. lia.
  - now rewrite corr_cols_F.
Qed.
