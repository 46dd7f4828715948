(** * Back-substitution and the colour corrector over the reals. *)
From Coq Require Import ZArith Reals Lra List Bool Lia.
From Flocq Require Import Core.Raux BinarySingleNaN.
From Verif Require Import Num NumR NumF MVec MTri MSpectrum MSolver Tables RTac SpecMat RLin PSolver PSolver2.
Import ListNotations.
Local Open Scope R_scope.

Lemma lit00 : @flit RN 0.0 = Some 0.
Proof. exact zR0. Qed.
Lemma ftrueR x : @ftrue RN (Some x) = negb (Req_bool x 0).
Proof. reflexivity. Qed.

Definition tvec (m : nat) (U : nat -> nat -> R) (w b : nat -> R) : nat -> R :=
  fun j => if Req_bool (w j) 0 then 0 else bsum m (fun i => U i j * b i) / w j.
Lemma svbksb_real m n U w V b x0 : (0 < m)%nat ->
  svbksb RN (mat m n U) (vec n w) (mat n n V) (vec m b) (vec n x0) = Ret (vec n (mulv n V (tvec m U w b))).
Proof.
  intros Hm. unfold svbksb. rewrite rows_mat, cols_mat by exact Hm.
  set (t := tvec m U w b).
  rewrite (loop_eq (fun k => vec n (fun j => if Nat.ltb j k then t j else 0)) 0 n); [|lia| |].
  - cbn [bind]. rewrite (loop_eq (fun k => vec n (fun j => if Nat.ltb j k then mulv n V t j else x0 j)) 0 n); [|lia| |].
    + f_equal. apply vec_ext. intros i Hi. now rewrite (proj2 (Nat.ltb_lt i n) Hi).
    + apply vec_ext. intros i Hi. reflexivity.
    + intros k Hk. rewrite lit00, (loop_sum 0 n 0 _ (fun jj => V k jj * t jj)).
      * cbn [bind]. rewrite vset_vec by lia. f_equal. apply vec_ext. intros i Hi. unfold updv.
        destruct (Nat.eqb_spec i k) as [->|Q].
        -- rewrite (proj2 (Nat.ltb_lt k (k + 1))) by lia. unfold mulv. rewrite rsum_0. ring.
        -- destruct (Nat.ltb_spec i k), (Nat.ltb_spec i (k + 1)); try lia; reflexivity.
      * intros jj s Hj. rewrite mget_mat by lia. cbn [bind]. rewrite vget_vec by lia. cbn [bind].
        rewrite (proj2 (Nat.ltb_lt jj n)) by lia. reflexivity.
  - unfold newVector, vec. clear. revert n. cut (forall n k, repeat (@fofZ RN 0) n = map (fun i => Some (if Nat.ltb i 0 then t i else 0)) (seq k n)).
    { intros H n. apply H. } induction n as [|n IH]; intros k; [reflexivity|]. cbn [repeat seq map]. rewrite (IH (S k)). reflexivity.
  - intros k Hk. rewrite vget_vec by lia. cbn [bind]. rewrite ftrueR.
    match goal with |- bind ?c _ = _ => assert (E : c = Ret (Some (t k))) end.
    { unfold t, tvec. destruct (Req_bool_spec (w k) 0) as [Z|Z]; cbn [negb]; [now rewrite lit00|].
      rewrite lit00, (loop_sum 0 m 0 _ (fun i => U i k * b i)).
      - cbn [bind]. rn. rewrite rdiv_ok by exact Z. rewrite rsum_0. f_equal. f_equal. f_equal. ring.
      - intros i s Hi. rewrite mget_mat by lia. cbn [bind]. rewrite vget_vec by lia. reflexivity. }
    rewrite E. cbn [bind]. rewrite vset_vec by lia. f_equal. apply vec_ext. intros i Hi. unfold updv.
    destruct (Nat.eqb_spec i k) as [->|Q].
    + now rewrite (proj2 (Nat.ltb_lt k (k + 1))) by lia.
    + destruct (Nat.ltb_spec i k), (Nat.ltb_spec i (k + 1)); try lia; reflexivity.
Qed.
Lemma C64_l m n A U w V b x0 : (0 < m)%nat -> is_svd m n A U w V ->
  exists x, svbksb RN (mat m n U) (vec n w) (mat n n V) (vec m b) (vec n x0) = Ret (vec n x) /\
  forall y, residual2 m n A b x <= residual2 m n A b y /\
            (residual2 m n A b y = residual2 m n A b x -> norm2 n x <= norm2 n y).
Proof.
  intros Hm S. exists (mulv n V (tvec m U w b)). split; [now apply svbksb_real|].
  apply (least_squares m n A U w V b (tvec m U w b) S); intros p Hp W; unfold tvec.
  - now rewrite Req_bool_true.
  - rewrite Req_bool_false by exact W. field. exact W.
Qed.

(** ** The system built by the corrector. *)
Lemma vec_list (l : list R) : map (fun x => Some x) l = vec (length l) (fun i => nth i l 0).
Proof.
  unfold vec. rewrite <- (map_map (fun i => nth i l 0) (fun x => Some x)). f_equal.
  apply (nth_ext _ _ 0 0); [now rewrite map_length, seq_length|]. intros i Hi.
  rewrite (nth_indep (map (fun i => nth i l 0) (seq 0 (length l))) 0 (nth 0 l 0)) by (now rewrite map_length, seq_length). rewrite (map_nth (fun i => nth i l 0)), seq_nth by exact Hi. reflexivity.
Qed.
Lemma mat_list m n (l : list (list R)) : shape m n l -> map (map (fun x => Some x)) l = mat m n (fun i j => nth j (nth i l []) 0).
Proof.
  intros [L H]. unfold mat. apply (nth_ext _ _ [] []); [now rewrite !map_length, seq_length|]. intros i Hi. rewrite map_length in Hi.
  pose proof (map_nth (map (fun x : R => Some x)) l [] i) as E. change (map (fun x : R => Some x) []) with (@nil (option R)) in E. rewrite E. clear E.
  rewrite (nth_indep (map (fun i0 => vec n (fun j => nth j (nth i0 l []) 0)) (seq 0 m)) [] (vec n (fun j => nth j (nth 0 l []) 0))) by (rewrite map_length, seq_length; lia).
  rewrite (map_nth (fun i0 => vec n (fun j => nth j (nth i0 l []) 0))), seq_nth by lia. rewrite vec_list. f_equal.
  rewrite Forall_forall in H. apply H, nth_In, Hi.
Qed.
Fixpoint lsum {A} (f : A -> R) (l : list A) : R := match l with [] => 0 | x :: t => f x + lsum f t end.
Lemma bsum_S n f : bsum (S n) f = f 0%nat + bsum n (fun i => f (S i)).
Proof. induction n as [|n IH]; cbn [bsum] in *; [ring|]. rewrite IH. ring. Qed.
Lemma bsum_list {A} (f : A -> R) (l : list A) d : bsum (length l) (fun i => f (nth i l d)) = lsum f l.
Proof. induction l as [|x l IH]; [reflexivity|]. cbn [length]. rewrite bsum_S. cbn [nth lsum]. now rewrite IH. Qed.
Lemma lsum_app {A} (f : A -> R) l l' : lsum f (l ++ l') = lsum f l + lsum f l'.
Proof. induction l as [|x l IH]; cbn [app lsum]; [ring|]. rewrite IH. ring. Qed.
(** the nine entries, in row order *)
Definition entries (M : Matrix3 R) : list R := [m0 M; m1 M; m2 M; m3 M; m4 M; m5 M; m6 M; m7 M; m8 M].
Definition dist2 (a b : Vector3 R) : R := sq (v0 a - v0 b) + sq (v1 a - v1 b) + sq (v2 a - v2 b).
Definition rowsR (p : Vector3 R) : list (list R) :=
  [[v0 p; v1 p; v2 p; 0; 0; 0; 0; 0; 0]; [0; 0; 0; v0 p; v1 p; v2 p; 0; 0; 0]; [0; 0; 0; 0; 0; 0; v0 p; v1 p; v2 p]].
Definition zeroV : Vector3 R := V3 0 0 0.
Lemma lit0 : @flit RN 0 = Some 0. Proof. reflexivity. Qed.
Lemma corr_rows_real p : corr_rows RN (finV p) = map (map (fun x => Some x)) (rowsR p).
Proof. unfold corr_rows. rewrite lit0. reflexivity. Qed.
Definition rowsAll (ps : list (Vector3 R)) : list (list R) := flat_map rowsR ps ++ rowsR zeroV.
Lemma corr_matrix_real ps : corr_matrix RN (map finV ps) = map (map (fun x => Some x)) (rowsAll ps).
Proof.
  unfold corr_matrix, rowsAll. rewrite map_app. f_equal.
  induction ps as [|p ps IH]; [reflexivity|]. cbn [map flat_map]. rewrite map_app, <- IH, corr_rows_real. reflexivity.
Qed.
Definition bAll (ts : list (Vector3 R)) : list R := flat_map (fun t => [v0 t; v1 t; v2 t]) ts ++ [0; 0; 0].
Lemma corr_b_real ts : corr_b RN (map finV ts) = map (fun x => Some x) (bAll ts).
Proof.
  unfold corr_b, bAll. rewrite map_app. f_equal. induction ts as [|t ts IH]; [reflexivity|]. cbn [map flat_map]. rewrite map_app, <- IH. reflexivity.
Qed.
Lemma rowsAll_shape ps : shape (3 * (length ps + 1)) 9 (rowsAll ps).
Proof.
  unfold rowsAll. induction ps as [|p ps [L R]].
  - split; [reflexivity|]. repeat constructor.
  - cbn [flat_map]. rewrite <- app_assoc. split; [rewrite app_length; cbn [length rowsR] in *; lia|]. rewrite Forall_app. split; [repeat constructor|exact R].
Qed.
Lemma bAll_len ts : length (bAll ts) = (3 * (length ts + 1))%nat.
Proof. unfold bAll. rewrite app_length. induction ts as [|t ts IH]; [reflexivity|]. cbn [flat_map app length] in *. lia. Qed.
Definition rerr (x : nat -> R) (rb : list R * R) : R := sq (bsum 9 (fun j => nth j (fst rb) 0 * x j) - snd rb).
Lemma residual_list ps ts x : length ps = length ts ->
  residual2 (3 * (length ps + 1)) 9 (fun i j => nth j (nth i (rowsAll ps) []) 0) (fun i => nth i (bAll ts) 0) x =
  lsum (rerr x) (combine (rowsAll ps) (bAll ts)).
Proof.
  intros H. rewrite <- (bsum_list (rerr x) _ ([], 0)). rewrite combine_length, (proj1 (rowsAll_shape ps)), bAll_len, H, Nat.min_id.
  unfold residual2, norm2. apply bsum_ext. intros i Hi. rewrite combine_nth; [|now rewrite (proj1 (rowsAll_shape ps)), bAll_len, H]. reflexivity.
Qed.
Lemma combine_app {A B} (l l' : list A) (k k' : list B) : length l = length k -> combine (l ++ l') (k ++ k') = combine l k ++ combine l' k'.
Proof. revert k. induction l as [|x l IH]; intros [|y k] H; try discriminate; [reflexivity|]. cbn. f_equal. apply IH. now injection H. Qed.
Lemma residual_value ps ts M : length ps = length ts ->
  residual2 (3 * (length ps + 1)) 9 (fun i j => nth j (nth i (rowsAll ps) []) 0) (fun i => nth i (bAll ts) 0) (fun k => nth k (entries M) 0) =
  lsum (fun pt => dist2 (applyR M (fst pt)) (snd pt)) (combine ps ts).
Proof.
  intros H. rewrite residual_list by exact H. revert ts H. induction ps as [|p ps IH]; intros [|t ts] H; try discriminate.
  - cbn. unfold rerr, sq, entries. cbn. ring.
  - unfold rowsAll, bAll. cbn [flat_map]. rewrite <- !app_assoc, combine_app by reflexivity. rewrite lsum_app.
    assert (IH' := IH ts ltac:(now injection H)). unfold rowsAll, bAll in IH'. rewrite IH'. cbn [combine lsum fst snd]. f_equal.
    unfold rowsR, rerr, entries, dist2, applyR, mkV, sum3, ent, cmp. cbn. unfold sq. ring.
Qed.
Lemma vec0 n : newVector RN n = vec n (fun _ => 0).
Proof.
  unfold newVector, vec. generalize 0%nat. induction n as [|n IH]; intros k; [reflexivity|]. cbn [repeat seq map]. now rewrite (IH (S k)).
Qed.
Lemma C65_system_l ps ts : length ps = length ts -> exists A b,
  (forall M, residual2 (3 * (length ps + 1)) 9 A b (fun k => nth k (entries M) 0) =
             lsum (fun pt => dist2 (applyR M (fst pt)) (snd pt)) (combine ps ts)) /\
  Corrector_solve RN (map finV ps) (map finV ts) =
  (let! (r, x) := SOLVER_solve RN (mat (3 * (length ps + 1)) 9 A) (vec (3 * (length ps + 1)) b) (vec 9 (fun _ => 0)) (SOLVER_TOL RN) in M_fromArray x).
Proof.
  intros H. exists (fun i j => nth j (nth i (rowsAll ps) []) 0), (fun i => nth i (bAll ts) 0). split; [intros M; now apply residual_value|].
  unfold Corrector_solve. rewrite corr_result_ok by (rewrite !map_length, H; apply le_n). cbn [bind].
  rewrite map_length, H. replace (length ts) with (length (map finV ts)) at 1 by apply map_length. rewrite firstn_all.
  rewrite corr_matrix_real, corr_b_real, vec0. rewrite (mat_list _ _ _ (rowsAll_shape ps)), vec_list, bAll_len, H. reflexivity.
Qed.

(** ** Statements about binary32. *)
Lemma C66_thr_l lm m n (a : list (list f32)) (b x : list f32) (tol : f32) :
  (n <= m)%nat -> shape m n a -> cols a = n -> (m <= length b)%nat -> (n <= length x)%nat ->
  exists U W V W' mx x', svdcmp (FN lm) a (newVector (FN lm) n) (newMatrix (FN lm) n n) = Ret (1%Z, U, W, V) /\
  (is_nan mx = false /\ (mx = (B754_zero false : f32) \/ In mx W) /\ Bltb mx (B754_zero false) = false /\ forall y, In y W -> Bltb mx y = false) /\
  (length W' = length W /\ forall j y, nth_error W j = Some y ->
     nth_error W' j = Some (if Bltb y (Bmult mode_NE tol mx) then (B754_zero false : f32) else y)) /\
  svbksb (FN lm) U W' V b x = Ret x' /\ SOLVER_solve (FN lm) a b x tol = Ret (0%Z, x').
Proof.
  intros L Ha C Hb Hx. destruct (C66_l lm m n a b x tol L Ha C Hb Hx) as (U & W & V & x' & E & _ & _ & _ & S & R & _).
  exists U, W, V, (map (cut (FN lm) (@fmul (FN lm) tol (maxof (FN lm) W))) W), (maxof (FN lm) W), x'.
  split; [exact E|]. split; [exact (maxof_l lm W)|]. split; [|split; [exact S|exact R]]. split; [apply map_length|].
  intros j y Hy. rewrite nth_error_map. refine (eq_ind_r (fun o => option_map _ o = _) _ Hy). reflexivity.
Qed.
Lemma light_len lm (l : Spectrum (FN lm)) (o : Observer (FN lm)) : length (Macbeth_reference (FN lm) (Macbeth_Patch (FN lm)) l o) = 24%nat.
Proof. unfold Macbeth_reference. rewrite map_length. reflexivity. Qed.
Lemma C65_light_l lm patch (l : Spectrum (FN lm)) (o : Observer (FN lm)) :
  ((length patch <= 24)%nat -> exists M, Corrector_solve_light (FN lm) (Macbeth_Patch (FN lm)) patch l o = Ret M) /\
  ((24 < length patch)%nat -> Corrector_solve_light (FN lm) (Macbeth_Patch (FN lm)) patch l o = UB).
Proof.
  split; intros H.
  - apply C65_safe_l. rewrite light_len. exact H.
  - apply C65_ub_l. rewrite light_len. exact H.
Qed.
Lemma C63_l (lm : libm) (m n : nat) (a : list (list f32)) (w : list f32) (v : list (list f32)) :
  (n <= m)%nat -> shape m n a -> cols a = n -> length w = n -> shape n n v ->
  exists a' w' v', svdcmp (FN lm) a w v = Ret (1%Z, a', w', v').
Proof. intros A B C D E. destruct (C62_l lm m n a w v A B C D E) as (a' & w' & v' & H & _). exists a', w', v'. exact H. Qed.
(** A finite matrix whose decomposition fails silently. *)
Definition big : f32 := @flit (FN no_libm) 3e38.
Definition bigM : list (list f32) := [[big; big]; [big; big]].
Lemma C63_witness lm : Forall (Forall (fun x => is_finite x = true)) bigM /\
  exists U W V, svdcmp (FN lm) bigM (newVector (FN lm) 2) (newMatrix (FN lm) 2 2) = Ret (1%Z, U, W, V) /\
  Forall (Forall (fun x : f32 => is_nan x = true)) U /\ Forall (Forall (fun x : f32 => is_nan x = true)) V /\
  Forall (fun x => x = (B754_zero false : f32)) W.
Proof.
  split; [repeat constructor|].
  assert (O : match svdcmp (FN lm) bigM (newVector (FN lm) 2) (newMatrix (FN lm) 2 2) with
    Ret (r, U, W, V) => (r =? 1)%Z && (forallb (forallb is_nan) U && forallb (forallb is_nan) V) && forallb (fun x : f32 => match x with B754_zero false => true | _ => false end) W
    | _ => false end = true) by (vm_compute; reflexivity).
  destruct (svdcmp (FN lm) bigM (newVector (FN lm) 2) (newMatrix (FN lm) 2 2)) as [[[[r U] W] V]| | |]; try discriminate.
  apply andb_true_iff in O. destruct O as [O O3]. apply andb_true_iff in O. destruct O as [O1 O2]. apply andb_true_iff in O2. destruct O2 as [O2 O4].
  assert (K : forall M : list (list f32), forallb (forallb is_nan) M = true -> Forall (Forall (fun x : f32 => is_nan x = true)) M).
  { intros M. rewrite forallb_forall, Forall_forall. intros H r' Hr. specialize (H r' Hr). rewrite forallb_forall in H. now apply Forall_forall. }
  apply Z.eqb_eq in O1. subst r. exists U, W, V. split; [reflexivity|]. split; [apply K, O2|]. split; [apply K, O4|].
  rewrite forallb_forall in O3. apply Forall_forall. intros x Hx. specialize (O3 x Hx). destruct x as [[]|?| |]; try discriminate. reflexivity.
Qed.
(** the identity as a decomposition of a diagonal matrix *)
Lemma C64_ex : is_svd 3 2 (fun i j => if Nat.eqb i j then INR i + 1 else 0) delta (fun p => INR p + 1) delta.
Proof.
  assert (O : forall m n, (n <= m)%nat -> orthonormal m n delta).
  { intros m n H p q Hp Hq. rewrite (bsum_ext m _ (fun i => delta p i * delta i q)); [rewrite bsum_delta by lia; reflexivity|].
    intros i _. f_equal. unfold delta. rewrite Nat.eqb_sym. reflexivity. }
  split; [apply O; lia|]. split; [apply O; lia|]. intros i j Hi Hj.
  assert (E : forall p, delta i p * (INR p + 1) * delta j p = delta j p * (delta i p * (INR p + 1))) by (intros; ring).
  rewrite (bsum_ext 2 _ _ (fun p _ => E p)). rewrite bsum_delta by exact Hj. unfold delta. destruct (Nat.eqb_spec i j) as [->|_]; ring.
Qed.
