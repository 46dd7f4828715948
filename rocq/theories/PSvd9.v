(** * The corrector, given that the decomposition it computes is one. *)
From Coq Require Import ZArith Reals Lra Lia List Bool.
From Flocq Require Import Core BinarySingleNaN.
From Verif Require Import Num NumR NumF MVec MTri MSolver RTac SpecMat RLin RSvd F32 PSolver PSolver2 PSolver3 PSvd PSvd2 PSvd3 PSvd4 PSvd5 PSvd6 PSvd7 PSvd8.
Import ListNotations.
Local Open Scope R_scope.

Lemma vec_inj n f g i : vec n f = vec n g -> (i < n)%nat -> f i = g i.
Proof.
  unfold vec. intros E H. assert (K : forall h : nat -> R, nth i (map (fun k => Some (h k)) (seq 0 n)) None = Some (h i)).
  { intros h. rewrite (nth_indep _ None (Some (h 0%nat))) by (rewrite map_length, seq_length; exact H).
    change (Some (h 0%nat)) with ((fun k => Some (h k)) 0%nat). rewrite map_nth, seq_nth by exact H. reflexivity. }
  pose proof (K f) as A. pose proof (K g) as B. rewrite E in A. rewrite A in B. now injection B.
Qed.
Lemma mat_inj m n A B i j : mat m n A = mat m n B -> (i < m)%nat -> (j < n)%nat -> A i j = B i j.
Proof.
  unfold mat. intros E H1 H2. apply (vec_inj n _ _ j); [|exact H2].
  assert (K : forall h : nat -> nat -> R, nth i (map (fun k => vec n (h k)) (seq 0 m)) [] = vec n (h i)).
  { intros h. rewrite (nth_indep _ [] (vec n (h 0%nat))) by (rewrite map_length, seq_length; exact H1).
    change (vec n (h 0%nat)) with ((fun k => vec n (h k)) 0%nat). rewrite map_nth, seq_nth by exact H1. reflexivity. }
  pose proof (K A) as X. pose proof (K B) as Y. rewrite E in X. rewrite X in Y. exact Y.
Qed.

Lemma corrector_given ps ts A U w V : length ps = length ts -> (2 <= length ps)%nat ->
  let m := (3 * (length ps + 1))%nat in corr_matrix RN (map finV ps) = mat m 9 A ->
  svdcmp RN (mat m 9 A) (vec 9 (fun _ => 0)) (mat 9 9 (fun _ _ => 0)) = Ret (1%Z, mat m 9 U, vec 9 w, mat 9 9 V) ->
  is_svd m 9 A U w V -> (forall p, (p < 9)%nat -> 0 <= w p) -> (forall p q, (p < 9)%nat -> (q < 9)%nat -> w p = 0 \/ 1 / 100000 * w q <= w p) ->
  exists M, Corrector_solve RN (map finV ps) (map finV ts) = Ret (finM M) /\
    forall M', let err X := lsum (fun pt => dist2 (applyR X (fst pt)) (snd pt)) (combine ps ts) in
      err M <= err M' /\ (err M' = err M -> lsum sq (entries M) <= lsum sq (entries M')).
Proof.
  intros HL H2 m EA Q S NN Th.
  destruct tolR as (t & Et & Vt).
  destruct (solve_given m 9 A U w V (fun i => nth i (bAll ts) 0) (fun _ => 0) t ltac:(lia) ltac:(unfold m; lia) ltac:(lra) Q S NN) as (x & A' & Qx & _ & EA' & LS).
  assert (E1 : meq m 9 A' A).
  { refine (EA' _). intros p Hp. destruct (Req_dec (w p) 0) as [Z|Z]; [left; exact Z|right]. intros q Hq. rewrite Vt. destruct (Th p q Hp Hq); [contradiction|assumption]. }
  assert (E2 : meq m 9 A (sysA ps)).
  { intros i j Hi Hj. apply (mat_inj m 9); [|exact Hi|exact Hj]. rewrite <- EA, corr_matrix_real. apply (mat_list _ _ _ (rowsAll_shape ps)). }
  assert (E3 : meq m 9 A' (sysA ps)) by (intros i j Hi Hj; rewrite E1 by assumption; apply E2; assumption).
  clear EA'. set (M := M3 (x 0%nat) (x 1%nat) (x 2%nat) (x 3%nat) (x 4%nat) (x 5%nat) (x 6%nat) (x 7%nat) (x 8%nat)).
  assert (XE : forall k, (k < 9)%nat -> nth k (entries M) 0 = x k).
  { intros k Hk. unfold M, entries. cbn [m0 m1 m2 m3 m4 m5 m6 m7 m8]. do 9 (destruct k as [|k]; [reflexivity|]). lia. }
  exists M. split.
  - unfold Corrector_solve. rewrite corr_result_ok by (rewrite !map_length, HL; apply le_n). cbn [bind].
    rewrite map_length, HL. replace (length ts) with (length (map finV ts)) at 1 by apply map_length. rewrite firstn_all.
    rewrite EA, corr_b_real, vec0. rewrite vec_list, bAll_len, <- HL. fold m. rewrite Et.
    rewrite Qx. reflexivity.
  - intros M' err. assert (RV : forall X, err X = residual2 m 9 A' (fun i => nth i (bAll ts) 0) (fun k => nth k (entries X) 0)).
    { intros X. unfold err. rewrite <- (residual_value ps ts) by exact HL. fold m. change (fun i j => nth j (nth i (rowsAll ps) []) 0) with (sysA ps).
      rewrite <- (residual_extA m 9 A' (sysA ps)) by exact E3. reflexivity. }
    rewrite !RV. rewrite (residual_ext m 9 A' _ (fun k => nth k (entries M) 0) x) by exact XE.
    destruct (LS (fun k => nth k (entries M') 0)) as [L1 L2]. split; [exact L1|]. intros E. specialize (L2 E).
    assert (NE : forall X, norm2 9 (fun k => nth k (entries X) 0) = lsum sq (entries X)) by (intros X; unfold norm2; apply (bsum_list sq (entries X) 0)).
    rewrite <- !NE. replace (norm2 9 (fun k => nth k (entries M) 0)) with (norm2 9 x); [exact L2|].
    unfold norm2. apply bsum_ext. intros k Hk. now rewrite XE.
Qed.
Lemma corrector_given_exact ps M0 A U w V : (2 <= length ps)%nat ->
  let m := (3 * (length ps + 1))%nat in corr_matrix RN (map finV ps) = mat m 9 A ->
  svdcmp RN (mat m 9 A) (vec 9 (fun _ => 0)) (mat 9 9 (fun _ _ => 0)) = Ret (1%Z, mat m 9 U, vec 9 w, mat 9 9 V) ->
  is_svd m 9 A U w V -> (forall p q, (p < 9)%nat -> (q < 9)%nat -> 0 <= w p /\ (w p = 0 \/ 1 / 100000 * w q <= w p)) ->
  (forall d0 d1 d2, (forall p, In p ps -> d0 * v0 p + d1 * v1 p + d2 * v2 p = 0) -> d0 = 0 /\ d1 = 0 /\ d2 = 0) ->
  Corrector_solve RN (map finV ps) (map finV (map (applyR M0) ps)) = Ret (finM M0).
Proof.
  intros H2 m EA Q S NN K.
  destruct (corrector_given ps (map (applyR M0) ps) A U w V ltac:(now rewrite map_length) H2 EA Q S (fun p H => proj1 (NN p p H H)) (fun p q H K => proj2 (NN p q H K))) as (M & QM & L).
  rewrite QM. do 2 f_equal. destruct (L M0) as [L0 _].
  assert (Z : lsum (fun pt => dist2 (applyR M0 (fst pt)) (snd pt)) (combine ps (map (applyR M0) ps)) = 0).
  { clear. induction ps as [|p ps IH]; [reflexivity|]. cbn [map combine lsum fst snd]. rewrite IH. unfold dist2, sq. ring. }
  cbv zeta in L0. rewrite Z in L0.
  assert (E : forall p, In p ps -> applyR M p = applyR M0 p).
  { intros p Hp. apply dist2_zero.
    apply (lsum_zero_inv (fun pt => dist2 (applyR M (fst pt)) (snd pt)) (combine ps (map (applyR M0) ps)) ltac:(intros; apply dist2_nonneg) L0 (p, applyR M0 p)).
    clear - Hp. induction ps as [|q ps IH]; [contradiction|]. cbn [map combine In]. destruct Hp as [->|Hp]; [left; reflexivity|right; apply IH, Hp]. }
  destruct M as [a b c d e f g h i], M0 as [a' b' c' d' e' f' g' h' i'].
  destruct (K (a - a') (b - b') (c - c')) as (?&?&?).
  { intros p I. specialize (E p I). unfold applyR, mkV, sum3, ent, cmp in E. cbn in E. injection E as E1 E2 E3. lra. }
  destruct (K (d - d') (e - e') (f - f')) as (?&?&?).
  { intros p I. specialize (E p I). unfold applyR, mkV, sum3, ent, cmp in E. cbn in E. injection E as E1 E2 E3. lra. }
  destruct (K (g - g') (h - h') (i - i')) as (?&?&?).
  { intros p I. specialize (E p I). unfold applyR, mkV, sum3, ent, cmp in E. cbn in E. injection E as E1 E2 E3. lra. }
  f_equal; lra.
Qed.
Lemma given_case : let ps := patches3 in let m := (3 * (length ps + 1))%nat in (2 <= length ps)%nat /\
  (forall d0 d1 d2, (forall p, In p ps -> d0 * v0 p + d1 * v1 p + d2 * v2 p = 0) -> d0 = 0 /\ d1 = 0 /\ d2 = 0) /\
  exists A U w V, corr_matrix RN (map finV ps) = mat m 9 A /\
  svdcmp RN (mat m 9 A) (vec 9 (fun _ => 0)) (mat 9 9 (fun _ _ => 0)) = Ret (1%Z, mat m 9 U, vec 9 w, mat 9 9 V) /\
  is_svd m 9 A U w V /\ (forall p q, (p < 9)%nat -> (q < 9)%nat -> 0 <= w p /\ (w p = 0 \/ 1 / 100000 * w q <= w p)).
Proof.
  intros ps m. destruct patches3_ok as (H2 & G0 & G1). fold ps in H2, G0, G1. split; [exact H2|]. split.
  { intros d0 d1 d2 H. pose proof (H (V3 1 1 0) (or_introl eq_refl)) as A. pose proof (H (V3 1 (-1) 0) (or_intror (or_introl eq_refl))) as B.
    pose proof (H (V3 0 0 3) (or_intror (or_intror (or_introl eq_refl)))) as C. cbn [v0 v1 v2] in A, B, C. repeat split; lra. }
  assert (OC : orth_cols m 9 (sysA ps)).
  { split.
    - intros p q Hp Hq N. unfold m. rewrite sys_gram by assumption. destruct (Nat.eqb_spec (p / 3) (q / 3)) as [E|E]; [|reflexivity].
      apply G0; try (apply Nat.mod_upper_bound; lia). intros E2. apply N. rewrite (Nat.div_mod p 3), (Nat.div_mod q 3) by lia. now rewrite E, E2.
    - intros p Hp. unfold m. rewrite sys_gram by assumption. rewrite Nat.eqb_refl. assert (L : (p mod 3 < 3)%nat) by (apply Nat.mod_upper_bound; lia). pose proof (proj1 (G1 _ _ L L)). lra. }
  destruct (svdcmp_orth m 9 (sysA ps) (fun _ => 0) (fun _ _ => 0) ltac:(lia) ltac:(unfold m; lia) OC) as (U & w & V & Q & S & W).
  exists (sysA ps), U, w, V. split; [rewrite corr_matrix_real; apply (mat_list _ _ _ (rowsAll_shape ps))|]. split; [exact Q|]. split; [exact S|].
  intros p q Hp Hq. rewrite !W by assumption. split; [apply sqrt_pos|]. right. unfold m. rewrite !sys_gram, !Nat.eqb_refl by assumption.
  assert (Lp : (p mod 3 < 3)%nat) by (apply Nat.mod_upper_bound; lia). assert (Lq : (q mod 3 < 3)%nat) by (apply Nat.mod_upper_bound; lia).
  destruct (G1 _ _ Lp Lq) as [P1 P2]. destruct (G1 _ _ Lq Lq) as [P3 _].
  replace (1 / 100000) with (sqrt (1 / 10000000000)) by (apply Rsqr_inj; [apply sqrt_pos|lra|rewrite Rsqr_sqrt by lra; unfold Rsqr; lra]).
  rewrite <- sqrt_mult by lra. apply sqrt_le_1; lra.
Qed.
