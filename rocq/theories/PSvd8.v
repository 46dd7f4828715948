(** * The corrector on orthogonal patches; the decomposition of a singular matrix in binary32. *)
From Coq Require Import ZArith Reals Lra Lia List Bool.
From Flocq Require Import Core BinarySingleNaN.
From Verif Require Import Num NumR NumF MVec MTri MSolver RTac SpecMat RLin RSvd F32 PSolver PSolver2 PSolver3 PSvd PSvd2 PSvd3 PSvd4 PSvd5 PSvd6 PSvd7.
Import ListNotations.
Local Open Scope R_scope.

(** sum over the patches of the product of two components *)
Definition gram (ps : list (Vector3 R)) (a b : nat) : R := lsum (fun v => cmp v a * cmp v b) ps.
Lemma lsum_flat {A B} (f : B -> R) (g : A -> list B) l : lsum f (flat_map g l) = lsum (fun x => lsum f (g x)) l.
Proof. induction l as [|x l IH]; [reflexivity|]. cbn [flat_map lsum]. now rewrite lsum_app, IH. Qed.
Lemma lsum_ext {A} (f g : A -> R) l : (forall x, f x = g x) -> lsum f l = lsum g l.
Proof. intros E. induction l as [|x l IH]; [reflexivity|]. cbn [lsum]. now rewrite E, IH. Qed.
Lemma lsum_0 {A} (l : list A) : lsum (fun _ => 0) l = 0.
Proof. induction l as [|x l IH]; [reflexivity|]. cbn [lsum]. rewrite IH. ring. Qed.
Definition sysA (ps : list (Vector3 R)) : nat -> nat -> R := fun i j => nth j (nth i (rowsAll ps) []) 0.
Lemma sys_gram ps p q : (p < 9)%nat -> (q < 9)%nat ->
  bsum (3 * (length ps + 1)) (fun i => sysA ps i p * sysA ps i q) = if Nat.eqb (p / 3) (q / 3) then gram ps (p mod 3) (q mod 3) else 0.
Proof.
  intros Hp Hq. rewrite <- (proj1 (rowsAll_shape ps)). unfold sysA. rewrite (bsum_list (fun r => nth p r 0 * nth q r 0) (rowsAll ps) []).
  unfold rowsAll. rewrite lsum_app, lsum_flat.
  assert (E : lsum (fun r => nth p r 0 * nth q r 0) (rowsR zeroV) = 0).
  { unfold rowsR, zeroV. cbn [lsum v0 v1 v2]. do 9 (destruct p as [|p]; [cbn [nth]; ring|]). lia. }
  rewrite E, Rplus_0_r.
  rewrite (lsum_ext _ (fun v => if Nat.eqb (p / 3) (q / 3) then cmp v (p mod 3) * cmp v (q mod 3) else 0)).
  - destruct (Nat.eqb (p / 3) (q / 3)); [reflexivity|apply lsum_0].
  - intros v. unfold rowsR, cmp. cbn [lsum]. clear E. do 9 (destruct p as [|p]; [do 9 (destruct q as [|q]; [cbn; ring|]); lia|]). lia.
Qed.
Lemma corrector_orth ps ts : length ps = length ts -> (2 <= length ps)%nat ->
  (forall a b, (a < 3)%nat -> (b < 3)%nat -> a <> b -> gram ps a b = 0) ->
  (forall a b, (a < 3)%nat -> (b < 3)%nat -> 0 < gram ps a a /\ gram ps b b <= 10000000000 * gram ps a a) ->
  exists M, Corrector_solve RN (map finV ps) (map finV ts) = Ret (finM M) /\
    forall M', lsum (fun pt => dist2 (applyR M (fst pt)) (snd pt)) (combine ps ts) <= lsum (fun pt => dist2 (applyR M' (fst pt)) (snd pt)) (combine ps ts).
Proof.
  intros HL H2 G0 G1. set (m := (3 * (length ps + 1))%nat).
  assert (OC : orth_cols m 9 (sysA ps)).
  { split.
    - intros p q Hp Hq N. unfold m. rewrite sys_gram by assumption. destruct (Nat.eqb_spec (p / 3) (q / 3)) as [E|E]; [|reflexivity].
      apply G0; try (apply Nat.mod_upper_bound; lia). intros E2. apply N. rewrite (Nat.div_mod p 3), (Nat.div_mod q 3) by lia. now rewrite E, E2.
    - intros p Hp. unfold m. rewrite sys_gram by assumption. rewrite Nat.eqb_refl. assert (L : (p mod 3 < 3)%nat) by (apply Nat.mod_upper_bound; lia). pose proof (proj1 (G1 _ _ L L)). lra. }
  destruct (svdcmp_orth m 9 (sysA ps) (fun _ => 0) (fun _ _ => 0) ltac:(lia) ltac:(unfold m; lia) OC) as (U & w & V & Q & S & W).
  assert (NN : forall p, (p < 9)%nat -> 0 <= w p) by (intros p Hp; rewrite W by exact Hp; apply sqrt_pos).
  destruct tolR as (t & Et & Vt).
  destruct (solve_given m 9 (sysA ps) U w V (fun i => nth i (bAll ts) 0) (fun _ => 0) t ltac:(lia) ltac:(unfold m; lia) ltac:(lra) Q S NN) as (x & A' & Qx & _ & EA & LS).
  assert (EA' : meq m 9 A' (sysA ps)).
  { refine (EA _). intros p Hp. right. intros q Hq. rewrite !W by assumption. unfold m. rewrite !sys_gram, !Nat.eqb_refl by assumption.
    assert (Lp : (p mod 3 < 3)%nat) by (apply Nat.mod_upper_bound; lia). assert (Lq : (q mod 3 < 3)%nat) by (apply Nat.mod_upper_bound; lia).
    destruct (G1 _ _ Lp Lq) as [P1 P2]. destruct (G1 _ _ Lq Lq) as [P3 _]. rewrite Vt.
    replace (1 / 100000) with (sqrt (1 / 10000000000)) by (apply Rsqr_inj; [apply sqrt_pos|lra|rewrite Rsqr_sqrt by lra; unfold Rsqr; lra]).
    rewrite <- sqrt_mult by lra. apply sqrt_le_1; lra. }
  clear EA. set (M := M3 (x 0%nat) (x 1%nat) (x 2%nat) (x 3%nat) (x 4%nat) (x 5%nat) (x 6%nat) (x 7%nat) (x 8%nat)).
  exists M. split.
  - unfold Corrector_solve. rewrite corr_result_ok by (rewrite !map_length, HL; apply le_n). cbn [bind].
    rewrite map_length, HL. replace (length ts) with (length (map finV ts)) at 1 by apply map_length. rewrite firstn_all.
    rewrite corr_matrix_real, corr_b_real, vec0. rewrite (mat_list _ _ _ (rowsAll_shape ps)), vec_list, bAll_len, <- HL. fold m. rewrite Et.
    change (fun i j => nth j (nth i (rowsAll ps) []) 0) with (sysA ps). rewrite Qx. reflexivity.
  - intros M'. rewrite <- !(residual_value ps ts) by exact HL. fold m. change (fun i j => nth j (nth i (rowsAll ps) []) 0) with (sysA ps).
    rewrite <- !(residual_extA m 9 A' (sysA ps)) by exact EA'.
    rewrite (residual_ext m 9 A' _ (fun k => nth k (entries M) 0) x); [apply LS|].
    intros k Hk. unfold M, entries. cbn [m0 m1 m2 m3 m4 m5 m6 m7 m8]. do 9 (destruct k as [|k]; [reflexivity|]). lia.
Qed.
Lemma dist2_nonneg a b : 0 <= dist2 a b.
Proof.
  unfold dist2, sq. pose proof (fun x => Rle_0_sqr x) as K. unfold Rsqr in K. repeat apply Rplus_le_le_0_compat; apply K.
Qed.
Lemma lsum_nonneg {A} (f : A -> R) l : (forall x, 0 <= f x) -> 0 <= lsum f l.
Proof. intros H. induction l as [|x l IH]; cbn [lsum]; [lra|]. specialize (H x). lra. Qed.
Lemma lsum_zero_inv {A} (f : A -> R) l : (forall x, 0 <= f x) -> lsum f l <= 0 -> forall x, In x l -> f x = 0.
Proof.
  intros H. induction l as [|y l IH]; cbn [lsum In]; [contradiction|]. intros L x [->|I]; pose proof (H x); pose proof (lsum_nonneg f l H).
  - pose proof (H x). lra.
  - apply IH; [|exact I]. pose proof (H y). lra.
Qed.
Lemma dist2_zero a b : dist2 a b = 0 -> a = b.
Proof. destruct a as [a0 a1 a2], b as [b0 b1 b2]. unfold dist2, sq. cbn. intros H. pose proof (Rle_0_sqr (a0 - b0)). pose proof (Rle_0_sqr (a1 - b1)). pose proof (Rle_0_sqr (a2 - b2)).
  assert (Rsqr (a0 - b0) = 0 /\ Rsqr (a1 - b1) = 0 /\ Rsqr (a2 - b2) = 0) as (E0 & E1 & E2) by (unfold Rsqr in *; repeat split; lra).
  apply Rsqr_0_uniq in E0, E1, E2. f_equal; lra. Qed.
Lemma corrector_exact ps M0 : (2 <= length ps)%nat ->
  (forall a b, (a < 3)%nat -> (b < 3)%nat -> a <> b -> gram ps a b = 0) ->
  (forall a b, (a < 3)%nat -> (b < 3)%nat -> 0 < gram ps a a /\ gram ps b b <= 10000000000 * gram ps a a) ->
  exists M, Corrector_solve RN (map finV ps) (map finV (map (applyR M0) ps)) = Ret (finM M) /\ forall p, In p ps -> applyR M p = applyR M0 p.
Proof.
  intros H2 G0 G1. destruct (corrector_orth ps (map (applyR M0) ps) ltac:(now rewrite map_length) H2 G0 G1) as (M & Q & L). exists M. split; [exact Q|].
  assert (Z : lsum (fun pt => dist2 (applyR M0 (fst pt)) (snd pt)) (combine ps (map (applyR M0) ps)) = 0).
  { clear. induction ps as [|p ps IH]; [reflexivity|]. cbn [map combine lsum fst snd]. rewrite IH. unfold dist2, sq. ring. }
  specialize (L M0). rewrite Z in L. intros p Hp. apply dist2_zero.
  apply (lsum_zero_inv (fun pt => dist2 (applyR M (fst pt)) (snd pt)) (combine ps (map (applyR M0) ps)) ltac:(intros; apply dist2_nonneg) L (p, applyR M0 p)).
  clear - Hp. induction ps as [|q ps IH]; [contradiction|]. cbn [map combine In]. destruct Hp as [->|Hp]; [left; reflexivity|right; apply IH, Hp].
Qed.

Lemma dot_gram d0 d1 d2 ps : (forall p, In p ps -> d0 * v0 p + d1 * v1 p + d2 * v2 p = 0) ->
  forall a, d0 * gram ps 0 a + d1 * gram ps 1 a + d2 * gram ps 2 a = 0.
Proof.
  intros H a. unfold gram. induction ps as [|p ps IH]; [cbn; ring|]. cbn [lsum].
  assert (E := H p (or_introl eq_refl)). assert (IH' := IH (fun q I => H q (or_intror I))).
  transitivity ((d0 * v0 p + d1 * v1 p + d2 * v2 p) * cmp p a + (d0 * lsum (fun v => cmp v 0 * cmp v a) ps + d1 * lsum (fun v => cmp v 1 * cmp v a) ps + d2 * lsum (fun v => cmp v 2 * cmp v a) ps)).
  - unfold cmp. cbn [nth]. ring.
  - rewrite E, IH'. ring.
Qed.
Lemma corrector_exact_eq ps M0 : (2 <= length ps)%nat ->
  (forall a b, (a < 3)%nat -> (b < 3)%nat -> a <> b -> gram ps a b = 0) ->
  (forall a b, (a < 3)%nat -> (b < 3)%nat -> 0 < gram ps a a /\ gram ps b b <= 10000000000 * gram ps a a) ->
  Corrector_solve RN (map finV ps) (map finV (map (applyR M0) ps)) = Ret (finM M0).
Proof.
  intros H2 G0 G1. destruct (corrector_exact ps M0 H2 G0 G1) as (M & Q & E). rewrite Q. do 2 f_equal.
  assert (K : forall d0 d1 d2, (forall p, In p ps -> d0 * v0 p + d1 * v1 p + d2 * v2 p = 0) -> d0 = 0 /\ d1 = 0 /\ d2 = 0).
  { intros d0 d1 d2 H. pose proof (dot_gram d0 d1 d2 ps H) as D.
    pose proof (D 0%nat) as D0. pose proof (D 1%nat) as D1. pose proof (D 2%nat) as D2. rewrite (G0 1%nat 0%nat), (G0 2%nat 0%nat) in D0 by lia.
    rewrite (G0 0%nat 1%nat), (G0 2%nat 1%nat) in D1 by lia. rewrite (G0 0%nat 2%nat), (G0 1%nat 2%nat) in D2 by lia.
    pose proof (proj1 (G1 0%nat 0%nat ltac:(lia) ltac:(lia))). pose proof (proj1 (G1 1%nat 1%nat ltac:(lia) ltac:(lia))). pose proof (proj1 (G1 2%nat 2%nat ltac:(lia) ltac:(lia))).
    repeat split; [apply (Rmult_eq_reg_r (gram ps 0 0))|apply (Rmult_eq_reg_r (gram ps 1 1))|apply (Rmult_eq_reg_r (gram ps 2 2))]; lra. }
  destruct M as [a b c d e f g h i], M0 as [a' b' c' d' e' f' g' h' i'].
  destruct (K (a - a') (b - b') (c - c')) as (?&?&?).
  { intros p I. specialize (E p I). unfold applyR, mkV, sum3, ent, cmp in E. cbn in E. injection E as E1 E2 E3. lra. }
  destruct (K (d - d') (e - e') (f - f')) as (?&?&?).
  { intros p I. specialize (E p I). unfold applyR, mkV, sum3, ent, cmp in E. cbn in E. injection E as E1 E2 E3. lra. }
  destruct (K (g - g') (h - h') (i - i')) as (?&?&?).
  { intros p I. specialize (E p I). unfold applyR, mkV, sum3, ent, cmp in E. cbn in E. injection E as E1 E2 E3. lra. }
  f_equal; lra.
Qed.

(** ** A singular matrix in binary32. *)
Definition bad0 : f32 := B754_zero false.
Definition bad1 : f32 := Bone.
Definition badA : list (list f32) := [[bad0; bad1; bad0]; [bad0; bad1; bad1]; [bad0; bad0; bad1]].
(** real value of an entry *)
Definition rv (l : list f32) (i : nat) : R := B2R (nth i l bad0).
Definition rm (a : list (list f32)) (i j : nat) : R := rv (nth i a []) j.
Definition sf_eqb (a b : SpecFloat.spec_float) : bool :=
  match a, b with
  | SpecFloat.S754_zero s, SpecFloat.S754_zero t => Bool.eqb s t
  | SpecFloat.S754_finite s m e, SpecFloat.S754_finite t n f => Bool.eqb s t && Pos.eqb m n && Z.eqb e f
  | _, _ => false
  end.
Lemma sf_eqb_eq a b : sf_eqb a b = true -> a = b.
Proof.
  destruct a as [s| | |s m e], b as [t| | |t n f]; cbn; try discriminate.
  - intros H. apply Bool.eqb_prop in H. now subst.
  - rewrite !andb_true_iff, Bool.eqb_true_iff, Pos.eqb_eq, Z.eqb_eq. intros [[-> ->] ->]. reflexivity.
Qed.
Lemma sf_value (x : f32) s : sf_eqb (B2SF x) s = true -> B2R x = SF2R radix2 s.
Proof. intros H. apply sf_eqb_eq in H. rewrite <- H. symmetry. apply SF2R_B2SF. Qed.
Notation fin s m e := (SpecFloat.S754_finite s m e).
Lemma bad_svd lm : exists U W V, svdcmp (FN lm) badA (newVector (FN lm) 3) (newMatrix (FN lm) 3 3) = Ret (1%Z, U, W, V) /\
  rm badA 0 2 = 0 /\ 1 / 5 < bsum 3 (fun p => rm U 0 p * rv W p * rm V 2 p).
Proof.
  assert (O : match svdcmp (FN lm) badA (newVector (FN lm) 3) (newMatrix (FN lm) 3 3) with
    Ret (r, U, W, V) => (r =? 1)%Z && (sf_eqb (B2SF (nth 0 W bad0)) (SpecFloat.S754_zero false)
      && sf_eqb (B2SF (nth 1 W bad0)) (fin false 16105561 (-23)) && sf_eqb (B2SF (nth 2 W bad0)) (fin false 15135426 (-24))
      && sf_eqb (B2SF (nth 1 (nth 0 U []) bad0)) (fin true 14004272 (-25)) && sf_eqb (B2SF (nth 2 (nth 0 U []) bad0)) (fin false 11773706 (-24))
      && sf_eqb (B2SF (nth 1 (nth 2 V []) bad0)) (fin true 12854444 (-24)) && sf_eqb (B2SF (nth 2 (nth 2 V []) bad0)) (fin true 10781384 (-24)))
    | _ => false end = true) by (vm_compute; reflexivity).
  destruct (svdcmp (FN lm) badA (newVector (FN lm) 3) (newMatrix (FN lm) 3 3)) as [[[[r U] W] V]| | |]; try discriminate.
  rewrite !andb_true_iff in O. destruct O as (Or & (((((O0 & O1) & O2) & O3) & O4) & O5) & O6). apply Z.eqb_eq in Or. subst r.
  exists U, W, V. split; [reflexivity|]. split; [reflexivity|].
  apply sf_value in O0, O1, O2, O3, O4, O5, O6.
  match type of O0 with _ = ?a => change (rv W 0 = a) in O0 end. match type of O1 with _ = ?a => change (rv W 1 = a) in O1 end. match type of O2 with _ = ?a => change (rv W 2 = a) in O2 end. match type of O3 with _ = ?a => change (rm U 0 1 = a) in O3 end. match type of O4 with _ = ?a => change (rm U 0 2 = a) in O4 end. match type of O5 with _ = ?a => change (rm V 2 1 = a) in O5 end. match type of O6 with _ = ?a => change (rm V 2 2 = a) in O6 end.
  cbn [bsum]. rewrite O0, O1, O2, O3, O4, O5, O6. unfold SF2R, F2R. cbn [cond_Zopp Fnum Fexp Z.opp bpow radix_val radix2 Z.pow_pos Pos.iter Z.mul Pos.mul]. lra.
Qed.
Lemma bad_solve lm : exists x, SOLVER_solve (FN lm) badA [bad0; bad1; bad1] (newVector (FN lm) 3) (SOLVER_TOL (FN lm)) = Ret (0%Z, x) /\
  residual2 3 3 (rm badA) (rv [bad0; bad1; bad1]) (fun i => if Nat.eqb i 2 then 1 else 0) = 0 /\
  2 / 25 < residual2 3 3 (rm badA) (rv [bad0; bad1; bad1]) (rv x).
Proof.
  assert (O : match SOLVER_solve (FN lm) badA [bad0; bad1; bad1] (newVector (FN lm) 3) (SOLVER_TOL (FN lm)) with
    Ret (r, x) => (r =? 0)%Z && (sf_eqb (B2SF (nth 1 x bad0)) (fin true 13898692 (-26)) && sf_eqb (B2SF (nth 2 x bad0)) (fin false 8388608 (-23)))
    | _ => false end = true) by (vm_compute; reflexivity).
  destruct (SOLVER_solve (FN lm) badA [bad0; bad1; bad1] (newVector (FN lm) 3) (SOLVER_TOL (FN lm))) as [[r x]| | |]; try discriminate.
  rewrite !andb_true_iff in O. destruct O as (Or & O1 & O2). apply Z.eqb_eq in Or. subst r. apply sf_value in O1, O2. match type of O2 with _ = ?a => change (rv x 2 = a) in O2 end. match type of O1 with _ = ?a => change (rv x 1 = a) in O1 end.
  assert (B1 : B2R bad1 = 1) by apply Bone_correct.
  exists x. split; [reflexivity|]. unfold residual2, norm2, sq, mulv. cbn [bsum Nat.eqb]. rewrite O1, O2. generalize (rv x 0). intros y. unfold rm, rv. cbn [nth badA]. change (B2R bad0) with 0. rewrite B1.
  split; [ring|]. unfold SF2R, F2R. cbn [cond_Zopp Fnum Fexp Z.opp bpow radix_val radix2 Z.pow_pos Pos.iter Z.mul Pos.mul].
  lra.
Qed.
(** real value of a vector and of a matrix *)
Definition valV (v : Vector3 f32) : Vector3 R := V3 (B2R (v0 v)) (B2R (v1 v)) (B2R (v2 v)).
Definition valM (m : Matrix3 f32) : Matrix3 R :=
  M3 (B2R (m0 m)) (B2R (m1 m)) (B2R (m2 m)) (B2R (m3 m)) (B2R (m4 m)) (B2R (m5 m)) (B2R (m6 m)) (B2R (m7 m)) (B2R (m8 m)).
Definition badP : list (Vector3 f32) := [V3 bad0 bad1 bad0; V3 bad0 bad1 bad1; V3 bad0 bad0 bad1].
Lemma bad_corrector lm : length badP = 3%nat /\ exists M, Corrector_solve (FN lm) badP badP = Ret M /\
  2 < lsum (fun p => dist2 (applyR (valM M) (valV p)) (valV p)) badP.
Proof.
  split; [reflexivity|].
  assert (O : match Corrector_solve (FN lm) badP badP with
    Ret (M3 a b c d e f g h i) => sf_eqb (B2SF b) (SpecFloat.S754_zero false) && sf_eqb (B2SF c) (SpecFloat.S754_zero false)
      && sf_eqb (B2SF e) (fin false 8388608 (-23)) && sf_eqb (B2SF f) (fin false 8388608 (-48))
      && sf_eqb (B2SF h) (fin false 10125945 (-23)) && sf_eqb (B2SF i) (fin false 16777215 (-24))
    | _ => false end = true) by (vm_compute; reflexivity).
  destruct (Corrector_solve (FN lm) badP badP) as [[a b c d e f g h i]| | |]; try discriminate.
  rewrite !andb_true_iff in O. destruct O as (((((O1 & O2) & O3) & O4) & O5) & O6).
  exists (M3 a b c d e f g h i). split; [reflexivity|].
  apply sf_value in O1, O2, O3, O4, O5, O6. assert (B1 : B2R bad1 = 1) by apply Bone_correct.
  unfold lsum, badP, dist2, applyR, mkV, sum3, ent, cmp, valM, valV, sq. cbn [v0 v1 v2 m0 m1 m2 m3 m4 m5 m6 m7 m8 nth Nat.mul Nat.add].
  change (B2R bad0) with 0. rewrite B1, O1, O2, O3, O4, O5, O6. generalize (B2R a) (B2R d) (B2R g). intros p q r.
  unfold SF2R, F2R. cbn [cond_Zopp Fnum Fexp Z.opp bpow radix_val radix2 Z.pow_pos Pos.iter Z.mul Pos.mul]. lra.
Qed.
(** ** Cases that meet the hypotheses *)
Lemma full_rank_ex : full_rank 3 3 (fun i j => if Nat.leb i j then 1 else 0).
Proof.
  intros x H j Hj. pose proof (H 0%nat ltac:(lia)) as H0. pose proof (H 1%nat ltac:(lia)) as H1. pose proof (H 2%nat ltac:(lia)) as H2.
  unfold mulv in *. cbn [bsum Nat.leb] in *. destruct j as [|[|[|j]]]; try lia; lra.
Qed.
Definition rotA (i j : nat) : R := nth j (nth i [[1; 1; 0]; [1; -1; 0]; [0; 0; 2]; [0; 0; 1]] []) 0.
Lemma orth_cols_ex : orth_cols 4 3 rotA.
Proof.
  split.
  - intros p q Hp Hq N. do 3 (destruct p as [|p]; [do 3 (destruct q as [|q]; [unfold rotA; cbn; try ring; now destruct N|]); lia|]). lia.
  - intros p Hp. do 3 (destruct p as [|p]; [unfold rotA; cbn; lra|]). lia.
Qed.
Definition patches3 : list (Vector3 R) := [V3 1 1 0; V3 1 (-1) 0; V3 0 0 3].
Lemma patches3_ok : (2 <= length patches3)%nat /\
  (forall a b, (a < 3)%nat -> (b < 3)%nat -> a <> b -> gram patches3 a b = 0) /\
  (forall a b, (a < 3)%nat -> (b < 3)%nat -> 0 < gram patches3 a a /\ gram patches3 b b <= 10000000000 * gram patches3 a a).
Proof.
  split; [cbn; lia|]. split.
  - intros a b Ha Hb N. do 3 (destruct a as [|a]; [do 3 (destruct b as [|b]; [unfold gram, patches3, cmp; cbn; try ring; now destruct N|]); lia|]). lia.
  - intros a b Ha Hb. do 3 (destruct a as [|a]; [do 3 (destruct b as [|b]; [unfold gram, patches3, cmp; cbn; lra|]); lia|]). lia.
Qed.
