(** * The built-in tables. *)
From Coq Require Import ZArith Reals Lra Lia List Bool.
From Flocq Require Import Core BinarySingleNaN.
From Verif Require Import Num NumR NumF MVec MTri MSpectrum Tables TablesCES RTac F32 PSpec PSpecF.
Import ListNotations.
Local Open Scope R_scope.

(** Each table has 400 non-negative entries with the same exponent [e <= 0];
    [bound] limits them. *)
Definition chk (p : Z) (t : list dec) : bool :=
  match t with
  | [] => false
  | d :: _ =>
    let e := de d in let q := (p * 10 ^ (- e))%Z in
    (e <=? 0)%Z && Nat.eqb (length t) 400 && forallb (fun d' => (de d' =? e) && (0 <=? dm d') && (dm d' <=? q))%Z t
  end.
Lemma Rdec_bound d p : (de d <= 0)%Z -> (0 <= dm d <= p * 10 ^ (- de d))%Z -> 0 <= Rdec d <= IZR p.
Proof.
  intros E H. destruct d as [m e]. cbn [dm de] in *. unfold Rdec. cbn [dm de]. destruct e as [|q|q]; [|lia|].
  - change (10 ^ (- 0))%Z with 1%Z in H. split; apply IZR_le; lia.
  - change (- Zneg q)%Z with (Zpos q) in H. change (10 ^ Zpos q)%Z with (Z.pow_pos 10 q) in H.
    assert (P : (0 < Z.pow_pos 10 q)%Z) by (change (Z.pow_pos 10 q) with (10 ^ Zpos q)%Z; apply Z.pow_pos_nonneg; lia).
    apply IZR_lt in P as PR. split; [apply div_nonneg; [apply IZR_le; lia|lra]|].
    apply Rmult_le_reg_r with (IZR (Z.pow_pos 10 q)); [exact PR|]. unfold Rdiv. rewrite Rmult_assoc, Rinv_l by lra.
    rewrite Rmult_1_r, <- mult_IZR. apply IZR_le. lia.
Qed.
Lemma chk_ok p t : chk p t = true -> length t = 400%nat /\ Forall (fun d => 0 <= Rdec d <= IZR p) t.
Proof.
  unfold chk. destruct t as [|d t]; [discriminate|]. intros H. apply andb_true_iff in H as [H F]. apply andb_true_iff in H as [E L].
  apply Nat.eqb_eq in L. split; [exact L|]. apply Z.leb_le in E. rewrite Forall_forall. intros d' I.
  rewrite forallb_forall in F. specialize (F d' I). apply andb_true_iff in F as [F B]. apply andb_true_iff in F as [F A].
  apply Z.eqb_eq in F. apply Z.leb_le in A, B. apply Rdec_bound; rewrite F; lia.
Qed.
(** The spectrum of a table over the reals. *)
Definition tabR (t : list dec) : list R := map Rdec t.
Lemma spectrum_of_fin t : spectrum_of RN t = finS (tabR t).
Proof. unfold spectrum_of, finS, tabR. now rewrite map_map. Qed.

Lemma Patch_chk : forallb (chk 1) T_Patch = true. Proof. vm_compute. reflexivity. Qed.
Lemma CES_chk : forallb (chk 1) T_sample = true. Proof. vm_compute. reflexivity. Qed.
Definition CMFs : list (list dec) := [T_CIE1931_X; T_CIE1931_Y; T_CIE1931_Z; T_CIE2012_X; T_CIE2012_Y; T_CIE2012_Z;
  T_CIE1931_JuddVos_X; T_CIE1931_JuddVos_Y; T_CIE1931_JuddVos_Z].
Lemma CMF_chk : forallb (chk 3) CMFs = true. Proof. vm_compute. reflexivity. Qed.
Lemma D65_chk : chk 200 T_CIE_D65 = true. Proof. vm_compute. reflexivity. Qed.

(** ** A literal in binary32 is the decimal number correctly rounded. *)
Lemma quot_ok s a b : Rabs (IZR (SpecFloat.cond_Zopp s (Zpos a)) / IZR (Zpos b)) <= bpow radix2 127 ->
  fin (lit_quot 24 128 p24 p24e s a b) /\
  B2R (lit_quot 24 128 p24 p24e s a b) = rnd (IZR (SpecFloat.cond_Zopp s (Zpos a)) / IZR (Zpos b)).
Proof.
  intros H. unfold lit_quot. pose proof (Bdiv_correct_aux 24 128 p24 p24e mode_NE s a 0 false b 0) as C.
  generalize (proj1 C) as V. destruct C as [_ C]. cbv zeta in *. set (z := let '(_, _, _) := _ in _) in *. intros V.
  change (SpecFloat.fexp 24 128) with fe in C. cbn [round_mode SpecFloat.cond_Zopp] in C.
  replace (F2R (Float radix2 (SpecFloat.cond_Zopp s (Zpos a)) 0)) with (IZR (SpecFloat.cond_Zopp s (Zpos a))) in C by (unfold F2R; cbn [Fnum Fexp]; change (bpow radix2 0) with 1; ring).
  replace (F2R (Float radix2 (Zpos b) 0)) with (IZR (Zpos b)) in C by (unfold F2R; cbn [Fnum Fexp]; change (bpow radix2 0) with 1; ring).
  rewrite Rlt_bool_true in C by (apply rnd_lt_128, H). destruct C as (A & B & _).
  unfold fin. rewrite is_finite_SF2B, B2R_SF2B. auto.
Qed.
Lemma norm_ok z : Rabs (IZR z) <= bpow radix2 127 -> fin (of_Z 24 128 p24 p24e z) /\ B2R (of_Z 24 128 p24 p24e z) = rnd (IZR z).
Proof.
  intros H. unfold of_Z. pose proof (binary_normalize_correct 24 128 p24 p24e mode_NE z 0 false) as C.
  cbv zeta in C. change (SpecFloat.fexp 24 128) with fe in C. cbn [round_mode] in C.
  replace (F2R (Float radix2 z 0)) with (IZR z) in C by (unfold F2R; cbn [Fnum Fexp]; change (bpow radix2 0) with 1; ring).
  rewrite Rlt_bool_true in C by (apply rnd_lt_128, H). destruct C as (A & B & _). auto.
Qed.
Lemma pow10_pos q : Z.pow_pos 10 q = Zpos (Pos.pow 10 q).
Proof. change (Z.pow_pos 10 q) with (10 ^ Zpos q)%Z. symmetry. exact (Pos2Z.inj_pow 10 q). Qed.
Lemma lit_ok (lm : libm) d : Rabs (Rdec d) <= bpow radix2 127 ->
  fin (@flit (FN lm) d) /\ B2R (@flit (FN lm) d) = rnd (Rdec d).
Proof.
  intros H. cbn [flit FN]. destruct d as [m e]. unfold lit. unfold Rdec in *. cbn [dm de] in *.
  destruct m as [|a|a].
  - split; [reflexivity|]. destruct e; cbn [B2R]; rewrite ?Z.mul_0_l; unfold Rdiv; rewrite ?Rmult_0_l, rnd_0; reflexivity.
  - destruct e as [|q|q]; [exact (norm_ok _ H)|exact (norm_ok _ H)|]. rewrite pow10_pos in *. exact (quot_ok false a (Pos.pow 10 q) H).
  - destruct e as [|q|q]; [exact (norm_ok _ H)|exact (norm_ok _ H)|]. rewrite pow10_pos in *. exact (quot_ok true a (Pos.pow 10 q) H).
Qed.
Lemma lit_range (lm : libm) d p : (0 <= p <= 2 ^ 24)%Z -> 0 <= Rdec d <= IZR p ->
  fin (@flit (FN lm) d) /\ 0 <= B2R (@flit (FN lm) d) <= IZR p.
Proof.
  intros P H. destruct (lit_ok lm d) as [F V].
  { rewrite Rabs_pos_eq by lra. apply Rle_trans with (IZR p); [lra|]. apply Rle_trans with (bpow radix2 24); [|apply bpow_le; lia].
    change (bpow radix2 24) with (IZR (2 ^ 24)). apply IZR_le. lia. }
  split; [exact F|]. rewrite V. split; [apply rnd_ge_fmt; [apply fmt_0|lra]|apply rnd_le_fmt; [apply fmt_IZR; lia|lra]].
Qed.

(** ** C59 *)
Definition rangeR (hi : R) (s : Spectrum RN) : Prop := exists l, spectrumR l /\ s = finS l /\ Forall (fun x => 0 <= x <= hi) l.
Definition rangeF (hi : R) (s : list f32) : Prop := length s = 400%nat /\ Forall (fun x : f32 => is_finite x = true /\ 0 <= B2R x <= hi) s.
Lemma chk_R p t : chk p t = true -> rangeR (IZR p) (spectrum_of RN t).
Proof.
  intros H. apply chk_ok in H as [L F]. exists (tabR t). split; [unfold spectrumR, tabR; now rewrite map_length|].
  split; [apply spectrum_of_fin|]. unfold tabR. rewrite Forall_map. exact F.
Qed.
Lemma chk_F (lm : libm) p t : (0 <= p <= 2 ^ 24)%Z -> chk p t = true -> rangeF (IZR p) (spectrum_of (FN lm) t).
Proof.
  intros P H. apply chk_ok in H as [L F]. split; [unfold spectrum_of; now rewrite map_length|].
  unfold spectrum_of. rewrite Forall_map. revert F. apply Forall_impl. intros d D. now apply lit_range.
Qed.
Lemma all_chk p l : forallb (chk p) l = true -> Forall (fun t => chk p t = true) l.
Proof. intros H. rewrite Forall_forall. now rewrite forallb_forall in H. Qed.
Lemma C59_real_l : (length (Macbeth_Patch RN) = 24%nat /\ Forall (rangeR 1) (Macbeth_Patch RN)) /\
  (length (TM_30_15_sample RN) = 99%nat /\ Forall (rangeR 1) (TM_30_15_sample RN)) /\
  Forall (rangeR 3) [CIE1931_X RN; CIE1931_Y RN; CIE1931_Z RN; CIE2012_X RN; CIE2012_Y RN; CIE2012_Z RN;
    CIE1931_JuddVos_X RN; CIE1931_JuddVos_Y RN; CIE1931_JuddVos_Z RN] /\ rangeR 200 (CIE_D65 RN).
Proof.
  split; [split; [reflexivity|]|split; [split; [reflexivity|]|split]].
  - unfold Macbeth_Patch. rewrite Forall_map. generalize (all_chk _ _ Patch_chk). apply Forall_impl. exact (chk_R 1).
  - unfold TM_30_15_sample. rewrite Forall_map. generalize (all_chk _ _ CES_chk). apply Forall_impl. exact (chk_R 1).
  - change (Forall (rangeR 3) (map (spectrum_of RN) CMFs)). rewrite Forall_map. generalize (all_chk _ _ CMF_chk). apply Forall_impl. exact (chk_R 3).
  - exact (chk_R 200 _ D65_chk).
Qed.
Lemma C59_float_l (lm : libm) : let N := FN lm in (length (Macbeth_Patch N) = 24%nat /\ Forall (rangeF 1) (Macbeth_Patch N)) /\
  (length (TM_30_15_sample N) = 99%nat /\ Forall (rangeF 1) (TM_30_15_sample N)) /\
  Forall (rangeF 3) [CIE1931_X N; CIE1931_Y N; CIE1931_Z N; CIE2012_X N; CIE2012_Y N; CIE2012_Z N;
    CIE1931_JuddVos_X N; CIE1931_JuddVos_Y N; CIE1931_JuddVos_Z N] /\ rangeF 200 (CIE_D65 N).
Proof.
  intros N. split; [split; [reflexivity|]|split; [split; [reflexivity|]|split]].
  - unfold Macbeth_Patch. apply (proj2 (Forall_map _ _ _)). generalize (all_chk _ _ Patch_chk). apply Forall_impl. intros t. apply (chk_F lm 1); lia.
  - unfold TM_30_15_sample. apply (proj2 (Forall_map _ _ _)). generalize (all_chk _ _ CES_chk). apply Forall_impl. intros t. apply (chk_F lm 1); lia.
  - change (Forall (rangeF 3) (map (spectrum_of N) CMFs)). apply (proj2 (Forall_map _ _ _)). generalize (all_chk _ _ CMF_chk). apply Forall_impl. intros t. apply (chk_F lm 3); lia.
  - exact (chk_F lm 200 _ ltac:(lia) D65_chk).
Qed.

(** ** The predefined observers. *)
Lemma tab_obs X Y Z : In X CMFs -> In Y CMFs -> In Z CMFs -> obs_ok (tabR X) (tabR Y) (tabR Z) /\ nonneg (tabR X) /\ nonneg (tabR Y) /\ nonneg (tabR Z).
Proof.
  assert (G : forall t, In t CMFs -> spectrumR (tabR t) /\ sumR (tabR t) <> 0 /\ nonneg (tabR t)).
  { intros t I. pose proof (all_chk _ _ CMF_chk) as A. rewrite Forall_forall in A. specialize (A t I). apply chk_ok in A as [L F].
    assert (NN : nonneg (tabR t)). { unfold nonneg, tabR. rewrite Forall_map. revert F. apply Forall_impl. intros d D. lra. }
    split; [unfold spectrumR, tabR; now rewrite map_length|]. split; [|exact NN].
    assert (P : 0 < smp (tabR t) 60).
    { unfold smp, tabR. cbn [In CMFs] in I.
      repeat (destruct I as [<-|I]; [vm_compute nth; lra|]). destruct I. }
    assert (Q : forall n, (60 <= n)%nat -> smp (tabR t) 60 <= sum_f_R0 (smp (tabR t)) n).
    { induction n as [|n IH]; intros K; [lia|]. cbn [sum_f_R0]. pose proof (nonneg_smp _ (S n) NN).
      destruct (Nat.eq_dec (S n) 60) as [E|E].
      - rewrite E in *. assert (0 <= sum_f_R0 (smp (tabR t)) n); [|lra]. clear -NN. induction n; cbn [sum_f_R0]; [now apply nonneg_smp|]. pose proof (nonneg_smp _ (S n) NN). lra.
      - specialize (IH ltac:(lia)). lra. }
    specialize (Q 399%nat ltac:(lia)). unfold sumR. lra. }
  intros A B C. destruct (G X A) as (a1 & a2 & a3), (G Y B) as (b1 & b2 & b3), (G Z C) as (c1 & c2 & c3). repeat split; assumption.
Qed.
Lemma obs_of (X Y Z : list dec) : Observer_make RN (spectrum_of RN X) (spectrum_of RN Y) (spectrum_of RN Z) = observerR (tabR X) (tabR Y) (tabR Z).
Proof. now rewrite !spectrum_of_fin. Qed.
Lemma predefined_ok : forall o, In o [CIE1931 RN; CIE31JV RN; CIE2012 RN] ->
  exists X Y Z, o = observerR X Y Z /\ obs_ok X Y Z /\ nonneg X /\ nonneg Y /\ nonneg Z.
Proof.
  intros o [<-|[<-|[<-|[]]]].
  - exists (tabR T_CIE1931_X), (tabR T_CIE1931_Y), (tabR T_CIE1931_Z). split; [apply obs_of|]. apply tab_obs; cbn [In CMFs]; tauto.
  - exists (tabR T_CIE1931_JuddVos_X), (tabR T_CIE1931_JuddVos_Y), (tabR T_CIE1931_JuddVos_Z). split; [apply obs_of|]. apply tab_obs; cbn [In CMFs]; tauto.
  - exists (tabR T_CIE2012_X), (tabR T_CIE2012_Y), (tabR T_CIE2012_Z). split; [apply obs_of|]. apply tab_obs; cbn [In CMFs]; tauto.
Qed.
Lemma ramp_nonneg : nonneg ramp.
Proof. unfold nonneg, ramp. rewrite Forall_map, Forall_forall. intros i _. apply pos_INR. Qed.
Lemma C55_ex : spectrumR ramp /\ nonneg ramp /\ spectrumR (scaleS 2 ramp) /\ forall i, (i < 400)%nat -> smp ramp i <= smp (scaleS 2 ramp) i.
Proof.
  split; [apply ramp_ok|]. split; [apply ramp_nonneg|]. split; [apply scale_len, ramp_ok|]. intros i H.
  rewrite smp_scale. pose proof (nonneg_smp ramp i ramp_nonneg). lra.
Qed.
Lemma C56_ex : exists X Y Z, CIE1931 RN = observerR X Y Z /\ obs_ok X Y Z.
Proof. destruct (predefined_ok (CIE1931 RN)) as (X & Y & Z & E & O & _); [left; reflexivity|]. exists X, Y, Z. auto. Qed.
Lemma C57_ex : length (Macbeth_Patch RN) = 24%nat /\ spectrumR ramp /\ nonneg ramp.
Proof. split; [reflexivity|]. split; [apply ramp_ok|apply ramp_nonneg]. Qed.
Lemma finV_inj a b : finV a = finV b -> a = b.
Proof. destruct a, b. unfold finV. cbn. intros H. congruence. Qed.
Lemma C57_macbeth_l (o : Observer RN) (l : list R) : In o [CIE1931 RN; CIE31JV RN; CIE2012 RN] ->
  spectrumR l -> nonneg l -> exists t', fromSpectrum RN o (finS l) = finV t' /\
  Forall (fun m => exists t, m = finV t /\ 0 <= v0 t <= v0 t' /\ 0 <= v1 t <= v1 t' /\ 0 <= v2 t <= v2 t')
    (Macbeth_reference RN (Macbeth_Patch RN) (finS l) o).
Proof.
  intros I L P. destruct (predefined_ok o I) as (X & Y & Z & -> & O & PX & PY & PZ).
  exists (triR X Y Z l). split; [now apply fromSpectrum_fin|]. unfold Macbeth_reference. rewrite Forall_map.
  destruct C59_real_l as [[_ M] _]. revert M. apply Forall_impl. intros s (r & R & -> & B).
  destruct (C57_bound_l X Y Z r l O PX PY PZ R L P B) as (t & t' & E & E' & K). rewrite (fromSpectrum_fin X Y Z l O L) in E'.
  apply finV_inj in E'. subst t'. exists t. split; [exact E|exact K].
Qed.
Lemma C58_ex : lumensFromMonochromaticFlux RN (CIE1931 RN) (Some 555) (Some 1) = Ret (Some 683).
Proof.
  destruct (tab_obs T_CIE1931_X T_CIE1931_Y T_CIE1931_Z) as [(X & Y & Z & _) _]; try (cbn [In CMFs]; tauto).
  replace 555 with (380 + INR 175) by (rewrite INR_IZR_INZ; change (IZR (Z.of_nat 175)) with 175; lra).
  change (CIE1931 RN) with (Observer_make RN (spectrum_of RN T_CIE1931_X) (spectrum_of RN T_CIE1931_Y) (spectrum_of RN T_CIE1931_Z)). rewrite obs_of, C58_grid_l by (try assumption; lia).
  replace (smp (tabR T_CIE1931_Y) 175) with 1; [fin_eq; lra|]. unfold smp, tabR. rewrite (nth_indep _ 0 (Rdec (mkdec 0 0))) by (rewrite map_length; cbn; lia). rewrite map_nth.
  replace (nth 175 T_CIE1931_Y (mkdec 0 0)) with (mkdec 100000000000 (-11)) by (vm_compute; reflexivity). qn. lra.
Qed.
Lemma C61_tables (lm : libm) : forall a b, In a (Macbeth_Patch (FN lm)) -> In b [CIE_D65 (FN lm)] ->
  length a = 400%nat /\ length b = 400%nat /\ Forall fin a /\ Forall fin b /\
  sum_f_R0 (fun i => Rabs (PSpecF.val a i * PSpecF.val b i)) 399 <= bpow radix2 126.
Proof.
  intros a b I J. destruct (C59_float_l lm) as ([_ M] & _ & _ & D). rewrite Forall_forall in M. destruct (M a I) as [La Ra].
  destruct J as [<-|[]]. destruct D as [Ld Rd].
  assert (Fin : forall h s, Forall (fun x : f32 => is_finite x = true /\ 0 <= B2R x <= h) s -> Forall fin s).
  { intros h s. apply Forall_impl. intros x [K _]. exact K. }
  split; [exact La|]. split; [exact Ld|]. split; [exact (Fin _ _ Ra)|]. split; [exact (Fin _ _ Rd)|].
  apply Rle_trans with (sum_f_R0 (fun _ => 200) 399).
  - apply sum_mono. intros i Hi. unfold PSpecF.val. rewrite Forall_forall in Ra, Rd.
    destruct (Ra (nth i a (B754_nan : f32))) as [_ A1]. { apply nth_In. refine (eq_ind_r (fun n => (i < n)%nat) _ La). lia. }
    destruct (Rd (nth i (CIE_D65 (FN lm)) (B754_nan : f32))) as [_ A2]. { apply nth_In. refine (eq_ind_r (fun n => (i < n)%nat) _ Ld). lia. }
    rewrite Rabs_pos_eq by (apply Rmult_le_pos; [exact (proj1 A1)|exact (proj1 A2)]). replace 200 with (1 * 200) by lra.
    apply Rmult_le_compat; [exact (proj1 A1)|exact (proj1 A2)|exact (proj2 A1)|exact (proj2 A2)].
  - rewrite sum_cte. rewrite (INR_IZR_INZ 400). change (IZR (Z.of_nat 400)) with 400. apply Rle_trans with (bpow radix2 20); [change (bpow radix2 20) with 1048576; lra|apply bpow_le; lia].
Qed.
