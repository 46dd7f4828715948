(** * Spectra and observers over the reals. *)
From Coq Require Import ZArith Reals Lra Lia List Bool.
From Flocq Require Import Core.Raux Core.Defs Core.Generic_fmt.
From Verif Require Import Num NumR MVec MTri MSpectrum RTac SpecMat.
Import ListNotations.
Local Open Scope R_scope.

(** A real spectrum: 400 samples. *)
Definition spectrumR (s : list R) : Prop := length s = 400%nat.
Definition finS (s : list R) : Spectrum RN := map (fun x => Some x) s.
(** sample [i] *)
Definition smp (s : list R) (i : nat) : R := nth i s 0.
Definition sumR (s : list R) : R := sum_f_R0 (smp s) 399.
Definition dotR (a b : list R) : R := sum_f_R0 (fun i => smp a i * smp b i) 399.
Definition pointwise (f : R -> R -> R) (a b : list R) : list R := map (fun i => f (smp a i) (smp b i)) (seq 0 400).
Definition mulS := pointwise Rmult.
Definition addS := pointwise Rplus.
Definition scaleS (k : R) (a : list R) : list R := map (Rmult k) a.

(** ** Tabulated lists. *)
Lemma nth_tab {A} (f : nat -> A) d i n : (i < n)%nat -> nth i (map f (seq 0 n)) d = f i.
Proof.
  intros H. rewrite (nth_indep _ d (f 0%nat)) by (rewrite map_length, seq_length; exact H).
  rewrite (map_nth f). now rewrite seq_nth.
Qed.
Lemma sref_tab (N : Num) (e : nat -> F N) i : (i < 400)%nat -> sref N (S_tabulate N e) i = e i.
Proof. apply nth_tab. Qed.
Lemma tab_len (N : Num) (e : nat -> F N) : length (S_tabulate N e) = 400%nat.
Proof. unfold S_tabulate. now rewrite map_length, seq_length. Qed.
Lemma sref_fin s i : (i < length s)%nat -> sref RN (finS s) i = Some (smp s i).
Proof.
  intros H. unfold sref, smp, finS. rewrite (nth_indep _ _ (Some 0)) by (rewrite map_length; exact H).
  exact (map_nth (fun x => Some x) s 0 i).
Qed.
Lemma smp_pw f a b i : (i < 400)%nat -> smp (pointwise f a b) i = f (smp a i) (smp b i).
Proof. intros H. unfold smp, pointwise. now rewrite nth_tab. Qed.
Lemma pw_len f a b : spectrumR (pointwise f a b).
Proof. unfold spectrumR, pointwise. now rewrite map_length, seq_length. Qed.
Lemma scale_len k a : spectrumR a -> spectrumR (scaleS k a).
Proof. unfold spectrumR, scaleS. now rewrite map_length. Qed.
Lemma smp_scale k a i : smp (scaleS k a) i = k * smp a i.
Proof. unfold smp, scaleS. rewrite <- (map_nth (Rmult k)). now rewrite Rmult_0_r. Qed.
Lemma smp_ext a b : spectrumR a -> spectrumR b -> (forall i, (i < 400)%nat -> smp a i = smp b i) -> a = b.
Proof. intros A B H. apply (nth_ext a b 0 0); [congruence|]. intros n L. apply H. congruence. Qed.
Lemma list_tab (s : list R) : spectrumR s -> s = map (smp s) (seq 0 400).
Proof.
  intros H. apply smp_ext; [exact H|unfold spectrumR; now rewrite map_length, seq_length|].
  intros i L. unfold smp at 2. now rewrite nth_tab.
Qed.

(** ** Sums. *)
Lemma sum_ext (f g : nat -> R) n : (forall i, (i <= n)%nat -> f i = g i) -> sum_f_R0 f n = sum_f_R0 g n.
Proof. exact (sum_eq f g n). Qed.
Lemma sumHelper_fin s n : spectrumR s -> (n < 400)%nat -> sumHelper RN (finS s) n = Some (sum_f_R0 (smp s) n).
Proof.
  intros H. induction n as [|n IH]; intros L; cbn [sumHelper sum_f_R0].
  - rewrite sref_fin by (rewrite H; lia). reflexivity.
  - rewrite IH, sref_fin by (rewrite ?H; lia). reflexivity.
Qed.
Lemma dotHelper_fin a b n : spectrumR a -> spectrumR b -> (n < 400)%nat ->
  dotHelper RN (finS a) (finS b) n = Some (sum_f_R0 (fun i => smp a i * smp b i) n).
Proof.
  intros A B. induction n as [|n IH]; intros L; cbn [dotHelper sum_f_R0].
  - rewrite !sref_fin by (rewrite ?A, ?B; lia). reflexivity.
  - rewrite IH, !sref_fin by (rewrite ?A, ?B; lia). rn. f_equal. ring.
Qed.
Lemma S_sum_fin s : spectrumR s -> S_sum RN (finS s) = Some (sumR s).
Proof. intros H. apply sumHelper_fin; [exact H|lia]. Qed.
Lemma S_dot_fin a b : spectrumR a -> spectrumR b -> S_dot RN (finS a) (finS b) = Some (dotR a b).
Proof. intros A B. apply dotHelper_fin; [exact A|exact B|lia]. Qed.
Lemma dot_comm a b : dotR a b = dotR b a.
Proof. apply sum_ext. intros. ring. Qed.
Lemma dot_add a b x : dotR (addS a b) x = dotR a x + dotR b x.
Proof.
  unfold dotR. rewrite <- plus_sum. apply sum_ext. intros i L. unfold addS. rewrite smp_pw by lia. ring.
Qed.
Lemma dot_scale k a x : dotR (scaleS k a) x = k * dotR a x.
Proof. unfold dotR. rewrite scal_sum. apply sum_ext. intros i L. rewrite smp_scale. ring. Qed.
Lemma sum_mono (f g : nat -> R) n : (forall i, (i <= n)%nat -> f i <= g i) -> sum_f_R0 f n <= sum_f_R0 g n.
Proof. intros H. apply sum_Rle. exact H. Qed.
Lemma dot_mono a b x : (forall i, (i < 400)%nat -> smp a i <= smp b i) -> (forall i, (i < 400)%nat -> 0 <= smp x i) ->
  dotR a x <= dotR b x.
Proof. intros H P. apply sum_mono. intros i L. apply Rmult_le_compat_r; [apply P; lia|apply H; lia]. Qed.
Lemma dot_nonneg a x : (forall i, (i < 400)%nat -> 0 <= smp a i) -> (forall i, (i < 400)%nat -> 0 <= smp x i) -> 0 <= dotR a x.
Proof.
  intros H P. unfold dotR.
  assert (G : forall n, (n < 400)%nat -> 0 <= sum_f_R0 (fun i => smp a i * smp x i) n).
  { induction n as [|n IH]; intros L; cbn [sum_f_R0].
    - apply Rmult_le_pos; [apply H|apply P]; lia.
    - pose proof (IH ltac:(lia)). pose proof (Rmult_le_pos _ _ (H (S n) L) (P (S n) L)). lra. }
  apply G. lia.
Qed.

(** ** Spectrum arithmetic. *)
Lemma nth_fin s i : nth i (finS s) (Some 0) = Some (smp s i).
Proof. exact (map_nth (fun x => Some x) s 0 i). Qed.
Lemma fin_tab f : S_tabulate RN (fun i => Some (f i)) = finS (map f (seq 0 400)).
Proof. unfold S_tabulate, finS. now rewrite map_map. Qed.
Lemma tab_ext (N : Num) (f g : nat -> F N) : (forall i, (i < 400)%nat -> f i = g i) -> S_tabulate N f = S_tabulate N g.
Proof. intros H. apply map_ext_in. intros i L. apply in_seq in L. apply H. lia. Qed.
Lemma S_add_fin a b : spectrumR a -> spectrumR b -> S_add RN (finS a) (finS b) = finS (addS a b).
Proof.
  intros A B. unfold S_add, addS, pointwise. rewrite <- fin_tab. apply tab_ext. intros i L.
  rewrite !sref_fin by (rewrite ?A, ?B; lia). reflexivity.
Qed.
Lemma S_mul_fin a b : spectrumR a -> spectrumR b -> S_mul RN (finS a) (finS b) = finS (mulS a b).
Proof.
  intros A B. unfold S_mul, mulS, pointwise. rewrite <- fin_tab. apply tab_ext. intros i L.
  rewrite !sref_fin by (rewrite ?A, ?B; lia). reflexivity.
Qed.
Lemma S_scale_fin k a : spectrumR a -> S_scale RN (finS a) (Some k) = finS (scaleS k a).
Proof.
  intros A. unfold S_scale. rewrite (list_tab (scaleS k a)) by now apply scale_len. rewrite <- fin_tab. apply tab_ext. intros i L.
  rewrite sref_fin by (rewrite A; lia). rn. rewrite smp_scale. f_equal. ring.
Qed.

(** ** Observers. *)
Definition observerR (X Y Z : list R) : Observer RN := Observer_make RN (finS X) (finS Y) (finS Z).
Definition obs_ok (X Y Z : list R) : Prop :=
  spectrumR X /\ spectrumR Y /\ spectrumR Z /\ sumR X <> 0 /\ sumR Y <> 0 /\ sumR Z <> 0.
Definition triR (X Y Z s : list R) : Vector3 R := V3 (dotR s X / sumR X) (dotR s Y / sumR Y) (dotR s Z / sumR Z).
Lemma Rdec1 : Rdec 1 = 1. Proof. reflexivity. Qed.
Lemma fromSpectrum_fin X Y Z s : obs_ok X Y Z -> spectrumR s ->
  fromSpectrum RN (observerR X Y Z) (finS s) = finV (triR X Y Z s).
Proof.
  intros (HX & HY & HZ & SX & SY & SZ) Hs.
  unfold fromSpectrum, observerR, Observer_make, SpectrumIntegrate, T_mul, triR, finV. cbn [o_X o_Y o_Z o_normalize].
  rewrite !S_sum_fin, !S_dot_fin by assumption. rl. rewrite Rdec1, !rdiv_ok by assumption. rl.
  fin_eq; field; assumption.
Qed.
(** C55 *)
Lemma C55_l X Y Z a b k : obs_ok X Y Z -> spectrumR a -> spectrumR b ->
  let o := observerR X Y Z in
  fromSpectrum RN o (S_add RN (finS a) (finS b)) = T_add RN (fromSpectrum RN o (finS a)) (fromSpectrum RN o (finS b)) /\
  fromSpectrum RN o (S_scale RN (finS a) (Some k)) = T_scale RN (fromSpectrum RN o (finS a)) (Some k).
Proof.
  intros O A B o. subst o. pose proof O as (_ & _ & _ & SX & SY & SZ).
  rewrite S_add_fin, S_scale_fin, !fromSpectrum_fin by (try assumption; try apply pw_len; try now apply scale_len).
  unfold triR, T_add, T_scale, addS. fold addS. rewrite !dot_add, !dot_scale. rl. unfold finV. rl. split; fin_eq; field; assumption.
Qed.
Definition nonneg (s : list R) : Prop := Forall (Rle 0) s.
Lemma nonneg_smp s i : nonneg s -> 0 <= smp s i.
Proof.
  intros H. unfold smp. destruct (nth_in_or_default i s 0) as [I| ->]; [|lra]. unfold nonneg in H. rewrite Forall_forall in H. apply H, I.
Qed.
Lemma sum_nonneg s : nonneg s -> 0 <= sumR s.
Proof.
  intros H. unfold sumR. generalize 399%nat. induction n as [|n IH]; cbn [sum_f_R0]; pose proof (nonneg_smp s 0 H); [lra|].
  pose proof (nonneg_smp s (S n) H). lra.
Qed.
Lemma div_nonneg a b : 0 <= a -> 0 <= b -> 0 <= a / b.
Proof.
  intros A B. destruct (Req_dec b 0) as [->|N]; [unfold Rdiv; rewrite Rinv_0, Rmult_0_r; lra|].
  apply Rmult_le_pos; [exact A|left; apply Rinv_0_lt_compat; lra].
Qed.
Lemma C55_mono_l X Y Z a b : obs_ok X Y Z -> nonneg X -> nonneg Y -> nonneg Z -> spectrumR a -> spectrumR b ->
  (forall i, (i < 400)%nat -> smp a i <= smp b i) ->
  exists ta tb, fromSpectrum RN (observerR X Y Z) (finS a) = finV ta /\ fromSpectrum RN (observerR X Y Z) (finS b) = finV tb /\
    v0 ta <= v0 tb /\ v1 ta <= v1 tb /\ v2 ta <= v2 tb.
Proof.
  intros O PX PY PZ A B H. exists (triR X Y Z a), (triR X Y Z b). rewrite !fromSpectrum_fin by assumption.
  split; [reflexivity|]. split; [reflexivity|]. cbn [triR v0 v1 v2]. destruct O as (_ & _ & _ & SX & SY & SZ).
  assert (G : forall U, nonneg U -> sumR U <> 0 -> dotR a U / sumR U <= dotR b U / sumR U).
  { intros U PU SU. pose proof (sum_nonneg U PU). apply Rmult_le_compat_r; [left; apply Rinv_0_lt_compat; lra|].
    apply dot_mono; [exact H|]. intros i _. now apply nonneg_smp. }
  repeat split; apply G; assumption.
Qed.
Lemma C55_nonneg_l X Y Z a : obs_ok X Y Z -> nonneg X -> nonneg Y -> nonneg Z -> spectrumR a -> nonneg a ->
  exists t, fromSpectrum RN (observerR X Y Z) (finS a) = finV t /\ 0 <= v0 t /\ 0 <= v1 t /\ 0 <= v2 t.
Proof.
  intros O PX PY PZ A H. exists (triR X Y Z a). rewrite fromSpectrum_fin by assumption. split; [reflexivity|]. cbn [triR v0 v1 v2].
  repeat split; apply div_nonneg; try (now apply sum_nonneg); apply dot_nonneg; intros; now apply nonneg_smp.
Qed.
(** C56 *)
Lemma E_fin e : S_E RN (Some e) = finS (map (fun _ => e) (seq 0 400)).
Proof. unfold S_E. now rewrite <- fin_tab. Qed.
Lemma C56_l X Y Z e : obs_ok X Y Z -> fromSpectrum RN (observerR X Y Z) (S_E RN (Some e)) = finV (V3 e e e).
Proof.
  intros O. rewrite E_fin, fromSpectrum_fin; [|exact O|unfold spectrumR; now rewrite map_length, seq_length].
  destruct O as (_ & _ & _ & SX & SY & SZ).
  assert (G : forall U, sumR U <> 0 -> dotR (map (fun _ => e) (seq 0 400)) U / sumR U = e).
  { intros U SU. replace (dotR _ U) with (e * sumR U); [field; exact SU|]. unfold dotR, sumR. rewrite scal_sum. apply sum_ext. intros i L.
    unfold smp at 2. rewrite nth_tab by lia. ring. }
  unfold triR. now rewrite !G.
Qed.
(** C57 *)
Lemma dot3_mul (N : Num) a b c n : (n < 400)%nat -> dotHelper3 N a b c n = dotHelper N (S_mul N a b) c n.
Proof.
  induction n as [|n IH]; intros L; cbn [dotHelper3 dotHelper]; unfold S_mul; rewrite sref_tab by lia; [reflexivity|].
  rewrite IH by lia. reflexivity.
Qed.
Lemma C57_l (N : Num) (o : Observer N) r l : fromReflectanceAndLight N o r l = fromSpectrum N o (S_mul N r l).
Proof.
  unfold fromReflectanceAndLight, fromSpectrum, SpectrumIntegrate, SpectrumIntegrate3, S_dot3, S_dot.
  now rewrite !dot3_mul by lia.
Qed.
Lemma C57_sym_l (N : Num) (o : Observer N) r l : (forall x y : F N, fmul x y = fmul y x) ->
  fromReflectanceAndLight N o r l = fromReflectanceAndLight N o l r.
Proof.
  intros H. rewrite !C57_l. f_equal. unfold S_mul. apply tab_ext. intros. apply H.
Qed.
Lemma C57_bound_l X Y Z r l : obs_ok X Y Z -> nonneg X -> nonneg Y -> nonneg Z -> spectrumR r -> spectrumR l -> nonneg l ->
  Forall (fun x => 0 <= x <= 1) r ->
  exists t t', fromReflectanceAndLight RN (observerR X Y Z) (finS r) (finS l) = finV t /\
    fromSpectrum RN (observerR X Y Z) (finS l) = finV t' /\
    0 <= v0 t <= v0 t' /\ 0 <= v1 t <= v1 t' /\ 0 <= v2 t <= v2 t'.
Proof.
  intros O PX PY PZ R L PL H. rewrite C57_l, S_mul_fin by assumption.
  assert (B : forall i, (i < 400)%nat -> 0 <= smp r i <= 1).
  { intros i Hi. rewrite Forall_forall in H. apply H, nth_In. now rewrite R. }
  destruct (C55_mono_l X Y Z (mulS r l) l O PX PY PZ (pw_len _ _ _) L) as (t & t' & E & E' & K).
  { intros i Hi. unfold mulS. rewrite smp_pw by exact Hi. pose proof (nonneg_smp l i PL). pose proof (B i Hi). nra. }
  destruct (C55_nonneg_l X Y Z (mulS r l) O PX PY PZ (pw_len _ _ _)) as (t2 & E2 & K2).
  { unfold nonneg, mulS, pointwise. rewrite Forall_forall. intros x I. apply in_map_iff in I as (i & <- & I). apply in_seq in I.
    apply Rmult_le_pos; [apply B; lia|now apply nonneg_smp]. }
  assert (t = t2) as <-. { rewrite E in E2. destruct t, t2. unfold finV in E2. cbn in E2. congruence. }
  exists t, t'. split; [exact E|]. split; [exact E'|]. lra.
Qed.

(** ** Interpolation. *)
Lemma arr_get_fin s i : (0 <= i < Z.of_nat (length s))%Z -> arr_get RN (finS s) i = Ret (Some (smp s (Z.to_nat i))).
Proof.
  intros H. unfold arr_get. replace (0 <=? i)%Z with true by (symmetry; apply Z.leb_le; lia).
  rewrite (nth_error_nth' (finS s) (Some 0)) by (unfold finS; rewrite map_length; lia). now rewrite nth_fin.
Qed.
Lemma toint_R x : IZR (- 2 ^ 31) <= x <= IZR (2 ^ 31 - 1) -> rx_toint (Some x) = Some (Ztrunc x).
Proof.
  intros H. unfold rx_toint. assert (K : (- 2 ^ 31 <= Ztrunc x <= 2 ^ 31 - 1)%Z).
  { split; [rewrite <- (Ztrunc_IZR (- 2 ^ 31)); apply Ztrunc_le, H|rewrite <- (Ztrunc_IZR (2 ^ 31 - 1)); apply Ztrunc_le, H]. }
  replace (_ && _)%bool with true; [reflexivity|]. symmetry. apply andb_true_intro. split; apply Z.leb_le; lia.
Qed.
Lemma fetch_mid s i t : spectrumR s -> (1 <= i <= 398)%nat -> 380 + INR i <= t < 381 + INR i ->
  S_fetch RN (finS s) (Some t) = Ret (Some ((381 + INR i - t) * smp s i + (t - 380 - INR i) * smp s (S i))).
Proof.
  intros S I H. rewrite INR_IZR_INZ in *. set (z := Z.of_nat i) in *. assert (Hz : (1 <= z <= 398)%Z) by lia.
  assert (R1 : 1 <= IZR z) by (apply (IZR_le 1); lia). assert (R2 : IZR z <= 398) by (apply (IZR_le z 398); lia).
  unfold S_fetch, fetch. rl. replace (Rdec 380) with 380 by reflexivity. replace (Rdec 779) with 779 by reflexivity.
  change (400 - 1)%Z with 399%Z. rewrite !rdiv_ok by lra.
  rewrite toint_R by (change (IZR (- 2 ^ 31)) with (-2147483648); change (IZR (2 ^ 31 - 1)) with 2147483647; lra).
  replace (Ztrunc (399 * (t - 380) / (779 - 380))) with z.
  2:{ rewrite Ztrunc_floor by lra. symmetry. apply Zfloor_imp. rewrite plus_IZR. lra. }
  rl. replace (z =? 2147483647)%Z with false by (symmetry; apply Z.eqb_neq; lia).
  replace (399 <=? z)%Z with false by (symmetry; apply Z.leb_gt; lia).
  replace (z <=? 0)%Z with false by (symmetry; apply Z.leb_gt; lia).
  rewrite !arr_get_fin by (rewrite S; lia). unfold lerp. rl. rewrite !(rdiv_ok _ 399) by lra. rl. rewrite rdiv_ok by (rewrite plus_IZR; lra). rl.
  rewrite plus_IZR. replace (Z.to_nat z) with i by lia. replace (Z.to_nat (z + 1)) with (Datatypes.S i) by lia.
  fin_eq. field. lra.
Qed.
Lemma fetch_hi s t : spectrumR s -> 779 <= t <= 1000000000 -> S_fetch RN (finS s) (Some t) = Ret (Some (smp s 399)).
Proof.
  intros S H. unfold S_fetch, fetch. rl. replace (Rdec 380) with 380 by reflexivity. replace (Rdec 779) with 779 by reflexivity.
  change (400 - 1)%Z with 399%Z. rewrite !rdiv_ok by lra.
  rewrite toint_R by (change (IZR (- 2 ^ 31)) with (-2147483648); change (IZR (2 ^ 31 - 1)) with 2147483647; lra).
  set (z := Ztrunc _). assert (Z1 : (399 <= z)%Z) by (rewrite <- (Ztrunc_IZR 399); apply Ztrunc_le; lra).
  assert (Z2 : (z <= 1000000000)%Z) by (rewrite <- (Ztrunc_IZR 1000000000); apply Ztrunc_le; lra).
  rl. replace (z =? 2147483647)%Z with false by (symmetry; apply Z.eqb_neq; lia).
  replace (399 <=? z)%Z with true by (symmetry; apply Z.leb_le; lia).
  now rewrite arr_get_fin by (rewrite S; lia).
Qed.
Lemma fetch_lo s t : spectrumR s -> -1000000000 <= t < 381 -> S_fetch RN (finS s) (Some t) = Ret (Some (smp s 0)).
Proof.
  intros S H. unfold S_fetch, fetch. rl. replace (Rdec 380) with 380 by reflexivity. replace (Rdec 779) with 779 by reflexivity.
  change (400 - 1)%Z with 399%Z. rewrite !rdiv_ok by lra.
  rewrite toint_R by (change (IZR (- 2 ^ 31)) with (-2147483648); change (IZR (2 ^ 31 - 1)) with 2147483647; lra).
  set (z := Ztrunc _).
  assert (Z1 : (z <= 0)%Z).
  { unfold z, Ztrunc. destruct (Rlt_bool_spec (399 * (t - 380) / (779 - 380)) 0) as [L|L].
    - apply Zceil_glb. lra.
    - enough (Zfloor (399 * (t - 380) / (779 - 380)) < 1)%Z by lia. apply lt_IZR. eapply Rle_lt_trans; [apply Zfloor_lb|]. lra. }
  assert (Z2 : (-2000000000 <= z)%Z) by (rewrite <- (Ztrunc_IZR (-2000000000)); apply Ztrunc_le; lra).
  rl. replace (z =? 2147483647)%Z with false by (symmetry; apply Z.eqb_neq; lia).
  replace (399 <=? z)%Z with false by (symmetry; apply Z.leb_gt; lia).
  replace (z <=? 0)%Z with true by (symmetry; apply Z.leb_le; lia).
  now rewrite arr_get_fin by (rewrite S; lia).
Qed.
Lemma fetch_grid s i : spectrumR s -> (i < 400)%nat -> S_fetch RN (finS s) (Some (380 + INR i)) = Ret (Some (smp s i)).
Proof.
  intros S L. pose proof (pos_INR i).
  destruct (Nat.eq_dec i 0) as [->|N0]. { rewrite fetch_lo; [reflexivity|exact S|cbn [INR]; lra]. }
  destruct (Nat.eq_dec i 399) as [->|N9]. { rewrite INR_IZR_INZ. change (IZR (Z.of_nat 399)) with 399. apply fetch_hi; [exact S|lra]. }
  rewrite (fetch_mid s i) by (try assumption; try lia; lra). fin_eq. ring.
Qed.
Lemma C53_l s i t : spectrumR s -> (1 <= i <= 398)%nat -> 380 + INR i <= t <= 381 + INR i ->
  S_fetch RN (finS s) (Some t) = Ret (Some ((381 + INR i - t) * smp s i + (t - 380 - INR i) * smp s (S i))).
Proof.
  intros S I H. destruct (Rlt_le_dec t (381 + INR i)) as [L|L]; [now apply fetch_mid|].
  assert (t = 380 + INR (Datatypes.S i)) as -> by (rewrite S_INR; lra). rewrite fetch_grid by (try assumption; lia).
  rewrite S_INR. fin_eq. ring.
Qed.
Lemma C53_first_l s t : spectrumR s -> 380 <= t < 381 -> S_fetch RN (finS s) (Some t) = Ret (Some (smp s 0)).
Proof. intros S H. apply fetch_lo; [exact S|lra]. Qed.
Definition ramp : list R := map INR (seq 0 400).
Lemma ramp_ok : spectrumR ramp. Proof. unfold spectrumR, ramp. now rewrite map_length, seq_length. Qed.
Lemma ramp_smp i : (i < 400)%nat -> smp ramp i = INR i. Proof. intros H. apply nth_tab, H. Qed.
Lemma C53_witness : exists s t, spectrumR s /\ 380 <= t <= 381 /\
  S_fetch RN (finS s) (Some t) <> Ret (Some ((381 - t) * smp s 0 + (t - 380) * smp s 1)).
Proof.
  exists ramp, 380.5. split; [apply ramp_ok|]. split; [lra|]. rewrite C53_first_l by (try apply ramp_ok; lra).
  rewrite !ramp_smp by lia. cbn [INR]. intros K. injection K. lra.
Qed.
Lemma fetch_range s t : spectrumR s -> -1000000000 <= t <= 1000000000 ->
  exists y, S_fetch RN (finS s) (Some t) = Ret (Some y) /\ (forall lo hi, Forall (fun x => lo <= x <= hi) s -> lo <= y <= hi).
Proof.
  intros S H. assert (B : forall i lo hi, (i < 400)%nat -> Forall (fun x => lo <= x <= hi) s -> lo <= smp s i <= hi).
  { intros i lo hi L Q. rewrite Forall_forall in Q. apply Q, nth_In. now rewrite S. }
  destruct (Rlt_le_dec t 381) as [L|L]. { exists (smp s 0). split; [apply fetch_lo; [exact S|lra]|]. intros lo hi. apply B. lia. }
  destruct (Rlt_le_dec t 779) as [K|K]. 2:{ exists (smp s 399). split; [apply fetch_hi; [exact S|lra]|]. intros lo hi. apply B. lia. }
  set (i := Z.to_nat (Zfloor (t - 380))). assert (E : INR i = IZR (Zfloor (t - 380))).
  { unfold i. rewrite INR_IZR_INZ, Z2Nat.id; [reflexivity|]. apply Zfloor_lub. lra. }
  pose proof (Zfloor_lb (t - 380)). pose proof (Zfloor_ub (t - 380)).
  assert (I : (1 <= i <= 398)%nat).
  { split.
    - apply INR_le. cbn [INR]. rewrite E. apply IZR_le, Zfloor_lub. lra.
    - enough (i < 399)%nat by lia. apply INR_lt. rewrite E. rewrite (INR_IZR_INZ 399). change (IZR (Z.of_nat 399)) with 399. lra. }
  eexists. split; [apply (fetch_mid s i); [exact S|exact I|lra]|]. intros lo hi Q.
  pose proof (B i lo hi ltac:(lia) Q). pose proof (B (Datatypes.S i) lo hi ltac:(lia) Q). rewrite E in *.
  set (f := t - 380 - IZR (Zfloor (t - 380))). replace (381 + IZR (Zfloor (t - 380)) - t) with (1 - f) by (unfold f; lra).
  assert (0 <= f < 1) by (unfold f; lra). nra.
Qed.

(** ** Photometric units. *)
Lemma C58_l X Y Z t w : spectrumR X -> spectrumR Y -> spectrumR Z -> -1000000000 <= t <= 1000000000 -> exists x y z,
  S_fetch RN (finS X) (Some t) = Ret (Some x) /\ S_fetch RN (finS Y) (Some t) = Ret (Some y) /\ S_fetch RN (finS Z) (Some t) = Ret (Some z) /\
  lumensFromMonochromaticFlux RN (observerR X Y Z) (Some t) (Some w) = Ret (Some (683 * w * y)) /\
  candellasFromMonochromaticRadiance RN (observerR X Y Z) (Some t) (Some w) = Ret (finV (V3 (683 * w * x) (683 * w * y) (683 * w * z))).
Proof.
  intros HX HY HZ H. destruct (fetch_range X t HX H) as (x & EX & _). destruct (fetch_range Y t HY H) as (y & EY & _).
  destruct (fetch_range Z t HZ H) as (z & EZ & _). exists x, y, z.
  unfold lumensFromMonochromaticFlux, candellasFromMonochromaticRadiance, observerR, Observer_make. cbn [o_X o_Y o_Z].
  rewrite EX, EY, EZ. repeat split; rl; unfold T_scale, finV; rl; replace (Rdec 683.0) with 683 by (qn; lra); fin_eq; ring.
Qed.
Lemma C58_grid_l X Y Z i w : spectrumR X -> spectrumR Y -> spectrumR Z -> (i < 400)%nat ->
  lumensFromMonochromaticFlux RN (observerR X Y Z) (Some (380 + INR i)) (Some w) = Ret (Some (683 * w * smp Y i)).
Proof.
  intros HX HY HZ L. unfold lumensFromMonochromaticFlux, observerR, Observer_make. cbn [o_X o_Y o_Z].
  rewrite fetch_grid by assumption. rl. replace (Rdec 683.0) with 683 by (qn; lra). fin_eq. ring.
Qed.

(** ** Black bodies. *)
Definition planckR (T l : R) : R := 2 * 5.950379064e-17 * Rpower l (-5) / (exp (1.438776827e-2 / (l * T)) - 1) / 1e9.
Lemma exp_gt_1 x : 0 < x -> 0 < exp x - 1.
Proof. intros H. pose proof (exp_increasing 0 x H). rewrite exp_0 in *. lra. Qed.
Lemma planck_fin T l : 0 < T -> 0 < l -> planck RN (Some T) (Some l) = Some (planckR T l).
Proof.
  intros HT Hl. pose proof (Rmult_lt_0_compat l T Hl HT) as P. unfold planck. rl. rewrite rpow_pos by exact Hl. rl.
  rewrite (rdiv_ok _ (l * T)) by lra. rl. set (a := Rdec 1.438776827e-2).
  assert (Ha : a = 1.438776827e-2) by (unfold a; qn; lra).
  assert (E : 0 < exp (a / (l * T)) - 1).
  { apply exp_gt_1. rewrite Ha. apply Rmult_lt_0_compat; [lra|now apply Rinv_0_lt_compat]. }
  replace (Rdec 1.0) with 1 by (qn; lra). rewrite rdiv_ok by lra. rl. rewrite rdiv_ok by (qn; lra). fin_eq. unfold planckR. rewrite Ha in *.
  replace (Rdec 5.950379064e-17) with 5.950379064e-17 by (qn; lra). replace (Rdec 1e9) with 1e9 by (qn; lra). reflexivity.
Qed.
Lemma planck_pos T l : 0 < T -> 0 < l -> 0 < planckR T l.
Proof.
  intros HT Hl. unfold planckR. pose proof (Rmult_lt_0_compat l T Hl HT) as P.
  assert (E : 0 < exp (1.438776827e-2 / (l * T)) - 1) by (apply exp_gt_1, Rmult_lt_0_compat; [lra|now apply Rinv_0_lt_compat]).
  assert (0 < Rpower l (-5)) by apply exp_pos. apply Rmult_lt_0_compat; [|lra]. apply Rmult_lt_0_compat; [nra|now apply Rinv_0_lt_compat].
Qed.
Lemma planck_incr T T' l : 0 < T -> T < T' -> 0 < l -> planckR T l < planckR T' l.
Proof.
  intros HT H Hl. unfold planckR. pose proof (Rmult_lt_0_compat l T Hl HT) as P. pose proof (Rmult_lt_compat_l l T T' Hl H) as Q.
  assert (E : 0 < exp (1.438776827e-2 / (l * T')) - 1) by (apply exp_gt_1, Rmult_lt_0_compat; [lra|apply Rinv_0_lt_compat; lra]).
  assert (E2 : exp (1.438776827e-2 / (l * T')) < exp (1.438776827e-2 / (l * T))).
  { apply exp_increasing, Rmult_lt_compat_l; [lra|]. apply Rinv_lt_contravar; [nra|lra]. }
  assert (0 < Rpower l (-5)) by apply exp_pos. apply Rmult_lt_compat_r; [lra|]. apply Rmult_lt_compat_l; [nra|].
  apply Rinv_lt_contravar; [apply Rmult_lt_0_compat; lra|lra].
Qed.
Lemma bb_fin T : 0 < T -> S_blackbody RN (Some T) = finS (map (fun i => planckR T ((380 + INR i) * 1e-9)) (seq 0 400)).
Proof.
  intros H. unfold S_blackbody. rewrite <- fin_tab. apply tab_ext. intros i L. rl. replace (Rdec 380) with 380 by reflexivity.
  replace (Rdec 1e-9) with 1e-9 by (qn; lra). rewrite <- INR_IZR_INZ. pose proof (pos_INR i).
  change (narrow (planck RN (Some T) (Some ((380 + INR i) * 1e-9)))) with (planck RN (Some T) (Some ((380 + INR i) * 1e-9))).
  apply planck_fin; [exact H|lra].
Qed.
Lemma C60_l T T' : 0 < T -> T < T' -> exists s s', spectrumR s /\ spectrumR s' /\
  S_blackbody RN (Some T) = finS s /\ S_blackbody RN (Some T') = finS s' /\
  (forall i, (i < 400)%nat -> 0 < smp s i < smp s' i).
Proof.
  intros H K. eexists. eexists. rewrite !bb_fin by lra. repeat (split; [now unfold spectrumR; rewrite map_length, seq_length|]).
  split; [reflexivity|]. split; [reflexivity|]. intros i L. unfold smp. rewrite !nth_tab by exact L. pose proof (pos_INR i).
  split; [apply planck_pos; lra|apply planck_incr; lra].
Qed.
Lemma C60_planck_l T i : 0 < T -> (i < 400)%nat -> exists s, S_blackbody RN (Some T) = finS s /\
  let l := (380 + INR i) * 1e-9 in
  smp s i = 2 * 5.950379064e-17 / l ^ 5 / (exp (1.438776827e-2 / (l * T)) - 1) / 1e9.
Proof.
  intros H L. eexists. split; [apply bb_fin, H|]. intros l. unfold smp. rewrite nth_tab by exact L. unfold planckR. fold l.
  pose proof (pos_INR i). assert (0 < l) by (unfold l; lra). replace (-5) with (- INR 5) by (cbn [INR]; lra).
  rewrite Rpower_Ropp, Rpower_pow by assumption. reflexivity.
Qed.
