(** * Default constructed values and element access. *)
From Coq Require Import ZArith Reals Lra Lia List.
From Flocq Require Import Core BinarySingleNaN.
From Verif Require Import Num NumR NumF MVec MTri MSpectrum MDefault Tables RTac F32 SpecMat PMat PMatF PSpec PSpecF.
Import ListNotations.
Local Open Scope R_scope.

Definition not_m0 (x : f32) : Prop := x <> B754_zero true.
Lemma add_0_r (lm : libm) (x : f32) : not_m0 x -> @fadd (FN lm) x (@fofZ (FN lm) 0) = x.
Proof. intros H. change (@fofZ (FN lm) 0) with (B754_zero false : f32). destruct x as [[]|[]| |]; try reflexivity. now destruct H. Qed.
Lemma add_0_l (lm : libm) (x : f32) : not_m0 x -> @fadd (FN lm) (@fofZ (FN lm) 0) x = x.
Proof. intros H. change (@fofZ (FN lm) 0) with (B754_zero false : f32). destruct x as [[]|[]| |]; try reflexivity. now destruct H. Qed.
Lemma zero_F (lm : libm) (t : Vector3 f32) : allV not_m0 t ->
  T_add (FN lm) t (T_zero (FN lm)) = t /\ T_add (FN lm) (T_zero (FN lm)) t = t.
Proof.
  destruct t as [a b c]. intros (A & B & C). cbn [v0 v1 v2] in *. unfold T_add, T_zero, vref. cbn [v0 v1 v2].
  split; f_equal; first [now apply add_0_r|now apply add_0_l].
Qed.
Lemma zero_R (t : Vector3 R) (m : Matrix3 R) (s : R) : let z := T_zero RN in z = finV (V3 0 0 0) /\
  T_add RN (finV t) z = finV t /\ T_scale RN z (Some s) = z /\ M_apply RN (finM m) z = z /\ T_mul RN z (finV t) = z /\ T_dot RN z (finV t) = Some 0.
Proof.
  cbv zeta. assert (E : T_zero RN = finV (V3 0 0 0)) by reflexivity. rewrite E. split; [reflexivity|].
  rewrite M_apply_fin. destruct t as [a b c]. destruct m. repeat split; unfold T_add, T_scale, T_mul, T_dot, finV, applyR; cbn [v0 v1 v2]; rl; fin_eq; cbn; unfold sum3; cbn; ring.
Qed.
Lemma index_ok (N : Num) (s : Spectrum N) (i : Z) : wf_spectrum N s ->
  ((0 <= i < 400)%Z -> exists x, S_index N s i = Ret x) /\ (~ (0 <= i < 400)%Z -> S_index N s i = UB).
Proof.
  unfold wf_spectrum, S_index, arr_get. intros L. split; intros H.
  - destruct (Z.leb_spec 0 i); [|lia]. destruct (nth_error s (Z.to_nat i)) eqn:E; [eexists; reflexivity|].
    apply nth_error_None in E. lia.
  - destruct (Z.leb_spec 0 i); [|reflexivity]. destruct (nth_error s (Z.to_nat i)) eqn:E; [|reflexivity].
    assert (nth_error s (Z.to_nat i) <> None) as K by congruence. apply nth_error_Some in K. lia.
Qed.
Lemma tab_index (N : Num) (e : nat -> F N) (i : Z) : (0 <= i < 400)%Z -> S_index N (S_tabulate N e) i = Ret (e (Z.to_nat i)).
Proof.
  intros H. unfold S_index, arr_get, S_tabulate. destruct (Z.leb_spec 0 i); [|lia].
  rewrite (map_nth_error e (Z.to_nat i) (seq 0 400) (d := Z.to_nat i)); [reflexivity|].
  rewrite (nth_error_nth' _ 0%nat) by (rewrite seq_length; lia). rewrite seq_nth by lia. reflexivity.
Qed.
Lemma index_sref (N : Num) (s : Spectrum N) i x : S_index N s i = Ret x -> sref N s (Z.to_nat i) = x.
Proof.
  unfold S_index, arr_get, sref. destruct (0 <=? i)%Z; [|discriminate]. destruct (nth_error s (Z.to_nat i)) eqn:E; [|discriminate].
  cbn [of_option]. intros [= <-]. now apply nth_error_nth.
Qed.
Lemma ops_index (N : Num) (a b : Spectrum N) (k : F N) (i : Z) (x y : F N) : (0 <= i < 400)%Z -> S_index N a i = Ret x -> S_index N b i = Ret y ->
  S_index N (S_add N a b) i = Ret (fadd x y) /\ S_index N (S_mul N a b) i = Ret (fmul x y) /\ S_index N (S_scale N a k) i = Ret (fmul x k) /\
  S_index N (S_E N k) i = Ret k /\ S_index N (S_default N) i = Ret (fofZ 0).
Proof.
  intros H A B. unfold S_add, S_mul, S_scale, S_E, S_default. rewrite !tab_index by exact H.
  now rewrite (index_sref N a i x A), (index_sref N b i y B).
Qed.
Lemma default_black (lm : libm) : Forall (fun o : forall N : Num, Observer N =>
  vSF (fromSpectrum (FN lm) (o (FN lm)) (S_default (FN lm))) = V3 (SpecFloat.S754_zero false) (SpecFloat.S754_zero false) (SpecFloat.S754_zero false))
  [CIE1931; CIE31JV; CIE2012].
Proof. repeat constructor; vm_compute; reflexivity. Qed.
Lemma default_black_R (X Y Z : list R) : obs_ok X Y Z -> fromSpectrum RN (observerR X Y Z) (S_default RN) = T_zero RN.
Proof.
  intros O. change (S_default RN) with (finS (map (fun _ => 0) (seq 0 400))).
  rewrite fromSpectrum_fin; [|exact O|unfold spectrumR; now rewrite map_length, seq_length].
  assert (E : forall t, dotR (map (fun _ => 0) (seq 0 400)) t = 0).
  { intros t. unfold dotR. rewrite (sum_eq _ (fun _ => 0)); [rewrite sum_cte; ring|]. intros i L. unfold smp at 1. rewrite (nth_tab (fun _ => 0)) by lia. ring. }
  unfold triR. rewrite !E. unfold finV. cbn [v0 v1 v2]. unfold T_zero. rl. fin_eq; unfold Rdiv; ring.
Qed.
Lemma default_case (lm : libm) : wf_spectrum (FN lm) (CIE_D65 (FN lm)) /\ allV not_m0 (V3 (@flit (FN lm) 0.25) B754_nan (B754_infinity true)) /\
  S_index RN (S_default RN) 399 = Ret (Some 0) /\ S_index RN (S_default RN) 400 = UB.
Proof. repeat split; try discriminate; vm_compute; discriminate. Qed.
