(** * CIELAB: the default white point; white in binary32. *)
From Coq Require Import ZArith Reals Lra Lia List Bool.
From Flocq Require Import Core BinarySingleNaN.
From Verif Require Import Num NumR NumF MVec MTri SpecMat RTac PMat PTri PLab F32 PMatF PSpecF.
Local Open Scope R_scope.

Definition d50w : Vector3 R := V3 0.9642 1 0.8249.
Lemma d50w_fin : lab_default_white RN = finV d50w.
Proof. unfold lab_default_white, d50w, finV. rl. fin_eq; qn; lra. Qed.
Lemma d50_fin : Illuminant_D50 RN = finV (V3 0.96422 1 0.82521).
Proof. unfold Illuminant_D50, finV. rl. fin_eq; qn; lra. Qed.
Lemma d50_round_trip (t : Vector3 R) : v0 t <= 0.9642 -> v1 t <= 1 -> v2 t <= 0.8249 ->
  fromCIELAB_D50 RN (toCIELAB_D50 RN (finV t)) = finV t.
Proof.
  intros A B C. unfold fromCIELAB_D50, toCIELAB_D50. rewrite d50w_fin. apply C15_l; try assumption. unfold posV, d50w. cbn [v0 v1 v2]. lra.
Qed.
Lemma curve_above x : 1 <= x -> lab_curve x = lab_curve 1.
Proof. intros H. destruct C16_curve_l as (c & Hc & _ & _ & _ & K). assert (E : forall f, lab_curve f = c f). { intros f. specialize (Hc f). rewrite curve_fin in Hc. congruence. }
  rewrite !E, !K by lra. reflexivity. Qed.
Lemma toLab_above (t w : Vector3 R) : posV w -> v0 w <= v0 t -> v1 w <= v1 t -> v2 w <= v2 t ->
  toCIELAB RN (finV t) (finV w) = toCIELAB RN (finV w) (finV w).
Proof.
  intros (A & B & C) H0 H1 H2. unfold toCIELAB. destruct t as [x y z], w as [a b c]. cbn [v0 v1 v2] in *. rn. rewrite !rdiv_ok by lra. rewrite !curve_fin.
  assert (Q : forall p q, 0 < q -> q <= p -> lab_curve (p / q) = lab_curve (q / q)).
  { intros p q Hq Hp. replace (q / q) with 1 by (field; lra). apply curve_above. apply Rmult_le_reg_r with q; [exact Hq|]. unfold Rdiv. rewrite Rmult_assoc, Rinv_l by lra. lra. }
  rewrite (Q x a), (Q y b), (Q z c) by assumption. reflexivity.
Qed.
Lemma d50_above (t : Vector3 R) : 0.9642 <= v0 t -> 1 <= v1 t -> 0.8249 <= v2 t ->
  fromCIELAB_D50 RN (toCIELAB_D50 RN (finV t)) = finV d50w.
Proof.
  intros A B C. unfold fromCIELAB_D50, toCIELAB_D50. rewrite d50w_fin.
  rewrite toLab_above; try assumption; [|unfold posV, d50w; cbn [v0 v1 v2]; lra].
  apply C15_l; try (cbn; lra). unfold posV, d50w. cbn [v0 v1 v2]. lra.
Qed.
Lemma d50_refuted : exists t : Vector3 R, finV t = Illuminant_D50 RN /\ fromCIELAB_D50 RN (toCIELAB_D50 RN (finV t)) <> finV t.
Proof.
  exists (V3 0.96422 1 0.82521). split; [symmetry; apply d50_fin|]. rewrite d50_above by (cbn [v0 v1 v2]; lra).
  unfold d50w, finV. cbn [v0 v1 v2]. intros E. injection E as E0 E2. lra.
Qed.

(** ** White in binary32 *)
Section White.
Context (lm : libm).
Notation N := (FN lm).
Definition one : f32 := @flit N 1.
Lemma one_val : fin one /\ B2R one = 1.
Proof. unfold one. f32_val. Qed.
Lemma div_self (x : f32) : fin x -> B2R x <> 0 -> @fdiv N x x = one.
Proof.
  intros F H. destruct one_val as [O V]. assert (Q : B2R x / B2R x = 1) by (field; exact H).
  destruct (div_ok lm x x F H) as [A B]; [rewrite Q, Rabs_R1; apply (bpow_le radix2 0 127); lia|].
  rewrite Q in B. assert (R1 : rnd 1 = 1). { rewrite <- V. apply round_generic; [apply valid_rnd_N|apply generic_format_B2R]. }
  rewrite R1 in B. apply B2R_inj; [|reflexivity|now rewrite B, V].
  destruct (@fdiv N x x); try discriminate A; [cbn in B; lra|reflexivity].
Qed.
Hypothesis pow1 : forall y, lm_powf lm one y = one.
Lemma curve_one : CIELAB_curve N one = one.
Proof.
  unfold CIELAB_curve. replace (@fltb N (@flit N 1) one) with false by (vm_compute; reflexivity).
  match goal with |- context [if @fltb N ?a one then _ else _] => replace (@fltb N a one) with true by (vm_compute; reflexivity) end. apply pow1.
Qed.
Lemma decurve_one : CIELAB_decurve N one = one.
Proof.
  unfold CIELAB_decurve. replace (@fltb N (@flit N 1) one) with false by (vm_compute; reflexivity).
  match goal with |- context [if @fltb N ?a one then _ else _] => replace (@fltb N a one) with true by (vm_compute; reflexivity) end. apply pow1.
Qed.
Lemma white_lab (w : Vector3 f32) : allV (fun x => fin x /\ B2R x <> 0) w ->
  toCIELAB N w w = V3 (@flit N 100) (@flit N 0) (@flit N 0) /\
  fromCIELAB N (toCIELAB N w w) w = w.
Proof.
  destruct w as [a b c]. intros ((Fa & Na) & (Fb & Nb) & (Fc & Nc)). cbn [v0 v1 v2] in *.
  assert (E : toCIELAB N (V3 a b c) (V3 a b c) = V3 (@flit N 100) (@flit N 0) (@flit N 0)).
  { unfold toCIELAB. cbn [vref v0 v1 v2]. rewrite !div_self, !curve_one by assumption.
    f_equal; apply B2SF_inj; vm_compute; reflexivity. }
  split; [exact E|]. rewrite E. unfold fromCIELAB. cbn [vref v0 v1 v2].
  match goal with |- V3 (@fmul N (CIELAB_decurve N ?x) _) (@fmul N (CIELAB_decurve N ?y) _) (@fmul N (CIELAB_decurve N ?z) _) = _ =>
    replace x with one by (apply B2SF_inj; vm_compute; reflexivity);
    replace z with one by (apply B2SF_inj; vm_compute; reflexivity);
    replace y with one by (apply B2SF_inj; vm_compute; reflexivity) end.
  rewrite decurve_one. 
  assert (M : forall x : f32, fin x -> B2R x <> 0 -> @fmul N one x = x).
  { intros x Fx Nx. destruct one_val as [O V].
    assert (R1 : rnd (B2R one * B2R x) = B2R x) by (rewrite V, Rmult_1_l; apply round_generic; [apply valid_rnd_N|apply generic_format_B2R]).
    destruct (mul_gen lm one x O Fx) as [A B]; [rewrite R1; apply abs_B2R_lt_emax|]. rewrite R1 in B.
    symmetry. apply B2R_eq; auto. }
  rewrite (M a), (M b), (M c) by assumption. reflexivity.
Qed.
End White.
Lemma white_example : exists lm, (forall y, lm_powf lm (one lm) y = one lm) /\ allV (fun x : f32 => fin x /\ B2R x <> 0) (Illuminant_D65 (FN lm)).
Proof.
  exists (mkLibm (fun x _ => x) (fun x => x) (fun x => x) (fun x => x) (fun x => x) (fun x => x) (fun x _ => x) (fun x _ => x) (fun x => x) (fun x _ => x) (fun x => x)).
  split; [reflexivity|]. repeat split; cbn [Illuminant_D65 v0 v1 v2]; try reflexivity; apply Rgt_not_eq, F2R_gt_0; reflexivity.
Qed.
