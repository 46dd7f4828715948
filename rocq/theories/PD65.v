(** * The D65 spectrum against the D65 constant. *)
From Coq Require Import ZArith Reals Lra Lia List Bool.
From Flocq Require Import Core BinarySingleNaN.
From Verif Require Import Num NumR NumF MVec MTri MSpectrum Tables RTac PTri PSpec PTables.
Import ListNotations.
Local Open Scope R_scope.

(** ** Exact sums of tables with a common exponent. *)
Definition exps (e : Z) (t : list dec) : bool := forallb (fun d => Z.eqb (de d) e) t.
Fixpoint zsum (t : list dec) : Z := match t with [] => 0 | d :: t => dm d + zsum t end%Z.
Fixpoint zdot (s t : list dec) : Z := match s, t with d :: s, f :: t => dm d * dm f + zdot s t | _, _ => 0 end%Z.
Definition p10 (e : positive) : R := IZR (Z.pow_pos 10 e).
Lemma Rdec_neg m p : Rdec (mkdec m (Zneg p)) = IZR m / p10 p. Proof. reflexivity. Qed.
Lemma p10_pos p : 0 < p10 p.
Proof. apply (IZR_lt 0). change (Z.pow_pos 10 p) with (10 ^ Zpos p)%Z. apply Z.pow_pos_nonneg; lia. Qed.
Definition lsum (l : list R) : R := fold_right Rplus 0 l.
Fixpoint ldot (a b : list R) : R := match a, b with x :: a, y :: b => x * y + ldot a b | _, _ => 0 end.
Lemma sum_shift f n : sum_f_R0 f (S n) = f 0%nat + sum_f_R0 (fun i => f (S i)) n.
Proof. apply decomp_sum. apply Nat.lt_0_succ. Qed.
Lemma sum_list l n : length l = S n -> sum_f_R0 (smp l) n = lsum l.
Proof.
  revert n. induction l as [|x l IH]; intros n H; [discriminate|]. destruct n as [|n].
  - destruct l; [|discriminate]. cbn. lra.
  - rewrite sum_shift. cbn [lsum fold_right]. change (fold_right Rplus 0 l) with (lsum l). rewrite <- (IH n) by (cbn in H; lia). reflexivity.
Qed.
Lemma dot_list a b n : length a = S n -> length b = S n -> sum_f_R0 (fun i => smp a i * smp b i) n = ldot a b.
Proof.
  revert b n. induction a as [|x a IH]; intros b n H K; [discriminate|]. destruct b as [|y b]; [discriminate|]. destruct n as [|n].
  - destruct a; [|discriminate]. cbn. lra.
  - rewrite sum_shift. cbn [ldot]. rewrite <- (IH b n) by (cbn in H, K; lia). reflexivity.
Qed.
Lemma exps_cons e d t : exps e (d :: t) = true -> de d = e /\ exps e t = true.
Proof. unfold exps. cbn [forallb]. rewrite andb_true_iff, Z.eqb_eq. tauto. Qed.
Lemma lsum_z p t : exps (Zneg p) t = true -> lsum (tabR t) = IZR (zsum t) / p10 p.
Proof.
  pose proof (p10_pos p). induction t as [|[m e] t IH]; intros E; [cbn; field; lra|]. apply exps_cons in E as [D E]. cbn [de] in D. subst e.
  cbn [tabR map lsum fold_right]. fold (tabR t) (lsum (tabR t)). rewrite IH by exact E. rewrite Rdec_neg. cbn [zsum dm]. rewrite plus_IZR. field. lra.
Qed.
Lemma ldot_z p q s t : exps (Zneg p) s = true -> exps (Zneg q) t = true -> ldot (tabR s) (tabR t) = IZR (zdot s t) / (p10 p * p10 q).
Proof.
  pose proof (p10_pos p). pose proof (p10_pos q). revert t. induction s as [|[m e] s IH]; intros t E G.
  - cbn. field. lra.
  - destruct t as [|[m' e'] t]; [cbn; field; lra|]. apply exps_cons in E as [D E]. apply exps_cons in G as [D' G]. cbn [de] in D, D'. subst e e'.
    cbn [tabR map ldot]. fold (tabR s) (tabR t). rewrite IH by assumption. rewrite !Rdec_neg. cbn [zdot dm]. rewrite plus_IZR, mult_IZR. field. lra.
Qed.
Lemma sumR_z p t : length t = 400%nat -> exps (Zneg p) t = true -> sumR (tabR t) = IZR (zsum t) / p10 p.
Proof. intros L E. unfold sumR. rewrite sum_list by (unfold tabR; rewrite map_length; exact L). now apply lsum_z. Qed.
Lemma dotR_z p q s t : length s = 400%nat -> length t = 400%nat -> exps (Zneg p) s = true -> exps (Zneg q) t = true ->
  dotR (tabR s) (tabR t) = IZR (zdot s t) / (p10 p * p10 q).
Proof. intros L K E G. unfold dotR. rewrite dot_list by (unfold tabR; rewrite map_length; assumption). now apply ldot_z. Qed.

(** ** The D65 spectrum through the CIE 1931 observer. *)
Definition white65 : Vector3 R := triR (tabR T_CIE1931_X) (tabR T_CIE1931_Y) (tabR T_CIE1931_Z) (tabR T_CIE_D65).
Definition ratio (t : list dec) : R := IZR (zdot T_CIE_D65 t) / (p10 5 * IZR (zsum t)).
Lemma comp t : length t = 400%nat -> exps (-11) t = true -> zsum t <> 0%Z -> dotR (tabR T_CIE_D65) (tabR t) / sumR (tabR t) = ratio t.
Proof.
  intros L E Z. rewrite (dotR_z 5 11) by (exact L || exact E || (vm_compute; reflexivity)). rewrite (sumR_z 11) by assumption. unfold ratio.
  pose proof (p10_pos 5). pose proof (p10_pos 11). apply IZR_neq in Z. field. split; [exact Z|]. split; lra.
Qed.
Lemma tabs_ok : forall t, In t [T_CIE1931_X; T_CIE1931_Y; T_CIE1931_Z] -> length t = 400%nat /\ exps (-11) t = true /\ zsum t <> 0%Z.
Proof. intros t [<-|[<-|[<-|[]]]]; (split; [vm_compute; reflexivity|]; split; [vm_compute; reflexivity|vm_compute; discriminate]). Qed.
Lemma rX : ratio T_CIE1931_X = 100431630922105216484 / (100000 * 10685504379336).
Proof. unfold ratio. replace (zdot _ _) with 100431630922105216484%Z by (vm_compute; reflexivity). replace (zsum _) with 10685504379336%Z by (vm_compute; reflexivity). reflexivity. Qed.
Lemma rY : ratio T_CIE1931_Y = 105670493531203648360 / (100000 * 10685641128788).
Proof. unfold ratio. replace (zdot _ _) with 105670493531203648360%Z by (vm_compute; reflexivity). replace (zsum _) with 10685641128788%Z by (vm_compute; reflexivity). reflexivity. Qed.
Lemma rZ : ratio T_CIE1931_Z = 115033976070947065630 / (100000 * 10684608243163).
Proof. unfold ratio. replace (zdot _ _) with 115033976070947065630%Z by (vm_compute; reflexivity). replace (zsum _) with 10684608243163%Z by (vm_compute; reflexivity). reflexivity. Qed.
Lemma white65_val : white65 = V3 (ratio T_CIE1931_X) (ratio T_CIE1931_Y) (ratio T_CIE1931_Z).
Proof.
  unfold white65, triR.
  destruct (tabs_ok T_CIE1931_X ltac:(cbn [In]; tauto)) as (A1 & A2 & A3), (tabs_ok T_CIE1931_Y ltac:(cbn [In]; tauto)) as (B1 & B2 & B3),
    (tabs_ok T_CIE1931_Z ltac:(cbn [In]; tauto)) as (C1 & C2 & C3). now rewrite !comp.
Qed.
Lemma D65_len : spectrumR (tabR T_CIE_D65). Proof. unfold spectrumR, tabR. rewrite map_length. vm_compute. reflexivity. Qed.
Lemma scaled k : fromSpectrum RN (CIE1931 RN) (S_scale RN (CIE_D65 RN) (Some k)) =
  finV (V3 (k * ratio T_CIE1931_X) (k * ratio T_CIE1931_Y) (k * ratio T_CIE1931_Z)).
Proof.
  unfold CIE1931, CIE1931_X, CIE1931_Y, CIE1931_Z, CIE_D65. rewrite !spectrum_of_fin. fold (observerR (tabR T_CIE1931_X) (tabR T_CIE1931_Y) (tabR T_CIE1931_Z)).
  rewrite S_scale_fin by exact D65_len.
  rewrite fromSpectrum_fin; [|apply tab_obs; unfold CMFs; cbn [In]; tauto|apply scale_len, D65_len].
  assert (E : triR (tabR T_CIE1931_X) (tabR T_CIE1931_Y) (tabR T_CIE1931_Z) (tabR T_CIE_D65) =
              V3 (ratio T_CIE1931_X) (ratio T_CIE1931_Y) (ratio T_CIE1931_Z)) by exact white65_val.
  unfold triR in *. rewrite !dot_scale. injection E as EX EY EZ. rewrite <- EX, <- EY, <- EZ. unfold Rdiv. now rewrite !Rmult_assoc.
Qed.
Lemma ratios : Rabs (ratio T_CIE1931_X - 0.95047 * ratio T_CIE1931_Y) <= 0.0002 * ratio T_CIE1931_Y /\
  Rabs (ratio T_CIE1931_Z - 1.08883 * ratio T_CIE1931_Y) <= 0.0002 * ratio T_CIE1931_Y /\ 98.88 <= ratio T_CIE1931_Y <= 98.9.
Proof. rewrite rX, rY, rZ. repeat split; try apply Rabs_le; lra. Qed.
Lemma D65_const : Illuminant_D65 RN = finV (V3 0.95047 1 1.08883).
Proof. unfold Illuminant_D65, finV. cbn [v0 v1 v2]. cbn [flit RN]. apply f_equal3; apply f_equal; unfold Rdec; cbn [dm de]; cbv [Z.pow_pos Pos.iter Z.mul Pos.mul Pos.add Pos.succ]; lra. Qed.
Lemma C87_l k : exists t x y, fromSpectrum RN (CIE1931 RN) (S_scale RN (CIE_D65 RN) (Some k)) = finV t /\
  Illuminant_D65 RN = finV (V3 0.95047 1 1.08883) /\
  Rabs (v0 t - 0.95047 * v1 t) <= 0.0002 * Rabs (v1 t) /\ Rabs (v2 t - 1.08883 * v1 t) <= 0.0002 * Rabs (v1 t) /\
  Rabs (v1 t - 98.89 * k) <= 0.01 * Rabs k /\
  toYxy RN (finV t) = finV (V3 (v1 t) x y) /\ Rabs (x - 0.3127) <= 0.0001 /\ Rabs (y - 0.3290) <= 0.0001.
Proof.
  pose proof (scaled k) as E. pose proof ratios as (HX & HZ & HY). set (a := ratio T_CIE1931_X) in *. set (b := ratio T_CIE1931_Y) in *. set (c := ratio T_CIE1931_Z) in *.
  assert (Q : exists x y, toYxy RN (finV (V3 (k * a) (k * b) (k * c))) = finV (V3 (k * b) x y) /\ Rabs (x - 0.3127) <= 0.0001 /\ Rabs (y - 0.3290) <= 0.0001).
  { destruct (Rlt_or_le (Rabs (k * a + k * b + k * c)) eps8) as [H|H].
    - exists (3127 / 10000), (3290 / 10000). split; [apply toYxy_small, H|]. split; apply Rabs_le; lra.
    - exists (k * a / (k * a + k * b + k * c)), (k * b / (k * a + k * b + k * c)). split; [apply toYxy_ok, H|].
      apply Rabs_le_inv in HX, HZ. apply eps8_nz in H. assert (K : k <> 0) by (intros ->; apply H; ring). assert (S : 0 < a + b + c) by lra.
      replace (k * a / (k * a + k * b + k * c)) with (a / (a + b + c)) by (field; split; [exact H|lra || (split; lra)]).
      replace (k * b / (k * a + k * b + k * c)) with (b / (a + b + c)) by (field; split; [exact H|lra || (split; lra)]).
      assert (D : forall z w, Rabs (z - w * (a + b + c)) <= 0.0001 * (a + b + c) -> Rabs (z / (a + b + c) - w) <= 0.0001).
      { intros z w A. replace (z / (a + b + c) - w) with ((z - w * (a + b + c)) / (a + b + c)) by (field; lra).
        unfold Rdiv. rewrite Rabs_mult, Rabs_inv, (Rabs_pos_eq (a + b + c)) by lra. apply Rmult_le_reg_r with (a + b + c); [exact S|].
        rewrite Rmult_assoc, Rinv_l, Rmult_1_r by lra. exact A. }
      clear E. unfold a, b, c in *. rewrite rX, rY, rZ in *. split; apply D; apply Rabs_le; lra. }
  destruct Q as (x & y & Q & Qx & Qy). exists (V3 (k * a) (k * b) (k * c)), x, y. cbn [v0 v1 v2].
  split; [exact E|]. split; [exact D65_const|].
  replace (k * a - 0.95047 * (k * b)) with (k * (a - 0.95047 * b)) by ring. replace (k * c - 1.08883 * (k * b)) with (k * (c - 1.08883 * b)) by ring.
  replace (k * b - 98.89 * k) with (k * (b - 98.89)) by ring. rewrite !Rabs_mult, (Rabs_pos_eq b) by lra. pose proof (Rabs_pos k).
  split; [nra|]. split; [nra|]. split; [|auto]. assert (Rabs (b - 98.89) <= 0.01) by (apply Rabs_le; lra). nra.
Qed.
Lemma C87_ex : exists t, fromSpectrum RN (CIE1931 RN) (S_scale RN (CIE_D65 RN) (Some 1)) = finV t /\ 98 < v1 t.
Proof. eexists. split; [exact (scaled 1)|]. cbn [v1]. pose proof ratios. lra. Qed.
