(** * Where the CIE 2000 difference is continuous. *)
From Coq Require Import ZArith Reals Lra Lia Psatz List.
From Flocq Require Import Core.Raux.
From Verif Require Import Num NumR MVec MTri MOtf MDelta RTac RPow POtf SpecDelta PE00 PE00b PE00c PHsvA PE00d.
Local Open Scope R_scope.

(** ** Limits of sequences *)
Lemma cv_ev (x y : nat -> R) l : (exists M, forall n, (M <= n)%nat -> x n = y n) -> Un_cv y l -> Un_cv x l.
Proof.
  intros (M & E) H eps HE. destruct (H eps HE) as (K & HK). exists (M + K)%nat. intros n Hn. rewrite E by lia. apply HK. lia.
Qed.
Lemma cv_neg x l : Un_cv x l -> l < 0 -> exists M, forall n, (M <= n)%nat -> x n < 0.
Proof.
  intros H L. destruct (H (- l) ltac:(lra)) as (K & HK). exists K. intros n Hn. specialize (HK n Hn). unfold R_dist in HK. apply Rabs_def2 in HK. lra.
Qed.
Lemma cv_pos x l : Un_cv x l -> 0 < l -> exists M, forall n, (M <= n)%nat -> 0 < x n.
Proof.
  intros H L. destruct (H l ltac:(lra)) as (K & HK). exists K. intros n Hn. specialize (HK n Hn). unfold R_dist in HK. apply Rabs_def2 in HK. lra.
Qed.
Lemma cv_c c : Un_cv (fun _ => c) c.
Proof. intros eps HE. exists 0%nat. intros. unfold R_dist. rewrite Rminus_diag_eq, Rabs_R0 by reflexivity. exact HE. Qed.
Lemma cv_div x y a b : Un_cv x a -> Un_cv y b -> b <> 0 -> Un_cv (fun n => x n / y n) (a / b).
Proof.
  intros X Y B. apply (CV_mult x (fun n => / y n)); [exact X|]. apply (continuity_seq Rinv y b); [|exact Y].
  apply (continuity_pt_inv (fun z => z) b); [apply derivable_continuous_pt, derivable_pt_id|exact B].
Qed.
Lemma cv_sqrt x a : Un_cv x a -> 0 <= a -> Un_cv (fun n => sqrt (x n)) (sqrt a).
Proof. intros X A. apply (continuity_seq sqrt x a); [now apply continuity_pt_sqrt|exact X]. Qed.
Lemma cv_der f x a : derivable_pt f a -> Un_cv x a -> Un_cv (fun n => f (x n)) (f a).
Proof. intros D X. apply (continuity_seq f x a); [now apply derivable_continuous_pt|exact X]. Qed.
Lemma cv_pow k x a : Un_cv x a -> Un_cv (fun n => x n ^ k) (a ^ k).
Proof. intros X. apply (cv_der (fun z => z ^ k) x a); [apply derivable_pt_pow|exact X]. Qed.
Lemma cv_cosd x a : Un_cv x a -> Un_cv (fun n => cosd (x n)) (cosd a).
Proof.
  intros X. unfold cosd. apply (cv_der cos (fun n => x n * PI / 180)); [apply derivable_pt_cos|]. apply cv_div; [|apply cv_c|lra]. apply CV_mult; [exact X|apply cv_c].
Qed.
Lemma cv_sind x a : Un_cv x a -> Un_cv (fun n => sind (x n)) (sind a).
Proof.
  intros X. unfold sind. apply (cv_der sin (fun n => x n * PI / 180)); [apply derivable_pt_sin|]. apply cv_div; [|apply cv_c|lra]. apply CV_mult; [exact X|apply cv_c].
Qed.
Ltac cv := repeat first [eassumption | apply cv_c | apply CV_plus | apply CV_minus | apply CV_mult | apply CV_opp | apply cv_pow | apply cv_cosd | apply cv_sind].

(** ** The hue angle away from the positive first axis *)
Lemma hue_up a b : 0 < b -> cie_hue a b = (PI / 2 - atan (a / b)) * 180 / PI.
Proof.
  intros B. pose proof PI_RGT_0 as P. assert (E : R_atan2 b a = PI / 2 - atan (a / b)).
  { unfold R_atan2. destruct (Rtotal_order 0 a) as [H|[H|H]].
    - rewrite Rlt_bool_true by lra. replace (b / a) with (/ (a / b)) by (field; lra). apply atan_inv. now apply Rdiv_lt_0_compat.
    - subst a. rewrite !Rlt_bool_false, Rlt_bool_true by lra. replace (0 / b) with 0 by (field; lra). rewrite atan_0. lra.
    - rewrite Rlt_bool_false, Rlt_bool_true, Rle_bool_true by lra. replace (b / a) with (- (/ (- a / b))) by (field; lra). rewrite atan_opp, atan_inv by (apply Rdiv_lt_0_compat; lra).
      replace (- a / b) with (- (a / b)) by (field; lra). rewrite atan_opp. lra. }
  unfold cie_hue. rewrite E. pose proof (atan_bound (a / b)). destruct (Rlt_dec _ 0) as [L|L]; [|reflexivity]. exfalso.
  assert (0 < (PI / 2 - atan (a / b)) * 180 / PI) by (apply Rdiv_lt_0_compat; lra). lra.
Qed.
Lemma hue_dn a b : b < 0 -> cie_hue a b = 360 - cie_hue a (- b).
Proof.
  intros B. pose proof PI_RGT_0 as P. rewrite (hue_up a (- b)) by lra. assert (E : R_atan2 b a = - (PI / 2 - atan (a / - b))).
  { unfold R_atan2. destruct (Rtotal_order 0 a) as [H|[H|H]].
    - rewrite Rlt_bool_true by lra. replace (b / a) with (- / (a / - b)) by (field; lra). rewrite atan_opp, atan_inv by (apply Rdiv_lt_0_compat; lra). lra.
    - subst a. rewrite !Rlt_bool_false, Rlt_bool_true by lra. replace (0 / - b) with 0 by (field; lra). rewrite atan_0. lra.
    - rewrite Rlt_bool_false, Rlt_bool_true, Rle_bool_false by lra. replace (b / a) with (/ (- a / - b)) by (field; lra). rewrite atan_inv by (apply Rdiv_lt_0_compat; lra).
      replace (- a / - b) with (- (a / - b)) by (field; lra). rewrite atan_opp. lra. }
  unfold cie_hue. rewrite E. pose proof (atan_bound (a / - b)). assert (Q : 0 < (PI / 2 - atan (a / - b)) * 180 / PI) by (apply Rdiv_lt_0_compat; lra).
  replace (- (PI / 2 - atan (a / - b)) * 180 / PI) with (- ((PI / 2 - atan (a / - b)) * 180 / PI)) by (field; lra). destruct (Rlt_dec _ 0); lra.
Qed.
Lemma hue_left a b : a < 0 -> cie_hue a b = (atan (b / a) + PI) * 180 / PI.
Proof.
  intros A. pose proof PI_RGT_0 as P. pose proof (atan_bound (b / a)). unfold cie_hue, R_atan2. rewrite Rlt_bool_false, Rlt_bool_true by lra.
  assert (Q : forall x, 0 < x -> 0 < x * 180 / PI) by (intros; apply Rdiv_lt_0_compat; lra).
  destruct (Rle_bool_spec 0 b) as [B|B].
  - specialize (Q (atan (b / a) + PI) ltac:(lra)). destruct (Rlt_dec _ 0); lra.
  - specialize (Q (- (atan (b / a) - PI)) ltac:(lra)). replace (- (atan (b / a) - PI) * 180 / PI) with (- ((atan (b / a) - PI) * 180 / PI)) in Q by (field; lra).
    destruct (Rlt_dec _ 0); [field; lra|lra].
Qed.
Lemma cv_hue x y a b : Un_cv x a -> Un_cv y b -> b <> 0 \/ a < 0 -> Un_cv (fun n => cie_hue (x n) (y n)) (cie_hue a b).
Proof.
  intros X Y H. pose proof PI_RGT_0 as P.
  assert (UP : forall y b, Un_cv y b -> 0 < b -> Un_cv (fun n => cie_hue (x n) (y n)) (cie_hue a b)).
  { clear y b Y H. intros y b Y B. destruct (cv_pos y b Y B) as (M & HM). rewrite hue_up by exact B.
    apply cv_ev with (fun n => (PI / 2 - atan (x n / y n)) * 180 / PI); [exists M; intros n Hn; apply hue_up, HM, Hn|].
    apply cv_div; [|apply cv_c|lra]. apply CV_mult; [|apply cv_c]. apply CV_minus; [apply cv_c|]. apply (cv_der atan (fun n => x n / y n)); [apply derivable_pt_atan|]. apply cv_div; [assumption..|lra]. }
  destruct (Rtotal_order 0 b) as [B|[B|B]]; [now apply UP| |].
  - assert (A : a < 0) by lra. destruct (cv_neg x a X A) as (M & HM). rewrite hue_left by exact A.
    apply cv_ev with (fun n => (atan (y n / x n) + PI) * 180 / PI); [exists M; intros n Hn; apply hue_left, HM, Hn|].
    apply cv_div; [|apply cv_c|lra]. apply CV_mult; [|apply cv_c]. apply CV_plus; [|apply cv_c]. apply (cv_der atan (fun n => y n / x n)); [apply derivable_pt_atan|]. apply cv_div; [assumption..|lra].
  - destruct (cv_neg y b Y B) as (M & HM). rewrite hue_dn by exact B.
    apply cv_ev with (fun n => 360 - cie_hue (x n) (- y n)); [exists M; intros n Hn; apply hue_dn, HM, Hn|].
    apply CV_minus; [apply cv_c|]. apply (UP (fun n => - y n) (- b)); [now apply CV_opp|lra].
Qed.
(** ** The mean hue and the hue difference where the hues are not opposite *)
Lemma opp_dir a1 b1 a2 b2 : (a1 * b2 <> a2 * b1 \/ 0 < a1 * a2 + b1 * b2) -> Rabs (cie_hue a1 b1 - cie_hue a2 b2) <> 180.
Proof.
  intros H E. destruct (hue_cos a1 b1) as (c1 & s1), (hue_cos a2 b2) as (c2 & s2). destruct (polar a1 b1) as (p1 & q1), (polar a2 b2) as (p2 & q2).
  rewrite <- c1 in p1. rewrite <- s1 in q1. rewrite <- c2 in p2. rewrite <- s2 in q2.
  assert (Q : cosd (cie_hue a1 b1) = - cosd (cie_hue a2 b2) /\ sind (cie_hue a1 b1) = - sind (cie_hue a2 b2)).
  { set (h1 := cie_hue a1 b1) in *. set (h2 := cie_hue a2 b2) in *. clearbody h1 h2. unfold cosd, sind.
    assert (h1 = h2 + 180 \/ h1 = h2 - 180) as [->| ->] by (unfold Rabs in E; destruct (Rcase_abs _); lra).
    - replace ((h2 + 180) * PI / 180) with (h2 * PI / 180 + PI) by field. now rewrite neg_cos, neg_sin.
    - replace ((h2 - 180) * PI / 180) with (h2 * PI / 180 - PI) by field. rewrite cos_minus, sin_minus, cos_PI, sin_PI. split; ring. }
  destruct Q as (Qc & Qs). rewrite Qc in p1. rewrite Qs in q1. pose proof (sqrt_pos (a1 * a1 + b1 * b1)) as R1. pose proof (sqrt_pos (a2 * a2 + b2 * b2)) as R2.
  set (r1 := sqrt (a1 * a1 + b1 * b1)) in *. set (r2 := sqrt (a2 * a2 + b2 * b2)) in *. set (c := cosd (cie_hue a2 b2)) in *. set (s := sind (cie_hue a2 b2)) in *. clear c1 s1 c2 s2 Qc Qs E. clearbody r1 r2 c s.
  rewrite <- p1, <- p2, <- q1, <- q2 in H. destruct H as [H|H]; [apply H; ring|].
  assert (0 <= r1 * r2 * (c ^ 2 + s ^ 2)) by (apply Rmult_le_pos; [now apply Rmult_le_pos|pose proof (pow2_ge_0 c); pose proof (pow2_ge_0 s); lra]). lra.
Qed.
Lemma cv_hd x y a b : Un_cv x a -> Un_cv y b -> Rabs (a - b) <> 180 ->
  Un_cv (fun n => hbar (x n) (y n)) (hbar a b) /\ Un_cv (fun n => dhue (x n) (y n)) (dhue a b).
Proof.
  intros X Y H. pose proof (CV_minus _ _ _ _ X Y) as D. set (e := Rabs (Rabs (a - b) - 180) / 2).
  assert (EP : 0 < e) by (unfold e; assert (0 < Rabs (Rabs (a - b) - 180)) by (apply Rabs_pos_lt; lra); lra).
  destruct (D e EP) as (M & HM).
  assert (S : forall n, (M <= n)%nat -> (180 < a - b /\ 180 < x n - y n) \/ (a - b < -180 /\ x n - y n < -180) \/ (-180 < a - b < 180 /\ -180 < x n - y n < 180)).
  { intros n Hn. specialize (HM n Hn). unfold R_dist in HM. apply Rabs_def2 in HM. unfold e, Rabs in HM. unfold Rabs in H. destruct (Rcase_abs (a - b)), (Rcase_abs _); lra. }
  clear HM D. split.
  - unfold hbar at 2. destruct (Rlt_dec _ _) as [L|L].
    + apply cv_ev with (fun n => (x n + y n + 360) / 2); [|apply cv_div; [cv|apply cv_c|lra]].
      exists M. intros n Hn. unfold hbar. destruct (Rlt_dec _ _) as [L'|L']; [reflexivity|exfalso]. pose proof (S n Hn) as K; clear - K L L'; unfold Rabs in *; destruct (Rcase_abs (a - b)), (Rcase_abs (x n - y n)); lra.
    + apply cv_ev with (fun n => (x n + y n) / 2); [|apply cv_div; [cv|apply cv_c|lra]].
      exists M. intros n Hn. unfold hbar. destruct (Rlt_dec _ _) as [L'|L']; [exfalso|reflexivity]. pose proof (S n Hn) as K; clear - K L L'; unfold Rabs in *; destruct (Rcase_abs (a - b)), (Rcase_abs (x n - y n)); lra.
  - unfold dhue at 2. destruct (Rle_dec _ _) as [L|L]; [|destruct (Rle_dec _ _) as [L2|L2]].
    + apply cv_ev with (fun n => y n - x n); [|cv]. exists M. intros n Hn. unfold dhue. destruct (Rle_dec _ _) as [L'|L']; [reflexivity|exfalso].
      pose proof (S n Hn) as K; clear - K L L'; unfold Rabs in *; destruct (Rcase_abs (b - a)), (Rcase_abs (y n - x n)); lra.
    + apply cv_ev with (fun n => y n - x n + 360); [|cv]. exists M. intros n Hn. unfold dhue. destruct (Rle_dec _ _) as [L'|L']; [exfalso|].
      * pose proof (S n Hn) as K; clear - K L L'; unfold Rabs in *; destruct (Rcase_abs (b - a)), (Rcase_abs (y n - x n)); lra.
      * destruct (Rle_dec _ _) as [L3|L3]; [lra|exfalso]. pose proof (S n Hn) as K; clear - K L L' L2 L3; unfold Rabs in *; destruct (Rcase_abs (b - a)), (Rcase_abs (y n - x n)); lra.
    + apply cv_ev with (fun n => y n - x n - 360); [|cv]. exists M. intros n Hn. unfold dhue. destruct (Rle_dec _ _) as [L'|L']; [exfalso|].
      * pose proof (S n Hn) as K; clear - K L L'; unfold Rabs in *; destruct (Rcase_abs (b - a)), (Rcase_abs (y n - x n)); lra.
      * destruct (Rle_dec _ _) as [L3|L3]; [exfalso|lra]. pose proof (S n Hn) as K; clear - K L L' L2 L3; unfold Rabs in *; destruct (Rcase_abs (b - a)), (Rcase_abs (y n - x n)); lra.
Qed.
(** ** The whole formula *)
Lemma cv_rho x a : Un_cv x a -> 0 <= a -> Un_cv (fun n => rho (x n)) (rho a).
Proof.
  intros X A. pose proof (pow7_nonneg a A). unfold rho. apply (cv_sqrt (fun n => x n ^ 7 / (x n ^ 7 + 25 ^ 7))).
  - apply (cv_div (fun n => x n ^ 7) (fun n => x n ^ 7 + 25 ^ 7)); [cv|cv|lra].
  - apply Rmult_le_pos; [assumption|]. left. apply Rinv_0_lt_compat. lra.
Qed.
Lemma cv_TR x a : Un_cv x a -> Un_cv (fun n => TR (x n)) (TR a).
Proof. intros X. unfold TR. cv. Qed.
Lemma cv_rt h c a b : Un_cv h a -> Un_cv c b -> 0 <= b -> Un_cv (fun n => rtR (h n) (c n)) (rtR a b).
Proof.
  intros H C B. unfold rtR. apply CV_mult; [|apply CV_mult; [cv|now apply cv_rho]]. apply CV_opp, cv_sind. apply CV_mult; [cv|]. apply CV_mult; [cv|].
  apply (cv_der exp (fun n => - ((h n - 275) / 25) ^ 2)); [apply derivable_pt_exp|]. apply CV_opp, cv_pow. apply cv_div; [cv|cv|lra].
Qed.
Lemma cv_sl x a : Un_cv x a -> Un_cv (fun n => slR (x n)) (slR a).
Proof.
  intros X. unfold slR. apply CV_plus; [cv|]. pose proof (pow2_ge_0 (a - 50)). apply (cv_div (fun n => 0.015 * (x n - 50) ^ 2) (fun n => sqrt (20 + (x n - 50) ^ 2))); [cv| |].
  - apply (cv_sqrt (fun n => 20 + (x n - 50) ^ 2)); [cv|lra].
  - apply Rgt_not_eq, sqrt_lt_R0. lra.
Qed.
Definition cvV (x : nat -> Vector3 R) (a : Vector3 R) : Prop := Un_cv (fun n => v0 (x n)) (v0 a) /\ Un_cv (fun n => v1 (x n)) (v1 a) /\ Un_cv (fun n => v2 (x n)) (v2 a).
Lemma cv_core (x y : nat -> Vector3 R) (p q : Vector3 R) kl kc kh : 0 < kl -> 0 < kc -> 0 < kh -> cvV x p -> cvV y q ->
  (v1 p = 0 /\ v2 p = 0) \/ (v1 q = 0 /\ v2 q = 0) \/
    ((v2 p <> 0 \/ v1 p < 0) /\ (v2 q <> 0 \/ v1 q < 0) /\ (v1 p * v2 q <> v1 q * v2 p \/ 0 < v1 p * v1 q + v2 p * v2 q)) ->
  Un_cv (fun n => core (x n) (y n) kl kc kh code_hm code_dh) (core p q kl kc kh code_hm code_dh).
Proof.
  intros Kl Kc Kh (X0 & X1 & X2) (Y0 & Y1 & Y2) CASES. unfold core, code_hm, code_dh.
  set (c1 := sqrt (v1 p ^ 2 + v2 p ^ 2)). set (c1' := fun n => sqrt (v1 (x n) ^ 2 + v2 (x n) ^ 2)).
  set (c2 := sqrt (v1 q ^ 2 + v2 q ^ 2)). set (c2' := fun n => sqrt (v1 (y n) ^ 2 + v2 (y n) ^ 2)).
  assert (SS : forall a b, 0 <= a ^ 2 + b ^ 2) by (intros a b; pose proof (pow2_ge_0 a); pose proof (pow2_ge_0 b); lra).
  assert (C1 : Un_cv c1' c1) by (apply (cv_sqrt (fun n => v1 (x n) ^ 2 + v2 (x n) ^ 2)); [cv|apply SS]).
  assert (C2 : Un_cv c2' c2) by (apply (cv_sqrt (fun n => v1 (y n) ^ 2 + v2 (y n) ^ 2)); [cv|apply SS]).
  set (g := gR ((c1 + c2) / 2)). set (g' := fun n => gR ((c1' n + c2' n) / 2)).
  assert (G : Un_cv g' g). { unfold g', g, gR. apply (cv_div (fun n => 1 - rho ((c1' n + c2' n) / 2)) (fun _ => 2)); [|cv|lra]. apply CV_minus; [cv|]. apply (cv_rho (fun n => (c1' n + c2' n) / 2)); [apply (cv_div (fun n => c1' n + c2' n)); [cv|cv|lra]|apply mean_nonneg]. }
  pose proof (gR_range ((c1 + c2) / 2) (mean_nonneg _ _)) as GR. change (0 < g <= 1 / 2) in GR.
  set (a1 := (1 + g) * v1 p). set (a1' := fun n => (1 + g' n) * v1 (x n)). set (a2 := (1 + g) * v1 q). set (a2' := fun n => (1 + g' n) * v1 (y n)).
  assert (A1 : Un_cv a1' a1) by (unfold a1', a1; cv). assert (A2 : Un_cv a2' a2) by (unfold a2', a2; cv).
  set (D1 := sqrt (a1 ^ 2 + v2 p ^ 2)). set (D1' := fun n => sqrt (a1' n ^ 2 + v2 (x n) ^ 2)). set (D2 := sqrt (a2 ^ 2 + v2 q ^ 2)). set (D2' := fun n => sqrt (a2' n ^ 2 + v2 (y n) ^ 2)).
  assert (E1 : Un_cv D1' D1) by (apply (cv_sqrt (fun n => a1' n ^ 2 + v2 (x n) ^ 2)); [cv|apply SS]).
  assert (E2 : Un_cv D2' D2) by (apply (cv_sqrt (fun n => a2' n ^ 2 + v2 (y n) ^ 2)); [cv|apply SS]).
  assert (P1 : 0 <= D1) by apply sqrt_pos. assert (P2 : 0 <= D2) by apply sqrt_pos.
  set (h1 := cie_hue a1 (v2 p)). set (h1' := fun n => cie_hue (a1' n) (v2 (x n))). set (h2 := cie_hue a2 (v2 q)). set (h2' := fun n => cie_hue (a2' n) (v2 (y n))).
  assert (DM : Un_cv (fun n => (D1' n + D2' n) / 2) ((D1 + D2) / 2)) by (apply (cv_div (fun n => D1' n + D2' n)); [cv|cv|lra]).
  assert (DP : 0 <= (D1 + D2) / 2) by lra.
  assert (XX : Un_cv (fun n => (v0 (y n) - v0 (x n)) / (kl * slR ((v0 (x n) + v0 (y n)) / 2))) ((v0 q - v0 p) / (kl * slR ((v0 p + v0 q) / 2)))).
  { apply (cv_div (fun n => v0 (y n) - v0 (x n)) (fun n => kl * slR ((v0 (x n) + v0 (y n)) / 2))); [cv| |].
    - apply CV_mult; [cv|]. apply (cv_sl (fun n => (v0 (x n) + v0 (y n)) / 2)). apply (cv_div (fun n => v0 (x n) + v0 (y n))); [cv|cv|lra].
    - pose proof (slR_ge ((v0 p + v0 q) / 2)). apply Rgt_not_eq, Rmult_lt_0_compat; lra. }
  assert (YY : Un_cv (fun n => (D2' n - D1' n) / (kc * (1 + 0.045 * ((D1' n + D2' n) / 2)))) ((D2 - D1) / (kc * (1 + 0.045 * ((D1 + D2) / 2))))).
  { apply (cv_div (fun n => D2' n - D1' n) (fun n => kc * (1 + 0.045 * ((D1' n + D2' n) / 2)))); [cv|cv|]. apply Rgt_not_eq, Rmult_lt_0_compat; lra. }
  set (z := 2 * sqrt (D1 * D2) * sind (dhue h1 h2 / 2) / (kh * (1 + 0.015 * ((D1 + D2) / 2) * TR (hbar h1 h2)))).
  set (z' := fun n => 2 * sqrt (D1' n * D2' n) * sind (dhue (h1' n) (h2' n) / 2) / (kh * (1 + 0.015 * ((D1' n + D2' n) / 2) * TR (hbar (h1' n) (h2' n))))).
  set (w := (D2 - D1) / (kc * (1 + 0.045 * ((D1 + D2) / 2)))) in *. set (w' := fun n => (D2' n - D1' n) / (kc * (1 + 0.045 * ((D1' n + D2' n) / 2)))) in *.
  set (r := rtR (hbar h1 h2) ((D1 + D2) / 2)). set (r' := fun n => rtR (hbar (h1' n) (h2' n)) ((D1' n + D2' n) / 2)).
  cut (Un_cv z' z /\ Un_cv (fun n => r' n * w' n * z' n) (r * w * z)).
  { intros (Z1 & Z2). apply CV_plus; [apply CV_plus; [apply CV_plus|]|]; try (apply cv_pow; assumption). exact Z2. }
  assert (GREY : D1 * D2 = 0 -> Un_cv z' z /\ Un_cv (fun n => r' n * w' n * z' n) (r * w * z)).
  { intros G0. assert (Z0 : z = 0) by (unfold z; rewrite G0, sqrt_0; unfold Rdiv; ring).
    assert (B : forall n, Rabs (z' n) <= 2 * sqrt (D1' n * D2' n) / kh).
    { intros n. unfold z'. assert (Q1 : 0 <= D1' n) by apply sqrt_pos. assert (Q2 : 0 <= D2' n) by apply sqrt_pos. pose proof (TR_range (hbar (h1' n) (h2' n))) as TP. pose proof (sqrt_pos (D1' n * D2' n)) as SP.
      set (T := TR (hbar (h1' n) (h2' n))) in *. set (S := sind (dhue (h1' n) (h2' n) / 2)). assert (HS : -1 <= S <= 1) by apply SIN_bound. clearbody T S. set (m := 0.015 * ((D1' n + D2' n) / 2) * T). assert (HM : 0 <= m) by (apply Rmult_le_pos; lra).
      unfold Rdiv. rewrite Rabs_mult, Rabs_mult. rewrite (Rabs_pos_eq (2 * sqrt _)) by lra. rewrite Rabs_inv, (Rabs_pos_eq (kh * _)) by (apply Rmult_le_pos; lra).
      apply Rmult_le_compat; [apply Rmult_le_pos; [lra|apply Rabs_pos]| | |].
      - left. apply Rinv_0_lt_compat, Rmult_lt_0_compat; lra.
      - rewrite <- (Rmult_1_r (2 * sqrt _)) at 2. apply Rmult_le_compat_l; [lra|]. apply Rabs_le; lra.
      - apply Rinv_le_contravar; [lra|]. rewrite <- (Rmult_1_r kh) at 1. apply Rmult_le_compat_l; lra. }
    assert (L : Un_cv (fun n => 2 * sqrt (D1' n * D2' n) / kh) 0).
    { replace 0 with (2 * sqrt (D1 * D2) / kh) by (rewrite G0, sqrt_0; unfold Rdiv; ring). apply (cv_div (fun n => 2 * sqrt (D1' n * D2' n))); [|cv|lra]. apply CV_mult; [cv|]. apply (cv_sqrt (fun n => D1' n * D2' n)); [cv|lra]. }
    assert (Z : Un_cv z' 0).
    { intros e He. destruct (L e He) as (M & HM). exists M. intros n Hn. specialize (HM n Hn). unfold R_dist in *. rewrite Rminus_0_r in *. eapply Rle_lt_trans; [apply B|]. eapply Rle_lt_trans; [apply Rle_abs|exact HM]. }
    rewrite Z0. split; [exact Z|]. rewrite Rmult_0_r.
    assert (WZ : Un_cv (fun n => w' n * z' n) 0) by (rewrite <- (Rmult_0_r w); now apply CV_mult).
    intros e He. destruct (WZ (e / 2) ltac:(lra)) as (M & HM). exists M. intros n Hn. specialize (HM n Hn). unfold R_dist in *. rewrite Rminus_0_r in *.
    assert (DN : 0 <= (D1' n + D2' n) / 2) by apply mean_nonneg. pose proof (rtR_range (hbar (h1' n) (h2' n)) _ DN) as RR. change (-2 < r' n < 2) in RR.
    rewrite Rmult_assoc, Rabs_mult. assert (Rabs (r' n) <= 2) by (apply Rabs_le; lra). pose proof (Rabs_pos (r' n)). pose proof (Rabs_pos (w' n * z' n)). nra. }
  destruct CASES as [(N1 & N2)|[(N1 & N2)|(HP & HQ & HO)]].
  { apply GREY. unfold D1, a1. rewrite N1, N2. replace (((1 + g) * 0) ^ 2 + 0 ^ 2) with 0 by ring. rewrite sqrt_0. ring. }
  { apply GREY. unfold D2, a2. rewrite N1, N2. replace (((1 + g) * 0) ^ 2 + 0 ^ 2) with 0 by ring. rewrite sqrt_0. ring. }
  clear GREY.
  assert (H1 : Un_cv h1' h1). { apply (cv_hue a1' (fun n => v2 (x n))); [assumption..|]. unfold a1. destruct HP as [|HP]; [now left|right; nra]. }
  assert (H2 : Un_cv h2' h2). { apply (cv_hue a2' (fun n => v2 (y n))); [assumption..|]. unfold a2. destruct HQ as [|HQ]; [now left|right; nra]. }
  assert (NO : Rabs (h1 - h2) <> 180).
  { apply opp_dir. unfold a1, a2. destruct (Req_dec (v1 p * v2 q) (v1 q * v2 p)) as [E|N].
    - right. destruct HO as [HO|HO]; [now elim HO|].
      assert (Z : (v1 p * v1 q) * (v2 p * v2 q) = (v1 p * v2 q) ^ 2) by (replace ((v1 p * v2 q) ^ 2) with ((v1 p * v2 q) * (v1 p * v2 q)) by ring; rewrite E at 2; ring).
      assert (Z2 : 0 <= v1 p * v1 q). { pose proof (pow2_ge_0 (v1 p * v2 q)). destruct (Rle_dec 0 (v1 p * v1 q)) as [|NN]; [assumption|exfalso]. assert (0 < v2 p * v2 q) by lra. nra. }
      assert (0 <= (1 + g) ^ 2 - 1) by nra. assert (0 <= ((1 + g) ^ 2 - 1) * (v1 p * v1 q)) by now apply Rmult_le_pos. lra.
    - left. intros E. apply N. apply Rmult_eq_reg_l with (1 + g); lra. }
  destruct (cv_hd h1' h2' h1 h2 H1 H2 NO) as (HB & HD).
  pose proof (cv_TR _ _ HB) as TT. pose proof (TR_range (hbar h1 h2)) as TP.
  assert (ZZ : Un_cv z' z).
  { apply (cv_div (fun n => 2 * sqrt (D1' n * D2' n) * sind (dhue (h1' n) (h2' n) / 2)) (fun n => kh * (1 + 0.015 * ((D1' n + D2' n) / 2) * TR (hbar (h1' n) (h2' n))))).
    - apply CV_mult; [apply CV_mult; [cv|]|].
      + apply (cv_sqrt (fun n => D1' n * D2' n)); [cv|now apply Rmult_le_pos].
      + apply (cv_sind (fun n => dhue (h1' n) (h2' n) / 2)). apply (cv_div (fun n => dhue (h1' n) (h2' n))); [cv|cv|lra].
    - cv.
    - apply Rgt_not_eq, Rmult_lt_0_compat; [lra|]. assert (0 <= 0.015 * ((D1 + D2) / 2) * TR (hbar h1 h2)) by (apply Rmult_le_pos; lra). lra. }
  split; [exact ZZ|]. apply CV_mult; [apply CV_mult|]; [|assumption..]. now apply (cv_rt (fun n => hbar (h1' n) (h2' n)) (fun n => (D1' n + D2' n) / 2)).
Qed.
Lemma E00_cont (x y : nat -> Vector3 R) (p q : Vector3 R) kl kc kh : 0 < kl -> 0 < kc -> 0 < kh -> cvV x p -> cvV y q ->
  (v1 p = 0 /\ v2 p = 0) \/ (v1 q = 0 /\ v2 q = 0) \/
    ((v2 p <> 0 \/ v1 p < 0) /\ (v2 q <> 0 \/ v1 q < 0) /\ (v1 p * v2 q <> v1 q * v2 p \/ 0 < v1 p * v1 q + v2 p * v2 q)) ->
  exists (d : nat -> R) (l : R), (forall n, Delta_E00 RN (finV (x n)) (finV (y n)) (Some kl) (Some kc) (Some kh) = Some (d n)) /\
    Delta_E00 RN (finV p) (finV q) (Some kl) (Some kc) (Some kh) = Some l /\ Un_cv d l.
Proof.
  intros Kl Kc Kh X Y HC. exists (fun n => sqrt (core (x n) (y n) kl kc kh code_hm code_dh)), (sqrt (core p q kl kc kh code_hm code_dh)).
  split; [intros; now apply E00_fin|]. split; [now apply E00_fin|]. apply (cv_sqrt (fun n => core (x n) (y n) kl kc kh code_hm code_dh)); [now apply cv_core|apply core_nonneg].
Qed.
Lemma E00_near eps : 0 < eps -> exists del, 0 < del /\ forall p q kl kc kh, 1 <= kl -> 1 <= kc -> 1 <= kh ->
  Rabs (v0 p - v0 q) < del -> Rabs (v1 p - v1 q) < del -> Rabs (v2 p - v2 q) < del ->
  exists d, Delta_E00 RN (finV p) (finV q) (Some kl) (Some kc) (Some kh) = Some d /\ d < eps.
Proof.
  intros HE. exists (eps / 4). split; [lra|]. intros p q kl kc kh Kl Kc Kh A B C. destruct (E00_upper p q kl kc kh Kl Kc Kh) as (d & E & L). exists d. split; [exact E|].
  eapply Rle_lt_trans; [exact L|]. rewrite <- (sqrt_pow2 eps) by lra. apply sqrt_lt_1_alt. pose proof (pow2_ge_0 (v0 q - v0 p)). pose proof (pow2_ge_0 (v1 q - v1 p)). pose proof (pow2_ge_0 (v2 q - v2 p)).
  assert (Q : forall u v, Rabs (u - v) < eps / 4 -> (v - u) ^ 2 <= eps ^ 2 / 16) by (intros u v H2; apply Rabs_def2 in H2; nra).
  pose proof (Q _ _ A). pose proof (Q _ _ B). pose proof (Q _ _ C). split; [lra|]. assert (0 < eps ^ 2) by (apply pow_lt; lra). lra.
Qed.
Lemma E00_cont_case : let x := fun n => V3 (50 + / INR (n + 1)) 20 30 in let p := V3 50 20 30 in let q := V3 60 (-20) 10 in
  cvV x p /\ cvV (fun _ => q) q /\ (v2 p <> 0 \/ v1 p < 0) /\ (v2 q <> 0 \/ v1 q < 0) /\ (v1 p * v2 q <> v1 q * v2 p \/ 0 < v1 p * v1 q + v2 p * v2 q).
Proof.
  cbv zeta. unfold cvV. cbn [v0 v1 v2]. repeat split; try apply cv_c; [|left; lra|left; lra|left; lra].
  rewrite <- (Rplus_0_r 50) at 1. apply CV_plus; [apply cv_c|]. apply cv_infty_cv_0.
  intros M. assert (Hk : exists k, M < INR k). { exists (Z.to_nat (up (Rabs M))). pose proof (archimed (Rabs M)) as (U & _). pose proof (Rle_abs M). pose proof (Rabs_pos M). rewrite INR_IZR_INZ, Z2Nat.id by (apply le_IZR; lra). lra. } destruct Hk as (k & Hk). exists k. intros n Hn. apply Rlt_le_trans with (INR k); [exact Hk|apply le_INR; lia].
Qed.
