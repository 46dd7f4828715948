(** * The chromaticity of black bodies. *)
From Coq Require Import ZArith Reals Lra Lia List Bool Psatz.
From Verif Require Import Num NumR MVec MTri MSpectrum Tables RTac PSpec PTables PTri PBluer.
Import ListNotations.
Local Open Scope R_scope.

(** ** Weights that change sign once. *)
Notation sig f := (sum_f_R0 f 399).
Lemma sum_ext f g n : (forall i, (i <= n)%nat -> f i = g i) -> sum_f_R0 f n = sum_f_R0 g n.
Proof. intros H. apply sum_eq. exact H. Qed.
Lemma sum_le0 f n : (forall i, (i <= n)%nat -> f i <= 0) -> sum_f_R0 f n <= 0.
Proof. intros H. induction n as [|n IH]; cbn [sum_f_R0]; [now apply H|]. pose proof (H (S n) ltac:(lia)). specialize (IH ltac:(auto)). lra. Qed.
Lemma sum_lt0 f n i0 : (forall i, (i <= n)%nat -> f i <= 0) -> (i0 <= n)%nat -> f i0 < 0 -> sum_f_R0 f n < 0.
Proof.
  intros H L N. induction n as [|n IH]; cbn [sum_f_R0]; [now replace i0 with 0%nat in N by lia|].
  pose proof (H (S n) ltac:(lia)). destruct (Nat.eq_dec i0 (S n)) as [->|E].
  - pose proof (sum_le0 f n ltac:(auto)). lra.
  - specialize (IH ltac:(auto) ltac:(lia)). lra.
Qed.
Lemma first_pos (w : nat -> R) n : (exists k, (k <= n)%nat /\ 0 < w k /\ forall i, (i < k)%nat -> w i <= 0) \/ (forall i, (i <= n)%nat -> w i <= 0).
Proof.
  induction n as [|n IH].
  - destruct (Rlt_le_dec 0 (w 0%nat)) as [P|P]; [left; exists 0%nat; repeat split; [lia|exact P|lia]|right].
    intros i L. now replace i with 0%nat by lia.
  - destruct IH as [(k & L & P & Q)|Q]; [left; exists k; repeat split; [lia|exact P|exact Q]|].
    destruct (Rlt_le_dec 0 (w (S n))) as [P|P]; [left; exists (S n); repeat split; [lia|exact P|intros i L; apply Q; lia]|right].
    intros i L. destruct (Nat.eq_dec i (S n)) as [->|E]; [exact P|apply Q; lia].
Qed.
Lemma cross (p p' w : nat -> R) i0 : (forall i, (i <= 399)%nat -> 0 < p i /\ 0 < p' i) ->
  (forall i j, (i < j <= 399)%nat -> p i * p' j < p' i * p j) ->
  (forall i j, (i < j <= 399)%nat -> 0 < w i -> 0 <= w j) -> (i0 <= 399)%nat -> w i0 < 0 ->
  sig (fun i => p i * w i) <= 0 -> sig (fun i => p' i * w i) < 0.
Proof.
  intros P D W L N H. destruct (first_pos w 399) as [(k & Lk & Pk & Q)|Q].
  - assert (Z : sig (fun i => (p' i * p k - p' k * p i) * w i) < 0).
    { assert (i0 < k)%nat.
      { destruct (Nat.lt_trichotomy i0 k) as [C|[C|C]]; [exact C|subst; lra|]. pose proof (W k i0 ltac:(lia) Pk). lra. }
      apply sum_lt0 with i0; [|exact L|].
      - intros i Li. destruct (Nat.lt_trichotomy i k) as [C|[->|C]].
        + pose proof (D i k ltac:(lia)). pose proof (Q i C). nra.
        + replace (p' k * p k - p' k * p k) with 0 by ring. lra.
        + pose proof (D k i ltac:(lia)). pose proof (W k i ltac:(lia) Pk). nra.
      - pose proof (D i0 k ltac:(lia)). nra. }
    assert (E : sig (fun i => (p' i * p k - p' k * p i) * w i) = p k * sig (fun i => p' i * w i) - p' k * sig (fun i => p i * w i)).
    { rewrite !scal_sum, <- minus_sum. apply sum_ext. intros i _. ring. }
    rewrite E in Z. destruct (P k Lk). nra.
  - apply sum_lt0 with i0; [|exact L|].
    + intros i Li. destruct (P i Li). pose proof (Q i Li). nra.
    + destruct (P i0 L). nra.
Qed.

(** ** Numerators and denominators whose ratio is monotone between [r0] and [r1]. *)
Section Range.
Variables (n d : nat -> R) (r0 r1 : R) (i0 : nat).
Hypothesis (ND : forall i, (i <= 399)%nat -> 0 <= n i <= d i).
Hypothesis (PW : forall i j, (i < j <= 399)%nat -> n i * d j <= n j * d i \/ n i <= r0 * d i \/ r1 * d j <= n j).
Hypothesis (I0 : (i0 <= 399)%nat /\ n i0 < r0 * d i0).
Lemma single r i j : r0 <= r <= r1 -> (i < j <= 399)%nat -> 0 < n i - r * d i -> 0 <= n j - r * d j.
Proof.
  intros R L P. apply Rnot_lt_le. intros Q. pose proof (ND i ltac:(lia)) as A. pose proof (ND j ltac:(lia)) as B.
  destruct (PW i j L) as [C|[C|C]]; [|nra|nra].
  assert (0 < d j). { apply Rnot_le_lt. intros K. assert (d j = 0) as E by lra. rewrite E in *. lra. }
  assert (0 < d i). { apply Rnot_le_lt. intros K. assert (d i = 0) as E by lra. rewrite E in *. lra. }
  assert (r * d i * d j < n i * d j) by (apply Rmult_lt_compat_r; lra).
  assert (n j * d i < r * d j * d i) by (apply Rmult_lt_compat_r; lra). nra.
Qed.
Lemma cross_r p p' r : r0 <= r <= r1 -> (forall i, (i <= 399)%nat -> 0 < p i /\ 0 < p' i) ->
  (forall i j, (i < j <= 399)%nat -> p i * p' j < p' i * p j) ->
  sig (fun i => p i * n i) <= r * sig (fun i => p i * d i) -> sig (fun i => p' i * n i) < r * sig (fun i => p' i * d i).
Proof.
  intros R P D H. destruct I0 as [L N]. pose proof (ND i0 L).
  assert (E : forall f, sig (fun i => f i * (n i - r * d i)) = sig (fun i => f i * n i) - r * sig (fun i => f i * d i)).
  { intros f. rewrite scal_sum, <- minus_sum. apply sum_ext. intros. ring. }
  enough (sig (fun i => p' i * (n i - r * d i)) < 0) by (rewrite E in *; lra).
  apply (cross p p' _ i0 P D); [|exact L|nra|rewrite E; lra]. intros i j Lij. apply single; assumption.
Qed.
End Range.

(** ** The Rayleigh-Jeans limit. *)
Lemma expm1_ratio x y : 0 < x < y -> (exp x - 1) * y < (exp y - 1) * x.
Proof.
  intros H. set (g := fun t => x * exp t - (exp x - 1) * t).
  assert (K : g x < g y); [|unfold g in K; nra].
  apply (grows g (fun t => x * exp t - (exp x - 1) * 1) x y); [lra| |].
  - intros c C. unfold g. apply (derivable_pt_lim_minus (fun t => x * exp t) (fun t => (exp x - 1) * t)).
    + apply (derivable_pt_lim_scal exp), derivable_pt_lim_exp.
    + apply (derivable_pt_lim_scal id), derivable_pt_lim_id.
  - intros c C. assert (exp x < exp c) by (apply exp_increasing; lra).
    assert (exp x - 1 < x * exp x); [|nra]. pose proof (exp_ineq1 (- x) ltac:(lra)) as I.
    pose proof (exp_pos x) as Px. assert (exp x * exp (- x) = 1) by (rewrite <- exp_plus, Rplus_opp_r; apply exp_0). nra.
Qed.
Definition nm (i : nat) : R := 380 + INR i.
Lemma nm_pos i : 380 <= nm i. Proof. unfold nm. pose proof (pos_INR i). lra. Qed.
Definition rj (i : nat) : R := / nm i ^ 4.
Definition bb (T : R) (i : nat) : R := planckR T (nm i * 1e-9).
Definition Kp : R := 2 * 5.950379064e-17 * 1e45 / 1e9.
Lemma hc9 a T : 0 < a -> 0 < T -> 1.438776827e-2 / (a * 1e-9 * T) = 14387768.27 / (a * T).
Proof.
  intros. replace 1.438776827e-2 with (1438776827 / 100000000000) by lra. replace 14387768.27 with (1438776827 / 100) by lra.
  replace 1e-9 with (1 / 1000000000) by lra. field. lra.
Qed.
Lemma bb_form T i : 0 < T -> bb T i = Kp * (/ nm i ^ 5 / (exp (14387768.27 / (nm i * T)) - 1)).
Proof.
  intros H. unfold bb, planckR. pose proof (nm_pos i) as P. replace (-5) with (- INR 5) by (cbn [INR]; lra).
  rewrite Rpower_Ropp, Rpower_pow by lra. rewrite hc9 by lra.
  assert (0 < exp (14387768.27 / (nm i * T)) - 1) by (apply exp_gt_1, Rdiv_lt_0_compat; nra).
  unfold Kp. replace 5.950379064e-17 with (5950379064 / 100000000000000000000000000) by lra. replace 1e-9 with (1 / 1000000000) by lra.
  replace 1e45 with 1000000000000000000000000000000000000000000000 by lra. replace 1e9 with 1000000000 by lra. field. lra.
Qed.
Lemma rj_ratio T i j : 0 < T -> (i < j)%nat -> bb T i * rj j < rj i * bb T j.
Proof.
  intros H L. rewrite !bb_form by exact H. unfold rj. pose proof (nm_pos i) as Pi. pose proof (nm_pos j) as Pj.
  assert (Lt : nm i < nm j) by (unfold nm; apply lt_INR in L; lra).
  set (x := 14387768.27 / (nm i * T)). set (y := 14387768.27 / (nm j * T)).
  assert (0 < y) by (apply Rdiv_lt_0_compat; nra).
  assert (y < x). { unfold x, y, Rdiv. apply Rmult_lt_compat_l; [lra|]. apply Rinv_lt_contravar; [|nra]. apply Rmult_lt_0_compat; nra. }
  pose proof (expm1_ratio y x ltac:(lra)) as X.
  assert (Ex : nm i * x = nm j * y) by (unfold x, y; field; lra).
  assert (0 < exp x - 1) by (apply exp_gt_1; lra). assert (0 < exp y - 1) by (apply exp_gt_1; lra).
  set (e := exp x - 1) in *. set (f := exp y - 1) in *. assert (HK : 0 < Kp) by (unfold Kp; lra).
  set (a := nm i) in *. set (b := nm j) in *. clearbody a b x y e f.
  assert (Y : a * e > b * f).
  { assert (f * x * a < e * y * a) by (apply Rmult_lt_compat_r; lra). replace (f * x * a) with (f * b * y) in * by (rewrite (Rmult_assoc f b y), <- Ex; ring).
    apply Rmult_lt_reg_r with y; [assumption|]. lra. }
  generalize Kp HK. intros K HK'. clear X.
  replace (K * (/ a ^ 5 / e) * / b ^ 4) with (K * / a ^ 4 * / b ^ 4 * / (a * e)) by (field; lra).
  replace (/ a ^ 4 * (K * (/ b ^ 5 / f))) with (K * / a ^ 4 * / b ^ 4 * / (b * f)) by (field; lra).
  apply Rmult_lt_compat_l.
  - apply Rmult_lt_0_compat; [apply Rmult_lt_0_compat; [exact HK'|]|]; apply Rinv_0_lt_compat, pow_lt; lra.
  - apply Rinv_lt_contravar; [|exact Y]. apply Rmult_lt_0_compat; nra.
Qed.
Lemma bb_pos T i : 0 < T -> 0 < bb T i.
Proof. intros H. pose proof (nm_pos i). apply planck_pos; [exact H|lra]. Qed.
Lemma rj_pos i : 0 < rj i.
Proof. apply Rinv_0_lt_compat, pow_lt. pose proof (nm_pos i). lra. Qed.
Lemma bb_ratio T T' i j : 0 < T < T' -> (i < j)%nat -> bb T i * bb T' j < bb T' i * bb T j.
Proof. intros H L. pose proof (nm_pos i). apply planck_cross; [exact H|]. unfold nm in *. apply lt_INR in L. lra. Qed.

(** ** Integer arithmetic. *)
Definition zsum (f : nat -> Z) : Z := fold_right Z.add 0%Z (map f (seq 0 400)).
Lemma fold_app l x : fold_right Z.add 0%Z (l ++ [x]) = (fold_right Z.add 0 l + x)%Z.
Proof. induction l as [|a l IH]; cbn [app fold_right]; [lia|]. rewrite IH. lia. Qed.
Lemma zsum_n f n : sum_f_R0 (fun i => IZR (f i)) n = IZR (fold_right Z.add 0%Z (map f (seq 0 (S n)))).
Proof.
  induction n as [|n IH]; [cbn; f_equal; lia|]. cbn [sum_f_R0]. rewrite IH, <- plus_IZR, (seq_S (S n) 0), map_app. cbn [map]. now rewrite fold_app.
Qed.
Lemma zsum_ok f : sig (fun i => IZR (f i)) = IZR (zsum f). Proof. apply (zsum_n f 399). Qed.
Lemma all400 (P : nat -> bool) : forallb P (seq 0 400) = true -> forall i, (i <= 399)%nat -> P i = true.
Proof. intros H i L. rewrite forallb_forall in H. apply H, in_seq. lia. Qed.
(** An upper bound of a sum of products from bounds on the first factors. *)
Definition ubsum (lo hi w : nat -> Z) : Z := zsum (fun i => if (0 <? w i)%Z then hi i * w i else lo i * w i)%Z.
Lemma ubsum_ok (p : nat -> R) lo hi w s : 0 < s -> (forall i, (i <= 399)%nat -> IZR (lo i) <= s * p i <= IZR (hi i)) ->
  s * sig (fun i => p i * IZR (w i)) <= IZR (ubsum lo hi w).
Proof.
  intros S H. unfold ubsum. rewrite <- zsum_ok, scal_sum. apply sum_Rle. intros i L. specialize (H i L).
  destruct (0 <? w i)%Z eqn:E; rewrite mult_IZR.
  - apply Z.ltb_lt, IZR_lt in E. nra.
  - apply Z.ltb_ge, IZR_le in E. nra.
Qed.

(** ** Planck's law at 800 K. *)
Definition nmZ (i : nat) : Z := (380 + Z.of_nat i)%Z.
Lemma nmZ_ok i : IZR (nmZ i) = nm i. Proof. unfold nmZ, nm. rewrite plus_IZR, <- INR_IZR_INZ. reflexivity. Qed.
Definition B72 : Z := Eval vm_compute in (2 ^ 72)%Z.
Definition yn : Z := 1438776827.
Definition yd (i : nat) : Z := (5242880000 * nmZ i)%Z.
Fixpoint sqlo (k : nat) (x : Z) : Z := match k with O => x | S k' => sqlo k' (Z.shiftr (x * x) 72) end.
Fixpoint sqhi (k : nat) (x : Z) : Z := match k with O => x | S k' => sqhi k' (Z.shiftr (x * x) 72 + 1)%Z end.
Definition Elo (i : nat) : Z := sqlo 16 ((yd i - yn) * B72 / yd i)%Z.
Definition Ehi (i : nat) : Z := sqhi 16 (yd i * B72 / (yd i + yn) + 1)%Z.
Lemma div_lo a b : (0 < b)%Z -> IZR (a / b) <= IZR a / IZR b.
Proof.
  intros H. apply IZR_lt in H as HR. apply Rmult_le_reg_r with (IZR b); [exact HR|]. unfold Rdiv. rewrite Rmult_assoc, Rinv_l, Rmult_1_r by lra.
  rewrite <- mult_IZR. apply IZR_le. rewrite Z.mul_comm. now apply Z.mul_div_le.
Qed.
Lemma div_hi a b : (0 < b)%Z -> IZR a / IZR b <= IZR (a / b + 1).
Proof.
  intros H. apply IZR_lt in H as HR. apply Rmult_le_reg_r with (IZR b); [exact HR|]. unfold Rdiv. rewrite Rmult_assoc, Rinv_l, Rmult_1_r by lra.
  rewrite <- mult_IZR. apply IZR_le. pose proof (Z.mul_succ_div_gt a b H). lia.
Qed.
Lemma B72_pos : 0 < IZR B72. Proof. apply IZR_lt. reflexivity. Qed.
Lemma sh72 x : Z.shiftr x 72 = (x / B72)%Z. Proof. now rewrite Z.shiftr_div_pow2 by lia. Qed.
Lemma sqlo_ok k x e : 0 <= IZR x <= IZR B72 * exp e -> 0 <= IZR (sqlo k x) <= IZR B72 * exp (2 ^ k * e).
Proof.
  revert x e. induction k as [|k IH]; intros x e H; cbn [sqlo]; [now rewrite pow_O, Rmult_1_l|]. rewrite sh72.
  replace (2 ^ S k * e) with (2 ^ k * (e + e)) by (cbn [pow]; ring). apply IH. pose proof B72_pos as P. split.
  - apply IZR_le, Z.div_pos; [nia|reflexivity].
  - eapply Rle_trans; [apply div_lo; reflexivity|]. rewrite mult_IZR, exp_plus. pose proof (exp_pos e).
    apply Rmult_le_reg_r with (IZR B72); [exact P|]. unfold Rdiv. rewrite Rmult_assoc, Rinv_l, Rmult_1_r by lra. nra.
Qed.
Lemma sqhi_ok k x e : IZR B72 * exp e <= IZR x -> IZR B72 * exp (2 ^ k * e) <= IZR (sqhi k x).
Proof.
  revert x e. induction k as [|k IH]; intros x e H; cbn [sqhi]; [now rewrite pow_O, Rmult_1_l|]. rewrite sh72.
  replace (2 ^ S k * e) with (2 ^ k * (e + e)) by (cbn [pow]; ring). apply IH. pose proof B72_pos as P.
  eapply Rle_trans; [|apply div_hi; reflexivity]. rewrite mult_IZR, exp_plus. pose proof (exp_pos e).
  apply Rmult_le_reg_r with (IZR B72); [exact P|]. unfold Rdiv. rewrite (Rmult_assoc (IZR x * IZR x)), Rinv_l, Rmult_1_r by lra.
  assert (0 <= IZR B72 * exp e) by nra. nra.
Qed.
Definition a800 (i : nat) : R := 14387768.27 / (nm i * 800).
Lemma yd_pos i : (0 < yd i)%Z. Proof. unfold yd, nmZ. lia. Qed.
Lemma yd_R i : IZR (yd i) = 5242880000 * nm i. Proof. unfold yd. now rewrite mult_IZR, nmZ_ok. Qed.
Lemma a800_y i : - a800 i = 2 ^ 16 * - (IZR yn / IZR (yd i)).
Proof.
  unfold a800. rewrite yd_R. pose proof (nm_pos i). unfold yn. replace 14387768.27 with (1438776827 / 100) by lra.
  replace (2 ^ 16) with 65536 by (cbn [pow]; lra). field. lra.
Qed.
Lemma E_ok i : 0 <= IZR (Elo i) <= IZR B72 * exp (- a800 i) /\ IZR B72 * exp (- a800 i) <= IZR (Ehi i).
Proof.
  rewrite a800_y. pose proof (yd_pos i) as P. apply IZR_lt in P as PR. pose proof B72_pos as B. pose proof (nm_pos i) as Pn. pose proof (yd_R i) as YR.
  assert (Y : 0 < IZR yn / IZR (yd i)) by (apply Rdiv_lt_0_compat; [unfold yn; lra|exact PR]). set (y := IZR yn / IZR (yd i)) in *.
  assert (Yv : IZR yn = y * IZR (yd i)) by (unfold y; field; lra). split.
  - unfold Elo. apply (sqlo_ok 16). split; [apply IZR_le, Z.div_pos; [|exact P]; apply Z.mul_nonneg_nonneg; [|now apply Z.lt_le_incl]; unfold yd, yn, nmZ; lia|].
    eapply Rle_trans; [apply div_lo, P|]. rewrite mult_IZR, minus_IZR, Yv.
    replace ((IZR (yd i) - y * IZR (yd i)) * IZR B72 / IZR (yd i)) with (IZR B72 * (1 + - y)) by (field; lra).
    apply Rmult_le_compat_l; [lra|]. apply exp_ineq1_le.
  - unfold Ehi. apply (sqhi_ok 16). eapply Rle_trans; [|apply div_hi; unfold yn; lia]. rewrite mult_IZR, plus_IZR, Yv.
    replace (IZR (yd i) * IZR B72 / (IZR (yd i) + y * IZR (yd i))) with (IZR B72 * / (1 + y)) by (field; nra).
    apply Rmult_le_compat_l; [lra|]. rewrite exp_Ropp. apply Rinv_le_contravar; [lra|]. apply exp_ineq1_le.
Qed.
Definition Etab : list (Z * Z) := Eval vm_compute in map (fun i => (Elo i, Ehi i)) (seq 0 400).
Lemma Etab_ok : Etab = map (fun i => (Elo i, Ehi i)) (seq 0 400). Proof. vm_compute. reflexivity. Qed.
Local Opaque Elo Ehi.
Lemma Etab_nth i : (i <= 399)%nat -> nth i Etab (0, 0)%Z = (Elo i, Ehi i).
Proof. intros L. rewrite Etab_ok. apply (nth_tab (fun i => (Elo i, Ehi i))). lia. Qed.
Lemma Etab_small : forallb (fun e => snd e <? B72)%Z Etab = true. Proof. vm_compute. reflexivity. Qed.
Lemma E_small i : (i <= 399)%nat -> (Ehi i < B72)%Z.
Proof.
  intros L. pose proof Etab_small as H. rewrite Etab_ok, forallb_forall in H. specialize (H (Elo i, Ehi i)). cbv beta in H. cbn [snd] in H.
  apply Z.ltb_lt, H, (in_map (fun i => (Elo i, Ehi i))), in_seq. lia.
Qed.
Definition S132 : Z := Eval vm_compute in (2 ^ 132)%Z.
Definition plo (i : nat) : Z := (fst (nth i Etab (0, 0)) * (S132 / B72) / nmZ i ^ 5)%Z.
Definition phi (i : nat) : Z := (snd (nth i Etab (0, 0)) * S132 / ((B72 - snd (nth i Etab (0, 0))) * nmZ i ^ 5) + 1)%Z.
Definition P800 (i : nat) : R := / nm i ^ 5 / (exp (a800 i) - 1).
Lemma bb800 i : bb 800 i = Kp * P800 i. Proof. apply bb_form. lra. Qed.
Lemma nm5 i : IZR (nmZ i ^ 5) = nm i ^ 5.
Proof. rewrite <- nmZ_ok. rewrite (pow_IZR (nmZ i) 5). reflexivity. Qed.
Lemma P800_ok i : (i <= 399)%nat -> IZR (plo i) <= IZR S132 * P800 i <= IZR (phi i).
Proof.
  intros L. pose proof (E_small i L) as C. apply IZR_lt in C as CR.
  destruct (E_ok i) as [[_ A] B]. pose proof (nm_pos i) as Pn. assert (N5 : 0 < nm i ^ 5) by (apply pow_lt; lra).
  assert (Nz : (0 < nmZ i ^ 5)%Z) by (apply Z.pow_pos_nonneg; unfold nmZ; lia). pose proof B72_pos as PB.
  assert (PS : 0 < IZR S132) by (apply IZR_lt; reflexivity). set (E := exp (- a800 i)) in *.
  assert (Pe : 0 < E) by apply exp_pos. assert (E1 : E < 1) by nra.
  assert (F : P800 i = E * / nm i ^ 5 * / (1 - E)).
  { unfold P800. replace (exp (a800 i)) with (/ E) by (unfold E; rewrite exp_Ropp; apply Rinv_inv). field. repeat split; lra. }
  assert (I5 : 0 < / nm i ^ 5) by now apply Rinv_0_lt_compat. rewrite F. clear F. split.
  - unfold plo. rewrite (Etab_nth i L). cbn [fst]. eapply Rle_trans; [apply div_lo, Nz|]. rewrite mult_IZR, nm5.
    replace (IZR (S132 / B72)) with (IZR S132 * / IZR B72). 2:{ apply Rmult_eq_reg_r with (IZR B72); [|lra]. rewrite Rmult_assoc, Rinv_l, Rmult_1_r by lra. rewrite <- mult_IZR. f_equal. }
    assert (G : IZR (Elo i) * / IZR B72 <= E). { apply Rmult_le_reg_r with (IZR B72); [exact PB|]. rewrite Rmult_assoc, Rinv_l, Rmult_1_r by lra. lra. }
    assert (H : E <= E * / (1 - E)). { rewrite <- (Rmult_1_r E) at 1. apply Rmult_le_compat_l; [lra|]. rewrite <- Rinv_1 at 1. apply Rinv_le_contravar; lra. }
    replace (IZR (Elo i) * (IZR S132 * / IZR B72) / nm i ^ 5) with ((IZR S132 * / nm i ^ 5) * (IZR (Elo i) * / IZR B72)) by (unfold Rdiv; ring).
    replace (IZR S132 * (E * / nm i ^ 5 * / (1 - E))) with ((IZR S132 * / nm i ^ 5) * (E * / (1 - E))) by ring.
    apply Rmult_le_compat_l; [nra|lra].
  - unfold phi. rewrite (Etab_nth i L). cbn [snd]. eapply Rle_trans; [|apply div_hi; apply Z.mul_pos_pos; [lia|exact Nz]]. rewrite !mult_IZR, minus_IZR, nm5.
    assert (H : E * / (1 - E) <= IZR (Ehi i) * / (IZR B72 - IZR (Ehi i))).
    { apply Rmult_le_reg_r with ((1 - E) * (IZR B72 - IZR (Ehi i))); [nra|].
      replace (E * / (1 - E) * ((1 - E) * (IZR B72 - IZR (Ehi i)))) with (E * (IZR B72 - IZR (Ehi i))) by (field; lra).
      replace (IZR (Ehi i) * / (IZR B72 - IZR (Ehi i)) * ((1 - E) * (IZR B72 - IZR (Ehi i)))) with (IZR (Ehi i) * (1 - E)) by (field; lra). nra. }
    replace (IZR (Ehi i) * IZR S132 / ((IZR B72 - IZR (Ehi i)) * nm i ^ 5)) with ((IZR S132 * / nm i ^ 5) * (IZR (Ehi i) * / (IZR B72 - IZR (Ehi i)))) by (field; split; lra).
    replace (IZR S132 * (E * / nm i ^ 5 * / (1 - E))) with ((IZR S132 * / nm i ^ 5) * (E * / (1 - E))) by ring.
    apply Rmult_le_compat_l; [nra|exact H].
Qed.
Definition S80 : Z := Eval vm_compute in (2 ^ 80)%Z.
Definition qlo (i : nat) : Z := (S80 / nmZ i ^ 4)%Z.
Definition qhi (i : nat) : Z := (S80 / nmZ i ^ 4 + 1)%Z.
Lemma rj_ok i : IZR (qlo i) <= IZR S80 * rj i <= IZR (qhi i).
Proof.
  assert (Nz : (0 < nmZ i ^ 4)%Z) by (apply Z.pow_pos_nonneg; unfold nmZ; lia). unfold qlo, qhi, rj.
  replace (nm i ^ 4) with (IZR (nmZ i ^ 4)) by (rewrite <- nmZ_ok, (pow_IZR (nmZ i) 4); reflexivity).
  split; [apply (div_lo S80), Nz|apply (div_hi S80), Nz].
Qed.

(** The same bounds as literals, to be reused. *)
Definition Ptab : list (Z * Z) := Eval vm_compute in map (fun i => (plo i, phi i)) (seq 0 400).
Lemma Ptab_ok : Ptab = map (fun i => (plo i, phi i)) (seq 0 400). Proof. vm_compute. reflexivity. Qed.
Definition plt (i : nat) : Z := fst (nth i Ptab (0, 0)%Z).
Definition pht (i : nat) : Z := snd (nth i Ptab (0, 0)%Z).
Local Opaque plo phi.
Lemma Pt_ok i : (i <= 399)%nat -> IZR (plt i) <= IZR S132 * P800 i <= IZR (pht i).
Proof. intros L. unfold plt, pht. rewrite Ptab_ok, (nth_tab (fun i => (plo i, phi i))) by lia. cbn [fst snd]. now apply P800_ok. Qed.
Definition Qtab : list Z := Eval vm_compute in map qlo (seq 0 400).
Lemma Qtab_ok : Qtab = map qlo (seq 0 400). Proof. vm_compute. reflexivity. Qed.
Definition qlt (i : nat) : Z := nth i Qtab 0%Z.
Definition qht (i : nat) : Z := (nth i Qtab 0 + 1)%Z.
Local Opaque qlo.
Lemma Qt_ok i : (i <= 399)%nat -> IZR (qlt i) <= IZR S80 * rj i <= IZR (qht i).
Proof. intros L. unfold qlt, qht. rewrite Qtab_ok, (nth_tab qlo) by lia. exact (rj_ok i). Qed.
