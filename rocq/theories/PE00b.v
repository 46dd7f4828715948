(** * CIEDE2000 against the published formula. *)
From Coq Require Import ZArith Reals Lra Lia Psatz.
From Flocq Require Import Core.Raux.
From Verif Require Import Num NumR MVec MTri MOtf MDelta RTac RPow RExp POtf SpecDelta PE00.
Local Open Scope R_scope.

Lemma dhue_cie c1 c2 h1 h2 : c1 * c2 <> 0 -> cie_hue_diff c1 c2 h1 h2 = dhue h1 h2.
Proof.
  intros N. unfold cie_hue_diff, dhue. destruct (Req_EM_T (c1 * c2) 0); [contradiction|].
  destruct (Rle_dec (Rabs (h2 - h1)) 180) as [L|L]; [reflexivity|].
  destruct (Rlt_dec 180 (h2 - h1)), (Rle_dec h2 h1); try lra. exfalso. apply L. rewrite Rabs_pos_eq; lra.
Qed.
Lemma hbar_cie c1 c2 h1 h2 : c1 * c2 <> 0 -> Rabs (h1 - h2) <= 180 \/ h1 + h2 < 360 -> cie_mean_hue c1 c2 h1 h2 = hbar h1 h2.
Proof.
  intros N H. unfold cie_mean_hue, hbar. destruct (Req_EM_T (c1 * c2) 0); [contradiction|].
  destruct (Rle_dec (Rabs (h1 - h2)) 180) as [L|L]; destruct (Rlt_dec 180 (Rabs (h1 - h2))); try lra.
  destruct (Rlt_dec (h1 + h2) 360); lra.
Qed.
Lemma hbar_wrap c1 c2 h1 h2 : c1 * c2 <> 0 -> 180 < Rabs (h1 - h2) -> 360 <= h1 + h2 -> hbar h1 h2 = cie_mean_hue c1 c2 h1 h2 + 360.
Proof.
  intros N A B. unfold cie_mean_hue, hbar. destruct (Req_EM_T (c1 * c2) 0); [contradiction|].
  destruct (Rle_dec (Rabs (h1 - h2)) 180); [lra|]. destruct (Rlt_dec 180 (Rabs (h1 - h2))); [|lra].
  destruct (Rlt_dec (h1 + h2) 360); lra.
Qed.
Lemma cores_eq p q kl kc kh : let (h1, h2) := cie_hues p q in Rabs (h1 - h2) <= 180 \/ h1 + h2 < 360 ->
  core p q kl kc kh code_hm code_dh = core p q kl kc kh cie_mean_hue cie_hue_diff.
Proof.
  unfold cie_hues. fold (rho ((sqrt (v1 p ^ 2 + v2 p ^ 2) + sqrt (v1 q ^ 2 + v2 q ^ 2)) / 2)).
  fold (gR ((sqrt (v1 p ^ 2 + v2 p ^ 2) + sqrt (v1 q ^ 2 + v2 q ^ 2)) / 2)). unfold core, code_hm, code_dh. cbv zeta.
  set (g := gR _). set (A1 := (1 + g) * v1 p). set (A2 := (1 + g) * v1 q).
  set (C1 := sqrt (A1 ^ 2 + _)). set (C2 := sqrt (A2 ^ 2 + _)). set (h1 := cie_hue A1 _). set (h2 := cie_hue A2 _).
  intros H. destruct (Req_dec (C1 * C2) 0) as [E|N].
  - rewrite E, sqrt_0. unfold Rdiv. ring.
  - rewrite (hbar_cie C1 C2) by assumption. rewrite (dhue_cie C1 C2) by assumption. reflexivity.
Qed.
Lemma C41_partial_l (p q : Vector3 R) (kl kc kh : R) : 0 < kl -> 0 < kc -> 0 < kh ->
  let (h1, h2) := cie_hues p q in Rabs (h1 - h2) <= 180 \/ h1 + h2 < 360 ->
  Delta_E00 RN (finV p) (finV q) (Some kl) (Some kc) (Some kh) = Some (CIEDE2000 p q kl kc kh).
Proof.
  intros A B C. rewrite cie_core, E00_fin by assumption. pose proof (cores_eq p q kl kc kh) as K.
  destruct (cie_hues p q) as [h1 h2]. intros H. rewrite K by assumption. reflexivity.
Qed.

(** ** The wrapped case: only the rotation term differs. *)
Lemma exp_m1 : exp (-1) <= 0.369.
Proof.
  destruct (exp_alt 1 3 ltac:(lra)) as [_ H]. eapply Rle_trans; [exact H|].
  unfold psum. cbn [sum_f_R0 Nat.mul Nat.add fact pow]. cbn [INR]. lra.
Qed.
Lemma exp_m11 x : x <= -11 -> exp x <= 1.75e-5.
Proof.
  intros H. apply Rle_trans with (exp (-11)); [destruct (Req_dec x (-11)) as [->|]; [lra|left; apply exp_increasing; lra]|].
  rewrite (exp_pow (-11) 11) by lia. replace (-11 / INR 11) with (-1) by (cbn [INR]; lra).
  apply Rle_trans with (0.369 ^ 11); [apply pow_incr; split; [left; apply exp_pos|apply exp_m1]|]. lra.
Qed.
Lemma sin_le_x x : 0 <= x -> sin x <= x.
Proof. intros H. destruct (Req_dec x 0) as [->|]; [rewrite sin_0; lra|]. left. apply sin_lt_x. lra. Qed.
Lemma rt_small h c : 0 <= c -> 275 + 85 <= h \/ h <= 275 - 85 -> -5e-5 <= rtR h c <= 0.
Proof.
  intros C H. unfold rtR, sind. pose proof (rho_range c C).
  assert (E : exp (- ((h - 275) / 25) ^ 2) <= 1.75e-5).
  { apply exp_m11. destruct H; [assert (3.4 <= (h - 275) / 25) by lra; nra|assert ((h - 275) / 25 <= -3.4) by lra; nra]. }
  pose proof (exp_pos (- ((h - 275) / 25) ^ 2)). set (e := exp _) in *.
  pose proof PI2_1. pose proof PI_4.
  assert (S0 : 0 <= e * PI <= 1.75e-5 * 4) by (split; [apply Rmult_le_pos|apply Rmult_le_compat]; lra).
  assert (S1 : 0 <= 2 * (30 * e) * PI / 180 <= 2.4e-5) by lra.
  assert (S2 : 0 <= sin (2 * (30 * e) * PI / 180)) by (apply sin_ge_0; lra).
  pose proof (sin_le_x _ (proj1 S1)). set (s := sin _) in *. nra.
Qed.
Lemma sqrt_rel a b t : 0 <= t -> 0 <= a -> 0 <= b -> Rabs (a - b) <= t * b -> Rabs (sqrt a - sqrt b) <= t * sqrt b.
Proof.
  intros T A B H. pose proof (sqrt_pos a). pose proof (sqrt_pos b). pose proof (sqrt_def a A). pose proof (sqrt_def b B).
  destruct (Req_dec (sqrt b) 0) as [E|E].
  - rewrite E in *. assert (b = 0) by lra. subst b. rewrite Rmult_0_r, Rminus_0_r in H.
    assert (a = 0). { pose proof (Rabs_pos a). rewrite Rabs_pos_eq in H by assumption. lra. } subst a.
    rewrite sqrt_0. rewrite Rminus_0_r, Rabs_R0. lra.
  - apply Rmult_le_reg_r with (sqrt a + sqrt b); [lra|].
    rewrite <- (Rabs_pos_eq (sqrt a + sqrt b)) at 1 by lra. rewrite <- Rabs_mult.
    replace ((sqrt a - sqrt b) * (sqrt a + sqrt b)) with (sqrt a * sqrt a - sqrt b * sqrt b) by ring.
    rewrite !sqrt_def by assumption. rewrite <- (sqrt_def b B) in H at 2.
    assert (0 <= t * sqrt b * sqrt a) by (apply Rmult_le_pos; [apply Rmult_le_pos; assumption|assumption]). lra.
Qed.
Lemma cores_wrap p q kl kc kh : let (h1, h2) := cie_hues p q in 180 < Rabs (h1 - h2) -> 360 <= h1 + h2 ->
  Rabs (core p q kl kc kh code_hm code_dh - core p q kl kc kh cie_mean_hue cie_hue_diff) <=
  3e-5 * core p q kl kc kh cie_mean_hue cie_hue_diff.
Proof.
  unfold cie_hues. fold (rho ((sqrt (v1 p ^ 2 + v2 p ^ 2) + sqrt (v1 q ^ 2 + v2 q ^ 2)) / 2)).
  fold (gR ((sqrt (v1 p ^ 2 + v2 p ^ 2) + sqrt (v1 q ^ 2 + v2 q ^ 2)) / 2)).
  pose proof (core_nonneg p q kl kc kh cie_mean_hue cie_hue_diff) as NN. revert NN. unfold core, code_hm, code_dh. cbv zeta.
  set (g := gR _). set (A1 := (1 + g) * v1 p). set (A2 := (1 + g) * v1 q).
  pose proof (cie_hue_range A1 (v2 p)) as R1. pose proof (cie_hue_range A2 (v2 q)) as R2.
  assert (M : 0 <= (sqrt (A1 ^ 2 + v2 p ^ 2) + sqrt (A2 ^ 2 + v2 q ^ 2)) / 2) by apply mean_nonneg.
  set (C1 := sqrt (A1 ^ 2 + _)) in *. set (C2 := sqrt (A2 ^ 2 + _)) in *. set (h1 := cie_hue A1 _) in *. set (h2 := cie_hue A2 _) in *.
  intros NN A B. destruct (Req_dec (C1 * C2) 0) as [E|N].
  - revert NN. rewrite E, sqrt_0. unfold Rdiv. intros NN. 
    match goal with |- Rabs (?a - ?b) <= _ => replace (a - b) with 0 by ring end. rewrite Rabs_R0. lra.
  - revert NN. rewrite (hbar_wrap C1 C2) by assumption. rewrite (dhue_cie C1 C2) by assumption. rewrite TR_360.
    assert (R : 0 <= cie_mean_hue C1 C2 h1 h2 <= 90).
    { unfold cie_mean_hue. destruct (Req_EM_T (C1 * C2) 0); [contradiction|].
      destruct (Rle_dec (Rabs (h1 - h2)) 180); [lra|]. destruct (Rlt_dec (h1 + h2) 360); [lra|].
      destruct (Rle_dec h1 h2); [rewrite Rabs_left1 in * by lra; lra|rewrite Rabs_pos_eq in * by lra; lra]. }
    set (h := cie_mean_hue C1 C2 h1 h2) in *.
    pose proof (rt_small h _ M ltac:(right; lra)) as T1. pose proof (rt_small (h + 360) _ M ltac:(left; lra)) as T2.
    set (t1 := rtR h _) in *. set (t2 := rtR (h + 360) _) in *.
    set (x := (v0 q - v0 p) / _). set (y := (C2 - C1) / _). set (z := _ / (kh * _)). clearbody x y z t1 t2. intros _.
    replace (x ^ 2 + y ^ 2 + z ^ 2 + t2 * y * z - (x ^ 2 + y ^ 2 + z ^ 2 + t1 * y * z)) with ((t2 - t1) * (y * z)) by ring.
    assert (Q : Rabs (y * z) <= (x ^ 2 + y ^ 2 + z ^ 2) / 2).
    { pose proof (pow2_ge_0 x). pose proof (pow2_ge_0 (y - z)). pose proof (pow2_ge_0 (y + z)). apply Rabs_le. lra. }
    assert (D : Rabs (t2 - t1) <= 5e-5) by (apply Rabs_le; lra).
    rewrite Rabs_mult. pose proof (Rabs_pos (y * z)). pose proof (Rabs_pos (t2 - t1)).
    assert (P : Rabs (t2 - t1) * Rabs (y * z) <= 5e-5 * ((x ^ 2 + y ^ 2 + z ^ 2) / 2)) by (apply Rmult_le_compat; assumption).
    assert (W : - (5e-5 * ((x ^ 2 + y ^ 2 + z ^ 2) / 2)) <= t1 * (y * z)).
    { assert (Rabs (t1 * (y * z)) <= 5e-5 * ((x ^ 2 + y ^ 2 + z ^ 2) / 2)).
      { rewrite Rabs_mult. apply Rmult_le_compat; [apply Rabs_pos|assumption|apply Rabs_le; lra|assumption]. }
      apply Rabs_le_inv in H1. lra. }
    pose proof (pow2_ge_0 x). pose proof (pow2_ge_0 y). pose proof (pow2_ge_0 z). lra.
Qed.
Lemma C41_close_l (p q : Vector3 R) (kl kc kh : R) : 0 < kl -> 0 < kc -> 0 < kh -> exists d,
  Delta_E00 RN (finV p) (finV q) (Some kl) (Some kc) (Some kh) = Some d /\
  Rabs (d - CIEDE2000 p q kl kc kh) <= 3e-5 * CIEDE2000 p q kl kc kh.
Proof.
  intros A B C. eexists. split; [apply E00_fin; assumption|]. rewrite cie_core. apply sqrt_rel; [lra|apply core_nonneg..|].
  pose proof (cores_eq p q kl kc kh) as K. pose proof (cores_wrap p q kl kc kh) as W. destruct (cie_hues p q) as [h1 h2].
  pose proof (core_nonneg p q kl kc kh cie_mean_hue cie_hue_diff).
  destruct (Rle_dec (Rabs (h1 - h2)) 180) as [L|L]; [|destruct (Rlt_dec (h1 + h2) 360) as [L'|L']].
  - rewrite K by auto. replace (_ - _) with 0 by ring. rewrite Rabs_R0. lra.
  - rewrite K by auto. replace (_ - _) with 0 by ring. rewrite Rabs_R0. lra.
  - apply W; lra.
Qed.
Lemma hue_quad1 a b : 0 < a -> 0 < b -> cie_hue a b = atan (b / a) * 180 / PI /\ 0 < cie_hue a b < 90.
Proof.
  intros A B. pose proof PI_RGT_0. unfold cie_hue, R_atan2. rewrite Rlt_bool_true by assumption.
  assert (P : 0 < atan (b / a)). { rewrite <- atan_0. apply atan_increasing. apply Rdiv_lt_0_compat; assumption. }
  pose proof (atan_bound (b / a)) as [_ U].
  assert (Q : 0 < atan (b / a) * 180 / PI < 90).
  { split; [apply Rdiv_lt_0_compat; lra|]. apply Rmult_lt_reg_r with PI; [lra|]. unfold Rdiv. rewrite (Rmult_assoc _ (/ PI)), Rinv_l; lra. }
  destruct (Rlt_dec _ 0); [lra|]. auto.
Qed.
Lemma hue_quad4 a b : 0 < a -> b < 0 -> cie_hue a b = 360 - atan (- b / a) * 180 / PI /\ 270 < cie_hue a b < 360.
Proof.
  intros A B. destruct (hue_quad1 a (- b) A ltac:(lra)) as [E R]. rewrite E in R.
  pose proof PI_RGT_0. unfold cie_hue, R_atan2. rewrite Rlt_bool_true by assumption.
  replace (b / a) with (- (- b / a)) by (field; lra). rewrite atan_opp.
  replace (- atan (- b / a) * 180 / PI) with (- (atan (- b / a) * 180 / PI)) by (field; lra).
  destruct (Rlt_dec _ 0); [|lra]. lra.
Qed.
Lemma rt_lt h c : 0 < c -> 0 <= h <= 90 -> rtR (h + 360) c < rtR h c.
Proof.
  intros C H. unfold rtR, sind. assert (R0 : 0 < rho c).
  { unfold rho. apply sqrt_lt_R0. pose proof (pow_lt c 7 C). apply Rdiv_lt_0_compat; lra. }
  assert (X : - ((h - 275) / 25) ^ 2 < - ((h + 360 - 275) / 25) ^ 2) by nra.
  apply exp_increasing in X. pose proof (exp_pos (- ((h - 275) / 25) ^ 2)).
  assert (Y : exp (- ((h + 360 - 275) / 25) ^ 2) <= 1.75e-5) by (apply exp_m11; nra).
  set (f := exp (- ((h + 360 - 275) / 25) ^ 2)) in *. set (e := exp (- ((h - 275) / 25) ^ 2)) in *. pose proof PI2_1. pose proof PI_4.
  assert (0 < e * PI) by (apply Rmult_lt_0_compat; lra). assert (e * PI < f * PI) by (apply Rmult_lt_compat_r; lra).
  assert (f * PI <= 1.75e-5 * 4) by (apply Rmult_le_compat; lra).
  assert (Z : sin (2 * (30 * e) * PI / 180) < sin (2 * (30 * f) * PI / 180)) by (apply sin_increasing_1; lra).
  set (s := sin _) in *. set (t := sin _) in *. nra.
Qed.
Lemma C41_l : exists p q : Vector3 R,
  Delta_E00 RN (finV p) (finV q) (Some 1) (Some 1) (Some 1) <> Some (CIEDE2000 p q 1 1 1).
Proof.
  exists (V3 50 2 (-1)), (V3 50 1 1). rewrite E00_fin, cie_core by lra. intros E. injection E as E.
  apply (f_equal (fun x => x * x)) in E. rewrite !sqrt_def in E by apply core_nonneg. revert E.
  unfold core, code_hm, code_dh. cbn [v0 v1 v2]. cbv zeta.
  pose proof (gR_range _ (mean_nonneg (2 ^ 2 + (-1) ^ 2) (1 ^ 2 + 1 ^ 2))) as G. set (g := gR _) in *.
  set (A1 := (1 + g) * 2). set (A2 := (1 + g) * 1). assert (P1 : 0 < A1) by (unfold A1; lra). assert (P2 : 0 < A2) by (unfold A2; lra).
  destruct (hue_quad4 A1 (-1) P1 ltac:(lra)) as [E1 R1]. destruct (hue_quad1 A2 1 P2 ltac:(lra)) as [E2 R2].
  assert (S : 360 < cie_hue A1 (-1) + cie_hue A2 1).
  { rewrite E1, E2. assert (L : atan (- -1 / A1) < atan (1 / A2)).
    { apply atan_increasing. replace (- -1 / A1) with (1 / A2 / 2) by (unfold A1, A2; field; lra).
      pose proof (Rdiv_lt_0_compat 1 A2 ltac:(lra) P2). lra. }
    pose proof PI_RGT_0. assert (atan (- -1 / A1) * 180 / PI < atan (1 / A2) * 180 / PI); [|lra].
    unfold Rdiv at 2 4. apply Rmult_lt_compat_r; [now apply Rinv_0_lt_compat|]. lra. }
  assert (LC : sqrt (A2 ^ 2 + 1 ^ 2) < sqrt (A1 ^ 2 + (-1) ^ 2)).
  { apply sqrt_lt_1_alt. split; [pose proof (pow2_ge_0 A2); lra|]. replace A1 with (2 * A2) by (unfold A1, A2; ring). nra. }
  assert (C0 : 0 < sqrt (A2 ^ 2 + 1 ^ 2)). { apply sqrt_lt_R0. pose proof (pow2_ge_0 A2). lra. }
  set (C1 := sqrt (A1 ^ 2 + _)) in *. set (C2 := sqrt (A2 ^ 2 + _)) in *. set (h1 := cie_hue A1 _) in *. set (h2 := cie_hue A2 _) in *.
  assert (N : C1 * C2 <> 0). { assert (0 < C1 * C2) by (apply Rmult_lt_0_compat; lra). lra. }
  rewrite (hbar_wrap C1 C2); [|assumption|rewrite Rabs_pos_eq; lra|lra]. rewrite (dhue_cie C1 C2) by assumption. rewrite TR_360.
  assert (R : 0 <= cie_mean_hue C1 C2 h1 h2 <= 90).
  { unfold cie_mean_hue. destruct (Req_EM_T (C1 * C2) 0); [contradiction|].
    destruct (Rle_dec (Rabs (h1 - h2)) 180) as [K|K]; [rewrite Rabs_pos_eq in K by lra; lra|]. destruct (Rlt_dec (h1 + h2) 360); lra. }
  set (h := cie_mean_hue C1 C2 h1 h2) in *.
  assert (CM : 0 < (C1 + C2) / 2) by lra. pose proof (rt_lt h _ CM R) as T. set (Cm := (C1 + C2) / 2) in *.
  assert (D : 0 < sind (dhue h1 h2 / 2)).
  { unfold sind, dhue. destruct (Rle_dec (Rabs (h2 - h1)) 180) as [K|K]; [rewrite Rabs_left1 in K by lra; lra|].
    destruct (Rle_dec h2 h1); [|lra]. pose proof PI_RGT_0. apply sin_gt_0.
    - apply Rdiv_lt_0_compat; [|lra]. apply Rmult_lt_0_compat; lra.
    - assert ((h2 - h1 + 360) / 2 * PI < 180 * PI) by (apply Rmult_lt_compat_r; lra). lra. }
  pose proof (TR_range h) as TRr. assert (0 < 1 + 0.015 * Cm * TR h) by nra.
  assert (Y : (C2 - C1) / (1 * (1 + 0.045 * Cm)) < 0).
  { unfold Rdiv. assert (0 < / (1 * (1 + 0.045 * Cm))) by (apply Rinv_0_lt_compat; lra). nra. }
  assert (Z : 0 < 2 * sqrt (C1 * C2) * sind (dhue h1 h2 / 2) / (1 * (1 + 0.015 * Cm * TR h))).
  { apply Rdiv_lt_0_compat; [|lra]. apply Rmult_lt_0_compat; [|assumption]. apply Rmult_lt_0_compat; [lra|].
    apply sqrt_lt_R0, Rmult_lt_0_compat; lra. }
  set (x := (50 - 50) / _). set (y := (C2 - C1) / _) in *. set (z := _ / (1 * (1 + 0.015 * _ * _))) in *.
  set (t1 := rtR h Cm) in *. set (t2 := rtR (h + 360) Cm) in *. clearbody x y z t1 t2. intros E.
  assert (E' : (t2 - t1) * (y * z) = 0) by lra. apply Rmult_integral in E'. destruct E' as [E'|E']; [lra|nra].
Qed.
Lemma C40_ex : 0 < 1 /\ 0 < 2 /\ V3 50 2.6772 (-79.7751) <> V3 50 0 (-82.7485).
Proof. repeat split; try lra. intros H. injection H. lra. Qed.
Lemma C41_ex : let (h1, h2) := cie_hues (V3 50 2 1) (V3 40 1 3) in Rabs (h1 - h2) <= 180 \/ h1 + h2 < 360.
Proof.
  unfold cie_hues. cbn [v0 v1 v2]. cbv zeta. right.
  set (c := (sqrt _ + sqrt _) / 2). assert (C : 0 <= c) by apply mean_nonneg. fold (rho c). fold (gR c). pose proof (gR_range c C).
  destruct (hue_quad1 ((1 + gR c) * 2) 1) as [_ A]; [lra..|]. destruct (hue_quad1 ((1 + gR c) * 1) 3) as [_ B]; [lra..|]. lra.
Qed.
