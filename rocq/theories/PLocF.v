(** * The Planckian-locus spline in binary32. *)
From Coq Require Import ZArith QArith Qreals Reals Lra Lia List Bool.
From Flocq Require Import Core IEEE754.BinarySingleNaN.
From Verif Require Import Num NumR NumF MVec MTri RTac F32 F64 PHsvF PNearF PRelF PSlogF PMat PTri PCct PPoly PCt PBlackF.
Import ListNotations.
Local Open Scope R_scope.

(** ** The spline over the reals: ranges. *)
Definition py_l (x : R) : R := - 1.1063814 * x ^ 3 - 1.34811020 * x ^ 2 + 2.18555832 * x - 0.20219683.
Definition py_h (x : R) : R := 3.0817580 * x ^ 3 - 5.87338670 * x ^ 2 + 3.75112997 * x - 0.37001483.
Lemma loc_y_poly T : 0 < T -> loc_y T = if Rlt_dec T 4000 then py_l (loc_x T) else py_h (loc_x T).
Proof.
  intros H. unfold loc_x, loc_y, py_l, py_h. destruct (Rlt_dec T 4000) as [L|L].
  - pose proof (KY_pe KXl (- 110638140) (- 134811020) 218555832 (- 20219683) T H) as K. cbv zeta in K. fold KYl in K.
    replace (pe KYl T / (100000000000000000000000000 * T ^ 9)) with (pe KYl T / (1000000000000000000 * T ^ 9) / 100000000) by (field; lra).
    rewrite <- K. lra.
  - pose proof (KY_pe KXh 308175800 (- 587338670) 375112997 (- 37001483) T H) as K. cbv zeta in K. fold KYh in K.
    replace (pe KYh T / (100000000000000000000000000 * T ^ 9)) with (pe KYh T / (1000000000000000000 * T ^ 9) / 100000000) by (field; lra).
    rewrite <- K. lra.
Qed.
Lemma locx_l T : 1667 <= T < 4000 -> 0.3805 <= loc_x T <= 0.5647.
Proof.
  intros [H1 H2]. assert (A : loc_x T <= loc_x 1667). { destruct H1 as [H1|H1]; [|rewrite <- H1; lra]. apply Rlt_le, locx_dec. lra. }
  assert (L : pe WXl (10000 / 4000) < pe WXl (10000 / T)).
  { pose proof (w_lt T 4000 ltac:(lra) H2). pose proof (w_le 1667 T ltac:(lra) H1). apply pe_mono; [|lra]. intros x Hx. ppos 8%nat 0%Z 6%Z. }
  assert (E : loc_x T = pe WXl (10000 / T) / 1e10). { unfold loc_x. destruct (Rlt_dec T 4000); [apply WXl_pe|]; lra. }
  assert (E1 : loc_x 1667 = pe WXl (10000 / 1667) / 1e10). { unfold loc_x. destruct (Rlt_dec 1667 4000); [apply WXl_pe|]; lra. }
  rewrite E1 in A. rewrite E in *. unfold WXl in *. cbn [pe] in *. lra.
Qed.
Lemma locx_h T : 4000 <= T <= 25000 -> 0.2524 <= loc_x T <= 0.3805.
Proof.
  intros [H1 H2]. assert (A : loc_x T <= loc_x 4000). { destruct H1 as [H1|H1]; [|rewrite <- H1; lra]. apply Rlt_le, locx_dec. lra. }
  assert (B : loc_x 25000 <= loc_x T). { destruct H2 as [H2|H2]; [|rewrite H2; lra]. apply Rlt_le, locx_dec. lra. }
  assert (E1 : loc_x 4000 = pe WXh (10000 / 4000) / 1e10). { unfold loc_x. destruct (Rlt_dec 4000 4000); [lra|apply WXh_pe]; lra. }
  assert (E2 : loc_x 25000 = pe WXh (10000 / 25000) / 1e10). { unfold loc_x. destruct (Rlt_dec 25000 4000); [lra|apply WXh_pe]; lra. }
  rewrite E1 in A. rewrite E2 in B. unfold WXh in *. cbn [pe] in *. lra.
Qed.
(** the products that bound a cubic on an interval. *)
Ltac cub x a b :=
  assert (0 <= (x - a) * (b - x)) by (apply Rmult_le_pos; lra);
  assert (0 <= (x - a) * ((x - a) * (b - x))) by (repeat apply Rmult_le_pos; lra);
  assert (0 <= (x - a) * ((b - x) * (b - x))) by (repeat apply Rmult_le_pos; lra);
  assert (0 <= (x - a) * ((x - a) * (x - a))) by (repeat apply Rmult_le_pos; lra);
  assert (0 <= (b - x) * ((b - x) * (b - x))) by (repeat apply Rmult_le_pos; lra).
Lemma py_l_range x : 0.3805 <= x <= 0.5647 -> 0.373 <= py_l x <= 0.42 /\ 0.03 <= 1 - x - py_l x <= 0.25 /\ x <= 1.41 * py_l x /\ 1 - x - py_l x <= 0.67 * py_l x.
Proof. intros [A B]. cub x 0.3805 0.5647. assert (0 <= (x - 0.5) * (x - 0.5)) by apply Rle_0_sqr. assert (0 <= x * ((x - 0.5) * (x - 0.5))) by (apply Rmult_le_pos; lra). unfold py_l. repeat split; lra. Qed.
Lemma py_h_range x : 0.2524 <= x <= 0.3805 -> 0.252 <= py_h x <= 0.378 /\ 0.24 <= 1 - x - py_h x <= 0.5 /\ x <= 1.02 * py_h x /\ 1 - x - py_h x <= 1.98 * py_h x.
Proof. intros [A B]. cub x 0.2524 0.3805. unfold py_h. repeat split; lra. Qed.
Lemma py_l_lip x r : 0.38 <= x <= 0.565 -> 0.3805 <= r <= 0.5647 -> Rabs (py_l x - py_l r) <= 0.7 * Rabs (x - r).
Proof.
  intros A B. replace (py_l x - py_l r) with ((- 1.1063814 * (x * x + x * r + r * r) - 1.34811020 * (x + r) + 2.18555832) * (x - r)) by (unfold py_l; lra).
  rewrite Rabs_mult. apply Rmult_le_compat_r; [apply Rabs_pos|]. apply Rabs_le. split; nra.
Qed.
Lemma py_h_lip x r : 0.252 <= x <= 0.381 -> 0.2524 <= r <= 0.3805 -> Rabs (py_h x - py_h r) <= 1.4 * Rabs (x - r).
Proof.
  intros A B. replace (py_h x - py_h r) with ((3.0817580 * (x * x + x * r + r * r) - 5.87338670 * (x + r) + 3.75112997) * (x - r)) by (unfold py_h; lra).
  rewrite Rabs_mult. apply Rmult_le_compat_r; [apply Rabs_pos|]. apply Rabs_le. split; nra.
Qed.

(** ** In binary32. *)
Section F.
Context (lm : libm).
Notation N := (FN lm).

Lemma quot (x y : f32) r s k l Q : near x r (k * u * Rabs r) -> rel y s (l * u) -> Rabs r / s <= Q -> 0 <= k <= 4 -> 0 <= l <= 4 ->
  1e-6 <= Q <= 1 -> near (@fdiv N x y) (r / s) ((k + l + 1.01) * u * Q).
Proof.
  intros X Y H K L B. pose proof u16 as U. pose proof eta_sharp as E. pose proof (F32.eta_pos) as E0.
  destruct (Y) as (Fy & S & _). apply rel_near in Y.
  assert (R : Rabs (r / s) = Rabs r / s). { unfold Rdiv. rewrite Rabs_mult, Rabs_inv, (Rabs_pos_eq s) by lra. reflexivity. }
  assert (D : (k * u * Rabs r + Q * (l * u * s)) / (s - l * u * s) <= (k + l) * u * Q * 1.001).
  { apply Rmult_le_reg_r with (s - l * u * s); [rewrite U; nra|]. unfold Rdiv. rewrite Rmult_assoc, Rinv_l by (rewrite U; nra).
    assert (R' : Rabs r <= Q * s). { apply Rmult_le_reg_r with (/ s); [now apply Rinv_0_lt_compat|]. rewrite Rmult_assoc, Rinv_r by lra. lra. }
    assert (P : 0 <= (k + l) * u * (Q * s)) by (apply Rmult_le_pos; [apply Rmult_le_pos; rewrite ?U; lra|nra]).
    assert (J : k * u * Rabs r <= k * u * (Q * s)) by (apply Rmult_le_compat_l; [rewrite U; lra|exact R']).
    assert (l * u <= 1e-6) by (rewrite U; lra).
    apply Rle_trans with ((k + l) * u * (Q * s)); [lra|].
    apply Rle_trans with ((k + l) * u * (Q * s) * (1.001 * (1 - l * u))); [|right; ring].
    rewrite <- (Rmult_1_r ((k + l) * u * (Q * s))) at 1. apply Rmult_le_compat_l; lra. }
  eapply near_le; [apply (near_div lm _ _ r s _ _ Q s X Y)|].
  - rewrite Rabs_pos_eq; lra.
  - rewrite U; nra.
  - rewrite R. exact H.
  - cbv zeta. rewrite U in *. nra.
  - cbv zeta. set (e := (k * u * Rabs r + Q * (l * u * s)) / (s - l * u * s)) in *. rewrite U in *. nra.
Qed.
Lemma rel_T (T : f32) : fin T -> 1667 <= B2R T <= 25000 -> rel T (B2R T) (0 * u).
Proof. intros F H. eapply rel_le; [apply rel_self; [exact F|lra]|lra]. Qed.
Lemma mid_T z : 1 <= z <= 1e14 -> mid z.
Proof.
  intros H. split; [apply Rle_trans with (bpow radix2 0); [apply bpow_le; lia|cbn; lra]|].
  apply Rle_trans with (bpow radix2 60); [cbn; lra|apply bpow_le; lia].
Qed.
Lemma rel_TT (T : f32) : fin T -> 1667 <= B2R T <= 25000 -> rel (@fmul N T T) (B2R T * B2R T) (1 * u).
Proof.
  intros F H. pose proof (rel_T T F H) as R. pose proof u16 as U. eapply rel_le; [apply (rel_mul lm _ _ _ _ _ _ R R)|].
  - apply mid_T. nra.
  - rewrite U; lra.
  - rewrite U; lra.
  - lra.
Qed.
Lemma rel_TTT (T : f32) : fin T -> 1667 <= B2R T <= 25000 -> rel (@fmul N (@fmul N T T) T) (B2R T * B2R T * B2R T) (2.01 * u).
Proof.
  intros F H. pose proof (rel_T T F H) as R. pose proof u16 as U. eapply rel_le; [apply (rel_mul lm _ _ _ _ _ _ (rel_TT T F H) R)|].
  - apply mid_T. assert (1 <= B2R T * B2R T <= 625000000) by nra. nra.
  - rewrite U; lra.
  - rewrite U; lra.
  - rewrite U; lra.
Qed.
Notation l_ := (@flit (FN lm)).
Lemma lit4000 : fin (l_ 4000%dec) /\ B2R (l_ 4000%dec) = 4000. Proof. f32_val. Qed.
Lemma lit2222 : fin (l_ 2222%dec) /\ B2R (l_ 2222%dec) = 2222. Proof. f32_val. Qed.
Lemma inv_le a b : 0 < a <= b -> 0 < / b <= / a.
Proof. intros H. split; [apply Rinv_0_lt_compat; lra|apply Rinv_le; lra]. Qed.
Lemma sq_le a t : 0 < a <= t -> a * a <= t * t. Proof. intros; nra. Qed.
Lemma cu_le a t : 0 < a <= t -> a * a * a <= t * t * t.
Proof. intros H. pose proof (sq_le a t H). apply Rmult_le_compat; nra. Qed.
Lemma px_l (T : f32) : fin T -> 1667 <= B2R T < 4000 -> near (planckian_x N T) (loc_x (B2R T)) (2.8 * u).
Proof.
  intros F H. pose proof u16 as U. assert (H' : 1667 <= B2R T <= 25000) by lra. destruct lit4000 as [F4 V4].
  pose proof (locx_l _ H) as LX. unfold planckian_x. rewrite (ltb_ok lm) by assumption. rewrite V4, Rlt_bool_true by lra.
  pose proof (rel_T T F H') as R1. pose proof (rel_TT T F H') as R2. pose proof (rel_TTT T F H') as R3. set (t := B2R T) in *.
  assert (I1 := inv_le 1667 t ltac:(lra)). assert (I2 := inv_le (1667 * 1667) (t * t) ltac:(pose proof (sq_le 1667 t); lra)).
  assert (I3 := inv_le (1667 * 1667 * 1667) (t * t * t) ltac:(pose proof (cu_le 1667 t); lra)).
  assert (EX : loc_x t = - 0.2661239e9 / (t * t * t) - 0.2343580e6 / (t * t) + 0.8776956e3 / t + 0.179910).
  { unfold loc_x. destruct (Rlt_dec t 4000); [|lra]. rewrite <- KXl_pe by lra. simpl pow. rewrite !Rmult_1_r, !Rmult_assoc. reflexivity. }
  rewrite EX in *.
  assert (Q3 : near (@fdiv N (@fopp N (l_ 0.2661239e9%dec)) (@fmul N (@fmul N T T) T)) (- 0.2661239e9 / (t * t * t)) (0.23 * u)).
  { eapply near_le; [apply (quot _ _ _ _ 0.6 2.01 0.0575)|].
    - rewrite Rabs_left by lra. flit_near.
    - exact R3.
    - rewrite Rabs_left by lra. unfold Rdiv. nra.
    - lra.
    - lra.
    - lra.
    - rewrite U; lra. }
  assert (Q2 : near (@fdiv N (l_ 0.2343580e6%dec) (@fmul N T T)) (0.2343580e6 / (t * t)) (0.23 * u)).
  { eapply near_le; [apply (quot _ _ _ _ 0.6 1 0.0844)|].
    - rewrite Rabs_pos_eq by lra. flit_near.
    - exact R2.
    - rewrite Rabs_pos_eq by lra. unfold Rdiv. nra.
    - lra.
    - lra.
    - lra.
    - rewrite U; lra. }
  assert (Q1 : near (@fdiv N (l_ 0.8776956e3%dec) T) (0.8776956e3 / t) (0.86 * u)).
  { eapply near_le; [apply (quot _ _ _ _ 0.6 0 0.5266)|].
    - rewrite Rabs_pos_eq by lra. flit_near.
    - exact R1.
    - rewrite Rabs_pos_eq by lra. unfold Rdiv. nra.
    - lra.
    - lra.
    - lra.
    - rewrite U; lra. }
  assert (B3 : - 0.0575 <= - 0.2661239e9 / (t * t * t) <= 0) by (unfold Rdiv; nra).
  assert (B2 : 0 <= 0.2343580e6 / (t * t) <= 0.0844) by (unfold Rdiv; nra).
  assert (B1 : 0 <= 0.8776956e3 / t <= 0.5266) by (unfold Rdiv; nra).
  set (a := - 0.2661239e9 / (t * t * t)) in *. set (b := 0.2343580e6 / (t * t)) in *. set (c := 0.8776956e3 / t) in *.
  eapply near_le; [apply (near_add lm _ _ (a - b + c) 0.179910 (1.86 * u) (0.18 * u) 0.5647)|].
  - eapply near_le; [apply (near_add lm _ _ (a - b) c (0.61 * u) (0.86 * u) 0.385)|].
    + eapply near_le; [apply (near_sub lm _ _ a b (0.23 * u) (0.23 * u) 0.142)|].
      * exact Q3.
      * exact Q2.
      * apply Rabs_le; lra.
      * rewrite U; lra.
      * rewrite U; lra.
    + exact Q1.
    + apply Rabs_le; lra.
    + rewrite U; lra.
    + rewrite U; lra.
  - flit_near.
  - apply Rabs_le; lra.
  - rewrite U; lra.
  - rewrite U; lra.
Qed.
Lemma px_h (T : f32) : fin T -> 4000 <= B2R T <= 25000 -> near (planckian_x N T) (loc_x (B2R T)) (1.6 * u).
Proof.
  intros F H. pose proof u16 as U. assert (H' : 1667 <= B2R T <= 25000) by lra. destruct lit4000 as [F4 V4].
  pose proof (locx_h _ H) as LX. unfold planckian_x. rewrite (ltb_ok lm) by assumption. rewrite V4, Rlt_bool_false by lra.
  pose proof (rel_T T F H') as R1. pose proof (rel_TT T F H') as R2. pose proof (rel_TTT T F H') as R3. set (t := B2R T) in *.
  assert (I1 := inv_le 4000 t ltac:(lra)). assert (I2 := inv_le (4000 * 4000) (t * t) ltac:(pose proof (sq_le 4000 t); lra)).
  assert (I3 := inv_le (4000 * 4000 * 4000) (t * t * t) ltac:(pose proof (cu_le 4000 t); lra)).
  assert (EX : loc_x t = - 3.0258469e9 / (t * t * t) + 2.1070379e6 / (t * t) + 0.2226347e3 / t + 0.240390).
  { unfold loc_x. destruct (Rlt_dec t 4000); [lra|]. rewrite <- KXh_pe by lra. simpl pow. rewrite !Rmult_1_r, !Rmult_assoc. reflexivity. }
  rewrite EX in *.
  assert (Q3 : near (@fdiv N (@fopp N (l_ 3.0258469e9%dec)) (@fmul N (@fmul N T T) T)) (- 3.0258469e9 / (t * t * t)) (0.19 * u)).
  { eapply near_le; [apply (quot _ _ _ _ 0.8 2.01 0.0473)|].
    - rewrite Rabs_left by lra. flit_near.
    - exact R3.
    - rewrite Rabs_left by lra. unfold Rdiv. nra.
    - lra.
    - lra.
    - lra.
    - rewrite U; lra. }
  assert (Q2 : near (@fdiv N (l_ 2.1070379e6%dec) (@fmul N T T)) (2.1070379e6 / (t * t)) (0.39 * u)).
  { eapply near_le; [apply (quot _ _ _ _ 0.9 1 0.1317)|].
    - rewrite Rabs_pos_eq by lra. flit_near.
    - exact R2.
    - rewrite Rabs_pos_eq by lra. unfold Rdiv. nra.
    - lra.
    - lra.
    - lra.
    - rewrite U; lra. }
  assert (Q1 : near (@fdiv N (l_ 0.2226347e3%dec) T) (0.2226347e3 / t) (0.1 * u)).
  { eapply near_le; [apply (quot _ _ _ _ 0.6 0 0.0557)|].
    - rewrite Rabs_pos_eq by lra. flit_near.
    - exact R1.
    - rewrite Rabs_pos_eq by lra. unfold Rdiv. nra.
    - lra.
    - lra.
    - lra.
    - rewrite U; lra. }
  assert (B3 : - 0.0473 <= - 3.0258469e9 / (t * t * t) <= 0) by (unfold Rdiv; nra).
  assert (B2 : 0 <= 2.1070379e6 / (t * t) <= 0.1317) by (unfold Rdiv; nra).
  assert (B1 : 0 <= 0.2226347e3 / t <= 0.0557) by (unfold Rdiv; nra).
  set (a := - 3.0258469e9 / (t * t * t)) in *. set (b := 2.1070379e6 / (t * t)) in *. set (c := 0.2226347e3 / t) in *.
  eapply near_le; [apply (near_add lm _ _ (a + b + c) 0.240390 (0.97 * u) (0.2 * u) 0.3805)|].
  - eapply near_le; [apply (near_add lm _ _ (a + b) c (0.72 * u) (0.1 * u) 0.1402)|].
    + eapply near_le; [apply (near_add lm _ _ a b (0.19 * u) (0.39 * u) 0.132)|].
      * exact Q3.
      * exact Q2.
      * apply Rabs_le; lra.
      * rewrite U; lra.
      * rewrite U; lra.
    + exact Q1.
    + apply Rabs_le; lra.
    + rewrite U; lra.
    + rewrite U; lra.
  - flit_near.
  - apply Rabs_le; lra.
  - rewrite U; lra.
  - rewrite U; lra.
Qed.

(** the cubics in a float [x]: error of the evaluation. *)
Lemma py_l_eval (x : f32) : fin x -> 0.38 <= B2R x <= 0.565 ->
  near (@fsub N (@fadd N (@fsub N (@fmul N (@fmul N (@fmul N (@fopp N (l_ 1.1063814%dec)) x) x) x) (@fmul N (@fmul N (l_ 1.34811020%dec) x) x)) (@fmul N (l_ 2.18555832%dec) x)) (l_ 0.20219683%dec))
    (py_l (B2R x)) (4.61 * u).
Proof.
  intros F H. pose proof u16 as U. pose proof eta_sharp as E. pose proof (near_self x F) as X. set (r := B2R x) in *.
  assert (AX : Rabs r <= 0.565) by (apply Rabs_le; lra).
  replace (py_l r) with (- 1.1063814 * r * r * r - 1.34811020 * r * r + 2.18555832 * r - 0.20219683) by (unfold py_l; lra).
  assert (r2 : 0 <= r * r <= 0.3193) by nra. assert (r3 : 0 <= r * r * r <= 0.1804) by nra.
  cub r 0.38 0.565.
  eapply near_le; [apply (near_sub lm _ _ _ _ (4.06 * u) (0.11 * u) 0.43)|].
  - eapply near_le; [apply (near_add lm _ _ _ _ (2.17 * u) (1.25 * u) 0.63)|].
    + eapply near_le; [apply (near_sub lm _ _ _ _ (0.66 * u) (0.87 * u) 0.631)|].
      * eapply near_le; [apply (near_mul lm _ _ _ _ (0.8 * u) 0 0.3533 0.565)|].
        -- eapply near_le; [apply (near_mul lm _ _ _ _ (0.786 * u) 0 0.6252 0.565)|].
           ++ eapply near_le; [apply (near_mul lm _ _ (- 1.1063814) r (0.28 * u) 0 1.1063814 0.565)|].
              ** flit_near.
              ** exact X.
              ** rewrite Rabs_left; lra.
              ** exact AX.
              ** rewrite U; lra.
              ** rewrite U in *; lra.
           ++ exact X.
           ++ apply Rabs_le; lra.
           ++ exact AX.
           ++ rewrite U; lra.
           ++ rewrite U in *; lra.
        -- exact X.
        -- apply Rabs_le; lra.
        -- exact AX.
        -- rewrite U; lra.
        -- rewrite U in *; lra.
      * eapply near_le; [apply (near_mul lm _ _ _ _ (0.773 * u) 0 0.7617 0.565)|].
        -- eapply near_le; [apply (near_mul lm _ _ 1.34811020 r (0.018 * u) 0 1.3482 0.565)|].
           ++ flit_near.
           ++ exact X.
           ++ rewrite Rabs_pos_eq; lra.
           ++ exact AX.
           ++ rewrite U; lra.
           ++ rewrite U in *; lra.
        -- exact X.
        -- apply Rabs_le; lra.
        -- exact AX.
        -- rewrite U; lra.
        -- rewrite U in *; lra.
      * apply Rabs_le; lra.
      * rewrite U; lra.
      * rewrite U; lra.
    + eapply near_le; [apply (near_mul lm _ _ 2.18555832 r (0.016 * u) 0 2.1856 0.565)|].
      * flit_near.
      * exact X.
      * rewrite Rabs_pos_eq; lra.
      * exact AX.
      * rewrite U; lra.
      * rewrite U in *; lra.
    + apply Rabs_le; lra.
    + rewrite U; lra.
    + rewrite U; lra.
  - flit_near.
  - apply Rabs_le; lra.
  - rewrite U; lra.
  - rewrite U; lra.
Qed.
Lemma py_h_eval (x : f32) : fin x -> 0.252 <= B2R x <= 0.381 ->
  near (@fsub N (@fadd N (@fsub N (@fmul N (@fmul N (@fmul N (l_ 3.0817580%dec) x) x) x) (@fmul N (@fmul N (l_ 5.87338670%dec) x) x)) (@fmul N (l_ 3.75112997%dec) x)) (l_ 0.37001483%dec))
    (py_h (B2R x)) (6.85 * u).
Proof.
  intros F H. pose proof u16 as U. pose proof eta_sharp as E. pose proof (near_self x F) as X. set (r := B2R x) in *.
  assert (AX : Rabs r <= 0.381) by (apply Rabs_le; lra).
  replace (py_h r) with (3.0817580 * r * r * r - 5.87338670 * r * r + 3.75112997 * r - 0.37001483) by (unfold py_h; lra).
  assert (r2 : 0 <= r * r <= 0.14517) by nra. assert (r3 : 0 <= r * r * r <= 0.05531) by nra.
  cub r 0.252 0.381.
  eapply near_le; [apply (near_sub lm _ _ _ _ (6.21 * u) (0.23 * u) 0.38)|].
  - eapply near_le; [apply (near_add lm _ _ _ _ (3.34 * u) (2.11 * u) 0.75)|].
    + eapply near_le; [apply (near_sub lm _ _ _ _ (0.54 * u) (2.1 * u) 0.69)|].
      * eapply near_le; [apply (near_mul lm _ _ _ _ (0.952 * u) 0 0.4475 0.381)|].
        -- eapply near_le; [apply (near_mul lm _ _ _ _ (1.32 * u) 0 1.1745 0.381)|].
           ++ eapply near_le; [apply (near_mul lm _ _ 3.0817580 r (0.375 * u) 0 3.0818 0.381)|].
              ** flit_near.
              ** exact X.
              ** rewrite Rabs_pos_eq; lra.
              ** exact AX.
              ** rewrite U; lra.
              ** rewrite U in *; lra.
           ++ exact X.
           ++ apply Rabs_le; lra.
           ++ exact AX.
           ++ rewrite U; lra.
           ++ rewrite U in *; lra.
        -- exact X.
        -- apply Rabs_le; lra.
        -- exact AX.
        -- rewrite U; lra.
        -- rewrite U in *; lra.
      * eapply near_le; [apply (near_mul lm _ _ _ _ (3.265 * u) 0 2.238 0.381)|].
        -- eapply near_le; [apply (near_mul lm _ _ 5.87338670 r (2.69 * u) 0 5.8734 0.381)|].
           ++ flit_near.
           ++ exact X.
           ++ rewrite Rabs_pos_eq; lra.
           ++ exact AX.
           ++ rewrite U; lra.
           ++ rewrite U in *; lra.
        -- exact X.
        -- apply Rabs_le; lra.
        -- exact AX.
        -- rewrite U; lra.
        -- rewrite U in *; lra.
      * apply Rabs_le; lra.
      * rewrite U; lra.
      * rewrite U; lra.
    + eapply near_le; [apply (near_mul lm _ _ 3.75112997 r (1.76 * u) 0 3.7512 0.381)|].
      * flit_near.
      * exact X.
      * rewrite Rabs_pos_eq; lra.
      * exact AX.
      * rewrite U; lra.
      * rewrite U in *; lra.
    + apply Rabs_le; lra.
    + rewrite U; lra.
    + rewrite U; lra.
  - flit_near.
  - apply Rabs_le; lra.
  - rewrite U; lra.
  - rewrite U; lra.
Qed.
Lemma near_lip (y x : f32) p r s e k L : near y (p (B2R x)) e -> Rabs (B2R x - r) <= k -> Rabs (p (B2R x) - p r) <= L * Rabs (B2R x - r) -> 0 <= L -> s = p r -> near y s (e + L * k).
Proof.
  intros [F V] A B L0 ->. split; [exact F|]. replace (B2R y - p r) with ((B2R y - p (B2R x)) + (p (B2R x) - p r)) by ring.
  eapply Rle_trans; [apply Rabs_triang|]. assert (L * Rabs (B2R x - r) <= L * k) by (apply Rmult_le_compat_l; lra). lra.
Qed.
Lemma py_l_near (T : f32) : fin T -> 1667 <= B2R T < 4000 -> near (planckian_y N T (planckian_x N T)) (loc_y (B2R T)) (6.6 * u).
Proof.
  intros F H. pose proof u16 as U. destruct (px_l T F H) as [FX VX]. pose proof (locx_l _ H) as LX. set (x := planckian_x N T) in *.
  assert (VX' := Rabs_le_inv _ _ VX). assert (RX : 0.38 <= B2R x <= 0.565) by (rewrite U in *; lra).
  destruct lit4000 as [F4 V4], lit2222 as [F2 V2].
  assert (G : forall y, near y (py_l (B2R x)) (4.61 * u) -> near y (loc_y (B2R T)) (6.6 * u)).
  { intros y Hy. eapply near_le; [apply (near_lip y x py_l (loc_x (B2R T)) _ _ _ 0.7 Hy VX)|].
    - apply py_l_lip; assumption.
    - lra.
    - rewrite loc_y_poly by lra. destruct (Rlt_dec (B2R T) 4000); [reflexivity|lra].
    - rewrite U; lra. }
  apply G. unfold planckian_y. rewrite !(ltb_ok lm) by assumption. rewrite V4, V2, (Rlt_bool_true _ 4000) by lra.
  destruct (Rlt_bool (B2R T) 2222); apply py_l_eval; assumption.
Qed.
Lemma py_h_near (T : f32) : fin T -> 4000 <= B2R T <= 25000 -> near (planckian_y N T (planckian_x N T)) (loc_y (B2R T)) (9.1 * u).
Proof.
  intros F H. pose proof u16 as U. destruct (px_h T F H) as [FX VX]. pose proof (locx_h _ H) as LX. set (x := planckian_x N T) in *.
  assert (VX' := Rabs_le_inv _ _ VX). assert (RX : 0.252 <= B2R x <= 0.381) by (rewrite U in *; lra).
  destruct lit4000 as [F4 V4], lit2222 as [F2 V2].
  assert (P : near (planckian_y N T x) (py_h (B2R x)) (6.85 * u)).
  { unfold planckian_y. rewrite !(ltb_ok lm) by assumption. rewrite V4, V2, (Rlt_bool_false _ 4000), (Rlt_bool_false _ 2222) by lra.
    apply py_h_eval; assumption. }
  eapply near_le; [apply (near_lip _ x py_h (loc_x (B2R T)) _ _ _ 1.4 P VX)|].
  - apply py_h_lip; assumption.
  - lra.
  - rewrite loc_y_poly by lra. destruct (Rlt_dec (B2R T) 4000); [lra|reflexivity].
  - rewrite U; lra.
Qed.

(** ** From chromaticity to tristimulus values. *)
Lemma yxy_div (n y : f32) rn ry w k ky b Q : near n rn (k * u * w) -> near y ry (ky * u) -> 1e-6 <= w <= 1e6 -> 0 <= k <= 20 -> 0 <= ky <= 10 ->
  0.25 <= b <= ry -> 0 <= rn <= Q * w * ry -> 0 <= Q <= 4 ->
  near (@fdiv N n y) (rn / ry) (((k + Q * ky) * 1.001 / b + 1.001 * Q + 0.001) * u * w).
Proof.
  intros Hn Hy W K KY B R HQ. pose proof u16 as U. pose proof eta_sharp as E0. pose proof F32.eta_pos as E1.
  assert (D : (k * u * w + Q * w * (ky * u)) / (b - ky * u) <= (k + Q * ky) * 1.001 / b * u * w).
  { replace (k * u * w + Q * w * (ky * u)) with ((k + Q * ky) * (u * w)) by ring.
    replace ((k + Q * ky) * 1.001 / b * u * w) with ((k + Q * ky) * (u * w) * (1.001 * / b)) by (unfold Rdiv; ring).
    unfold Rdiv. apply Rmult_le_compat_l; [apply Rmult_le_pos; [nra|apply Rmult_le_pos; rewrite ?U; lra]|].
    apply Rmult_le_reg_l with (b - ky * u); [rewrite U; lra|]. rewrite Rinv_r by (rewrite U; lra).
    apply Rmult_le_reg_r with b; [lra|]. rewrite Rmult_1_l. replace ((b - ky * u) * (1.001 * / b) * b) with (1.001 * (b - ky * u)) by (field; lra). rewrite U. lra. }
  assert (D2 : (k + Q * ky) * 1.001 / b <= 300).
  { apply Rmult_le_reg_r with b; [lra|]. unfold Rdiv. rewrite Rmult_assoc, Rinv_l by lra. nra. }
  assert (D3 : 0 <= (k + Q * ky) * 1.001 / b).
  { unfold Rdiv. apply Rmult_le_pos; [nra|]. apply Rlt_le, Rinv_0_lt_compat; lra. }
  set (e := (k * u * w + Q * w * (ky * u)) / (b - ky * u)) in *. set (d := (k + Q * ky) * 1.001 / b) in *.
  assert (D4 : e <= 300 * u * w). { eapply Rle_trans; [exact D|]. rewrite U. apply Rmult_le_compat_r; lra. }
  assert (QW : 0 <= Q * w <= 4000000) by nra.
  eapply near_le; [apply (near_div lm _ _ rn ry _ _ (Q * w) b Hn Hy)|].
  - rewrite Rabs_pos_eq; lra.
  - rewrite U; lra.
  - rewrite Rabs_pos_eq.
    + apply Rmult_le_reg_r with ry; [lra|]. unfold Rdiv. rewrite Rmult_assoc, Rinv_l by lra. lra.
    + apply Rmult_le_pos; [lra|]. apply Rlt_le, Rinv_0_lt_compat; lra.
  - cbv zeta. fold e. rewrite U in *. lra.
  - cbv zeta. fold e. rewrite U in *. lra.
Qed.
Lemma yxy_near (Y x y : f32) rx ry kx ky A b C Q1 Q2 : fin Y -> 1e-6 <= B2R Y <= 1e6 -> near x rx (kx * u) -> near y ry (ky * u) ->
  0 <= kx <= 4 -> 0 <= ky <= 10 -> 0 <= rx <= A -> A <= 1 -> 0.25 <= b <= ry -> ry <= 1 -> 0 <= 1 - rx - ry <= C -> C <= 1 ->
  rx <= Q1 * ry -> 1 - rx - ry <= Q2 * ry -> 0 <= Q1 <= 4 -> 0 <= Q2 <= 4 ->
  near (X_from_Yxy N Y x y) (rx * B2R Y / ry) (((kx + A + 0.001 + Q1 * ky) * 1.001 / b + 1.001 * Q1 + 0.001) * u * B2R Y) /\
  near (Z_from_Yxy N Y x y) ((1 - rx - ry) * B2R Y / ry) (((kx + ky + (1 - rx) + 2 * C + 0.001 + Q2 * ky) * 1.001 / b + 1.001 * Q2 + 0.001) * u * B2R Y).
Proof.
  intros F H Hx Hy KX KY Rx HA Ry Ry1 Rz HC G1 G2 HQ1 HQ2. pose proof u16 as U. pose proof eta_sharp as E. pose proof F32.eta_pos as E0. set (w := B2R Y) in *.
  assert (G : @fltb N (abs_f N y) (@flit N 1e-8%dec) = false). { destruct Hy as [Fy Vy]. apply Rabs_le_inv in Vy. apply abs_guard; [exact Fy|]. rewrite U in *. lra. }
  unfold X_from_Yxy, Z_from_Yxy. rewrite G. split.
  - apply yxy_div; try lra.
    + eapply near_le; [apply (near_mul lm _ _ rx w (kx * u) 0 A w Hx)|].
      * apply near_self, F.
      * rewrite Rabs_pos_eq; lra.
      * rewrite Rabs_pos_eq; lra.
      * rewrite U; nra.
      * rewrite U in *; nra.
    + exact Hy.
    + nra.
  - unfold z_from_xy. apply yxy_div; try lra.
    + eapply near_le; [apply (near_mul lm _ _ (1 - rx - ry) w ((kx + ky + (1 - rx) + C + 0.0005) * u) 0 C w)|].
      * eapply near_le; [apply (near_sub lm _ _ (1 - rx) ry ((kx + (1 - rx) + 0.0002) * u) (ky * u) C)|].
        -- eapply near_le; [apply (near_sub lm _ _ 1 rx 0 (kx * u) (1 - rx) (kone lm) Hx)|].
           ++ rewrite Rabs_pos_eq; lra.
           ++ rewrite U; lra.
           ++ rewrite U in *; lra.
        -- exact Hy.
        -- rewrite Rabs_pos_eq; lra.
        -- rewrite U; lra.
        -- rewrite U in *; lra.
      * apply near_self, F.
      * rewrite Rabs_pos_eq; lra.
      * rewrite Rabs_pos_eq; lra.
      * rewrite U; nra.
      * rewrite U in *; nra.
    + exact Hy.
    + nra.
Qed.

Lemma locus_xy (T : f32) : fin T -> 1667 <= B2R T <= 25000 ->
  near (planckian_x N T) (loc_x (B2R T)) (2.8 * u) /\ near (planckian_y N T (planckian_x N T)) (loc_y (B2R T)) (9.1 * u).
Proof.
  intros F H. pose proof u16 as U. destruct (Rlt_dec (B2R T) 4000) as [L|L].
  - split; [apply px_l; [exact F|lra]|]. eapply near_le; [apply py_l_near; [exact F|lra]|rewrite U; lra].
  - split; [|apply py_h_near; [exact F|lra]]. eapply near_le; [apply px_h; [exact F|lra]|rewrite U; lra].
Qed.
Lemma near_pos z r e m : near z r e -> e < m -> m <= r -> 0 < B2R z.
Proof. intros [_ V] A B. apply Rabs_le_inv in V. lra. Qed.
Lemma quot_ge a b q w : 0 < b <= 1 -> 0 <= w -> 0 <= q <= a -> q * w <= a * w / b.
Proof.
  intros B W Q. apply Rmult_le_reg_r with b; [lra|]. replace (a * w / b * b) with (a * w) by (field; lra).
  assert (0 <= q * w) by nra. assert (q * w <= a * w) by nra. nra.
Qed.
Lemma locus_near (T Y : f32) : fin T -> fin Y -> 1667 <= B2R T <= 25000 -> 1e-6 <= B2R Y <= 1e6 ->
  exists X' Z' X Z, fromPlanckianLocus N T Y = V3 X' Y Z' /\ fromPlanckianLocus RN (Some (B2R T)) (Some (B2R Y)) = finV (V3 X (B2R Y) Z) /\
    near X' X (48 * u * B2R Y) /\ near Z' Z (128 * u * B2R Y) /\ 0 < B2R X' /\ 0 < B2R Z'.
Proof.
  intros FT FY HT HY. pose proof u16 as U. set (T_ := B2R T) in *.
  assert (D : exists X' Z' X Z, fromPlanckianLocus N T Y = V3 X' Y Z' /\ X = loc_x T_ * B2R Y / loc_y T_ /\ Z = (1 - loc_x T_ - loc_y T_) * B2R Y / loc_y T_ /\
      near X' X (48 * u * B2R Y) /\ near Z' Z (128 * u * B2R Y) /\ 0.25 <= loc_y T_ <= 1 /\ 0.25 <= loc_x T_ /\ 0.03 <= 1 - loc_x T_ - loc_y T_).
  { do 4 eexists. split; [reflexivity|]. split; [reflexivity|]. split; [reflexivity|]. destruct (Rlt_dec T_ 4000) as [L|L].
    - pose proof (px_l T FT ltac:(unfold T_ in *; lra)) as Nx. pose proof (py_l_near T FT ltac:(unfold T_ in *; lra)) as Ny. fold T_ in Nx, Ny.
      pose proof (locx_l T_ ltac:(lra)) as Rx. destruct (py_l_range _ Rx) as (R1 & R2 & R3 & R4).
      assert (EY : loc_y T_ = py_l (loc_x T_)) by (rewrite loc_y_poly by lra; destruct (Rlt_dec T_ 4000); [reflexivity|lra]). rewrite <- EY in *.
      destruct (yxy_near Y _ _ _ _ 2.8 6.6 0.5647 0.373 0.25 1.41 0.67 FY HY Nx Ny) as [A B]; try lra.
      split; [|split; [|lra]].
      + eapply near_le; [exact A|]. apply Rmult_le_compat_r; [lra|]. apply Rmult_le_compat_r; [rewrite U; lra|]. lra.
      + eapply near_le; [exact B|]. apply Rmult_le_compat_r; [lra|]. apply Rmult_le_compat_r; [rewrite U; lra|]. lra.
    - pose proof (px_h T FT ltac:(unfold T_ in *; lra)) as Nx. pose proof (py_h_near T FT ltac:(unfold T_ in *; lra)) as Ny. fold T_ in Nx, Ny.
      pose proof (locx_h T_ ltac:(lra)) as Rx. destruct (py_h_range _ Rx) as (R1 & R2 & R3 & R4).
      assert (EY : loc_y T_ = py_h (loc_x T_)) by (rewrite loc_y_poly by lra; destruct (Rlt_dec T_ 4000); [lra|reflexivity]). rewrite <- EY in *.
      destruct (yxy_near Y _ _ _ _ 1.6 9.1 0.3805 0.252 0.5 1.02 1.98 FY HY Nx Ny) as [A B]; try lra.
      split; [|split; [|lra]].
      + eapply near_le; [exact A|]. apply Rmult_le_compat_r; [lra|]. apply Rmult_le_compat_r; [rewrite U; lra|]. lra.
      + eapply near_le; [exact B|]. apply Rmult_le_compat_r; [lra|]. apply Rmult_le_compat_r; [rewrite U; lra|]. lra. }
  destruct D as (X' & Z' & X & Z & E & EX & EZ & NX & NZ & RY & RX & RZ). exists X', Z', X, Z. split; [exact E|]. split.
  { rewrite locus_yxy by lra. rewrite fromYxy_ok by (rewrite Rabs_pos_eq; unfold eps8; lra). rewrite EX, EZ. reflexivity. }
  split; [exact NX|]. split; [exact NZ|]. split.
  - eapply near_pos; [exact NX| |rewrite EX; apply (quot_ge (loc_x T_) (loc_y T_) 0.25); lra]. rewrite U. lra.
  - eapply near_pos; [exact NZ| |rewrite EZ; apply (quot_ge (1 - loc_x T_ - loc_y T_) (loc_y T_) 0.03); lra]. rewrite U. lra.
Qed.
End F.
