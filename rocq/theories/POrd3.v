(** * Transfer functions in binary32: order of values, logarithmic curves. *)
From Coq Require Import ZArith QArith Qreals Reals Lra Lia List Bool.
From Flocq Require Import Core IEEE754.BinarySingleNaN.
From Verif Require Import Num NumF MVec MTri MOtf F32 F64 RPow RExp PHsvF PLibm PNearF PNearF2 POtf POtf2 POtfF POtfF2 PCodes POrd POrd2.
Import ListNotations.
Local Open Scope R_scope.

Lemma exp_60 x : -60 <= x <= 60 -> / 1e29 <= exp x <= 1e29.
Proof.
  intros H. assert (E : exp 60 <= 1e29).
  { replace 60 with (INR 60 * 1) by (rewrite INR_IZR_INZ; change (Z.of_nat 60) with 60%Z; lra). rewrite <- (ln_exp 1) at 1. fold (Rpower (exp 1) (INR 60)). rewrite Rpower_pow by apply exp_pos.
    apply Rle_trans with (3 ^ 60); [apply pow_incr; split; [apply Rlt_le, exp_pos|apply exp_le_3]|]. lra. }
  split.
  - apply Rle_trans with (exp (-60)); [|apply exp_le; lra]. replace (-60) with (- (60)) by lra. rewrite exp_Ropp. apply Rinv_le; [apply exp_pos|exact E].
  - apply Rle_trans with (2 := E). apply exp_le. lra.
Qed.
Lemma b126 : bpow radix2 (-126) <= / 1e29.
Proof. change (bpow radix2 (-126)) with (/ IZR (2 ^ 126)). apply Rinv_le; [lra|]. rewrite <- Rinv_1. lra. Qed.

Section F.
Context (lm : libm) (Acc : accurate lm) (Ord : ordered lm).
Notation N := (FN lm).
Lemma lb_log x x' : leF x x' -> 0 < B2R x -> leB 401 (@flog N x) (@flog N x').
Proof.
  intros (Fx & Fx' & O) P. destruct (log_rel lm Acc x Fx P) as [F H]. destruct (log_rel lm Acc x' Fx' ltac:(lra)) as [F' H'].
  assert (K : forall z : f32, fin z -> 0 < B2R z -> Rabs (B2R (@flog N z) - ln (B2R z)) <= 4 * u * Rabs (ln (B2R z)) -> - 401 <= B2R (@flog N z) <= 401).
  { intros z Fz Pz Hz. assert (L : Rabs (ln (B2R z)) <= 200). { destruct (Req_dec (B2R z) 1) as [->|NE]; [rewrite ln_1, Rabs_R0; lra|]. apply (ln_f32_range z Fz Pz NE). }
    pose proof u16 as U. rewrite U in Hz. apply Rabs_le_inv in L as L'. pose proof (Rabs_pos (ln (B2R z))). apply Rabs_le_inv in Hz. lra. }
  pose proof (K x Fx P H). pose proof (K x' Fx' ltac:(lra) H'). split; [|lra]. split; [exact F|]. split; [exact F'|]. apply (ord_log lm Ord x x' Fx Fx'); try assumption. lra.
Qed.
Lemma lb_log10 x x' : leF x x' -> 0 < B2R x -> leB 401 (@flog10 N x) (@flog10 N x').
Proof.
  intros (Fx & Fx' & O) P. destruct (log10_rel lm Acc x Fx P) as [F H]. destruct (log10_rel lm Acc x' Fx' ltac:(lra)) as [F' H']. pose proof ln10_bounds as T.
  assert (K : forall z : f32, fin z -> 0 < B2R z -> Rabs (B2R (@flog10 N z) - log10R (B2R z)) <= 4 * u * Rabs (log10R (B2R z)) -> - 401 <= B2R (@flog10 N z) <= 401).
  { intros z Fz Pz Hz. assert (L : Rabs (ln (B2R z)) <= 200). { destruct (Req_dec (B2R z) 1) as [->|NE]; [rewrite ln_1, Rabs_R0; lra|]. apply (ln_f32_range z Fz Pz NE). }
    assert (L2 : Rabs (log10R (B2R z)) <= 200). { unfold log10R, Rdiv. rewrite Rabs_mult, Rabs_inv, (Rabs_pos_eq (ln 10)) by lra. assert (0 < / ln 10 <= / 1) by (split; [apply Rinv_0_lt_compat; lra|apply Rinv_le; lra]). rewrite Rinv_1 in *. pose proof (Rabs_pos (ln (B2R z))). nra. }
    pose proof u16 as U. rewrite U in Hz. apply Rabs_le_inv in L2 as L'. pose proof (Rabs_pos (log10R (B2R z))). apply Rabs_le_inv in Hz. lra. }
  pose proof (K x Fx P H). pose proof (K x' Fx' ltac:(lra) H'). split; [|lra]. split; [exact F|]. split; [exact F'|]. apply (ord_log10 lm Ord x x' Fx Fx'); try assumption. lra.
Qed.
Lemma exp_4u (x : f32) : fin x -> -60 <= B2R x <= 60 -> fin (@fexp N x) /\ (1 - 4 * u) * exp (B2R x) <= B2R (@fexp N x) <= (1 + 4 * u) * exp (B2R x).
Proof.
  intros Fx H. pose proof (exp_60 _ H) as E. pose proof (exp_pos (B2R x)) as P. destruct (acc_exp lm Acc x Fx) as [F V]; rewrite (Rabs_pos_eq (exp (B2R x))) in * by lra.
  - pose proof b126. pose proof b127. lra.
  - change (@fexp N x) with (lm_expf lm x). split; [exact F|]. apply Rabs_le_inv in V. lra.
Qed.
Lemma lb_exp x x' : leB 60 x x' -> leB 2e29 (@fexp N x) (@fexp N x').
Proof.
  intros ((Fx & Fx' & O) & L & U). destruct (exp_4u x Fx) as [F H]; [lra|]. destruct (exp_4u x' Fx') as [F' H']; [lra|]. pose proof (exp_60 (B2R x) ltac:(lra)). pose proof (exp_60 (B2R x') ltac:(lra)). pose proof u16 as U16. rewrite U16 in *.
  split; [|lra]. split; [exact F|]. split; [exact F'|]. apply (ord_exp lm Ord x x' Fx Fx' O F').
Qed.
Lemma ten_4u (t x : f32) : fin t -> B2R t = 10 -> fin x -> -20 <= B2R x <= 20 -> fin (@fpow N t x) /\ (1 - 4 * u) * Rpower 10 (B2R x) <= B2R (@fpow N t x) <= (1 + 4 * u) * Rpower 10 (B2R x) /\ / 1e29 <= Rpower 10 (B2R x) <= 1e29.
Proof.
  intros Ft Vt Fx H. pose proof ln10_bounds as T. assert (E : / 1e29 <= Rpower 10 (B2R x) <= 1e29) by (apply exp_60; nra). destruct (acc_pow lm Acc t x Ft Fx) as [F V]; [lra| |]; rewrite Vt in *; rewrite (Rabs_pos_eq (Rpower 10 (B2R x))) in * by lra.
  - pose proof b126. pose proof b127. lra.
  - change (@fpow N t x) with (lm_powf lm t x). split; [exact F|]. apply Rabs_le_inv in V. lra.
Qed.
Lemma lb_ten t x x' : fin t -> B2R t = 10 -> leB 20 x x' -> leB 2e29 (@fpow N t x) (@fpow N t x') /\ 0 <= B2R (@fpow N t x).
Proof.
  intros Ft Vt ((Fx & Fx' & O) & L & U). destruct (ten_4u t x Ft Vt Fx) as (F & H & E); [lra|]. destruct (ten_4u t x' Ft Vt Fx') as (F' & H' & E'); [lra|]. pose proof u16 as U16. rewrite U16 in *.
  split; [|lra]. split; [|lra]. split; [exact F|]. split; [exact F'|]. apply (ord_pow_ten lm Ord t x x' Ft Vt Fx Fx' O F').
Qed.
(** ** Doubles *)
Definition leD (K : R) (x y : f64) : Prop := (fin64 x /\ fin64 y /\ B2R x <= B2R y) /\ - K <= B2R x /\ B2R y <= K.
Lemma rnd64_le x y : x <= y -> rnd64 x <= rnd64 y. Proof. apply round_le; auto with typeclass_instances. Qed.
Lemma rnd64_2 z K : Rabs z <= K -> Rabs (rnd64 z) <= 2 * K + 1.
Proof.
  intros H. pose proof (rnd64_err z) as E. pose proof u64_val as U. pose proof eta64_eta as T. pose proof eta16 as G. pose proof u16 as U16. rewrite U16 in G. pose proof (Rabs_pos z). replace (rnd64 z) with ((rnd64 z - z) + z) by ring.
  eapply Rle_trans; [apply Rabs_triang|]. rewrite U in E. lra.
Qed.
Lemma ld_widen K x x' : leB K x x' -> leD K (@widen N x) (@widen N x').
Proof. intros ((F & F' & O) & B). destruct (widen_ok lm x F) as [W V]. destruct (widen_ok lm x' F') as [W' V']. unfold leD. rewrite V, V'. auto. Qed.
Lemma ld_add K d x x' : leD K x x' -> fin64 d -> Rabs (B2R d) <= 1 -> K <= 1e10 -> leD (2 * (K + 1) + 1) (@dadd N x d) (@dadd N x' d).
Proof.
  intros ((F & F' & O) & L & U) Fd D B. apply Rabs_le_inv in D. pose proof b1000_big as BB.
  assert (A : Rabs (B2R x + B2R d) <= K + 1) by (apply Rabs_le; lra). assert (A' : Rabs (B2R x' + B2R d) <= K + 1) by (apply Rabs_le; lra).
  destruct (dadd_ok lm x d F Fd) as [G V]; [lra|]. destruct (dadd_ok lm x' d F' Fd) as [G' V']; [lra|]. apply rnd64_2 in A, A'. apply Rabs_le_inv in A, A'.
  unfold leD. rewrite V, V'. split; [|lra]. split; [exact G|]. split; [exact G'|]. apply rnd64_le. lra.
Qed.
Lemma lb_narrow K x x' : leD K x x' -> K <= 1e10 -> leB (2 * K + 1) (@narrow N x) (@narrow N x').
Proof. intros ((F & F' & O) & L & U) B. apply (leB_rnd _ _ (B2R x) (B2R x')); try lra; intros H; apply narrow_ok; assumption. Qed.

(** ** HLG encoding *)
Definition he_lo (x : f32) : f32 := @fmul N (@flit N 0.5%dec) (@fsqrt N x).
Definition he_f (l : f32) : f32 := @fadd N (@fmul N (hlg_a N) l) (hlg_c N).
Definition he_hi (x : f32) : f32 := he_f (@flog N (@fsub N x (hlg_b N))).
Lemma Y_to_HLG_eq x : Y_to_HLG N x = if @fltb N x (@flit N 0%dec) then @flit N 0%dec else if @fltb N x (@flit N 1%dec) then he_lo x else he_hi x. Proof. reflexivity. Qed.
Lemma he_lo_le x x' : leB 1 x x' -> 0 <= B2R x -> leF (he_lo x) (he_lo x').
Proof.
  intros H P. destruct (hl_h lm) as [F V]. apply (leB_F (2 * (1 * (2 * (1 + 1) + 1)) + 1)). apply lb_mul; [exact F|rewrite V; lra| |lra]. apply lb_sqrt; [exact H|exact P|lra].
Qed.
Lemma he_f_le x x' : leB 401 x x' -> leF (he_f x) (he_f x').
Proof.
  intros H. destruct (hl_a lm) as [Fa Va]. destruct (hl_c lm) as [Fc Vc]. apply (leB_F (2 * ((2 * (1 * 401) + 1) + 1) + 1)). apply lb_add; [|apply leB_c; [exact Fc|rewrite Vc; apply Rabs_le; lra]|lra].
  apply lb_mul; [exact Fa|rewrite Va; lra|exact H|lra].
Qed.
Lemma he_arg_1 : fin (@fsub N (@flit N 1%dec) (hlg_b N)) /\ B2R (@fsub N (@flit N 1%dec) (hlg_b N)) = 750079 / 1048576. Proof. unfold hlg_b. f32_val. Qed.
Lemma he_sub_le x x' : leF x x' -> 1 <= B2R x -> B2R x' <= 1e20 -> leF (@fsub N x (hlg_b N)) (@fsub N x' (hlg_b N)).
Proof.
  intros H P U. destruct (hl_b lm) as [Fb Vb]. apply (leB_F (2 * (1e20 + 1) + 1)). apply lb_sub; [apply leF_leB; [exact H|lra|lra]|apply leB_c; [exact Fb|rewrite Vb; apply Rabs_le; lra]|lra].
Qed.
(** Just below the junction. *)
Lemma he_lo_1 x : fin x -> 0 <= B2R x < 1 -> fin (he_lo x) /\ 0 <= B2R (he_lo x) <= 16777215 / 33554432.
Proof.
  intros Fx H. destruct (zero_one lm) as [[F0 V0] _]. assert (P : fin (@flit N 0.99999994%dec) /\ B2R (@flit N 0.99999994%dec) = 16777215 / 16777216) by f32_val. destruct P as [Fp Vp].
  assert (G : B2R x <= 1 - bpow radix2 (-1 - 23)). { apply (gap_lt (-1)); [lia|apply fmt_B2R|apply (fmt_bpow 0); lia|cbn; lra|lra]. } change (bpow radix2 (-1 - 23)) with (/ 16777216) in G.
  assert (K : leF (he_lo (@flit N 0%dec)) (he_lo x)) by (apply he_lo_le; [apply leF_leB; [repeat split; auto; rewrite V0; lra|rewrite V0; lra|lra]|rewrite V0; lra]).
  assert (K' : leF (he_lo x) (he_lo (@flit N 0.99999994%dec))) by (apply he_lo_le; [apply leF_leB; [repeat split; auto; rewrite Vp; lra|lra|rewrite Vp; lra]|lra]).
  assert (Z : fin (he_lo (@flit N 0%dec)) /\ B2R (he_lo (@flit N 0%dec)) = 0) by (unfold he_lo; f32_val).
  assert (Z' : fin (he_lo (@flit N 0.99999994%dec)) /\ B2R (he_lo (@flit N 0.99999994%dec)) = 16777215 / 33554432) by (unfold he_lo; f32_val).
  destruct K as (_ & F & K), K' as (_ & _ & K'). split; [exact F|lra].
Qed.
(** At the junction the exact value is 0.5 - 0.2568 u. *)
Lemma he_hi_1 : fin (he_hi (@flit N 1%dec)) /\ 16777215 / 33554432 <= B2R (he_hi (@flit N 1%dec)).
Proof.
  destruct he_arg_1 as [F1 V1]. destruct (log_rel lm Acc _ F1) as [Fl Hl]; [rewrite V1; lra|]. rewrite V1 in Hl.
  assert (A : - 0.335009798 <= ln (750079 / 1048576)). { replace (- 0.335009798) with (- Q2R (Qmake 335009798 1000000000)) by q2r. replace (750079 / 1048576) with (Q2R (Qmake 750079 1048576)) by q2r. lnbound 1%nat 10%nat. }
  assert (B : ln (750079 / 1048576) <= - 0.335). { replace (- 0.335) with (- Q2R (Qmake 335 1000)) by q2r. replace (750079 / 1048576) with (Q2R (Qmake 750079 1048576)) by q2r. lnbound 1%nat 10%nat. }
  unfold he_hi, he_f. set (l := @flog N (@fsub N (@flit N 1%dec) (hlg_b N)) : f32) in *. set (L := ln (750079 / 1048576)) in *. clearbody l L. rewrite (Rabs_left1 L) in Hl by lra. pose proof u16 as U. rewrite U in Hl. apply Rabs_le_inv in Hl.
  destruct (hl_a lm) as [Fa Va]. destruct (hl_c lm) as [Fc Vc]. pose proof b127 as BB.
  destruct (mul_ok lm (hlg_a N) l Fa Fl) as [Fm Vm]; [rewrite Va; apply Rabs_le; lra|]. rewrite Va in Vm.
  assert (E : Rabs (rnd (750079 / 4194304 * B2R l) - 750079 / 4194304 * B2R l) <= bpow radix2 (-4 - 25)) by (apply rnd_half_err; [lia|change (bpow radix2 (-4)) with (/ 16); apply Rabs_def1; lra]).
  change (bpow radix2 (-4 - 25)) with (/ 536870912) in E. rewrite <- Vm in E. set (m := @fmul N (hlg_a N) l : f32) in *. clearbody m. apply Rabs_le_inv in E.
  destruct (add_ok lm m (hlg_c N) Fm Fc) as [Fs Vs]; [rewrite Vc; apply Rabs_le; lra|]. rewrite Vc in Vs. split; [exact Fs|]. rewrite Vs.
  set (z := B2R m + 9393743 / 16777216) in *. assert (Z : 0.5 - 0.56 / 16777216 <= z) by (unfold z; lra). clearbody z.
  destruct (Rle_lt_dec 0.5 z) as [G|G]; [apply Rle_trans with 0.5; [lra|]; apply rnd_ge_fmt; [|exact G]; replace 0.5 with (bpow radix2 (-1)) by (cbn; lra); apply fmt_bpow; lia|].
  assert (E2 : Rabs (rnd z - z) <= bpow radix2 (-1 - 25)) by (apply rnd_half_err; [lia|change (bpow radix2 (-1)) with (/ 2); apply Rabs_def1; lra]). change (bpow radix2 (-1 - 25)) with (/ 67108864) in E2. apply Rabs_le_inv in E2.
  destruct (Rle_lt_dec (16777215 / 33554432) (rnd z)) as [Q|Q]; [exact Q|exfalso].
  assert (Q' : rnd z <= 16777215 / 33554432 - bpow radix2 (-2 - 23)).
  { apply (gap_lt (-2)); [lia|apply generic_format_round; auto with typeclass_instances| |change (bpow radix2 (-2)) with (/ 4); lra|exact Q].
    replace (16777215 / 33554432) with (F2R (Float radix2 16777215 (-25))) by (unfold F2R; cbn; lra). apply generic_format_FLT. exists (Float radix2 16777215 (-25)); [reflexivity|cbn; lia|cbn; lia]. }
  change (bpow radix2 (-2 - 23)) with (/ 33554432) in Q'. lra.
Qed.
Lemma he_hi_le x x' : leF x x' -> 1 <= B2R x -> B2R x' <= 1e20 -> leF (he_hi x) (he_hi x') /\ 16777215 / 33554432 <= B2R (he_hi x).
Proof.
  intros H P U. destruct (zero_one lm) as [_ [F1 V1]]. destruct he_arg_1 as [FA VA]. pose proof H as (Fx & Fx' & O). pose proof (he_sub_le x x' H P U) as S.
  assert (S1 : leF (@fsub N (@flit N 1%dec) (hlg_b N)) (@fsub N x (hlg_b N))) by (apply he_sub_le; [repeat split; auto; rewrite V1; lra|rewrite V1; lra|lra]).
  assert (Pz : 0 < B2R (@fsub N x (hlg_b N))) by (destruct S1 as (_ & _ & S1); lra). split; [apply he_f_le, lb_log; assumption|].
  destruct he_hi_1 as [_ L]. apply Rle_trans with (1 := L). apply he_f_le. apply lb_log; [exact S1|rewrite VA; lra].
Qed.
Lemma HLG_enc_le x x' : leF x x' -> B2R x' <= 1e20 -> leF (Y_to_HLG N x) (Y_to_HLG N x').
Proof.
  intros (Fx & Fx' & O) U. destruct (zero_one lm) as [[F0 V0] [F1 V1]]. rewrite !Y_to_HLG_eq. rewrite !ltb_ok by assumption. rewrite V0, V1.
  assert (NN : forall z, fin z -> 0 <= B2R z -> B2R z <= 1e20 -> leF (@flit N 0%dec) (if Rlt_bool (B2R z) 1 then he_lo z else he_hi z)).
  { intros z Fz Hz Uz. destruct (Rlt_bool_spec (B2R z) 1) as [L|L]; [destruct (he_lo_1 z Fz) as [F K]; [lra|]; repeat split; auto; rewrite V0; lra|].
    destruct (he_hi_le z z (le_refl z Fz) L Uz) as [(F & _) K]. repeat split; auto. rewrite V0. lra. }
  destruct (Rlt_bool_spec (B2R x) 0) as [A|A]; [destruct (Rlt_bool_spec (B2R x') 0); [now apply le_refl|apply NN; assumption]|]. rewrite (Rlt_bool_false (B2R x') 0) by lra.
  destruct (Rlt_bool_spec (B2R x) 1) as [B|B], (Rlt_bool_spec (B2R x') 1) as [B'|B']; try lra.
  - apply he_lo_le; [apply leF_leB; [repeat split; auto|lra|lra]|exact A].
  - destruct (he_lo_1 x Fx) as [F K]; [lra|]. destruct (he_hi_le x' x' (le_refl x' Fx') B' U) as [(F' & _) K']. repeat split; auto. lra.
  - apply he_hi_le; [repeat split; auto|exact B|exact U].
Qed.

(** ** HLG decoding *)
Definition hd_lo (x : f32) : f32 := @fmul N (@fmul N (@flit N 4%dec) x) x.
Definition hd_arg (x : f32) : f32 := @fdiv N (@fsub N x (hlg_c N)) (hlg_a N).
Definition hd_hi (x : f32) : f32 := @fadd N (@fexp N (hd_arg x)) (hlg_b N).
Lemma HLG_to_Y_eq x : HLG_to_Y N x = if @fltb N x (@flit N 0%dec) then @flit N 0%dec else if @fleb N x (@flit N 0.5%dec) then hd_lo x else hd_hi x. Proof. reflexivity. Qed.
Lemma mul_nneg (x y : f32) : fin x -> fin y -> 0 <= B2R x <= 1000 -> 0 <= B2R y <= 1000 -> 0 <= B2R (@fmul N x y).
Proof.
  intros Fx Fy X Y. destruct (mul_ok lm x y Fx Fy) as [_ V]; [rewrite Rabs_pos_eq by nra; pose proof b127; nra|]. rewrite V. apply rnd_ge_fmt; [apply generic_format_0|nra].
Qed.
Lemma hd_lo_le x x' : leB 1 x x' -> 0 <= B2R x -> leF (hd_lo x) (hd_lo x').
Proof.
  intros H P. destruct (hl_4 lm) as [F V]. apply (leB_F (2 * ((2 * (4 * 1) + 1) * 1) + 1)). apply lb_mul2; [|exact H| |exact P|lra].
  - apply lb_mul; [exact F|rewrite V; lra|exact H|lra].
  - destruct H as ((Fx & _ & O) & L & U). apply mul_nneg; [exact F|exact Fx|rewrite V; lra|lra].
Qed.
Lemma hd_lo_h x : fin x -> 0 <= B2R x <= 0.5 -> fin (hd_lo x) /\ 0 <= B2R (hd_lo x) <= 1.
Proof.
  intros Fx H. destruct (zero_one lm) as [[F0 V0] _]. destruct (hl_h lm) as [Fh Vh].
  assert (K : leF (hd_lo (@flit N 0%dec)) (hd_lo x)) by (apply hd_lo_le; [apply leF_leB; [repeat split; auto; rewrite V0; lra|rewrite V0; lra|lra]|rewrite V0; lra]).
  assert (K' : leF (hd_lo x) (hd_lo (@flit N 0.5%dec))) by (apply hd_lo_le; [apply leF_leB; [repeat split; auto; rewrite Vh; lra|lra|rewrite Vh; lra]|lra]).
  assert (Z : fin (hd_lo (@flit N 0%dec)) /\ B2R (hd_lo (@flit N 0%dec)) = 0) by (unfold hd_lo; f32_val).
  assert (Z' : fin (hd_lo (@flit N 0.5%dec)) /\ B2R (hd_lo (@flit N 0.5%dec)) = 1) by (unfold hd_lo; f32_val).
  destruct K as (_ & F & K), K' as (_ & _ & K'). split; [exact F|lra].
Qed.
Lemma hd_arg_le x x' : leB 10 x x' -> leF (hd_arg x) (hd_arg x').
Proof.
  intros H. destruct (hl_a lm) as [Fa Va]. destruct (hl_c lm) as [Fc Vc]. apply (leB_F (2 * ((2 * (10 + 1) + 1) * 8) + 1)). apply lb_div; [lra|rewrite Va; lra| |lra].
  apply lb_sub; [exact H|apply leB_c; [exact Fc|rewrite Vc; apply Rabs_le; lra]|lra].
Qed.
Lemma hd_hi_le x x' : leF x x' -> 0.5 < B2R x -> B2R x' <= 10 -> leF (hd_hi x) (hd_hi x') /\ 1 <= B2R (hd_hi x).
Proof.
  intros H P U. pose proof H as (Fx & Fx' & O).
  assert (C : fin (@flit N 0.50000006%dec) /\ B2R (@flit N 0.50000006%dec) = 8388609 / 16777216) by f32_val. destruct C as [Fn Vn].
  assert (T : fin (@flit N 10%dec) /\ B2R (@flit N 10%dec) = 10) by f32_val. destruct T as [Ft Vt].
  assert (G : 0.5 <= B2R x - bpow radix2 (-1 - 23)). { apply (gap_lt (-1)); [lia| |apply fmt_B2R|cbn; lra|exact P]. replace 0.5 with (bpow radix2 (-1)) by (cbn; lra). apply fmt_bpow. lia. } change (bpow radix2 (-1 - 23)) with (/ 16777216) in G.
  assert (B1 : leF (hd_arg (@flit N 0.50000006%dec)) (hd_arg x)) by (apply hd_arg_le, leF_leB; [repeat split; auto; rewrite Vn; lra|rewrite Vn; lra|lra]).
  assert (B2 : leF (hd_arg x) (hd_arg x')) by (apply hd_arg_le, leF_leB; [exact H|lra|lra]).
  assert (B3 : leF (hd_arg x') (hd_arg (@flit N 10%dec))) by (apply hd_arg_le, leF_leB; [repeat split; auto; rewrite Vt; lra|lra|rewrite Vt; lra]).
  assert (Z : fin (hd_arg (@flit N 0.50000006%dec)) /\ B2R (hd_arg (@flit N 0.50000006%dec)) = -11241049 / 33554432) by (unfold hd_arg, hlg_a, hlg_c; f32_val). destruct Z as [FZ VZ].
  assert (Z' : fin (hd_arg (@flit N 10%dec)) /\ B2R (hd_arg (@flit N 10%dec)) = 3459465 / 65536) by (unfold hd_arg, hlg_a, hlg_c; f32_val). destruct Z' as [FZ' VZ'].
  destruct B1 as (_ & FX & B1), B3 as (FX' & _ & B3), B2 as (_ & _ & B2). destruct (hl_b lm) as [Fb Vb].
  assert (E : leB 2e29 (@fexp N (hd_arg x)) (@fexp N (hd_arg x'))) by (apply lb_exp, leF_leB; [repeat split; auto|lra|lra]).
  assert (E1 : leB 2e29 (@fexp N (hd_arg (@flit N 0.50000006%dec))) (@fexp N (hd_arg x))) by (apply lb_exp, leF_leB; [repeat split; auto|lra|lra]).
  assert (Cb : leB 1 (hlg_b N) (hlg_b N)) by (apply leB_c; [exact Fb|rewrite Vb; apply Rabs_le; lra]). split.
  - apply (leB_F (2 * (2e29 + 1) + 1)). apply lb_add; [exact E|exact Cb|lra].
  - destruct (exp_4u _ FZ) as [Fe He]; [rewrite VZ; lra|]. rewrite VZ in He.
    assert (L : Q2R (Qmake 71533138 100000000) <= exp (-11241049 / 33554432)). { replace (-11241049 / 33554432) with (- Q2R (Qmake 11241049 33554432)) by q2r. apply (exp_lo _ _ 1 8). vm_compute. reflexivity. }
    replace (Q2R (Qmake 71533138 100000000)) with 0.71533138 in L by q2r. pose proof u16 as U16. rewrite U16 in He.
    destruct E1 as ((_ & F1 & E1) & _ & U1). unfold hd_hi. set (e := @fexp N (hd_arg x) : f32) in *. set (e1 := @fexp N (hd_arg (@flit N 0.50000006%dec)) : f32) in *. clearbody e e1.
    destruct (add_ok lm e (hlg_b N) F1 Fb) as [_ V]; [rewrite Vb; pose proof b127; apply Rabs_le; lra|]. rewrite V, Vb. apply rnd_ge_fmt; [apply (fmt_bpow 0); lia|]. lra.
Qed.
Lemma HLG_dec_le x x' : leF x x' -> B2R x' <= 10 -> leF (HLG_to_Y N x) (HLG_to_Y N x').
Proof.
  intros (Fx & Fx' & O) U. destruct (zero_one lm) as [[F0 V0] _]. destruct (hl_h lm) as [Fh Vh]. rewrite !HLG_to_Y_eq. rewrite !ltb_ok, !leb_ok by assumption. rewrite V0, Vh.
  assert (NN : forall z, fin z -> 0 <= B2R z -> B2R z <= 10 -> leF (@flit N 0%dec) (if Rle_bool (B2R z) 0.5 then hd_lo z else hd_hi z)).
  { intros z Fz Hz Uz. destruct (Rle_bool_spec (B2R z) 0.5) as [L|L]; [destruct (hd_lo_h z Fz) as [F K]; [lra|]; repeat split; auto; rewrite V0; lra|].
    destruct (hd_hi_le z z (le_refl z Fz) L Uz) as [(F & _) K]. repeat split; auto. rewrite V0. lra. }
  destruct (Rlt_bool_spec (B2R x) 0) as [A|A]; [destruct (Rlt_bool_spec (B2R x') 0); [now apply le_refl|apply NN; assumption]|]. rewrite (Rlt_bool_false (B2R x') 0) by lra.
  destruct (Rle_bool_spec (B2R x) 0.5) as [B|B], (Rle_bool_spec (B2R x') 0.5) as [B'|B']; try lra.
  - apply hd_lo_le; [apply leF_leB; [repeat split; auto|lra|lra]|exact A].
  - destruct (hd_lo_h x Fx) as [F K]; [lra|]. destruct (hd_hi_le x' x' (le_refl x' Fx') B' U) as [(F' & _) K']. repeat split; auto. lra.
  - apply hd_hi_le; [repeat split; auto|exact B|exact U].
Qed.

(** ** S-Log *)
Definition clipx (x : f32) : f32 := if @fltb N x (@fofZ N 0) then @fofZ N 0 else if @fltb N (@fofZ N 10) x then @fofZ N 10 else x.
Definition sg_arg (x : f32) : f32 := @narrow N (@dadd N (@widen N x) (@dlit N 0.037584%dec)).
Definition sg_f (l : f32) : f32 := @narrow N (@dadd N (@dadd N (@widen N (@fmul N (@flit N 0.432699%dec) l)) (@dlit N 0.616596%dec)) (@dlit N 0.03%dec)).
Lemma Y_to_SLog_eq x : Y_to_SLog N x = sg_f (@flog10 N (sg_arg (clipx x))). Proof. reflexivity. Qed.
Lemma d_lits : (fin64 (@dlit N 0.037584%dec) /\ Rabs (B2R (@dlit N 0.037584%dec)) <= 1) /\ (fin64 (@dlit N 0.616596%dec) /\ Rabs (B2R (@dlit N 0.616596%dec)) <= 1) /\ (fin64 (@dlit N 0.03%dec) /\ Rabs (B2R (@dlit N 0.03%dec)) <= 1).
Proof.
  assert (A : dnear (@dlit N 0.037584%dec) 0.037584 (/ 1000)) by dlit_near.
  assert (B : dnear (@dlit N 0.616596%dec) 0.616596 (/ 1000)) by dlit_near.
  assert (C : dnear (@dlit N 0.03%dec) 0.03 (/ 1000)) by dlit_near.
  destruct A as [FA A], B as [FB B], C as [FC C]. apply Rabs_le_inv in A, B, C. repeat split; auto; apply Rabs_le; lra.
Qed.
Lemma clipx_le x x' : leF x x' -> leB 10 (clipx x) (clipx x') /\ 0 <= B2R (clipx x).
Proof.
  intros (Fx & Fx' & O). assert (Z : fin (@fofZ N 0) /\ B2R (@fofZ N 0) = 0) by f32_val. assert (T : fin (@fofZ N 10) /\ B2R (@fofZ N 10) = 10) by f32_val. destruct Z as [F0 V0], T as [F1 V1].
  unfold clipx. rewrite !ltb_ok by assumption. rewrite V0, V1.
  destruct (Rlt_bool_spec (B2R x) 0), (Rlt_bool_spec (B2R x') 0); try lra; try destruct (Rlt_bool_spec 10 (B2R x)); try destruct (Rlt_bool_spec 10 (B2R x')); try lra;
    (split; [apply leF_leB; [repeat split; auto; lra|lra|lra]|lra]).
Qed.
Lemma sg_arg_le x x' : leB 10 x x' -> leF (sg_arg x) (sg_arg x').
Proof.
  intros H. destruct d_lits as ([F1 V1] & _ & _). apply (leB_F (2 * (2 * (10 + 1) + 1) + 1)). apply lb_narrow; [|lra]. apply ld_add; [now apply ld_widen|exact F1|exact V1|lra].
Qed.
Lemma sg_f_le x x' : leB 401 x x' -> leF (sg_f x) (sg_f x').
Proof.
  intros H. destruct d_lits as (_ & [F1 V1] & [F2 V2]). assert (K : fin (@flit N 0.432699%dec) /\ B2R (@flit N 0.432699%dec) = 14518969 / 33554432) by f32_val. destruct K as [Fk Vk].
  apply (leB_F (2 * (2 * ((2 * ((2 * (1 * 401) + 1) + 1) + 1) + 1) + 1) + 1)). apply lb_narrow; [|lra]. apply ld_add; [|exact F2|exact V2|lra]. apply ld_add; [|exact F1|exact V1|lra].
  apply ld_widen. apply lb_mul; [exact Fk|rewrite Vk; lra|exact H|lra].
Qed.
Lemma SLog_enc_le x x' : leF x x' -> leF (Y_to_SLog N x) (Y_to_SLog N x').
Proof.
  intros H. rewrite !Y_to_SLog_eq. destruct (clipx_le x x' H) as [C C0]. apply sg_f_le, lb_log10; try assumption; [now apply sg_arg_le|].
  assert (Z : fin (@fofZ N 0) /\ B2R (@fofZ N 0) = 0) by f32_val. destruct Z as [F0 V0]. destruct C as ((FC & _ & OC) & _ & UC).
  assert (K : leF (sg_arg (@fofZ N 0)) (sg_arg (clipx x))) by (apply sg_arg_le, leF_leB; [repeat split; auto; rewrite V0; lra|rewrite V0; lra|lra]). destruct K as (_ & _ & K).
  assert (E : fin (sg_arg (@fofZ N 0)) /\ B2R (sg_arg (@fofZ N 0)) = 5044439 / 134217728) by (unfold sg_arg; f32_val). lra.
Qed.
Definition sl_arg (x : f32) : f32 := @fdiv N (@fsub N (@fsub N x (@flit N 0.616596%dec)) (@flit N 0.03%dec)) (@flit N 0.432699%dec).
Lemma SLog_to_Y_eq x : SLog_to_Y N x = @fsub N (@fpow N (@flit N 10%dec) (sl_arg x)) (@flit N 0.037584%dec). Proof. reflexivity. Qed.
Lemma sl_arg_le x x' : leB 5 x x' -> leF (sl_arg x) (sl_arg x').
Proof.
  intros H. assert (K : fin (@flit N 0.432699%dec) /\ B2R (@flit N 0.432699%dec) = 14518969 / 33554432) by f32_val. assert (A : fin (@flit N 0.616596%dec) /\ B2R (@flit N 0.616596%dec) = 2586191 / 4194304) by f32_val.
  assert (B : fin (@flit N 0.03%dec) /\ B2R (@flit N 0.03%dec) = 16106127 / 536870912) by f32_val. destruct K as [Fk Vk], A as [Fa Va], B as [Fb Vb].
  apply (leB_F (2 * ((2 * ((2 * (5 + 1) + 1) + 1) + 1) * 4) + 1)). apply lb_div; [lra|rewrite Vk; lra| |lra]. apply lb_sub; [|apply leB_c; [exact Fb|rewrite Vb; apply Rabs_le; lra]|lra].
  apply lb_sub; [exact H|apply leB_c; [exact Fa|rewrite Va; apply Rabs_le; lra]|lra].
Qed.
Lemma sl_arg_20 x x' : leB 5 x x' -> leB 20 (sl_arg x) (sl_arg x').
Proof.
  intros H. pose proof H as ((Fx & Fx' & O) & L & U). assert (A : fin (@flit N (-5)%dec) /\ B2R (@flit N (-5)%dec) = -5) by f32_val. assert (B : fin (@flit N 5%dec) /\ B2R (@flit N 5%dec) = 5) by f32_val. destruct A as [FA VA], B as [FB VB].
  assert (KA : leF (sl_arg (@flit N (-5)%dec)) (sl_arg x)) by (apply sl_arg_le, leF_leB; [repeat split; auto; rewrite VA; lra|rewrite VA; lra|lra]).
  assert (KB : leF (sl_arg x') (sl_arg (@flit N 5%dec))) by (apply sl_arg_le, leF_leB; [repeat split; auto; rewrite VB; lra|lra|rewrite VB; lra]).
  assert (ZA : fin (sl_arg (@flit N (-5)%dec)) /\ B2R (sl_arg (@flit N (-5)%dec)) = -13683613 / 1048576) by (unfold sl_arg; f32_val).
  assert (ZB : fin (sl_arg (@flit N 5%dec)) /\ B2R (sl_arg (@flit N 5%dec)) = 10549769 / 1048576) by (unfold sl_arg; f32_val).
  destruct KA as (_ & _ & KA), KB as (_ & _ & KB). apply leF_leB; [now apply sl_arg_le|lra|lra].
Qed.
Lemma SLog_dec_le x x' : leF x x' -> -5 <= B2R x -> B2R x' <= 5 -> leF (SLog_to_Y N x) (SLog_to_Y N x').
Proof.
  intros H A B. rewrite !SLog_to_Y_eq. assert (T : fin (@flit N 10%dec) /\ B2R (@flit N 10%dec) = 10) by f32_val. destruct T as [Ft Vt]. assert (K : fin (@flit N 0.037584%dec) /\ B2R (@flit N 0.037584%dec) = 5044439 / 134217728) by f32_val. destruct K as [Fk Vk].
  apply (leB_F (2 * (2e29 + 1) + 1)). apply lb_sub; [apply lb_ten; try assumption; apply sl_arg_20, leF_leB; [exact H|lra|lra]|apply leB_c; [exact Fk|rewrite Vk; apply Rabs_le; lra]|lra].
Qed.

(** ** S-Log3 encoding *)
Definition s3_arg (x : f32) : f32 := @fmul N (@fdiv N (@fadd N x (@flit N 0.01%dec)) (@flit N 0.19%dec)) (@flit N 261.5%dec).
Definition s3_hi (x : f32) : f32 := @fadd N (@flit N 420%dec) (@flog10 N (s3_arg x)).
Definition s3_lo (x : f32) : f32 := @fadd N (@fdiv N (@fmul N x (@fsub N (@flit N 171.2102946929%dec) (@flit N 95%dec))) (@flit N 0.01125%dec)) (@flit N 95%dec).
Lemma Y_to_SLog3_eq x : Y_to_SLog3 N x = @fdiv N (if @fltb N (@flit N 0.01125%dec) x then s3_hi x else s3_lo x) (@flit N 1023%dec). Proof. reflexivity. Qed.
Lemma s3_T : fin (@flit N 0.01125%dec) /\ B2R (@flit N 0.01125%dec) = 3019899 / 268435456. Proof. f32_val. Qed.
Lemma s3_arg_le x x' : leB 1e6 x x' -> leF (s3_arg x) (s3_arg x').
Proof.
  intros H. assert (K : fin (@flit N 0.19%dec) /\ B2R (@flit N 0.19%dec) = 3187671 / 16777216) by f32_val. assert (A : fin (@flit N 0.01%dec) /\ B2R (@flit N 0.01%dec) = 5368709 / 536870912) by f32_val.
  assert (B : fin (@flit N 261.5%dec) /\ B2R (@flit N 261.5%dec) = 523 / 2) by f32_val. destruct K as [Fk Vk], A as [Fa Va], B as [Fb Vb].
  apply (leB_F (2 * (300 * (2 * ((2 * (1e6 + 1) + 1) * 6) + 1)) + 1)). apply lb_mul_r; [exact Fb|rewrite Vb; lra| |lra]. apply lb_div; [lra|rewrite Vk; lra| |lra].
  apply lb_add; [exact H|apply leB_c; [exact Fa|rewrite Va; apply Rabs_le; lra]|lra].
Qed.
Lemma s3_lo_le x x' : leB 1e6 x x' -> leB 1e20 (s3_lo x) (s3_lo x').
Proof.
  intros H. destruct s3_T as [FT VT]. assert (A : fin (@fsub N (@flit N 171.2102946929%dec) (@flit N 95%dec)) /\ B2R (@fsub N (@flit N 171.2102946929%dec) (@flit N 95%dec)) = 2497259 / 32768) by f32_val.
  assert (B : fin (@flit N 95%dec) /\ B2R (@flit N 95%dec) = 95) by f32_val. destruct A as [Fa Va], B as [Fb Vb].
  apply (leB_w (2 * ((2 * ((2 * (80 * 1e6) + 1) * 100) + 1) + 95) + 1)); [|lra]. apply lb_add; [|apply leB_c; [exact Fb|rewrite Vb; apply Rabs_le; lra]|lra]. apply lb_div; [lra|rewrite VT; lra| |lra].
  apply lb_mul_r; [exact Fa|rewrite Va; lra|exact H|lra].
Qed.
Lemma s3_hi_le x x' : leB 1e6 x x' -> B2R (@flit N 0.01125%dec) <= B2R x -> leB 1e20 (s3_hi x) (s3_hi x') /\ 420 <= B2R (s3_hi x).
Proof.
  intros H T. destruct s3_T as [FT VT]. pose proof H as ((Fx & Fx' & O) & _ & U). assert (L : leF (s3_arg (@flit N 0.01125%dec)) (s3_arg x)) by (apply s3_arg_le, leF_leB; [repeat split; auto|rewrite VT; lra|lra]).
  assert (Z : fin (s3_arg (@flit N 0.01125%dec)) /\ B2R (s3_arg (@flit N 0.01125%dec)) = 3833425 / 131072) by (unfold s3_arg; f32_val). destruct Z as [FZ VZ]. destruct L as (_ & FX & L).
  assert (K : fin (@flit N 420%dec) /\ B2R (@flit N 420%dec) = 420) by f32_val. destruct K as [Fk Vk]. destruct (zero_one lm) as [_ [F1 V1]].
  assert (G : leB 401 (@flog10 N (s3_arg x)) (@flog10 N (s3_arg x'))) by (apply lb_log10; [now apply s3_arg_le|lra]).
  split.
  - apply (leB_w (2 * (420 + 401) + 1)); [|lra]. apply lb_add; [apply leB_c; [exact Fk|rewrite Vk; apply Rabs_le; lra]|exact G|lra].
  - assert (G1 : leB 401 (@flog10 N (@flit N 1%dec)) (@flog10 N (s3_arg x))) by (apply lb_log10; [repeat split; auto; lra|lra]).
    destruct (log10_one lm Acc _ F1 V1) as [_ V]. destruct G1 as ((_ & Fg & G1) & _ & U1). change (@flog10 N (@flit N 1%dec)) with (lm_log10f lm (@flit N 1%dec)) in G1. rewrite V in G1.
    unfold s3_hi. destruct (add_ok lm (@flit N 420%dec) (@flog10 N (s3_arg x)) Fk Fg) as [_ W]; [rewrite Vk; pose proof b127; apply Rabs_le; lra|]. rewrite W, Vk. apply rnd_ge_fmt; [rewrite <- Vk; apply fmt_B2R|lra].
Qed.
Lemma SLog3_enc_le x x' : leF x x' -> -1e6 <= B2R x -> B2R x' <= 1e6 -> leF (Y_to_SLog3 N x) (Y_to_SLog3 N x').
Proof.
  intros H A B. rewrite !Y_to_SLog3_eq. destruct s3_T as [FT VT]. pose proof H as (Fx & Fx' & O). assert (K : fin (@flit N 1023%dec) /\ B2R (@flit N 1023%dec) = 1023) by f32_val. destruct K as [Fk Vk].
  apply (leB_F (2 * (1e20 * 1) + 1)). apply lb_div; [lra|rewrite Vk; lra| |lra]. rewrite !ltb_ok by assumption.
  destruct (Rlt_bool_spec (B2R (@flit N 0.01125%dec)) (B2R x)) as [C|C], (Rlt_bool_spec (B2R (@flit N 0.01125%dec)) (B2R x')) as [C'|C']; try lra.
  - apply s3_hi_le; [apply leF_leB; assumption || lra|lra].
  - assert (L : leB 1e20 (s3_lo x) (s3_lo (@flit N 0.01125%dec))) by (apply s3_lo_le, leF_leB; [repeat split; auto|lra|rewrite VT; lra]).
    assert (Z : fin (s3_lo (@flit N 0.01125%dec)) /\ B2R (s3_lo (@flit N 0.01125%dec)) = 5610219 / 32768) by (unfold s3_lo; f32_val).
    destruct (s3_hi_le x' x') as [Hh L']; [apply leF_leB; [now apply le_refl|rewrite VT in C'; lra|lra]|lra|]. destruct L as ((F & _ & L) & Lb & _), Hh as ((F' & _) & _ & Ub).
    apply leF_leB; [repeat split; auto; lra|lra|lra].
  - apply s3_lo_le, leF_leB; [exact H|lra|lra].
Qed.
End F.

(** ** Triples *)
(** channel by channel: finite and in order; and within [a, b] *)
Definition leV (c c' : Vector3 f32) : Prop := leF (v0 c) (v0 c') /\ leF (v1 c) (v1 c') /\ leF (v2 c) (v2 c').
Definition inV (a b : R) (c : Vector3 f32) : Prop := a <= B2R (v0 c) <= b /\ a <= B2R (v1 c) <= b /\ a <= B2R (v2 c) <= b.
Ltac chan c c' L := destruct c as [? ? ?], c' as [? ? ?]; unfold leV, inV, toScene, toScreen; cbn [v0 v1 v2 vref]; intros (? & ? & ?); intros;
  repeat match goal with H : _ /\ _ /\ _ |- _ => destruct H as (? & ? & ?) end; (split; [|split]); apply L; try assumption; try lra.
Section V.
Context (lm : libm) (Acc : accurate lm) (Ord : ordered lm).
Notation N := (FN lm).
Lemma dec_srgb c c' g : leV c c' -> leV (toScene N SRGB c g) (toScene N SRGB c' g). Proof. chan c c' (sRGB_dec_le lm). Qed.
Lemma enc_bt c c' g : leV c c' -> leV (toScreen N BT709 c g) (toScreen N BT709 c' g). Proof. chan c c' (BT709_enc_le lm). Qed.
Lemma dec_gamma c c' g : leV c c' -> inV 0 1 c -> inV 0 1 c' -> fin g -> 0 < B2R g -> leV (toScene N GAMMA c g) (toScene N GAMMA c' g). Proof. chan c c' (degamma_le lm). Qed.
Lemma enc_gamma c c' g : leV c c' -> inV 0 1 c -> inV 0 1 c' -> fin g -> / 1000000 <= B2R g <= 1000000 -> leV (toScreen N GAMMA c g) (toScreen N GAMMA c' g). Proof. chan c c' (gamma_le lm). Qed.
Lemma dec_pq c c' g : leV c c' -> inV 0 1 c -> inV 0 1 c' -> leV (toScene N ST2084 c g) (toScene N ST2084 c' g). Proof. chan c c' (ST2084_dec_le lm). Qed.
Lemma enc_hlg c c' g : leV c c' -> inV (-1e20) 1e20 c' -> leV (toScreen N HLG c g) (toScreen N HLG c' g). Proof. chan c c' (HLG_enc_le lm). Qed.
Lemma dec_hlg c c' g : leV c c' -> inV (-10) 10 c' -> leV (toScene N HLG c g) (toScene N HLG c' g). Proof. chan c c' (HLG_dec_le lm). Qed.
Lemma enc_slog c c' g : leV c c' -> leV (toScreen N SLOG c g) (toScreen N SLOG c' g). Proof. chan c c' (SLog_enc_le lm). Qed.
Lemma dec_slog c c' g : leV c c' -> inV (-5) 5 c -> inV (-5) 5 c' -> leV (toScene N SLOG c g) (toScene N SLOG c' g). Proof. chan c c' (SLog_dec_le lm). Qed.
Lemma enc_slog3 c c' g : leV c c' -> inV (-1000000) 1000000 c -> inV (-1000000) 1000000 c' -> leV (toScreen N SLOG3 c g) (toScreen N SLOG3 c' g). Proof. chan c c' (SLog3_enc_le lm). Qed.
End V.

(** ** Code values *)
Lemma code_le lm k k' M : (0 <= k <= k')%Z -> (k' <= M)%Z -> (0 < M <= 2 ^ 24)%Z -> leF (code lm k M) (code lm k' M).
Proof.
  intros K K' HM. destruct (code_ok lm k M) as (F & V & _); [lia|exact HM|]. destruct (code_ok lm k' M) as (F' & V' & _); [lia|exact HM|].
  split; [exact F|]. split; [exact F'|]. rewrite V, V'. apply rnd_le. apply Rmult_le_compat_r; [apply Rlt_le, Rinv_0_lt_compat, IZR_lt; lia|apply IZR_le; lia].
Qed.
Lemma codes_srgb lm : accurate lm -> ordered lm -> forall M k k', (0 <= k <= k')%Z -> (k' <= M)%Z -> (0 < M <= 2 ^ 24)%Z ->
  leF (sRGB_to_Y (FN lm) (code lm k M)) (sRGB_to_Y (FN lm) (code lm k' M)).
Proof. intros A O M k k' H H' HM. apply (sRGB_dec_le lm A O). now apply code_le. Qed.
Lemma codes_pq lm : accurate lm -> ordered lm -> forall M k k', (0 <= k <= k')%Z -> (k' <= M)%Z -> (0 < M <= 2 ^ 24)%Z ->
  leF (ST2084_to_Y (FN lm) (code lm k M)) (ST2084_to_Y (FN lm) (code lm k' M)).
Proof.
  intros A O M k k' H H' HM. destruct (code_ok lm k M) as (_ & _ & _ & B & _); [lia|exact HM|]. destruct (code_ok lm k' M) as (_ & _ & _ & B' & _); [lia|exact HM|].
  apply (ST2084_dec_le lm O); [now apply code_le|lra|lra].
Qed.
Lemma codes_hlg lm : accurate lm -> ordered lm -> forall M k k', (0 <= k <= k')%Z -> (k' <= M)%Z -> (0 < M <= 2 ^ 24)%Z ->
  leF (HLG_to_Y (FN lm) (code lm k M)) (HLG_to_Y (FN lm) (code lm k' M)).
Proof.
  intros A O M k k' H H' HM. destruct (code_ok lm k' M) as (_ & _ & _ & B' & _); [lia|exact HM|]. apply (HLG_dec_le lm A O); [now apply code_le|lra].
Qed.
Lemma codes_all lm : accurate lm -> ordered lm -> forall t M k k' (a b a' b' g : f32), In t [SRGB; ST2084; HLG] -> (0 <= k <= k')%Z -> (k' <= M)%Z -> (0 < M <= 2 ^ 24)%Z ->
  leF (v0 (toScene (FN lm) t (V3 (code lm k M) a b) g)) (v0 (toScene (FN lm) t (V3 (code lm k' M) a' b') g)).
Proof.
  intros A O t M k k' a b a' b' g I H H' HM. destruct I as [<-|[<-|[<-|[]]]]; [apply codes_srgb|apply codes_pq|apply codes_hlg]; assumption.
Qed.
(** ** The two curves that lose order *)
Lemma srgb_drop lm : accurate lm -> exists x x' : f32, fin x /\ fin x' /\ 0 < B2R x < B2R x' /\ B2R x' < 1 /\ forall a b g,
  fin (v0 (toScreen (FN lm) SRGB (V3 x a b) g)) /\ fin (v0 (toScreen (FN lm) SRGB (V3 x' a b) g)) /\
  B2R (v0 (toScreen (FN lm) SRGB (V3 x' a b) g)) < B2R (v0 (toScreen (FN lm) SRGB (V3 x a b) g) : f32).
Proof.
  intros A. exists (se_x lm), (@flit (FN lm) 0.0031308%dec). destruct (se_x_v lm) as [Fx Vx]. destruct (sl_a lm) as [FT VT]. split; [exact Fx|]. split; [exact FT|]. rewrite Vx, VT. split; [lra|]. split; [lra|].
  intros a b g. apply (sRGB_enc_drop lm A).
Qed.
Lemma bt_drop lm : accurate lm -> forall a b g,
  fin (v0 (toScene (FN lm) BT709 (V3 (code lm 331 4095) a b) g)) /\ fin (v0 (toScene (FN lm) BT709 (V3 (code lm 332 4095) a b) g)) /\
  B2R (v0 (toScene (FN lm) BT709 (V3 (code lm 332 4095) a b) g)) < B2R (v0 (toScene (FN lm) BT709 (V3 (code lm 331 4095) a b) g) : f32).
Proof. intros A a b g. apply (BT709_dec_codes lm A). Qed.

Lemma srgb_sides lm : accurate lm -> ordered lm -> forall x x' : f32, leF x x' ->
  B2R x' < B2R (@flit (FN lm) 0.0031308%dec) \/ B2R (@flit (FN lm) 0.0031308%dec) <= B2R x -> forall a b a' b' g,
  leF (v0 (toScreen (FN lm) SRGB (V3 x a b) g)) (v0 (toScreen (FN lm) SRGB (V3 x' a' b') g)).
Proof. intros A O x x' H S a b a' b' g. now apply (sRGB_enc_side lm A O). Qed.
Lemma bt_sides lm : accurate lm -> ordered lm -> forall x x' : f32, leF x x' ->
  B2R x' < B2R (@flit (FN lm) 0.081%dec) \/ B2R (@flit (FN lm) 0.081%dec) <= B2R x -> forall a b a' b' g,
  leF (v0 (toScene (FN lm) BT709 (V3 x a b) g)) (v0 (toScene (FN lm) BT709 (V3 x' a' b') g)).
Proof. intros A O x x' H S a b a' b' g. now apply (BT709_dec_side lm O). Qed.
Lemma srgb_bt_slack lm : accurate lm -> ordered lm -> forall x x' : f32, leF x x' -> forall a b a' b' g,
  B2R (v0 (toScreen (FN lm) SRGB (V3 x a b) g)) <= B2R (v0 (toScreen (FN lm) SRGB (V3 x' a' b') g) : f32) + / 10000000 /\
  B2R (v0 (toScene (FN lm) BT709 (V3 x a b) g)) <= B2R (v0 (toScene (FN lm) BT709 (V3 x' a' b') g) : f32) + 0.000055.
Proof. intros A O x x' H a b a' b' g. split; [apply (sRGB_enc_slack lm A O x x' H)|apply (BT709_dec_slack lm A O x x' H)]. Qed.
Lemma ord_case lm : let N := FN lm in let c := V3 (@flit N 0.02%dec) (@flit N 0.3%dec) (@flit N 0.5%dec) in let c' := V3 (@flit N 0.9%dec) (@flit N 0.4%dec) (@flit N 0.5%dec) in
  leV c c' /\ inV 0 1 c /\ inV 0 1 c' /\ is_finite (@flit N 2.2%dec) = true /\ 2 < B2R (@flit N 2.2%dec) < 3.
Proof.
  cbv zeta. assert (L0 : fin (@flit (FN lm) 0.02%dec) /\ B2R (@flit (FN lm) 0.02%dec) = 5368709 / 268435456) by f32_val.
  assert (L1 : fin (@flit (FN lm) 0.3%dec) /\ B2R (@flit (FN lm) 0.3%dec) = 5033165 / 16777216) by f32_val.
  assert (L2 : fin (@flit (FN lm) 0.5%dec) /\ B2R (@flit (FN lm) 0.5%dec) = 1 / 2) by f32_val.
  assert (L3 : fin (@flit (FN lm) 0.9%dec) /\ B2R (@flit (FN lm) 0.9%dec) = 7549747 / 8388608) by f32_val.
  assert (L4 : fin (@flit (FN lm) 0.4%dec) /\ B2R (@flit (FN lm) 0.4%dec) = 13421773 / 33554432) by f32_val.
  assert (L5 : fin (@flit (FN lm) 2.2%dec) /\ B2R (@flit (FN lm) 2.2%dec) = 9227469 / 4194304) by f32_val.
  unfold leV, inV, leF. cbn [v0 v1 v2]. repeat match goal with H : _ /\ B2R _ = _ |- _ => let F := fresh in let V := fresh in destruct H as [F V]; rewrite V; revert F end. intros. repeat split; auto; lra.
Qed.
Lemma ord_case2 lm : let N := FN lm in leF (@flit N 0.004%dec) (@flit N 0.5%dec) /\ B2R (@flit N 0.0031308%dec) <= B2R (@flit N 0.004%dec) /\ leF (@flit N 0.1%dec) (@flit N 0.5%dec) /\ B2R (@flit N 0.081%dec) <= B2R (@flit N 0.1%dec).
Proof.
  cbv zeta. assert (L0 : fin (@flit (FN lm) 0.004%dec) /\ B2R (@flit (FN lm) 0.004%dec) = 8589935 / 2147483648) by f32_val.
  assert (L1 : fin (@flit (FN lm) 0.5%dec) /\ B2R (@flit (FN lm) 0.5%dec) = 1 / 2) by f32_val.
  assert (L2 : fin (@flit (FN lm) 0.1%dec) /\ B2R (@flit (FN lm) 0.1%dec) = 13421773 / 134217728) by f32_val.
  assert (L3 : fin (@flit (FN lm) 0.0031308%dec) /\ B2R (@flit (FN lm) 0.0031308%dec) = 3361671 / 1073741824) by f32_val.
  assert (L4 : fin (@flit (FN lm) 0.081%dec) /\ B2R (@flit (FN lm) 0.081%dec) = 2717909 / 33554432) by f32_val.
  unfold leF. repeat match goal with H : _ /\ B2R _ = _ |- _ => let F := fresh in let V := fresh in destruct H as [F V]; rewrite V; revert F end. intros. repeat split; auto; lra.
Qed.
Lemma dec_pq' lm : accurate lm -> ordered lm -> forall c c' g, leV c c' -> inV 0 1 c -> inV 0 1 c' -> leV (toScene (FN lm) ST2084 c g) (toScene (FN lm) ST2084 c' g).
Proof. intros _. exact (dec_pq lm). Qed.
Lemma dec_gamma' lm : accurate lm -> ordered lm -> forall c c' g, leV c c' -> inV 0 1 c -> inV 0 1 c' -> fin g -> 0 < B2R g -> leV (toScene (FN lm) GAMMA c g) (toScene (FN lm) GAMMA c' g).
Proof. intros _. exact (dec_gamma lm). Qed.
Lemma enc_gamma' lm : accurate lm -> ordered lm -> forall c c' g, leV c c' -> inV 0 1 c -> inV 0 1 c' -> fin g -> / 1000000 <= B2R g <= 1000000 -> leV (toScreen (FN lm) GAMMA c g) (toScreen (FN lm) GAMMA c' g).
Proof. intros _. exact (enc_gamma lm). Qed.
