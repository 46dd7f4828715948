(** * Order of values through the transfer functions in binary32. *)
From Coq Require Import ZArith QArith Qreals Reals Lra Lia List Bool.
From Flocq Require Import Core IEEE754.BinarySingleNaN.
From Verif Require Import Num NumF MVec MTri MOtf F32 F64 RPow RExp PHsvF PLibm.
Local Open Scope R_scope.

(** [ordered lm]: the library's functions never decrease where the real ones increase, and powf(1, y) = 1. *)
Record ordered (lm : libm) : Prop := {
  ord_pow : forall x x' y, fin x -> fin x' -> fin y -> 0 <= B2R x <= B2R x' -> 0 < B2R y -> fin (lm_powf lm x' y) ->
    fin (lm_powf lm x y) /\ 0 <= B2R (lm_powf lm x y) <= B2R (lm_powf lm x' y);
  ord_pow_one : forall x y, fin x -> fin y -> B2R x = 1 -> fin (lm_powf lm x y) /\ B2R (lm_powf lm x y) = 1;
  ord_pow_ten : forall x y y', fin x -> B2R x = 10 -> fin y -> fin y' -> B2R y <= B2R y' -> fin (lm_powf lm x y') ->
    fin (lm_powf lm x y) /\ B2R (lm_powf lm x y) <= B2R (lm_powf lm x y');
  ord_exp : forall x x', fin x -> fin x' -> B2R x <= B2R x' -> fin (lm_expf lm x') -> fin (lm_expf lm x) /\ B2R (lm_expf lm x) <= B2R (lm_expf lm x');
  ord_log : forall x x', fin x -> fin x' -> 0 < B2R x <= B2R x' -> fin (lm_logf lm x) -> fin (lm_logf lm x') -> B2R (lm_logf lm x) <= B2R (lm_logf lm x');
  ord_log10 : forall x x', fin x -> fin x' -> 0 < B2R x <= B2R x' -> fin (lm_log10f lm x) -> fin (lm_log10f lm x') -> B2R (lm_log10f lm x) <= B2R (lm_log10f lm x') }.

(** ** Correctly rounded libraries are accurate and ordered. *)
Definition cr (z : f32) (r : R) : Prop := (Rabs (rnd r) < bpow radix2 128 -> fin z /\ B2R z = rnd r) /\ (bpow radix2 128 <= Rabs (rnd r) -> is_finite z = false).
Lemma cr_exists r : exists z, cr z r.
Proof.
  destruct (Rlt_le_dec (Rabs (rnd r)) (bpow radix2 128)) as [L|L].
  - destruct (f32_surj (rnd r)) as (z & F & V); [apply generic_format_round; auto with typeclass_instances|exact L|]. exists z. split; [auto|lra].
  - exists (B754_infinity false). split; [lra|reflexivity].
Qed.
Lemma cr_approx z r : cr z r -> approx z r.
Proof.
  intros [H _] [L U]. destruct (H (rnd_lt_128 _ U)) as [F V]. split; [exact F|]. rewrite V. eapply Rle_trans; [apply rnd_err_abs|].
  assert (eta <= u * Rabs r). { apply Rle_trans with (u * bpow radix2 (-126)); [|apply Rmult_le_compat_l; [apply Rlt_le, u_pos|exact L]]. unfold u, eta. rewrite <- bpow_plus. apply Rle_refl. }
  pose proof u_pos. pose proof (Rabs_pos r). assert (0 <= u * Rabs r) by (apply Rmult_le_pos; lra). lra.
Qed.
Lemma cr_fin z r : cr z r -> fin z -> Rabs (rnd r) < bpow radix2 128 /\ B2R z = rnd r.
Proof. intros [A B] F. destruct (Rlt_le_dec (Rabs (rnd r)) (bpow radix2 128)) as [L|L]; [split; [exact L|now apply A]|]. unfold fin in F. rewrite (B L) in F. discriminate. Qed.
Lemma cr_le z z' r r' : cr z r -> cr z' r' -> 0 <= r <= r' -> fin z' -> fin z /\ 0 <= B2R z <= B2R z'.
Proof.
  intros C C' [P L] F. destruct (cr_fin z' r' C' F) as [H V]. assert (P0 : 0 <= rnd r) by (rewrite <- rnd_0; now apply rnd_le). pose proof (rnd_le _ _ L) as M.
  destruct C as [A _]. destruct A as [Fz Vz]; [rewrite Rabs_pos_eq in * by lra; lra|]. rewrite Vz, V. split; [exact Fz|lra].
Qed.
Lemma cr_fin_le z z' r r' : cr z r -> cr z' r' -> r <= r' -> fin z -> fin z' -> B2R z <= B2R z'.
Proof. intros C C' L F F'. destruct (cr_fin z r C F) as [_ ->]. destruct (cr_fin z' r' C' F') as [_ ->]. now apply rnd_le. Qed.
Lemma cr_0 z : cr z 0 -> fin z /\ B2R z = 0.
Proof. intros [A _]. rewrite rnd_0 in A. apply A. rewrite Rabs_R0. apply bpow_gt_0. Qed.
Definition powR (x y : R) : R := if Req_EM_T x 0 then 0 else Rpower x y.
Lemma ln_le x y : 0 < x <= y -> ln x <= ln y.
Proof. intros [P [L|L]]; [apply Rlt_le, ln_increasing; assumption|subst; lra]. Qed.
Lemma exp_le x y : x <= y -> exp x <= exp y.
Proof. intros [L|L]; [apply Rlt_le, exp_increasing, L|subst; lra]. Qed.
Lemma ln10_pos : 0 < ln 10. Proof. rewrite <- ln_1. apply ln_increasing; lra. Qed.
Lemma ordered_exists : exists lm, accurate lm /\ ordered lm.
Proof.
  destruct (choice2 (fun x y z => cr z (powR (B2R x) (B2R y)))) as [pw Hp]; [intros; apply cr_exists|].
  destruct (choice1 (B754_zero false) (fun x z => cr z (exp (B2R x)))) as [ex He]; [intros; apply cr_exists|].
  destruct (choice1 (B754_zero false) (fun x z => cr z (ln (B2R x)))) as [lg Hl]; [intros; apply cr_exists|].
  destruct (choice1 (B754_zero false) (fun x z => cr z (log10R (B2R x)))) as [l10 Hl10]; [intros; apply cr_exists|].
  assert (PX : forall x y, 0 < x -> powR x y = Rpower x y) by (intros x y H; unfold powR; destruct (Req_EM_T x 0); [lra|reflexivity]).
  exists (mkLibm pw ex lg l10 (lm_sinf no_libm) (lm_cosf no_libm) (lm_atan2f no_libm) (lm_fmodf no_libm) (lm_cbrtf no_libm) (lm_pow no_libm) (lm_exp no_libm)).
  split; constructor; cbn [lm_powf lm_expf lm_logf lm_log10f].
  - intros x y _ _ H. apply cr_approx. rewrite <- PX by exact H. apply Hp.
  - intros x _. apply cr_approx, He.
  - intros x _ _. apply cr_approx, Hl.
  - intros x _ _. apply cr_approx, Hl10.
  - intros x y _ _ H _. apply cr_0. specialize (Hp x y). unfold powR in Hp. destruct (Req_EM_T (B2R x) 0); [exact Hp|contradiction].
  - intros x _ H. apply cr_0. specialize (Hl x). rewrite H, ln_1 in Hl. exact Hl.
  - intros x _ H. apply cr_0. specialize (Hl10 x). unfold log10R in Hl10. rewrite H, ln_1 in Hl10. unfold Rdiv in Hl10. rewrite Rmult_0_l in Hl10. exact Hl10.
  - intros x x' y _ _ _ H Y F. apply (cr_le _ _ _ _ (Hp x y) (Hp x' y)); [|exact F]. unfold powR.
    destruct (Req_EM_T (B2R x) 0), (Req_EM_T (B2R x') 0); try lra; [split; [lra|apply Rlt_le, Rpower_pos]|]. split; [apply Rlt_le, Rpower_pos|]. apply Rpower_le_l; lra.
  - intros x y _ _ H. specialize (Hp x y). rewrite H, PX, Rpower_1_l in Hp by lra. destruct Hp as [A _].
    assert (R1 : rnd 1 = 1) by (apply rnd_id; apply (fmt_bpow 0); lia). rewrite R1 in A. apply A. rewrite Rabs_R1. apply (bpow_lt radix2 0 128). lia.
  - intros x y y' _ H _ _ L F. destruct (cr_le _ _ _ _ (Hp x y) (Hp x y')) as [A B]; [|exact F|split; [exact A|lra]]. rewrite H, !PX by lra. split; [apply Rlt_le, Rpower_pos|].
    unfold Rpower. apply exp_le. apply Rmult_le_compat_r; [apply Rlt_le, ln10_pos|exact L].
  - intros x x' _ _ L F. destruct (cr_le _ _ _ _ (He x) (He x')) as [A B]; [|exact F|split; [exact A|lra]]. split; [apply Rlt_le, exp_pos|now apply exp_le].
  - intros x x' _ _ L F F'. apply (cr_fin_le _ _ _ _ (Hl x) (Hl x')); try assumption. now apply ln_le.
  - intros x x' _ _ L F F'. apply (cr_fin_le _ _ _ _ (Hl10 x) (Hl10 x')); try assumption. unfold log10R. apply Rmult_le_compat_r; [apply Rlt_le, Rinv_0_lt_compat, ln10_pos|now apply ln_le].
Qed.

(** ** Monotone operations. *)
Definition leF (x y : f32) : Prop := fin x /\ fin y /\ B2R x <= B2R y.
Definition rng (a b : R) (x : f32) : Prop := fin x /\ a <= B2R x <= b.
(** [leB K x x']: moreover both are within [-K, K]. *)
Definition leB (K : R) (x y : f32) : Prop := leF x y /\ - K <= B2R x /\ B2R y <= K.
Lemma leB_w K J x y : leB K x y -> K <= J -> leB J x y. Proof. intros (A & B & C) H. split; [exact A|lra]. Qed.
Lemma leB_c K x : fin x -> Rabs (B2R x) <= K -> leB K x x. Proof. intros F H. apply Rabs_le_inv in H. repeat split; auto; lra. Qed.
Lemma rnd_2 z K : Rabs z <= K -> Rabs (rnd z) <= 2 * K + 1.
Proof.
  intros H. pose proof (rnd_err_abs z) as E. pose proof u16 as U. pose proof eta16 as T. pose proof (Rabs_pos z). replace (rnd z) with ((rnd z - z) + z) by ring.
  eapply Rle_trans; [apply Rabs_triang|]. assert (u * Rabs z <= Rabs z) by (rewrite U; lra). rewrite U in *. lra.
Qed.
Lemma b127 : 1e30 <= bpow radix2 127.
Proof. change (bpow radix2 127) with (IZR (2 ^ 127)). rewrite <- Rinv_1. lra. Qed.
(** Two reals in order and in range, rounded. *)
Lemma leB_rnd (z z' : f32) r r' K : r <= r' -> - K <= r -> r' <= K -> K <= 1e30 ->
  (Rabs r <= bpow radix2 127 -> fin z /\ B2R z = rnd r) -> (Rabs r' <= bpow radix2 127 -> fin z' /\ B2R z' = rnd r') -> leB (2 * K + 1) z z'.
Proof.
  intros O L U B H H'. pose proof b127. assert (A : Rabs r <= K) by (apply Rabs_le; lra). assert (A' : Rabs r' <= K) by (apply Rabs_le; lra).
  destruct H as [F V]; [lra|]. destruct H' as [F' V']; [lra|]. apply rnd_2 in A, A'. apply Rabs_le_inv in A, A'.
  split; [split; [exact F|split; [exact F'|rewrite V, V'; now apply rnd_le]]|]. rewrite V, V'. lra.
Qed.
Section F.
Context (lm : libm).
Notation N := (FN lm).
Lemma le_refl x : fin x -> leF x x. Proof. intros F. repeat split; auto. lra. Qed.
Lemma lb_add K J x x' y y' : leB K x x' -> leB J y y' -> K + J <= 1e30 -> leB (2 * (K + J) + 1) (@fadd N x y) (@fadd N x' y').
Proof.
  intros ((A & B & C) & L & U) ((D & E & G) & L' & U') H. apply (leB_rnd _ _ (B2R x + B2R y) (B2R x' + B2R y')); try lra; apply add_ok; assumption.
Qed.
Lemma lb_sub K J x x' y y' : leB K x x' -> leB J y' y -> K + J <= 1e30 -> leB (2 * (K + J) + 1) (@fsub N x y) (@fsub N x' y').
Proof.
  intros ((A & B & C) & L & U) ((D & E & G) & L' & U') H. apply (leB_rnd _ _ (B2R x - B2R y) (B2R x' - B2R y')); try lra; apply sub_ok; assumption.
Qed.
(** by a non-negative constant *)
Lemma lb_mul K C c x x' : fin c -> 0 <= B2R c <= C -> leB K x x' -> C * K <= 1e30 -> leB (2 * (C * K) + 1) (@fmul N c x) (@fmul N c x').
Proof.
  intros Fc Pc ((A & B & O) & L & U) H. apply (leB_rnd _ _ (B2R c * B2R x) (B2R c * B2R x')); try apply mul_ok; try assumption; try nra.
Qed.
Lemma lb_mul_r K C c x x' : fin c -> 0 <= B2R c <= C -> leB K x x' -> C * K <= 1e30 -> leB (2 * (C * K) + 1) (@fmul N x c) (@fmul N x' c).
Proof.
  intros Fc Pc ((A & B & O) & L & U) H. apply (leB_rnd _ _ (B2R x * B2R c) (B2R x' * B2R c)); try apply mul_ok; try assumption; try nra.
Qed.
Lemma lb_mul2 K J x x' y y' : leB K x x' -> leB J y y' -> 0 <= B2R x -> 0 <= B2R y -> K * J <= 1e30 -> leB (2 * (K * J) + 1) (@fmul N x y) (@fmul N x' y').
Proof.
  intros ((A & B & C) & L & U) ((D & E & G) & L' & U') P Q H. apply (leB_rnd _ _ (B2R x * B2R y) (B2R x' * B2R y')); try apply mul_ok; try assumption; try nra.
Qed.
Lemma lb_div K C c x x' : 0 < C -> / C <= B2R c -> leB K x x' -> K * C <= 1e30 -> leB (2 * (K * C) + 1) (@fdiv N x c) (@fdiv N x' c).
Proof.
  intros PC Hc ((A & B & O) & L & U) H. assert (IC : 0 < / C) by (now apply Rinv_0_lt_compat). assert (Pc : 0 < B2R c) by lra.
  assert (I : 0 < / B2R c <= C). { split; [now apply Rinv_0_lt_compat|]. rewrite <- (Rinv_inv C). apply Rinv_le; lra. }
  apply (leB_rnd _ _ (B2R x / B2R c) (B2R x' / B2R c)); try (apply div_ok; [assumption|lra]); unfold Rdiv; try nra.
Qed.
Lemma lb_div2 K C x x' y y' : leB K x x' -> leF y' y -> 0 <= B2R x -> 0 < C -> / C <= B2R y' -> K * C <= 1e30 -> leB (2 * (K * C) + 1) (@fdiv N x y) (@fdiv N x' y').
Proof.
  intros ((A & B & O) & L & U) (D & E & G) P PC Hc H. assert (IC : 0 < / C) by (now apply Rinv_0_lt_compat). assert (Pc : 0 < B2R y') by lra.
  assert (I : 0 < / B2R y <= / B2R y') by (split; [apply Rinv_0_lt_compat; lra|apply Rinv_le; lra]).
  assert (I' : / B2R y' <= C). { rewrite <- (Rinv_inv C). apply Rinv_le; lra. }
  apply (leB_rnd _ _ (B2R x / B2R y) (B2R x' / B2R y')); try (apply div_ok; [assumption|lra]); unfold Rdiv; try nra.
Qed.
Lemma lb_sqrt K x x' : leB K x x' -> 0 <= B2R x -> K <= 1e29 -> leB (2 * (K + 1) + 1) (@fsqrt N x) (@fsqrt N x').
Proof.
  intros ((A & B & O) & L & U) P H. pose proof (sqrt_pos (B2R x)). assert (S : sqrt (B2R x') <= K + 1).
  { rewrite <- (sqrt_square (K + 1)) by lra. apply sqrt_le_1; nra. }
  apply (leB_rnd _ _ (sqrt (B2R x)) (sqrt (B2R x'))); try lra; [apply sqrt_le_1; lra|intros _; apply sqrt_ok; [exact A|exact P]|intros _; apply sqrt_ok; [exact B|lra]].
Qed.
(** ** The library. *)
Context (Acc : accurate lm) (Ord : ordered lm).
Lemma lb_pow y x x' : fin y -> 0 < B2R y -> leF x x' -> 0 <= B2R x -> B2R x' <= 1 -> leB 1 (@fpow N x y) (@fpow N x' y) /\ 0 <= B2R (@fpow N x y).
Proof.
  intros Fy Py (A & B & O) P L. assert (F1 : fin (@flit N 1%dec) /\ B2R (@flit N 1%dec) = 1) by f32_val. destruct F1 as [F1 V1].
  destruct (ord_pow_one lm Ord _ y F1 Fy V1) as [G W]. destruct (ord_pow lm Ord x' _ y B F1 Fy ltac:(rewrite V1; lra) Py G) as [Fx' Hx'].
  destruct (ord_pow lm Ord x x' y A B Fy ltac:(lra) Py Fx') as [Fx Hx]. rewrite W in Hx'.
  change (@fpow N x y) with (lm_powf lm x y). change (@fpow N x' y) with (lm_powf lm x' y). split; [|lra]. split; [split; [exact Fx|split; [exact Fx'|lra]]|lra].
Qed.
(** ** Clipped functions of two pieces. *)
Section P.
Context (T : f32) (lo hi : f32 -> f32).
Definition clip2 (x : f32) : f32 :=
  if @fltb N x (@flit N 0%dec) then @flit N 0%dec else if @fltb N (@flit N 1%dec) x then @flit N 1%dec else if @fltb N x T then lo x else hi x.
Context (FT : fin T).
Context (Hlo : forall x x', leF x x' -> 0 <= B2R x -> B2R x' < B2R T -> leF (lo x) (lo x')).
Context (Rlo : forall x, rng 0 1 x -> B2R x < B2R T -> rng 0 1 (lo x)).
Context (Hhi : forall x x', leF x x' -> B2R T <= B2R x -> 0 <= B2R x -> B2R x' <= 1 -> leF (hi x) (hi x')).
Context (Rhi : forall x, rng 0 1 x -> B2R T <= B2R x -> rng 0 1 (hi x)).
Lemma zero_one : (fin (@flit N 0%dec) /\ B2R (@flit N 0%dec) = 0) /\ (fin (@flit N 1%dec) /\ B2R (@flit N 1%dec) = 1). Proof. split; f32_val. Qed.
Lemma clip2_rng x : fin x -> rng 0 1 (clip2 x).
Proof.
  intros Fx. destruct zero_one as [[F0 V0] [F1 V1]]. unfold clip2. rewrite !ltb_ok by assumption. rewrite V0, V1.
  destruct (Rlt_bool_spec (B2R x) 0); [split; [exact F0|rewrite V0; lra]|]. destruct (Rlt_bool_spec 1 (B2R x)); [split; [exact F1|rewrite V1; lra]|].
  assert (rng 0 1 x) by (split; [exact Fx|lra]). destruct (Rlt_bool_spec (B2R x) (B2R T)); [now apply Rlo|now apply Rhi].
Qed.
Lemma clip2_side x x' : leF x x' -> (B2R x' < B2R T \/ B2R T <= B2R x) -> leF (clip2 x) (clip2 x').
Proof.
  intros (Fx & Fx' & O) S. destruct (clip2_rng x Fx) as [G B]. destruct (clip2_rng x' Fx') as [G' B']. split; [exact G|]. split; [exact G'|]. revert B B'.
  destruct zero_one as [[F0 V0] [F1 V1]]. unfold clip2. rewrite !ltb_ok by assumption. rewrite V0, V1.
  destruct (Rlt_bool_spec (B2R x) 0); [rewrite V0; lra|]. rewrite (Rlt_bool_false (B2R x') 0) by lra.
  destruct (Rlt_bool_spec 1 (B2R x')); [rewrite V1; lra|]. rewrite (Rlt_bool_false 1 (B2R x)) by lra. destruct (Rlt_bool_spec (B2R x) (B2R T)).
  - rewrite Rlt_bool_true by lra. intros _ _. apply Hlo; [repeat split; auto|lra|lra].
  - rewrite Rlt_bool_false by lra. intros _ _. apply Hhi; [repeat split; auto|lra|lra|lra].
Qed.
Lemma clip2_all m x x' : leF x x' -> (forall z, rng 0 1 z -> B2R z < B2R T -> B2R (lo z) <= m) -> (forall z, rng 0 1 z -> B2R T <= B2R z -> m <= B2R (hi z)) -> leF (clip2 x) (clip2 x').
Proof.
  intros O Ml Mh. destruct (Rlt_le_dec (B2R x') (B2R T)) as [L|L]; [now apply clip2_side; [|left]|]. destruct (Rle_lt_dec (B2R T) (B2R x)) as [L'|L']; [now apply clip2_side; [|right]|].
  destruct O as (Fx & Fx' & O). destruct (clip2_rng x Fx) as [G B]. destruct (clip2_rng x' Fx') as [G' B']. split; [exact G|]. split; [exact G'|]. revert B B'.
  destruct zero_one as [[F0 V0] [F1 V1]]. unfold clip2. rewrite !ltb_ok by assumption. rewrite V0, V1.
  destruct (Rlt_bool_spec (B2R x) 0); [rewrite V0; lra|]. rewrite (Rlt_bool_false (B2R x') 0) by lra.
  destruct (Rlt_bool_spec 1 (B2R x')); [rewrite V1; lra|]. rewrite (Rlt_bool_false 1 (B2R x)) by lra. rewrite Rlt_bool_true, Rlt_bool_false by lra. intros _ _.
  apply Rle_trans with m; [apply Ml; [split; [exact Fx|lra]|lra]|apply Mh; [split; [exact Fx'|lra]|lra]].
Qed.
Lemma clip2_slack m s x x' : 0 <= s -> leF x x' -> (forall z, rng 0 1 z -> B2R z < B2R T -> B2R (lo z) <= m) -> (forall z, rng 0 1 z -> B2R T <= B2R z -> m - s <= B2R (hi z)) ->
  fin (clip2 x) /\ fin (clip2 x') /\ B2R (clip2 x) <= B2R (clip2 x') + s.
Proof.
  intros S O Ml Mh. assert (K : leF (clip2 x) (clip2 x') -> fin (clip2 x) /\ fin (clip2 x') /\ B2R (clip2 x) <= B2R (clip2 x') + s) by (intros (A & B & C); repeat split; auto; lra).
  destruct (Rlt_le_dec (B2R x') (B2R T)) as [L|L]; [apply K, clip2_side; [exact O|now left]|]. destruct (Rle_lt_dec (B2R T) (B2R x)) as [L'|L']; [apply K, clip2_side; [exact O|now right]|]. clear K.
  destruct O as (Fx & Fx' & O). destruct (clip2_rng x Fx) as [G B]. destruct (clip2_rng x' Fx') as [G' B']. split; [exact G|]. split; [exact G'|]. revert B B'.
  destruct zero_one as [[F0 V0] [F1 V1]]. unfold clip2. rewrite !ltb_ok by assumption. rewrite V0, V1.
  destruct (Rlt_bool_spec (B2R x) 0); [rewrite V0; lra|]. rewrite (Rlt_bool_false (B2R x') 0) by lra.
  destruct (Rlt_bool_spec 1 (B2R x')); [rewrite V1; lra|]. rewrite (Rlt_bool_false 1 (B2R x)) by lra. rewrite Rlt_bool_true, Rlt_bool_false by lra. intros _ _.
  assert (B2R (lo x) <= m) by (apply Ml; [split; [exact Fx|lra]|lra]). assert (m - s <= B2R (hi x')) by (apply Mh; [split; [exact Fx'|lra]|lra]). lra.
Qed.
End P.
End F.
