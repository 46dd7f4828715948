(** * Accuracy of the CIE 2000 difference in binary32: chroma, the factor G, and the weights of lightness and chroma. *)
From Coq Require Import ZArith Reals Lra Lia List Bool Psatz.
From Flocq Require Import Core IEEE754.BinarySingleNaN.
From Verif Require Import Num NumR NumF MVec MDelta F32 RPow PHsvF PYxyF PLibm PPowF PNearF PNearF2 PRelF SpecDelta PE00 PE00b PObsF.
Local Open Scope R_scope.

(** Trigonometry, remainder and small exponentials of the C library: absolute errors of a few units in the last place of 1. *)
Record accurate_trig (lm : libm) : Prop := {
  tr_sin : forall x, fin x -> Rabs (B2R x) <= 8 -> fin (lm_sinf lm x) /\ Rabs (B2R (lm_sinf lm x) - sin (B2R x)) <= 4 * u;
  tr_cos : forall x, fin x -> Rabs (B2R x) <= 64 -> fin (lm_cosf lm x) /\ Rabs (B2R (lm_cosf lm x) - cos (B2R x)) <= 4 * u;
  tr_atan2 : forall y x, fin y -> fin x -> B2R y <> 0 -> fin (lm_atan2f lm y x) /\ Rabs (B2R (lm_atan2f lm y x) - R_atan2 (B2R y) (B2R x)) <= 16 * u;
  tr_fmod : forall x y, fin x -> fin y -> 0 <= B2R x < 2 * B2R y -> fin (lm_fmodf lm x y) /\
    B2R (lm_fmodf lm x y) = if Rlt_dec (B2R x) (B2R y) then B2R x else B2R x - B2R y;
  tr_exp : forall x, fin x -> B2R x <= 0 -> fin (lm_expf lm x) /\ Rabs (B2R (lm_expf lm x) - exp (B2R x)) <= 4 * u }.

Lemma sqrt_half a b k : 0 < b -> 0 <= k <= / 100 -> Rabs (a - b) <= k * b -> Rabs (sqrt a - sqrt b) <= 0.51 * k * sqrt b.
Proof.
  intros B K H. apply Rabs_le_inv in H. assert (A : 0 < a) by nra. pose proof (sqrt_lt_R0 a A) as SA. pose proof (sqrt_lt_R0 b B) as SB.
  assert (E : sqrt a * sqrt a = a) by (apply sqrt_def; lra). assert (F : sqrt b * sqrt b = b) by (apply sqrt_def; lra).
  assert (L : 0.98 * sqrt b <= sqrt a).
  { apply Rnot_lt_le. intros C. assert (sqrt a * sqrt a < (0.98 * sqrt b) * (0.98 * sqrt b)) by (apply Rmult_le_0_lt_compat; lra). nra. }
  apply Rmult_le_reg_r with (sqrt a + sqrt b); [lra|]. rewrite <- (Rabs_pos_eq (sqrt a + sqrt b)) at 1 by lra. rewrite <- Rabs_mult.
  replace ((sqrt a - sqrt b) * (sqrt a + sqrt b)) with (a - b) by (rewrite <- E at 1; rewrite <- F at 1; ring).
  apply Rle_trans with (k * b); [apply Rabs_le; lra|]. rewrite <- F at 1.
  replace (k * (sqrt b * sqrt b)) with (k * sqrt b * sqrt b) by ring. replace (0.51 * k * sqrt b * (sqrt a + sqrt b)) with (k * sqrt b * (0.51 * (sqrt a + sqrt b))) by ring.
  apply Rmult_le_compat_l; [apply Rmult_le_pos; lra|]. lra.
Qed.

Section F.
Context (lm : libm).
Notation N := (FN lm).
Notation l_ := (@flit (FN lm)).
Lemma rel_sqrt x r k : rel x r k -> mid (sqrt r) -> k <= / 100 -> rel (@fsqrt N x) (sqrt r) (0.51 * k + 1.01 * u).
Proof.
  intros Rx M K. pose proof (rel_k _ _ _ Rx) as k0. destruct Rx as (F & R & H).
  pose proof (sqrt_half _ _ _ R (conj k0 K) H) as S. pose proof (sqrt_lt_R0 r R) as SR.
  assert (X0 : 0 <= B2R x). { apply Rabs_le_inv in H. nra. }
  set (d := sqrt (B2R x) / sqrt r - 1). assert (E : sqrt (B2R x) = sqrt r * (1 + d)) by (unfold d; field; lra).
  assert (D : Rabs d <= 0.51 * k).
  { apply Rmult_le_reg_r with (sqrt r); [lra|]. rewrite <- (Rabs_pos_eq (sqrt r)) at 1 by lra. rewrite <- Rabs_mult.
    replace (d * sqrt r) with (sqrt (B2R x) - sqrt r) by (unfold d; field; lra). exact S. }
  destruct (rnd_mid _ (sqrt r) d M ltac:(lra) E) as (_ & t & T & V'). destruct (sqrt_ok lm x F X0) as [F' V]. rewrite V' in V.
  eapply rel_le; [eapply rel_of; [exact F'|exact SR| |exact V]; eapply abs_comb; [exact D|exact T|reflexivity]|]. pose proof u16 as U. rewrite U in *. nra.
Qed.
Lemma near_div_rel x y r s e k : near x r e -> rel y s k -> 1 <= s -> k <= / 100 -> Rabs r <= 1000000 -> e <= 1000 ->
  near (@fdiv N x y) (r / s) (1.02 * e + 1.02 * (k + u) * Rabs (r / s) + eta).
Proof.
  intros Nx Ry S K A E1. pose proof (near_nonneg _ _ _ Nx) as e0. pose proof (rel_k _ _ _ Ry) as k0. pose proof u16 as U. pose proof eta16 as Et.
  destruct (rel_ex _ _ _ Ry) as (b & B & Eb). assert (B' := Rabs_le_inv _ _ B). destruct Nx as [Fx Hx], Ry as (Fy & _ & _).
  set (Y := B2R y) in *. assert (Y1 : 0.99 <= Y) by (rewrite Eb; nra).
  assert (IY : 0 < / Y <= / 0.99). { split; [apply Rinv_0_lt_compat; lra|apply Rinv_le_contravar; lra]. }
  assert (D : Rabs (B2R x / Y - r / s) <= 1.0102 * e + 1.0102 * k * Rabs (r / s)).
  { replace (B2R x / Y - r / s) with ((B2R x - r) * / Y + (r / s) * (- b) * / (1 + b)) by (rewrite Eb; field; lra).
    eapply Rle_trans; [apply Rabs_triang|]. apply Rplus_le_compat.
    - rewrite Rabs_mult, (Rabs_pos_eq (/ Y)) by lra. rewrite Rmult_comm. apply Rmult_le_compat; try lra; apply Rabs_pos.
    - rewrite !Rabs_mult, Rabs_Ropp, (Rabs_pos_eq (/ (1 + b))) by (left; apply Rinv_0_lt_compat; lra).
      assert (/ (1 + b) <= 1.0102). { apply Rmult_le_reg_l with (1 + b); [lra|]. rewrite Rinv_r by lra. lra. }
      assert (0 < / (1 + b)) by (apply Rinv_0_lt_compat; lra).
      replace (1.0102 * k * Rabs (r / s)) with (Rabs (r / s) * k * 1.0102) by ring. apply Rmult_le_compat; try lra; [apply Rmult_le_pos; apply Rabs_pos|].
      apply Rmult_le_compat_l; [apply Rabs_pos|exact B]. }
  assert (Q : Rabs (r / s) <= 1000000). { unfold Rdiv. rewrite Rabs_mult, (Rabs_pos_eq (/ s)) by (left; apply Rinv_0_lt_compat; lra). assert (/ s <= 1) by (rewrite <- Rinv_1; apply Rinv_le_contravar; lra). pose proof (Rabs_pos r). assert (0 < / s) by (apply Rinv_0_lt_compat; lra). nra. }
  assert (Z : Rabs (B2R x / Y) <= Rabs (r / s) + (1.0102 * e + 1.0102 * k * Rabs (r / s))).
  { replace (B2R x / Y) with (r / s + (B2R x / Y - r / s)) by ring. eapply Rle_trans; [apply Rabs_triang|]. lra. }
  pose proof (Rabs_pos (r / s)) as Q0. pose proof b40 as B40.
  assert (KQ : k * Rabs (r / s) <= / 100 * Rabs (r / s)) by (apply Rmult_le_compat_r; lra).
  destruct (div_ok lm x y Fx ltac:(fold Y; lra)) as [F V]; [fold Y; nra|]. split; [exact F|]. rewrite V. fold Y.
  pose proof (rnd_err_abs (B2R x / Y)) as R. replace (rnd (B2R x / Y) - r / s) with ((rnd (B2R x / Y) - B2R x / Y) + (B2R x / Y - r / s)) by ring.
  eapply Rle_trans; [apply Rabs_triang|]. rewrite U in *. nra.
Qed.

Lemma l1 : fin (l_ 1%dec) /\ B2R (l_ 1%dec) = 1. Proof. f32_val. Qed.
Lemma l2 : fin (l_ 2%dec) /\ B2R (l_ 2%dec) = 2. Proof. f32_val. Qed.
Lemma l7 : fin (l_ 7%dec) /\ B2R (l_ 7%dec) = 7. Proof. f32_val. Qed.
Lemma p25 : rel (pow25_7 N) (25 ^ 7) u.
Proof.
  assert (E : fin (pow25_7 N) /\ B2R (pow25_7 N) = 6103515648). { unfold pow25_7. f32_val. }
  destruct E as [F E]. split; [exact F|]. split; [lra|]. rewrite E, u16. apply Rabs_le. lra.
Qed.
(** [sqrt (x² + s²)] where [x] approximates [r] relatively and [s] is exact. *)
Lemma chroma x b r s k : near x r (k * Rabs r) -> fin b -> B2R b = s -> 0 <= k <= 100 * u -> Rabs r <= 1000 -> Rabs s <= 1000 -> / 64 <= r ^ 2 + s ^ 2 ->
  rel (@fsqrt N (@fadd N (@fmul N x x) (@fmul N b b))) (sqrt (r ^ 2 + s ^ 2)) (1.03 * k + 2.2 * u).
Proof.
  intros Nx Fb Vb K R S L. pose proof u16 as U. pose proof eta16 as Et.
  assert (Nb : near b s 0) by (split; [exact Fb|rewrite Vb, Rminus_diag_eq, Rabs_R0 by reflexivity; lra]).
  pose proof (Rabs_pos r) as r0. pose proof (Rabs_pos s) as s0.
  assert (kr : k * Rabs r <= 0.01 * Rabs r) by (apply Rmult_le_compat_r; lra).
  assert (Mx := near_mul lm x x r r _ _ (Rabs r) (Rabs r) Nx Nx (Rle_refl _) (Rle_refl _) ltac:(nra)).
  assert (Mb := near_mul lm b b s s _ _ (Rabs s) (Rabs s) Nb Nb (Rle_refl _) (Rle_refl _) ltac:(nra)).
  assert (Q : Rabs r * Rabs r = r * r) by (rewrite <- Rabs_mult; apply Rabs_pos_eq; nra). assert (Q' : Rabs s * Rabs s = s * s) by (rewrite <- Rabs_mult; apply Rabs_pos_eq; nra).
  replace (r ^ 2 + s ^ 2) with (r * r + s * s) in * by ring.
  assert (Mx' : near (@fmul N x x) (r * r) ((2.01 * k + 1.01 * u) * (r * r) + eta)).
  { eapply near_le; [exact Mx|]. replace ((Rabs r + k * Rabs r) * (Rabs r + k * Rabs r)) with (r * r * ((1 + k) * (1 + k))) by (rewrite <- Q; ring).
    replace (k * Rabs r * Rabs r + Rabs r * (k * Rabs r) + k * Rabs r * (k * Rabs r)) with (r * r * (2 * k + k * k)) by (rewrite <- Q; ring).
    assert (0 <= r * r) by nra. assert (u * ((1 + k) * (1 + k)) <= u * 1.01) by (apply Rmult_le_compat_l; nra). assert (k * k <= 0.01 * k) by nra. nra. }
  assert (Mb' : near (@fmul N b b) (s * s) (u * (s * s) + eta)).
  { eapply near_le; [exact Mb|]. rewrite !Rplus_0_r, Q'. lra. }
  clear Mx Mb. set (X := r * r) in *. set (Y := s * s) in *. assert (0 <= X) by (unfold X; nra). assert (0 <= Y) by (unfold Y; nra). assert (X <= 1000000) by (rewrite <- Q; nra). assert (Y <= 1000000) by (rewrite <- Q'; nra). clearbody X Y.
  assert (kX : k * X <= 100 * u * X) by (apply Rmult_le_compat_r; lra).
  assert (A := near_add lm _ _ _ _ _ _ (X + Y) Mx' Mb' ltac:(rewrite Rabs_pos_eq; lra) ltac:(rewrite U in *; nra)).
  destruct A as [FA HA].
  assert (Rs : rel (@fadd N (@fmul N x x) (@fmul N b b)) (X + Y) (2.011 * k + 2.02 * u)).
  { split; [exact FA|]. split; [lra|]. eapply Rle_trans; [exact HA|]. assert (0 <= k * Y) by nra. rewrite U in *. nra. }
  eapply rel_le; [apply (rel_sqrt _ _ _ Rs)|rewrite U; lra].
  - destruct b100 as (B0 & _ & _). split.
    + apply Rle_trans with (/ 8); [change (/ 8) with (bpow radix2 (-3)); apply bpow_le; lia|]. replace (/ 8) with (sqrt (/ 64)); [apply sqrt_le_1; lra|]. replace (/ 64) with (/ 8 * / 8) by lra. apply sqrt_square. lra.
    + apply Rle_trans with (sqrt (2000 * 2000)); [apply sqrt_le_1; lra|]. rewrite sqrt_square by lra. apply Rle_trans with (bpow radix2 11); [cbn; lra|apply bpow_le; lia].
  - rewrite U in *. lra.
Qed.
Lemma near_v x v : fin x /\ B2R x = v -> near x v 0.
Proof. intros [A <-]. now apply near_self. Qed.
Lemma near_half x r e A : near x r e -> Rabs r <= A -> A + e <= 100000 -> near (@fdiv N x (l_ 2%dec)) (r / 2) (e / 2 + u * (A + e) / 2 + eta).
Proof.
  intros Nx HA E. pose proof (near_nonneg _ _ _ Nx) as e0. pose proof (Rabs_pos r) as r0.
  eapply near_le; [apply (near_div lm x (l_ 2%dec) r 2 e 0 (A / 2) 2 Nx (near_v _ _ l2))|].
  - rewrite Rabs_pos_eq; lra.
  - lra.
  - unfold Rdiv. rewrite Rabs_mult, (Rabs_pos_eq (/ 2)) by lra. lra.
  - cbv zeta. lra.
  - cbv zeta. right. field.
Qed.
Lemma rel_half x r k : rel x r k -> mid (r / 2) -> k <= / 100 -> rel (@fdiv N x (l_ 2%dec)) (r / 2) (k + 1.01 * u).
Proof.
  intros Rx M K. pose proof (rel_k _ _ _ Rx) as k0. eapply rel_le; [apply (rel_div lm _ _ _ 2 _ 0 Rx); [|exact M|exact K|lra]|rewrite u16; nra].
  destruct l2 as [F V]. split; [exact F|]. split; [lra|]. rewrite V, Rminus_diag_eq, Rabs_R0 by reflexivity. lra.
Qed.
Lemma mid_ok r : / 1000000000000000000000000 <= r <= 1000000000000000000000000 -> mid r.
Proof.
  intros [A B]. split.
  - apply Rle_trans with (2 := A). change (-100)%Z with (- (100))%Z. rewrite bpow_opp. apply Rinv_le_contravar; [lra|]. apply IZR_le. vm_compute. discriminate.
  - apply Rle_trans with (1 := B). apply IZR_le. vm_compute. discriminate.
Qed.
Lemma rel_mean x y r s k : rel x r k -> rel y s k -> / 8 <= r <= 1000 -> / 8 <= s <= 1000 -> k <= 100 * u ->
  rel (@fdiv N (@fadd N x y) (l_ 2%dec)) ((r + s) / 2) (k + 2.02 * u).
Proof.
  intros Rx Ry R S K. pose proof (rel_k _ _ _ Rx) as k0. pose proof u16 as U.
  assert (A := rel_add lm _ _ _ _ _ Rx Ry ltac:(apply mid_ok; lra) ltac:(lra)).
  eapply rel_le; [apply (rel_half _ _ _ A); [apply mid_ok; lra|rewrite U in *; nra]|rewrite U in *; nra].
Qed.
Context (Acc : accurate lm).
Lemma pow7_bounds r : / 8 <= r <= 256 -> / 10000000 <= r ^ 7 <= 100000000000000000.
Proof.
  intros H. split.
  - apply Rle_trans with ((/ 8) ^ 7); [lra|apply pow_incr; lra].
  - apply Rle_trans with (256 ^ 7); [apply pow_incr; lra|lra].
Qed.
Lemma rel_rho c r k : rel c r k -> / 8 <= r <= 256 -> k <= 40 * u ->
  rel (@fsqrt N (@fdiv N (@fpow N c (l_ 7%dec)) (@fadd N (@fpow N c (l_ 7%dec)) (pow25_7 N)))) (rho r) (7.35 * k + 6.5 * u).
Proof.
  intros Rc R K. pose proof (rel_k _ _ _ Rc) as k0. pose proof u16 as U.
  assert (E7 : Rpower r 7 = r ^ 7). { replace 7 with (INR 7) at 1 by (cbn; lra). apply Rpower_pow. lra. }
  pose proof (pow7_bounds r R) as B7.
  assert (P : rel (@fpow N c (l_ 7%dec)) (r ^ 7) (4.1 * u + 7.085 * k)).
  { rewrite <- E7. eapply rel_le; [apply (rel_pow lm Acc c (l_ 7%dec) r 7 k 0 0 Rc)|].
    - exact (near_v _ _ l7).
    - rewrite U in *; lra.
    - lra.
    - lra.
    - rewrite Rabs_pos_eq by lra. rewrite U in *; lra.
    - rewrite E7. apply mid_ok. lra.
    - rewrite Rabs_pos_eq by lra. nra. }
  set (C7 := @fpow N c _) in *. set (k7 := 4.1 * u + 7.085 * k) in *.
  assert (k7b : u <= k7 <= 300 * u) by (unfold k7; lra).
  assert (A := rel_add lm _ _ _ _ k7 P (rel_le _ _ _ _ p25 (proj1 k7b)) ltac:(apply mid_ok; lra) ltac:(rewrite U in *; lra)).
  assert (Q0 : 0 < 25 ^ 7) by lra.
  assert (Qb : / 1000000000000000000 <= r ^ 7 / (r ^ 7 + 25 ^ 7) <= 1).
  { split; [apply Rmult_le_reg_r with (r ^ 7 + 25 ^ 7)|apply Rmult_le_reg_r with (r ^ 7 + 25 ^ 7)]; try lra; unfold Rdiv; rewrite ?(Rmult_assoc (r ^ 7)), ?Rinv_l by lra; lra. }
  assert (D := rel_div lm _ _ _ _ _ _ P A ltac:(apply mid_ok; lra) ltac:(rewrite U in *; lra) ltac:(rewrite U in *; nra)).
  assert (D' : rel (@fdiv N C7 (@fadd N C7 (pow25_7 N))) (r ^ 7 / (r ^ 7 + 25 ^ 7)) (10.4 * u + 14.3 * k)).
  { eapply rel_le; [exact D|]. unfold k7. rewrite U in *. nra. }
  eapply rel_le; [apply (rel_sqrt _ _ _ D')|rewrite U in *; lra].
  - apply mid_ok. split.
    + apply Rle_trans with (sqrt (/ 1000000000 * / 1000000000)); [rewrite sqrt_square; lra|]. apply sqrt_le_1; lra.
    + apply Rle_trans with (sqrt 1); [apply sqrt_le_1; lra|rewrite sqrt_1; lra].
  - rewrite U in *. lra.
Qed.
Lemma near_G c r k : rel c r k -> / 8 <= r <= 256 -> k <= 40 * u -> near (e00_G N c) (gR r) (3.7 * k + 4.4 * u).
Proof.
  intros Rc R K. pose proof (rel_k _ _ _ Rc) as k0. pose proof u16 as U. pose proof eta16 as Et.
  assert (S := rel_near _ _ _ (rel_rho c r k Rc R K)). pose proof (rho_range r ltac:(lra)) as Rr.
  unfold e00_G. cbv zeta. set (x := @fsqrt N _) in *.
  assert (S' : near x (rho r) (7.35 * k + 6.5 * u)). { eapply near_le; [exact S|]. nra. }
  assert (D := near_sub lm _ _ 1 (rho r) 0 _ 1 (near_v _ _ l1) S' ltac:(rewrite Rabs_pos_eq; lra) ltac:(rewrite U in *; lra)).
  eapply near_le; [eapply near_eq; [apply (near_half _ _ _ 1 D)|reflexivity]|].
  - rewrite Rabs_pos_eq; lra.
  - rewrite U in *. nra.
  - rewrite U in *. nra.
Qed.
End F.
