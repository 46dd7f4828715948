(** * Absolute error calculus for binary32 expressions. *)
From Coq Require Import ZArith Reals Lra Lia List Bool.
From Flocq Require Import Core IEEE754.BinarySingleNaN.
From Verif Require Import Num NumF F32 RPow PHsvF PLibm PPowF.
Local Open Scope R_scope.

Definition near (x : f32) (r e : R) : Prop := fin x /\ Rabs (B2R x - r) <= e.
Lemma near_self x : fin x -> near x (B2R x) 0.
Proof. intros H. split; [exact H|]. replace (B2R x - B2R x) with 0 by ring. rewrite Rabs_R0. lra. Qed.
Lemma near_lit x v r e : fin x /\ B2R x = v -> Rabs (v - r) <= e -> near x r e.
Proof. intros [A <-] H. now split. Qed.
Lemma near_le x r e e' : near x r e -> e <= e' -> near x r e'.
Proof. intros [A B] H. split; [exact A|lra]. Qed.
Lemma near_eq x r r' e : near x r e -> r = r' -> near x r' e.
Proof. now intros H <-. Qed.
Lemma near_nonneg x r e : near x r e -> 0 <= e.
Proof. intros [_ H]. pose proof (Rabs_pos (B2R x - r)). lra. Qed.
Lemma near_abs x r e A : near x r e -> Rabs r <= A -> Rabs (B2R x) <= A + e.
Proof. intros [_ H] HA. replace (B2R x) with (r + (B2R x - r)) by ring. eapply Rle_trans; [apply Rabs_triang|lra]. Qed.

Section F.
Context (lm : libm).
Notation N := (FN lm).
Lemma b40 : 1000000000000 <= bpow radix2 127. Proof. apply Rlt_le, b127_big. Qed.

Lemma near_add x y r s e f A : near x r e -> near y s f -> Rabs (r + s) <= A -> A + e + f <= 1000000000000 ->
  near (@fadd N x y) (r + s) (e + f + u * (A + e + f)).
Proof.
  intros [Fx Hx] [Fy Hy] HA L. pose proof b40 as B. pose proof F32.u_pos as U.
  assert (D : Rabs (B2R x + B2R y - (r + s)) <= e + f).
  { replace (B2R x + B2R y - (r + s)) with ((B2R x - r) + (B2R y - s)) by ring. eapply Rle_trans; [apply Rabs_triang|lra]. }
  assert (M : Rabs (B2R x + B2R y) <= A + e + f).
  { replace (B2R x + B2R y) with ((r + s) + (B2R x + B2R y - (r + s))) by ring. eapply Rle_trans; [apply Rabs_triang|lra]. }
  destruct (add_ok lm x y Fx Fy) as [F1 V1]; [lra|]. split; [exact F1|]. rewrite V1.
  pose proof (rnd_add_err _ _ (fmt_B2R x) (fmt_B2R y)) as E.
  replace (rnd (B2R x + B2R y) - (r + s)) with ((rnd (B2R x + B2R y) - (B2R x + B2R y)) + (B2R x + B2R y - (r + s))) by ring.
  eapply Rle_trans; [apply Rabs_triang|]. assert (u * Rabs (B2R x + B2R y) <= u * (A + e + f)) by (apply Rmult_le_compat_l; lra). lra.
Qed.
Lemma near_sub x y r s e f A : near x r e -> near y s f -> Rabs (r - s) <= A -> A + e + f <= 1000000000000 ->
  near (@fsub N x y) (r - s) (e + f + u * (A + e + f)).
Proof.
  intros [Fx Hx] [Fy Hy] HA L. pose proof b40 as B. pose proof F32.u_pos as U.
  assert (D : Rabs (B2R x - B2R y - (r - s)) <= e + f).
  { replace (B2R x - B2R y - (r - s)) with ((B2R x - r) - (B2R y - s)) by ring. eapply Rle_trans; [apply Rabs_triang|rewrite Rabs_Ropp; lra]. }
  assert (M : Rabs (B2R x - B2R y) <= A + e + f).
  { replace (B2R x - B2R y) with ((r - s) + (B2R x - B2R y - (r - s))) by ring. eapply Rle_trans; [apply Rabs_triang|lra]. }
  destruct (sub_ok lm x y Fx Fy) as [F1 V1]; [lra|]. split; [exact F1|]. rewrite V1.
  pose proof (rnd_add_err _ (- B2R y) (fmt_B2R x) ltac:(apply fmt_opp, fmt_B2R)) as E. change (B2R x + - B2R y) with (B2R x - B2R y) in E.
  replace (rnd (B2R x - B2R y) - (r - s)) with ((rnd (B2R x - B2R y) - (B2R x - B2R y)) + (B2R x - B2R y - (r - s))) by ring.
  eapply Rle_trans; [apply Rabs_triang|]. assert (u * Rabs (B2R x - B2R y) <= u * (A + e + f)) by (apply Rmult_le_compat_l; lra). lra.
Qed.
Lemma near_mul x y r s e f A B : near x r e -> near y s f -> Rabs r <= A -> Rabs s <= B -> (A + e) * (B + f) <= 1000000000000 ->
  near (@fmul N x y) (r * s) (e * B + A * f + e * f + u * ((A + e) * (B + f)) + eta).
Proof.
  intros Nx Ny HA HB L. pose proof (near_abs _ _ _ _ Nx HA) as Ax. pose proof (near_abs _ _ _ _ Ny HB) as Ay.
  destruct Nx as [Fx Hx], Ny as [Fy Hy]. pose proof b40 as BB. pose proof F32.u_pos as U.
  assert (D : Rabs (B2R x * B2R y - r * s) <= e * B + A * f + e * f).
  { replace (B2R x * B2R y - r * s) with ((B2R x - r) * s + r * (B2R y - s) + (B2R x - r) * (B2R y - s)) by ring.
    eapply Rle_trans; [apply Rabs_triang|]. apply Rplus_le_compat; [eapply Rle_trans; [apply Rabs_triang|]; apply Rplus_le_compat|];
      rewrite Rabs_mult; apply Rmult_le_compat; auto using Rabs_pos. }
  assert (M : Rabs (B2R x * B2R y) <= (A + e) * (B + f)) by (rewrite Rabs_mult; apply Rmult_le_compat; auto using Rabs_pos).
  destruct (mul_ok lm x y Fx Fy) as [F1 V1]; [lra|]. split; [exact F1|]. rewrite V1.
  pose proof (rnd_err_abs (B2R x * B2R y)) as E.
  replace (rnd (B2R x * B2R y) - r * s) with ((rnd (B2R x * B2R y) - B2R x * B2R y) + (B2R x * B2R y - r * s)) by ring.
  eapply Rle_trans; [apply Rabs_triang|]. assert (u * Rabs (B2R x * B2R y) <= u * ((A + e) * (B + f))) by (apply Rmult_le_compat_l; lra). lra.
Qed.
Lemma near_div x y r s e f Q b : near x r e -> near y s f -> b <= Rabs s -> f < b -> Rabs (r / s) <= Q ->
  let E := (e + Q * f) / (b - f) in Q + E <= 1000000000000 ->
  near (@fdiv N x y) (r / s) (E + u * (Q + E) + eta).
Proof.
  intros [Fx Hx] [Fy Hy] HB Hb HQ E L. pose proof b40 as BB. pose proof F32.u_pos as U.
  assert (f0 : 0 <= f) by (pose proof (Rabs_pos (B2R y - s)); lra). assert (e0 : 0 <= e) by (pose proof (Rabs_pos (B2R x - r)); lra).
  assert (Ys : b - f <= Rabs (B2R y)). { pose proof (Rabs_triang (B2R y) (s - B2R y)) as T. replace (B2R y + (s - B2R y)) with s in T by ring. rewrite (Rabs_minus_sym s) in T. lra. }
  assert (Y0 : B2R y <> 0). { intros Z. rewrite Z, Rabs_R0 in Ys. lra. }
  assert (S0 : s <> 0). { intros Z. rewrite Z, Rabs_R0 in HB. lra. }
  assert (D : Rabs (B2R x / B2R y - r / s) <= E).
  { replace (B2R x / B2R y - r / s) with (((B2R x - r) + r / s * (s - B2R y)) / B2R y) by (field; auto).
    unfold Rdiv at 1, E. rewrite Rabs_mult, Rabs_inv. apply Rmult_le_compat; [apply Rabs_pos|apply Rlt_le, Rinv_0_lt_compat; lra| |apply Rinv_le; lra].
    eapply Rle_trans; [apply Rabs_triang|]. apply Rplus_le_compat; [exact Hx|]. rewrite Rabs_mult, (Rabs_minus_sym s). apply Rmult_le_compat; auto using Rabs_pos. }
  assert (M : Rabs (B2R x / B2R y) <= Q + E).
  { replace (B2R x / B2R y) with (r / s + (B2R x / B2R y - r / s)) by ring. eapply Rle_trans; [apply Rabs_triang|lra]. }
  destruct (div_ok lm x y Fx Y0) as [F1 V1]; [lra|]. split; [exact F1|]. rewrite V1.
  pose proof (rnd_err_abs (B2R x / B2R y)) as E1.
  replace (rnd (B2R x / B2R y) - r / s) with ((rnd (B2R x / B2R y) - B2R x / B2R y) + (B2R x / B2R y - r / s)) by ring.
  eapply Rle_trans; [apply Rabs_triang|]. assert (u * Rabs (B2R x / B2R y) <= u * (Q + E)) by (apply Rmult_le_compat_l; lra). lra.
Qed.
(** An accurate library. *)
Context (Acc : accurate lm).
Lemma near_pow x y r e k g h P : near x r (k * r) -> near y e g -> 0 < r -> k <= / 1000 -> g * Rabs (ln r) <= h -> h <= / 1000 ->
  (Rabs e + g) * k <= / 1000 -> Rpower r e <= P -> P <= 1000000 -> bpow radix2 (-100) <= Rpower r e ->
  near (@fpow N x y) (Rpower r e) ((4.1 * u + 1.01 * (h + 1.002 * ((Rabs e + g) * k))) * P).
Proof.
  intros [Fx Hx] [Fy Hy] R0 K HG HH EK HP PP LO.
  assert (k0 : 0 <= k). { pose proof (Rabs_pos (B2R x - r)). assert (0 <= k * r) by lra. apply Rmult_le_reg_r with r; lra. }
  assert (Ay : Rabs (B2R y) <= Rabs e + g). { replace (B2R y) with (e + (B2R y - e)) by ring. eapply Rle_trans; [apply Rabs_triang|lra]. }
  assert (Ayk : Rabs (B2R y) * k <= (Rabs e + g) * k) by (apply Rmult_le_compat_r; lra).
  destruct (pow_close lm x y r e k h Acc Fx Fy R0 Hx K) as [F1 V1]; auto; try lra.
  - rewrite Rabs_mult. eapply Rle_trans; [|exact HG]. apply Rmult_le_compat_r; [apply Rabs_pos|exact Hy].
  - split; [exact LO|]. apply Rle_trans with (bpow radix2 60); [|apply bpow_le; lia]. apply Rle_trans with 1000000; [lra|]. change (bpow radix2 60) with (IZR (2^60)). apply IZR_le. intros X; discriminate X.
  - change (@fpow N x y) with (lm_powf lm x y). split; [exact F1|]. eapply Rle_trans; [exact V1|]. pose proof F32.u_pos. pose proof (Rabs_pos (B2R y)).
    assert (0 <= h). { assert (0 <= g) by (pose proof (Rabs_pos (B2R y - e)); lra). pose proof (Rabs_pos (ln r)). assert (0 <= g * Rabs (ln r)) by (apply Rmult_le_pos; lra). lra. }
    assert (0 <= Rabs (B2R y) * k) by (apply Rmult_le_pos; lra). pose proof (Rpower_pos r e).
    apply Rmult_le_compat; lra.
Qed.
End F.
