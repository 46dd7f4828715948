(** * Facts about binary64 arithmetic and the conversions from and to binary32. *)
From Coq Require Import ZArith Reals Lra Lia Bool.
From Flocq Require Import Core BinarySingleNaN Relative.
From Verif Require Import Num NumF MVec F32 PHsvF PNearF.
Local Open Scope R_scope.

Notation fe64 := (FLT_exp (-1074) 53).
Notation rnd64 := (round radix2 fe64 ZnearestE).
Notation fmt64 := (generic_format radix2 fe64).
Definition fin64 (x : f64) : Prop := is_finite x = true.
#[global] Instance fe64_valid : Valid_exp fe64 := FLT_exp_valid (-1074) 53.
#[global] Instance fe64_mono : Monotone_exp fe64 := FLT_exp_monotone (-1074) 53.
Definition u64 : R := bpow radix2 (-53).
Definition eta64 : R := bpow radix2 (-1075).
Lemma u64_val : u64 = / 9007199254740992. Proof. reflexivity. Qed.
Lemma u64_pos : 0 < u64. Proof. apply bpow_gt_0. Qed.
Lemma eta64_pos : 0 < eta64. Proof. apply bpow_gt_0. Qed.
Lemma eta64_eta : eta64 <= eta. Proof. apply bpow_le. lia. Qed.
Lemma rnd64_err z : Rabs (rnd64 z - z) <= u64 * Rabs z + eta64.
Proof.
  destruct (error_N_FLT radix2 (-1074) 53 ltac:(lia) (fun x => negb (Z.even x)) z) as (d & e & Hd & He & _ & E).
  rewrite half_bpow in Hd, He. rewrite E. replace (z * (1 + d) + e - z) with (d * z + e) by ring.
  apply Rle_trans with (1 := Rabs_triang _ _). rewrite Rabs_mult.
  apply Rplus_le_compat; [|exact He]. apply Rmult_le_compat_r; [apply Rabs_pos | exact Hd].
Qed.
Lemma rnd64_lt z : Rabs z <= bpow radix2 1000 -> Rabs (rnd64 z) < bpow radix2 1024.
Proof.
  intros H. apply Rle_lt_trans with (bpow radix2 1000); [|apply bpow_lt; lia].
  assert (F : fmt64 (bpow radix2 1000)) by (apply generic_format_bpow; unfold FLT_exp; lia).
  apply Rabs_le. apply Rabs_le_inv in H. split.
  - rewrite <- (round_generic radix2 fe64 ZnearestE (- bpow radix2 1000)) by (apply generic_format_opp, F). apply round_le; [typeclasses eauto|typeclasses eauto|lra].
  - rewrite <- (round_generic radix2 fe64 ZnearestE (bpow radix2 1000)) by exact F. apply round_le; [typeclasses eauto|typeclasses eauto|lra].
Qed.

Section Ops.
Context (lm : libm).
Notation N := (FN lm).
Lemma dadd_ok (x y : f64) : fin64 x -> fin64 y -> Rabs (B2R x + B2R y) <= bpow radix2 1000 ->
  fin64 (@dadd N x y) /\ B2R (@dadd N x y) = rnd64 (B2R x + B2R y).
Proof.
  intros Hx Hy H. pose proof (Bplus_correct 53 1024 _ _ mode_NE x y Hx Hy) as C.
  change (SpecFloat.fexp 53 1024) with fe64 in C. cbn [round_mode] in C.
  rewrite Rlt_bool_true in C by (apply rnd64_lt, H). destruct C as (A & B & _). split; assumption.
Qed.
Lemma dsub_ok (x y : f64) : fin64 x -> fin64 y -> Rabs (B2R x - B2R y) <= bpow radix2 1000 ->
  fin64 (@dsub N x y) /\ B2R (@dsub N x y) = rnd64 (B2R x - B2R y).
Proof.
  intros Hx Hy H. pose proof (Bminus_correct 53 1024 _ _ mode_NE x y Hx Hy) as C.
  change (SpecFloat.fexp 53 1024) with fe64 in C. cbn [round_mode] in C.
  rewrite Rlt_bool_true in C by (apply rnd64_lt, H). destruct C as (A & B & _). split; assumption.
Qed.
Lemma dmul_ok (x y : f64) : fin64 x -> fin64 y -> Rabs (B2R x * B2R y) <= bpow radix2 1000 ->
  fin64 (@dmul N x y) /\ B2R (@dmul N x y) = rnd64 (B2R x * B2R y).
Proof.
  intros Hx Hy H. pose proof (Bmult_correct 53 1024 _ _ mode_NE x y) as C.
  change (SpecFloat.fexp 53 1024) with fe64 in C. cbn [round_mode] in C.
  rewrite Rlt_bool_true in C by (apply rnd64_lt, H). destruct C as (A & B & _). split; [|exact A].
  unfold fin64 in *. cbn. rewrite B, Hx, Hy. reflexivity.
Qed.
Lemma ddiv_ok (x y : f64) : fin64 x -> B2R y <> 0 -> Rabs (B2R x / B2R y) <= bpow radix2 1000 ->
  fin64 (@ddiv N x y) /\ B2R (@ddiv N x y) = rnd64 (B2R x / B2R y).
Proof.
  intros Hx Hy H. pose proof (Bdiv_correct 53 1024 _ _ mode_NE x y Hy) as C.
  change (SpecFloat.fexp 53 1024) with fe64 in C. cbn [round_mode] in C.
  rewrite Rlt_bool_true in C by (apply rnd64_lt, H). destruct C as (A & B & _). split; [|exact A].
  unfold fin64 in *. cbn. rewrite B. exact Hx.
Qed.
Lemma dopp_ok (x : f64) : fin64 x -> fin64 (@dopp N x) /\ B2R (@dopp N x) = - B2R x.
Proof. intros H. split; [cbn; unfold fin64; rewrite is_finite_Bopp; exact H | apply B2R_Bopp]. Qed.
Lemma widen_ok (x : f32) : fin x -> fin64 (@widen N x) /\ B2R (@widen N x) = B2R x.
Proof.
  change (@widen N x) with (f32_to_f64 x). destruct x as [s|s| |s m e E]; intros H; try discriminate; [split; reflexivity|].
  unfold f32_to_f64. pose proof (binary_normalize_correct 53 1024 p53 p53e mode_NE (SpecFloat.cond_Zopp s (Zpos m)) e s) as C.
  cbv zeta in C. change (SpecFloat.fexp 53 1024) with fe64 in C. cbn [round_mode] in C.
  change (F2R (Float radix2 (SpecFloat.cond_Zopp s (Z.pos m)) e)) with (B2R (B754_finite s m e E : f32)) in C.
  set (x := B754_finite s m e E : f32) in *.
  assert (F : fmt64 (B2R x)).
  { apply generic_inclusion_mag with (fexp1 := fe). { intros _. unfold FLT_exp. lia. } apply fmt_B2R. }
  rewrite (round_generic radix2 fe64 ZnearestE _ F) in C. rewrite Rlt_bool_true in C.
  - destruct C as (A & B & _). split; [exact B|exact A].
  - apply Rlt_trans with (bpow radix2 128); [apply abs_B2R_lt_emax|apply bpow_lt; lia].
Qed.
Lemma narrow_ok (x : f64) : fin64 x -> Rabs (B2R x) <= bpow radix2 127 -> fin (@narrow N x) /\ B2R (@narrow N x) = rnd (B2R x).
Proof.
  change (@narrow N x) with (f64_to_f32 x). destruct x as [s|s| |s m e E]; intros H L; try discriminate; [split; [reflexivity|symmetry; apply rnd_0]|].
  unfold f64_to_f32. pose proof (binary_normalize_correct 24 128 p24 p24e mode_NE (SpecFloat.cond_Zopp s (Zpos m)) e s) as C.
  cbv zeta in C. change (SpecFloat.fexp 24 128) with fe in C. cbn [round_mode] in C.
  change (F2R (Float radix2 (SpecFloat.cond_Zopp s (Z.pos m)) e)) with (B2R (B754_finite s m e E : f64)) in C.
  rewrite Rlt_bool_true in C by (apply rnd_lt_128, L). destruct C as (A & B & _). split; [exact B|exact A].
Qed.
End Ops.

(** Value of a closed double. *)
Lemma val_SF64 (x : f64) s m e : B2SF x = SpecFloat.S754_finite s m e ->
  fin64 x /\ B2R x = F2R (Float radix2 (SpecFloat.cond_Zopp s (Zpos m)) e).
Proof.
  intros H. split.
  - unfold fin64. destruct x; cbn in H; congruence || reflexivity.
  - rewrite <- SF2R_B2SF, H. reflexivity.
Qed.

(** ** [dnear x r e]: the double [x] is finite and within [e] of [r]. *)
Definition dnear (x : f64) (r e : R) : Prop := fin64 x /\ Rabs (B2R x - r) <= e.
Lemma dnear_le x r e e' : dnear x r e -> e <= e' -> dnear x r e'.
Proof. intros [F H] L. split; [exact F|lra]. Qed.
Lemma dnear_eq x r r' e : dnear x r e -> r = r' -> dnear x r' e.
Proof. intros H <-. exact H. Qed.
Lemma dnear_abs x r e A : dnear x r e -> Rabs r <= A -> Rabs (B2R x) <= A + e.
Proof. intros [_ H] L. replace (B2R x) with (r + (B2R x - r)) by ring. eapply Rle_trans; [apply Rabs_triang|lra]. Qed.
(** [dlit_near]: a closed literal, by computation. *)
Ltac dlit_near := lazymatch goal with
  |- dnear ?x ?r ?k =>
    let sf := eval vm_compute in (B2SF x) in
    lazymatch sf with
    | SpecFloat.S754_finite ?s ?m ?e =>
        let H := fresh in assert (H : B2SF x = SpecFloat.S754_finite s m e) by (vm_compute; reflexivity);
        let A := fresh in let B := fresh in
        destruct (val_SF64 x s m e H) as [A B]; split; [exact A|]; rewrite B; clear; try rewrite u64_val;
        unfold F2R; cbn [Fnum Fexp SpecFloat.cond_Zopp Z.opp]; bpow_val e; apply Rabs_le; try lra
    end
  end.
Lemma b1000_big : 1000000000000 <= bpow radix2 1000.
Proof. apply Rle_trans with (bpow radix2 127); [apply b40|apply bpow_le; lia]. Qed.
Section Near.
Context (lm : libm).
Notation N := (FN lm).
Lemma dnear_widen x r e : near x r e -> dnear (@widen N x) r e.
Proof. intros [F H]. destruct (widen_ok lm x F) as [F1 V]. split; [exact F1|rewrite V; exact H]. Qed.
Lemma near_narrow x r e A : dnear x r e -> Rabs r <= A -> A + e <= 1000000000000 -> near (@narrow N x) r (e + u * (A + e) + eta).
Proof.
  intros [F H] HA L. pose proof (dnear_abs x r e A (conj F H) HA) as M. pose proof b40. pose proof F32.u_pos as U.
  destruct (narrow_ok lm x F) as [F1 V]; [lra|]. split; [exact F1|]. rewrite V.
  replace (rnd (B2R x) - r) with ((rnd (B2R x) - B2R x) + (B2R x - r)) by ring. eapply Rle_trans; [apply Rabs_triang|].
  pose proof (rnd_err_abs (B2R x)). assert (u * Rabs (B2R x) <= u * (A + e)) by (apply Rmult_le_compat_l; lra). lra.
Qed.
Lemma dnear_opp x r e : dnear x r e -> dnear (@dopp N x) (- r) e.
Proof. intros [F H]. destruct (dopp_ok lm x F) as [F1 V]. split; [exact F1|]. rewrite V. replace (- B2R x - - r) with (- (B2R x - r)) by ring. rewrite Rabs_Ropp. exact H. Qed.
Lemma dnear_add x y r s e f A : dnear x r e -> dnear y s f -> Rabs (r + s) <= A -> A + e + f <= 1000000000000 ->
  dnear (@dadd N x y) (r + s) (e + f + u64 * (A + e + f) + eta64).
Proof.
  intros [Fx Hx] [Fy Hy] HA L. pose proof b1000_big as B. pose proof u64_pos as U.
  assert (D : Rabs (B2R x + B2R y - (r + s)) <= e + f).
  { replace (B2R x + B2R y - (r + s)) with ((B2R x - r) + (B2R y - s)) by ring. eapply Rle_trans; [apply Rabs_triang|lra]. }
  assert (M : Rabs (B2R x + B2R y) <= A + e + f).
  { replace (B2R x + B2R y) with ((r + s) + (B2R x + B2R y - (r + s))) by ring. eapply Rle_trans; [apply Rabs_triang|lra]. }
  destruct (dadd_ok lm x y Fx Fy) as [F1 V1]; [lra|]. split; [exact F1|]. rewrite V1.
  pose proof (rnd64_err (B2R x + B2R y)) as E.
  replace (rnd64 (B2R x + B2R y) - (r + s)) with ((rnd64 (B2R x + B2R y) - (B2R x + B2R y)) + (B2R x + B2R y - (r + s))) by ring.
  eapply Rle_trans; [apply Rabs_triang|]. assert (u64 * Rabs (B2R x + B2R y) <= u64 * (A + e + f)) by (apply Rmult_le_compat_l; lra). lra.
Qed.
Lemma dnear_mul x y r s e f A B : dnear x r e -> dnear y s f -> Rabs r <= A -> Rabs s <= B -> (A + e) * (B + f) <= 1000000000000 ->
  dnear (@dmul N x y) (r * s) (e * B + A * f + e * f + u64 * ((A + e) * (B + f)) + eta64).
Proof.
  intros Nx Ny HA HB L. pose proof (dnear_abs _ _ _ _ Nx HA) as Ax. pose proof (dnear_abs _ _ _ _ Ny HB) as Ay.
  destruct Nx as [Fx Hx], Ny as [Fy Hy]. pose proof b1000_big as BB. pose proof u64_pos as U.
  assert (D : Rabs (B2R x * B2R y - r * s) <= e * B + A * f + e * f).
  { replace (B2R x * B2R y - r * s) with ((B2R x - r) * s + r * (B2R y - s) + (B2R x - r) * (B2R y - s)) by ring.
    eapply Rle_trans; [apply Rabs_triang|]. apply Rplus_le_compat; [eapply Rle_trans; [apply Rabs_triang|]; apply Rplus_le_compat|];
      rewrite Rabs_mult; apply Rmult_le_compat; auto using Rabs_pos. }
  assert (M : Rabs (B2R x * B2R y) <= (A + e) * (B + f)) by (rewrite Rabs_mult; apply Rmult_le_compat; auto using Rabs_pos).
  destruct (dmul_ok lm x y Fx Fy) as [F1 V1]; [lra|]. split; [exact F1|]. rewrite V1.
  pose proof (rnd64_err (B2R x * B2R y)) as E.
  replace (rnd64 (B2R x * B2R y) - r * s) with ((rnd64 (B2R x * B2R y) - B2R x * B2R y) + (B2R x * B2R y - r * s)) by ring.
  eapply Rle_trans; [apply Rabs_triang|]. assert (u64 * Rabs (B2R x * B2R y) <= u64 * ((A + e) * (B + f))) by (apply Rmult_le_compat_l; lra). lra.
Qed.
Lemma dnear_div x y r s e f Q b : dnear x r e -> dnear y s f -> b <= Rabs s -> f < b -> Rabs (r / s) <= Q ->
  let E := (e + Q * f) / (b - f) in Q + E <= 1000000000000 ->
  dnear (@ddiv N x y) (r / s) (E + u64 * (Q + E) + eta64).
Proof.
  intros [Fx Hx] [Fy Hy] HB Hb HQ E L. pose proof b1000_big as BB. pose proof u64_pos as U.
  assert (f0 : 0 <= f) by (pose proof (Rabs_pos (B2R y - s)); lra). assert (e0 : 0 <= e) by (pose proof (Rabs_pos (B2R x - r)); lra).
  assert (S0 : s <> 0). { intros ->. rewrite Rabs_R0 in HB. lra. }
  assert (Y : b - f <= Rabs (B2R y)).
  { pose proof (Rabs_triang_inv s (s - B2R y)) as T. replace (s - (s - B2R y)) with (B2R y) in T by ring. rewrite (Rabs_minus_sym s (B2R y)) in T. lra. }
  assert (Y0 : B2R y <> 0). { intros Z. rewrite Z, Rabs_R0 in Y. lra. }
  assert (D : Rabs (B2R x / B2R y - r / s) <= E).
  { replace (B2R x / B2R y - r / s) with (((B2R x - r) - r / s * (B2R y - s)) / B2R y) by (field; auto).
    unfold Rdiv at 1. rewrite Rabs_mult, Rabs_inv. unfold E, Rdiv.
    apply Rmult_le_compat; [apply Rabs_pos|apply Rlt_le, Rinv_0_lt_compat, Rabs_pos_lt, Y0| |apply Rinv_le; lra].
    eapply Rle_trans; [apply Rabs_triang|]. rewrite Rabs_Ropp, Rabs_mult. apply Rplus_le_compat; [exact Hx|]. apply Rmult_le_compat; auto using Rabs_pos. }
  assert (M : Rabs (B2R x / B2R y) <= Q + E).
  { replace (B2R x / B2R y) with (r / s + (B2R x / B2R y - r / s)) by ring. eapply Rle_trans; [apply Rabs_triang|lra]. }
  destruct (ddiv_ok lm x y Fx Y0) as [F1 V1]; [lra|]. split; [exact F1|]. rewrite V1.
  pose proof (rnd64_err (B2R x / B2R y)) as W.
  replace (rnd64 (B2R x / B2R y) - r / s) with ((rnd64 (B2R x / B2R y) - B2R x / B2R y) + (B2R x / B2R y - r / s)) by ring.
  eapply Rle_trans; [apply Rabs_triang|]. assert (u64 * Rabs (B2R x / B2R y) <= u64 * (Q + E)) by (apply Rmult_le_compat_l; lra). lra.
Qed.
End Near.
