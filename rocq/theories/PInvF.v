(** * Determinant and inverse in binary32. *)
From Coq Require Import ZArith Reals Lra Lia List Bool.
From Flocq Require Import Core IEEE754.BinarySingleNaN.
From Verif Require Import Num NumR NumF MVec RTac SpecMat PMat F32 PMatF PHsvF PNearF POkF.
Import ListNotations.
Local Open Scope R_scope.

(** Sum of the absolute values of the six products of the determinant. *)
Definition perm (a : Matrix3 R) : R :=
  Rabs (m0 a * m4 a * m8 a) + Rabs (m3 a * m7 a * m2 a) + Rabs (m6 a * m1 a * m5 a) + Rabs (m0 a * m7 a * m5 a) + Rabs (m6 a * m4 a * m2 a) + Rabs (m3 a * m1 a * m8 a).
Definition mR (m : Matrix3 f32) : Matrix3 R :=
  M3 (B2R (m0 m)) (B2R (m1 m)) (B2R (m2 m)) (B2R (m3 m)) (B2R (m4 m)) (B2R (m5 m)) (B2R (m6 m)) (B2R (m7 m)) (B2R (m8 m)).
Section F.
Context (lm : libm).
Notation N := (FN lm).
Lemma nadd x y r s e f A : near x r e -> near y s f -> Rabs (r + s) <= A -> A + e + f <= 1e37 ->
  near (@fadd N x y) (r + s) (e + f + u * (A + e + f)).
Proof.
  intros [Fx Hx] [Fy Hy] HA L. pose proof b127_big as B. pose proof F32.u_pos as U.
  assert (D : Rabs (B2R x + B2R y - (r + s)) <= e + f).
  { replace (B2R x + B2R y - (r + s)) with ((B2R x - r) + (B2R y - s)) by ring. eapply Rle_trans; [apply Rabs_triang|lra]. }
  assert (M : Rabs (B2R x + B2R y) <= A + e + f).
  { replace (B2R x + B2R y) with ((r + s) + (B2R x + B2R y - (r + s))) by ring. eapply Rle_trans; [apply Rabs_triang|lra]. }
  destruct (add_ok lm x y Fx Fy) as [F1 V1]; [lra|]. split; [exact F1|]. rewrite V1.
  pose proof (rnd_add_err _ _ (fmt_B2R x) (fmt_B2R y)) as E.
  replace (rnd (B2R x + B2R y) - (r + s)) with ((rnd (B2R x + B2R y) - (B2R x + B2R y)) + (B2R x + B2R y - (r + s))) by ring.
  eapply Rle_trans; [apply Rabs_triang|]. assert (u * Rabs (B2R x + B2R y) <= u * (A + e + f)) by (apply Rmult_le_compat_l; lra). lra.
Qed.
Lemma nsub x y r s e f A : near x r e -> near y s f -> Rabs (r - s) <= A -> A + e + f <= 1e37 ->
  near (@fsub N x y) (r - s) (e + f + u * (A + e + f)).
Proof.
  intros [Fx Hx] [Fy Hy] HA L. pose proof b127_big as B. pose proof F32.u_pos as U.
  assert (D : Rabs (B2R x - B2R y - (r - s)) <= e + f).
  { replace (B2R x - B2R y - (r - s)) with ((B2R x - r) - (B2R y - s)) by ring. eapply Rle_trans; [apply Rabs_triang|rewrite Rabs_Ropp; lra]. }
  assert (M : Rabs (B2R x - B2R y) <= A + e + f).
  { replace (B2R x - B2R y) with ((r - s) + (B2R x - B2R y - (r - s))) by ring. eapply Rle_trans; [apply Rabs_triang|lra]. }
  destruct (sub_ok lm x y Fx Fy) as [F1 V1]; [lra|]. split; [exact F1|]. rewrite V1.
  pose proof (rnd_add_err _ (- B2R y) (fmt_B2R x) ltac:(apply fmt_opp, fmt_B2R)) as E. change (B2R x + - B2R y) with (B2R x - B2R y) in E.
  replace (rnd (B2R x - B2R y) - (r - s)) with ((rnd (B2R x - B2R y) - (B2R x - B2R y)) + (B2R x - B2R y - (r - s))) by ring.
  eapply Rle_trans; [apply Rabs_triang|]. assert (u * Rabs (B2R x - B2R y) <= u * (A + e + f)) by (apply Rmult_le_compat_l; lra). lra.
Qed.
Lemma nmul x y r s e f A B : near x r e -> near y s f -> Rabs r <= A -> Rabs s <= B -> (A + e) * (B + f) <= 1e37 ->
  near (@fmul N x y) (r * s) (e * B + A * f + e * f + u * ((A + e) * (B + f)) + eta).
Proof.
  intros Nx Ny HA HB L. pose proof (near_abs _ _ _ _ Nx HA) as Ax. pose proof (near_abs _ _ _ _ Ny HB) as Ay.
  destruct Nx as [Fx Hx], Ny as [Fy Hy]. pose proof b127_big as BB. pose proof F32.u_pos as U.
  assert (D : Rabs (B2R x * B2R y - r * s) <= e * B + A * f + e * f).
  { replace (B2R x * B2R y - r * s) with ((B2R x - r) * s + r * (B2R y - s) + (B2R x - r) * (B2R y - s)) by ring.
    eapply Rle_trans; [apply Rabs_triang|]. apply Rplus_le_compat; [eapply Rle_trans; [apply Rabs_triang|]; apply Rplus_le_compat|];
      rewrite Rabs_mult; apply Rmult_le_compat; auto using Rabs_pos. }
  assert (M : Rabs (B2R x * B2R y) <= (A + e) * (B + f)) by (rewrite Rabs_mult; apply Rmult_le_compat; auto using Rabs_pos).
  destruct (mul_ok lm x y Fx Fy) as [F1 V1]; [lra|]. split; [exact F1|]. rewrite V1.
  pose proof (rnd_err_abs (B2R x * B2R y)) as E.
  replace (rnd (B2R x * B2R y) - r * s) with ((rnd (B2R x * B2R y) - B2R x * B2R y) + (B2R x * B2R y - r * s)) by ring.
  eapply Rle_trans; [apply Rabs_triang|]. assert (u * Rabs (B2R x * B2R y) <= u * ((A + e) * (B + f))) by (apply Rmult_le_compat_l; lra). lra.
Qed.
Definition sm (x : f32) : Prop := fin x /\ Rabs (B2R x) <= 1e9.
Lemma prod2 x y : sm x -> sm y -> near (@fmul N x y) (B2R x * B2R y) (u * Rabs (B2R x * B2R y) + eta) /\ Rabs (B2R x * B2R y) <= 1e18.
Proof.
  intros [Fx Hx] [Fy Hy]. pose proof b127_big as BB. assert (B : Rabs (B2R x * B2R y) <= 1e18) by (rewrite Rabs_mult; replace 1e18 with (1e9 * 1e9) by lra; apply Rmult_le_compat; auto using Rabs_pos).
  destruct (mul_ok lm x y Fx Fy ltac:(lra)) as [F V]. split; [|exact B]. split; [exact F|]. rewrite V. apply rnd_err_abs.
Qed.
Lemma prod3 x y z : sm x -> sm y -> sm z -> near (@fmul N (@fmul N x y) z) (B2R x * B2R y * B2R z) (2.001 * u * Rabs (B2R x * B2R y * B2R z) + 2e-36) /\ Rabs (B2R x * B2R y * B2R z) <= 1e27.
Proof.
  intros Hx Hy [Fz Hz]. destruct (prod2 x y Hx Hy) as [[F V] B]. pose proof u16 as U. pose proof eta45 as E. pose proof b127_big as BB.
  assert (B3 : Rabs (B2R x * B2R y * B2R z) <= 1e27) by (rewrite Rabs_mult; replace 1e27 with (1e18 * 1e9) by lra; apply Rmult_le_compat; auto using Rabs_pos).
  split; [|exact B3]. set (p := B2R x * B2R y) in *. set (q := @fmul N x y) in *.
  assert (D : Rabs (B2R q * B2R z - p * B2R z) <= u * Rabs (p * B2R z) + 1e-36).
  { rewrite <- Rmult_minus_distr_r, Rabs_mult. apply Rle_trans with ((u * Rabs p + eta) * Rabs (B2R z)); [apply Rmult_le_compat_r; [apply Rabs_pos|exact V]|].
    rewrite (Rabs_mult p). assert (eta * Rabs (B2R z) <= 1e-45 * 1e9) by (apply Rmult_le_compat; auto using Rabs_pos; lra). lra. }
  assert (D2 : Rabs (B2R q * B2R z) <= Rabs (p * B2R z) + (u * Rabs (p * B2R z) + 1e-36)). { replace (B2R q * B2R z) with (B2R q * B2R z - p * B2R z + p * B2R z) by ring. eapply Rle_trans; [apply Rabs_triang|]. lra. }
  destruct (mul_ok lm q z F Fz) as [F2 V2]; [rewrite U in *; lra|]. split; [exact F2|]. rewrite V2. pose proof (rnd_err_abs (B2R q * B2R z)) as G.
  replace (rnd (B2R q * B2R z) - p * B2R z) with ((rnd (B2R q * B2R z) - B2R q * B2R z) + (B2R q * B2R z - p * B2R z)) by ring.
  eapply Rle_trans; [apply Rabs_triang|]. pose proof (Rabs_pos (p * B2R z)). rewrite U in *. lra.
Qed.
Lemma det_error (m : Matrix3 f32) : allM sm m -> near (M_det N m) (detR (mR m)) (7.01 * u * perm (mR m) + 2e-35) /\ perm (mR m) <= 6e27.
Proof.
  intros (H0 & H1 & H2 & H3 & H4 & H5 & H6 & H7 & H8). pose proof u16 as U. destruct m as [a0 a1 a2 a3 a4 a5 a6 a7 a8]. cbn [m0 m1 m2 m3 m4 m5 m6 m7 m8] in *.
  destruct (prod3 a0 a4 a8 H0 H4 H8) as [P1 T1]. destruct (prod3 a3 a7 a2 H3 H7 H2) as [P2 T2]. destruct (prod3 a6 a1 a5 H6 H1 H5) as [P3 T3].
  destruct (prod3 a0 a7 a5 H0 H7 H5) as [P4 T4]. destruct (prod3 a6 a4 a2 H6 H4 H2) as [P5 T5]. destruct (prod3 a3 a1 a8 H3 H1 H8) as [P6 T6].
  unfold perm, mR. cbn [m0 m1 m2 m3 m4 m5 m6 m7 m8]. split; [|lra].
  match goal with |- near ?x _ _ => change x with (@fsub N (@fsub N (@fsub N (@fadd N (@fadd N (@fmul N (@fmul N a0 a4) a8) (@fmul N (@fmul N a3 a7) a2)) (@fmul N (@fmul N a6 a1) a5)) (@fmul N (@fmul N a0 a7) a5)) (@fmul N (@fmul N a6 a4) a2)) (@fmul N (@fmul N a3 a1) a8)) end.
  match goal with |- near _ (detR (M3 ?b0 ?b1 ?b2 ?b3 ?b4 ?b5 ?b6 ?b7 ?b8)) _ =>
    replace (detR (M3 b0 b1 b2 b3 b4 b5 b6 b7 b8)) with (b0 * b4 * b8 + b3 * b7 * b2 + b6 * b1 * b5 - b0 * b7 * b5 - b6 * b4 * b2 - b3 * b1 * b8) by (spec; ring) end.
  set (q1 := B2R a0 * B2R a4 * B2R a8) in *. set (q2 := B2R a3 * B2R a7 * B2R a2) in *. set (q3 := B2R a6 * B2R a1 * B2R a5) in *.
  set (q4 := B2R a0 * B2R a7 * B2R a5) in *. set (q5 := B2R a6 * B2R a4 * B2R a2) in *. set (q6 := B2R a3 * B2R a1 * B2R a8) in *.
  clearbody q1 q2 q3 q4 q5 q6.
  pose proof (Rabs_pos q1). pose proof (Rabs_pos q2). pose proof (Rabs_pos q3). pose proof (Rabs_pos q4). pose proof (Rabs_pos q5). pose proof (Rabs_pos q6).
  assert (AT : forall a b A B, Rabs a <= A -> Rabs b <= B -> Rabs (a + b) <= A + B) by (intros; eapply Rle_trans; [apply Rabs_triang|lra]).
  assert (AS : forall a b A B, Rabs a <= A -> Rabs b <= B -> Rabs (a - b) <= A + B) by (intros; unfold Rminus; eapply Rle_trans; [apply Rabs_triang|rewrite Rabs_Ropp; lra]).
  pose proof (AT _ _ _ _ (Rle_refl (Rabs q1)) (Rle_refl (Rabs q2))) as A2. pose proof (AT _ _ _ _ A2 (Rle_refl (Rabs q3))) as A3.
  pose proof (AS _ _ _ _ A3 (Rle_refl (Rabs q4))) as A4. pose proof (AS _ _ _ _ A4 (Rle_refl (Rabs q5))) as A5. pose proof (AS _ _ _ _ A5 (Rle_refl (Rabs q6))) as A6.
  assert (S2 := nadd _ _ _ _ _ _ _ P1 P2 A2 ltac:(rewrite U; lra)).
  assert (S3 := nadd _ _ _ _ _ _ _ S2 P3 A3 ltac:(rewrite U; lra)).
  assert (S4 := nsub _ _ _ _ _ _ _ S3 P4 A4 ltac:(rewrite U; lra)).
  assert (S5 := nsub _ _ _ _ _ _ _ S4 P5 A5 ltac:(rewrite U; lra)).
  assert (S6 := nsub _ _ _ _ _ _ _ S5 P6 A6 ltac:(rewrite U; lra)).
  eapply near_le; [exact S6|]. rewrite U. lra.
Qed.
Lemma cof_error a b c d : sm a -> sm b -> sm c -> sm d ->
  near (@fsub N (@fmul N a b) (@fmul N c d)) (B2R a * B2R b - B2R c * B2R d) (2.01 * u * (Rabs (B2R a * B2R b) + Rabs (B2R c * B2R d)) + 3e-45) /\
  Rabs (B2R a * B2R b - B2R c * B2R d) <= Rabs (B2R a * B2R b) + Rabs (B2R c * B2R d) <= 2e18.
Proof.
  intros A B C D. pose proof u16 as U. pose proof eta45 as E. destruct (prod2 a b A B) as [P1 T1]. destruct (prod2 c d C D) as [P2 T2].
  assert (S : Rabs (B2R a * B2R b - B2R c * B2R d) <= Rabs (B2R a * B2R b) + Rabs (B2R c * B2R d)) by (unfold Rminus; eapply Rle_trans; [apply Rabs_triang|rewrite Rabs_Ropp; lra]).
  split; [|lra]. pose proof (Rabs_pos (B2R a * B2R b)). pose proof (Rabs_pos (B2R c * B2R d)).
  eapply near_le; [apply (nsub _ _ _ _ _ _ _ P1 P2 S); rewrite U; lra|]. rewrite U. lra.
Qed.

Lemma perm_ge a : Rabs (detR a) <= perm a.
Proof.
  destruct a as [a0 a1 a2 a3 a4 a5 a6 a7 a8]. unfold perm. cbn [m0 m1 m2 m3 m4 m5 m6 m7 m8].
  replace (detR (M3 a0 a1 a2 a3 a4 a5 a6 a7 a8)) with (a0 * a4 * a8 + a3 * a7 * a2 + a6 * a1 * a5 + - (a0 * a7 * a5) + - (a6 * a4 * a2) + - (a3 * a1 * a8)) by (spec; ring).
  repeat (eapply Rle_trans; [apply Rabs_triang|]; rewrite ?Rabs_Ropp; apply Rplus_le_compat; [|apply Rle_refl]). apply Rle_refl.
Qed.
Lemma one_lit : fin (@flit N 1%dec) /\ B2R (@flit N 1%dec) = 1. Proof. f32_val. Qed.
Lemma recip_error (d : f32) D W : near d D (7.01 * u * W + 2e-35) -> 1e-18 <= Rabs D <= W -> W <= 6e27 -> W <= 20000 * Rabs D ->
  near (@fdiv N (@flit N 1%dec) d) (/ D) (8.2 * (u * (W / Rabs D)) * / Rabs D).
Proof.
  intros [F V] HD HW HK. pose proof u16 as U. pose proof eta45 as E. pose proof b127_big as BB. destruct one_lit as [F1 V1].
  set (A := Rabs D) in *. assert (D0 : D <> 0) by (intros Z; unfold A in HD; rewrite Z, Rabs_R0 in HD; lra).
  assert (V2 : Rabs (B2R d - D) <= 7.02 * u * W) by (rewrite U in *; lra).
  assert (LB : 0.99 * A <= Rabs (B2R d)). { pose proof (Rabs_triang (B2R d) (D - B2R d)) as T. replace (B2R d + (D - B2R d)) with D in T by ring. rewrite (Rabs_minus_sym D) in T. fold A in T. rewrite U in *. lra. }
  assert (d0 : B2R d <> 0) by (intros Z; rewrite Z, Rabs_R0 in LB; lra).
  set (B := / A). assert (AB : A * B = 1) by (unfold B; apply Rinv_r; lra). assert (B0 : 0 < B) by (unfold B; apply Rinv_0_lt_compat; lra).
  assert (B1 : B <= 1e18). { unfold B. apply Rle_trans with (/ 1e-18); [apply Rinv_le_contravar; lra|lra]. }
  assert (B2 : 1.6e-28 <= B). { unfold B. apply Rle_trans with (/ 6e27); [lra|apply Rinv_le_contravar; lra]. }
  assert (K1 : 1 <= W * B). { rewrite <- AB. apply Rmult_le_compat_r; lra. }
  assert (K2 : W * B <= 20000). { replace 20000 with (20000 * (A * B)) by (rewrite AB; ring). rewrite <- Rmult_assoc. apply Rmult_le_compat_r; lra. }
  set (k := W * B) in *. change (W / A) with k.
  assert (RB : Rabs (/ B2R d) <= 1.0102 * B). { rewrite Rabs_inv. replace (1.0102 * B) with (/ (A / 1.0102)) by (unfold B; field; lra). apply Rinv_le_contravar; lra. }
  assert (E1 : Rabs (/ B2R d - / D) <= 7.1 * u * k * B).
  { replace (/ B2R d - / D) with (- (B2R d - D) * / B2R d * / D) by (field; auto). rewrite !Rabs_mult, Rabs_Ropp, (Rabs_inv D). fold A B.
    apply Rmult_le_compat_r; [lra|]. apply Rle_trans with (7.02 * u * W * (1.0102 * B)); [apply Rmult_le_compat; auto using Rabs_pos|].
    replace (7.02 * u * W * (1.0102 * B)) with (7.02 * 1.0102 * u * k) by (unfold k; ring). rewrite U. lra. }
  assert (KB : B <= k * B) by (rewrite <- (Rmult_1_l B) at 1; apply Rmult_le_compat_r; lra). assert (KB2 : k * B <= 20000 * B) by (apply Rmult_le_compat_r; lra).
  assert (Q : Rabs (B2R (@flit N 1%dec) / B2R d) <= 1.0102 * B) by (rewrite V1; unfold Rdiv; rewrite Rmult_1_l; exact RB).
  destruct (div_ok lm _ d F1 d0) as [F2 V3]; [lra|]. split; [exact F2|]. rewrite V3. pose proof (rnd_err_abs (B2R (@flit N 1%dec) / B2R d)) as G.
  rewrite V1 in *. replace (1 / B2R d) with (/ B2R d) in * by (unfold Rdiv; ring).
  replace (rnd (/ B2R d) - / D) with ((rnd (/ B2R d) - / B2R d) + (/ B2R d - / D)) by ring. eapply Rle_trans; [apply Rabs_triang|]. fold B. 
  replace (7.1 * u * k * B) with (7.1 * u * (k * B)) in E1 by ring. replace (8.2 * (u * k) * B) with (8.2 * u * (k * B)) by ring. rewrite U in *. lra.
Qed.
Lemma entry_error (c r : f32) C P D W : near c C (2.01 * u * P + 3e-45) -> Rabs C <= P <= 2e18 -> 1e-18 <= Rabs D <= W -> W <= 20000 * Rabs D ->
  near r (/ D) (8.2 * (u * (W / Rabs D)) * / Rabs D) -> near (@fmul N c r) (C / D) (12 * u * (W / Rabs D) * (P / Rabs D) + 1e-26).
Proof.
  intros Hc HP HD HK Hr. pose proof u16 as U. pose proof eta45 as E.
  set (A := Rabs D) in *. set (B := / A) in *. assert (AB : A * B = 1) by (unfold B; apply Rinv_r; lra). assert (B0 : 0 < B) by (unfold B; apply Rinv_0_lt_compat; lra).
  assert (B1 : B <= 1e18). { unfold B. apply Rle_trans with (/ 1e-18); [apply Rinv_le_contravar; lra|lra]. }
  assert (K1 : 1 <= W * B). { rewrite <- AB. apply Rmult_le_compat_r; lra. }
  assert (K2 : W * B <= 20000). { replace 20000 with (20000 * (A * B)) by (rewrite AB; ring). rewrite <- Rmult_assoc. apply Rmult_le_compat_r; lra. }
  change (W / A) with (W * B) in *. change (P / A) with (P * B). set (k := W * B) in *. set (w := u * k) in *.
  assert (W1 : u <= w <= 0.0012) by (unfold w; rewrite U; lra).
  assert (P0 : 0 <= P) by (pose proof (Rabs_pos C); lra). assert (PB : 0 <= P * B <= 2e36) by (split; [apply Rmult_le_pos; lra|replace 2e36 with (2e18 * 1e18) by lra; apply Rmult_le_compat; lra]).
  assert (RD : Rabs (/ D) <= B) by (rewrite Rabs_inv; apply Rle_refl).
  set (Z := w * (P * B)). assert (Z1 : u * (P * B) <= Z) by (unfold Z; apply Rmult_le_compat_r; lra). assert (Z2 : Z <= 0.0012 * (P * B)) by (unfold Z; apply Rmult_le_compat_r; lra).
  assert (WB : 0 <= w * B <= 0.0012 * B) by (split; [apply Rmult_le_pos; lra|apply Rmult_le_compat_r; lra]).
  assert (EX : (P + (2.01 * u * P + 3e-45)) * (B + 8.2 * w * B) = (1 + 2.01 * u) * (P * B) + (1 + 2.01 * u) * 8.2 * Z + 3e-45 * B + 3e-45 * 8.2 * (w * B)) by (unfold Z; ring).
  eapply near_le; [apply (nmul c r C (/ D) _ _ P B Hc Hr (proj1 HP) RD)|].
  - rewrite EX, U. lra.
  - rewrite EX. replace ((2.01 * u * P + 3e-45) * B + P * (8.2 * w * B) + (2.01 * u * P + 3e-45) * (8.2 * w * B)) with
      (2.01 * (u * (P * B)) + 3e-45 * B + 8.2 * Z + 2.01 * u * 8.2 * Z + 3e-45 * 8.2 * (w * B)) by (unfold Z; ring).
    replace (12 * u * k * (P * B)) with (12 * Z) by (unfold Z, w; ring). rewrite U in *. lra.
Qed.
Lemma inverse_error (m : Matrix3 f32) : allM sm m -> let a := mR m in let D := detR a in let W := perm a in 1e-18 <= Rabs D -> W <= 20000 * Rabs D ->
  let ok (x : f32) (p q r s : R) := near x ((p * q - r * s) / D) (12 * u * (W / Rabs D) * ((Rabs (p * q) + Rabs (r * s)) / Rabs D) + 1e-26) in
  let i := M_invert N m in
  ok (m0 i) (m4 a) (m8 a) (m5 a) (m7 a) /\ ok (m1 i) (m2 a) (m7 a) (m1 a) (m8 a) /\ ok (m2 i) (m1 a) (m5 a) (m2 a) (m4 a) /\
  ok (m3 i) (m5 a) (m6 a) (m3 a) (m8 a) /\ ok (m4 i) (m0 a) (m8 a) (m2 a) (m6 a) /\ ok (m5 i) (m2 a) (m3 a) (m0 a) (m5 a) /\
  ok (m6 i) (m3 a) (m7 a) (m4 a) (m6 a) /\ ok (m7 i) (m1 a) (m6 a) (m0 a) (m7 a) /\ ok (m8 i) (m0 a) (m4 a) (m1 a) (m3 a).
Proof.
  intros HM a D W HD HK ok i. destruct (det_error m HM) as [ND PW]. fold a in ND, PW. fold D in ND. fold W in ND, PW.
  assert (HDW : 1e-18 <= Rabs D <= W) by (split; [exact HD|apply perm_ge]).
  pose proof (recip_error _ D W ND HDW PW HK) as NR. set (r := @fdiv N (@flit N 1%dec) (M_det N m)) in *.
  destruct HM as (H0 & H1 & H2 & H3 & H4 & H5 & H6 & H7 & H8).
  assert (X : forall x y z w : f32, sm x -> sm y -> sm z -> sm w -> ok (@fmul N (@fsub N (@fmul N x y) (@fmul N z w)) r) (B2R x) (B2R y) (B2R z) (B2R w)).
  { intros x y z w Hx Hy Hz Hw. destruct (cof_error x y z w Hx Hy Hz Hw) as [NC B]. apply entry_error; assumption. }
  repeat split; apply X; assumption.
Qed.
End F.
Lemma inverse_case (lm : libm) : let z (k : Z) : f32 := @fofZ (FN lm) k in let m := M3 (z 2%Z) (z 1%Z) (z 0%Z) (z 0%Z) (z 3%Z) (z 1%Z) (z 1%Z) (z 0%Z) (z 1%Z) in
  allM sm m /\ 1e-18 <= Rabs (detR (mR m)) /\ perm (mR m) <= 20000 * Rabs (detR (mR m)).
Proof.
  intros z m. assert (Z : forall k, (Z.abs k <= 2 ^ 24)%Z -> fin (z k) /\ B2R (z k) = IZR k) by (intros k K; apply ofZ_ok, K).
  destruct (Z 0%Z ltac:(cbn; lia)) as [F0 V0]. destruct (Z 1%Z ltac:(cbn; lia)) as [F1 V1]. destruct (Z 2%Z ltac:(cbn; lia)) as [F2 V2]. destruct (Z 3%Z ltac:(cbn; lia)) as [F3 V3].
  unfold m, mR, allM, sm, perm. cbn [m0 m1 m2 m3 m4 m5 m6 m7 m8]. rewrite V0, V1, V2, V3.
  replace (detR (M3 2 1 0 0 3 1 1 0 1)) with 7 by (spec; ring). rewrite !Rabs_pos_eq by lra. repeat split; try assumption; lra.
Qed.
