(** * Accuracy of the CIE 2000 difference in binary32: the final quadratic form, and hues away from the cuts. *)
From Coq Require Import ZArith Reals Lra Lia List Bool Psatz.
From Flocq Require Import Core IEEE754.BinarySingleNaN.
From Verif Require Import Num NumR NumF MVec MDelta F32 RPow PHsvF PYxyF POkF PLibm PPowF PNearF PNearF2 PRelF SpecDelta PE00 PE00b PHsvA PE00d PIvF PE00F PE00acc PE00acc2 PE00acc3.
Local Open Scope R_scope.

Definition qf (r x y z : R) : R := x ^ 2 + y ^ 2 + z ^ 2 + r * y * z.
Lemma qf_nonneg r x y z : r * r <= 3 -> 0 <= qf r x y z.
Proof. intros H. apply quad_nonneg. split; nra. Qed.
Lemma qf_split r x y z : qf r x y z = x ^ 2 + (y + r / 2 * z) ^ 2 + (1 - r * r / 4) * z ^ 2. Proof. unfold qf. field. Qed.
Lemma qf_split' r x y z : qf r x y z = x ^ 2 + (z + r / 2 * y) ^ 2 + (1 - r * r / 4) * y ^ 2. Proof. unfold qf. field. Qed.
Lemma qf_x r x y z : r * r <= 3 -> x ^ 2 <= qf r x y z.
Proof. intros H. rewrite qf_split. pose proof (pow2_ge_0 (y + r / 2 * z)). pose proof (pow2_ge_0 z). nra. Qed.
Lemma qf_z r x y z : r * r <= 3 -> z ^ 2 <= 4 * qf r x y z.
Proof. intros H. rewrite qf_split. pose proof (pow2_ge_0 (y + r / 2 * z)). pose proof (pow2_ge_0 x). pose proof (pow2_ge_0 z). nra. Qed.
Lemma qf_y r x y z : r * r <= 3 -> y ^ 2 <= 4 * qf r x y z.
Proof. intros H. rewrite qf_split'. pose proof (pow2_ge_0 (z + r / 2 * y)). pose proof (pow2_ge_0 x). pose proof (pow2_ge_0 y). nra. Qed.
Lemma abs_sqrt a Q k : 0 <= Q -> 0 <= k -> a ^ 2 <= k ^ 2 * Q -> Rabs a <= k * sqrt Q.
Proof.
  intros HQ Hk H. pose proof (sqrt_pos Q). apply Rsqr_incr_0_var; [|apply Rmult_le_pos; assumption]. rewrite <- Rsqr_abs. unfold Rsqr.
  replace (k * sqrt Q * (k * sqrt Q)) with (k ^ 2 * (sqrt Q * sqrt Q)) by ring. rewrite sqrt_def by exact HQ. lra.
Qed.
Definition qb (r x y z x' y' z' : R) : R := x * x' + y * y' + z * z' + r / 2 * (y * z' + z * y').
Lemma qf_cs r x y z x' y' z' : r * r <= 3 -> qb r x y z x' y' z' ^ 2 <= qf r x y z * qf r x' y' z'.
Proof.
  intros H. set (s := sqrt (1 - r * r / 4)). assert (S : s * s = 1 - r * r / 4) by (apply sqrt_def; lra). clearbody s.
  rewrite !qf_split. rewrite <- S. set (Y := y + r / 2 * z). set (Y' := y' + r / 2 * z'). set (W := s * z). set (W' := s * z').
  replace (qb r x y z x' y' z') with (x * x' + Y * Y' + W * W').
  2:{ unfold Y, Y', W, W', qb. replace (s * z * (s * z')) with (s * s * (z * z')) by ring. rewrite S. field. }
  replace (s * s * z ^ 2) with (W ^ 2) by (unfold W; ring). replace (s * s * z' ^ 2) with (W' ^ 2) by (unfold W'; ring). clearbody Y Y' W W'.
  assert (E : (x ^ 2 + Y ^ 2 + W ^ 2) * (x' ^ 2 + Y' ^ 2 + W' ^ 2) - (x * x' + Y * Y' + W * W') ^ 2 = (x * Y' - Y * x') ^ 2 + (x * W' - W * x') ^ 2 + (Y * W' - W * Y') ^ 2) by ring.
  pose proof (pow2_ge_0 (x * Y' - Y * x')). pose proof (pow2_ge_0 (x * W' - W * x')). pose proof (pow2_ge_0 (Y * W' - W * Y')). lra.
Qed.
Lemma qf_tri r x y z dx dy dz : r * r <= 3 -> sqrt (qf r (x + dx) (y + dy) (z + dz)) <= sqrt (qf r x y z) + sqrt (qf r dx dy dz).
Proof.
  intros H. pose proof (qf_nonneg r x y z H) as A. pose proof (qf_nonneg r dx dy dz H) as B. pose proof (sqrt_pos (qf r x y z)) as SA. pose proof (sqrt_pos (qf r dx dy dz)) as SB.
  rewrite <- (sqrt_square (sqrt (qf r x y z) + sqrt (qf r dx dy dz))) by lra. apply sqrt_le_1; [now apply qf_nonneg|nra|].
  assert (C : qb r x y z dx dy dz <= sqrt (qf r x y z) * sqrt (qf r dx dy dz)).
  { rewrite <- sqrt_mult by assumption. eapply Rle_trans; [apply Rle_abs|]. rewrite <- sqrt_Rsqr_abs. apply sqrt_le_1; [apply Rle_0_sqr|now apply Rmult_le_pos|]. pose proof (qf_cs r x y z dx dy dz H). unfold Rsqr. lra. }
  replace ((sqrt (qf r x y z) + sqrt (qf r dx dy dz)) * (sqrt (qf r x y z) + sqrt (qf r dx dy dz))) with (sqrt (qf r x y z) * sqrt (qf r x y z) + sqrt (qf r dx dy dz) * sqrt (qf r dx dy dz) + 2 * (sqrt (qf r x y z) * sqrt (qf r dx dy dz))) by ring.
  rewrite !sqrt_def by assumption. replace (qf r (x + dx) (y + dy) (z + dz)) with (qf r x y z + qf r dx dy dz + 2 * qb r x y z dx dy dz) by (unfold qf, qb; field). lra.
Qed.
Lemma qf_l1 r x y z : r * r <= 3 -> sqrt (qf r x y z) <= Rabs x + Rabs y + Rabs z.
Proof.
  intros H. pose proof (Rabs_pos x). pose proof (Rabs_pos y). pose proof (Rabs_pos z). rewrite <- (sqrt_square (Rabs x + Rabs y + Rabs z)) by lra. apply sqrt_le_1; [now apply qf_nonneg|nra|].
  unfold qf. rewrite <- (pow2_abs x), <- (pow2_abs y), <- (pow2_abs z). assert (R : Rabs r <= 2) by (apply Rabs_le; split; nra).
  assert (K : r * y * z <= 2 * (Rabs y * Rabs z)). { eapply Rle_trans; [apply Rle_abs|]. rewrite !Rabs_mult. assert (0 <= Rabs y * Rabs z) by nra. rewrite Rmult_assoc. apply Rmult_le_compat_r; lra. }
  nra.
Qed.
Lemma qf_lip r x y z X Y Z : r * r <= 3 -> Rabs (sqrt (qf r X Y Z) - sqrt (qf r x y z)) <= Rabs (X - x) + Rabs (Y - y) + Rabs (Z - z).
Proof.
  intros H. pose proof (qf_tri r x y z (X - x) (Y - y) (Z - z) H) as A. pose proof (qf_tri r X Y Z (x - X) (y - Y) (z - Z) H) as B.
  pose proof (qf_l1 r (X - x) (Y - y) (Z - z) H) as C. pose proof (qf_l1 r (x - X) (y - Y) (z - Z) H) as D.
  rewrite (Rabs_minus_sym x X), (Rabs_minus_sym y Y), (Rabs_minus_sym z Z) in D.
  replace (x + (X - x)) with X in A by ring. replace (y + (Y - y)) with Y in A by ring. replace (z + (Z - z)) with Z in A by ring.
  replace (X + (x - X)) with x in B by ring. replace (Y + (y - Y)) with y in B by ring. replace (Z + (z - Z)) with z in B by ring.
  apply Rabs_le. lra.
Qed.

(** the computed radicand. *)
Lemma rnd_ab z a e : Rabs (z - a) <= e -> Rabs (rnd z - a) <= e + u * (Rabs a + e) + eta.
Proof.
  intros H. pose proof (rnd_err_abs z) as R. assert (Z : Rabs z <= Rabs a + e). { replace z with (a + (z - a)) by ring. eapply Rle_trans; [apply Rabs_triang|]. lra. }
  replace (rnd z - a) with ((rnd z - z) + (z - a)) by ring. eapply Rle_trans; [apply Rabs_triang|]. pose proof F32.u_pos. nra.
Qed.
Lemma radv_close X Y Z r R : r * r <= 3 -> Rabs (R - r) <= 9600 * u -> Rabs Z <= 1000 ->
  Rabs (radv X Y Z R - qf r X Y Z) <= 38500 * u * qf r X Y Z + 2000 * eta.
Proof.
  intros H D BZ. pose proof (qf_x r X Y Z H) as QX. pose proof (qf_y r X Y Z H) as QY. pose proof (qf_z r X Y Z H) as QZ. pose proof (qf_nonneg r X Y Z H) as Q0.
  pose proof u16 as U. pose proof eta16 as Et. unfold radv.
  assert (YZ : Rabs (Y * Z) <= 4 * qf r X Y Z). { rewrite Rabs_mult. pose proof (pow2_abs Y). pose proof (pow2_abs Z). pose proof (pow2_ge_0 (Rabs Y - Rabs Z)). nra. }
  set (Q := qf r X Y Z) in *. assert (EQ : Q = X * X + Y * Y + Z * Z + r * Y * Z) by (unfold Q, qf; ring).
  replace (X ^ 2) with (X * X) in QX by ring. replace (Y ^ 2) with (Y * Y) in QY by ring. replace (Z ^ 2) with (Z * Z) in QZ by ring.
  assert (X0 : 0 <= X * X) by nra. assert (Y0 : 0 <= Y * Y) by nra. assert (Z0 : 0 <= Z * Z) by nra.
  assert (Rr : Rabs r <= 1.7321) by (apply Rabs_le; split; nra).
  assert (RR : Rabs R <= 1.74). { replace R with (r + (R - r)) by ring. eapply Rle_trans; [apply Rabs_triang|]. rewrite U in D. lra. }
  assert (T1 := rnd_err_abs (R * Y)). set (t := rnd (R * Y)) in *.
  assert (T2 : Rabs (t * Z - r * Y * Z) <= 9602 * u * Rabs (Y * Z) + 1000 * eta).
  { replace (t * Z - r * Y * Z) with ((t - R * Y) * Z + (R - r) * (Y * Z)) by ring. eapply Rle_trans; [apply Rabs_triang|]. rewrite (Rabs_mult (t - R * Y) Z), (Rabs_mult (R - r) (Y * Z)).
    assert (Rabs (t - R * Y) * Rabs Z <= (u * Rabs (R * Y) + eta) * Rabs Z) by (apply Rmult_le_compat_r; [apply Rabs_pos|exact T1]).
    assert (Rabs (R - r) * Rabs (Y * Z) <= 9600 * u * Rabs (Y * Z)) by (apply Rmult_le_compat_r; [apply Rabs_pos|exact D]).
    assert (u * Rabs (R * Y) * Rabs Z <= 1.74 * u * Rabs (Y * Z)). { rewrite !Rabs_mult. replace (u * (Rabs R * Rabs Y) * Rabs Z) with (Rabs R * (u * (Rabs Y * Rabs Z))) by ring. replace (1.74 * u * (Rabs Y * Rabs Z)) with (1.74 * (u * (Rabs Y * Rabs Z))) by ring. apply Rmult_le_compat_r; [|exact RR]. apply Rmult_le_pos; [lra|]. apply Rmult_le_pos; apply Rabs_pos. }
    assert (eta * Rabs Z <= eta * 1000) by (apply Rmult_le_compat_l; lra). pose proof (Rabs_pos (Y * Z)). rewrite U in *. lra. }
  assert (RYZ : Rabs (r * Y * Z) <= 1.7321 * Rabs (Y * Z)). { rewrite Rmult_assoc, Rabs_mult. apply Rmult_le_compat_r; [apply Rabs_pos|exact Rr]. }
  pose proof (rnd_ab _ _ _ T2) as T3. clear T1 T2. set (t3 := rnd (t * Z)) in *. clearbody t3.
  pose proof (rnd_err_abs (X * X)) as E1. pose proof (rnd_err_abs (Y * Y)) as E2. pose proof (rnd_err_abs (Z * Z)) as E3.
  rewrite (Rabs_pos_eq (X * X)) in E1 by assumption. rewrite (Rabs_pos_eq (Y * Y)) in E2 by assumption. rewrite (Rabs_pos_eq (Z * Z)) in E3 by assumption. set (x2 := rnd (X * X)) in *. set (y2 := rnd (Y * Y)) in *. set (z2 := rnd (Z * Z)) in *. clearbody x2 y2 z2.
  pose proof (Rabs_pos (Y * Z)) as d0. set (d := Rabs (Y * Z)) in *. clearbody d.
  set (a := X * X) in *. set (b := Y * Y) in *. set (c := Z * Z) in *. set (w := r * Y * Z) in *. clearbody a b c w.
  pose proof (Rabs_pos w) as w0.
  assert (F1 : Rabs (x2 + y2 - (a + b)) <= u * (a + b) + 2 * eta). { replace (x2 + y2 - (a + b)) with ((x2 - a) + (y2 - b)) by ring. eapply Rle_trans; [apply Rabs_triang|]. lra. }
  apply rnd_ab in F1. rewrite (Rabs_pos_eq (a + b)) in F1 by lra. set (s1 := rnd (x2 + y2)) in *. clearbody s1.
  assert (F2 : Rabs (s1 + z2 - (a + b + c)) <= 2.01 * u * (a + b) + u * c + 5 * eta). { replace (s1 + z2 - (a + b + c)) with ((s1 - (a + b)) + (z2 - c)) by ring. eapply Rle_trans; [apply Rabs_triang|]. rewrite U in *. lra. }
  apply rnd_ab in F2. rewrite (Rabs_pos_eq (a + b + c)) in F2 by lra. set (s2 := rnd (s1 + z2)) in *. clearbody s2.
  assert (F3 : Rabs (s2 + t3 - Q) <= 3.1 * u * (a + b + c) + 9605 * u * d + 1100 * eta).
  { rewrite EQ. replace (s2 + t3 - (a + b + c + w)) with ((s2 - (a + b + c)) + (t3 - w)) by ring. eapply Rle_trans; [apply Rabs_triang|]. rewrite U in *. lra. }
  apply rnd_ab in F3. rewrite (Rabs_pos_eq Q) in F3 by exact Q0. eapply Rle_trans; [exact F3|]. rewrite U in *. lra.
Qed.
Lemma sqrt_close S Q : 0 <= S -> 0 <= Q -> Rabs (S - Q) <= 38500 * u * Q + 2000 * eta -> Rabs (sqrt S - sqrt Q) <= 0.00118 * sqrt Q + 2e-9.
Proof.
  intros HS HQ H. pose proof u16 as U. pose proof eta45 as Et. pose proof (sqrt_pos Q) as SQ. pose proof (sqrt_pos S) as SS. destruct (Rle_or_lt 1e-18 Q) as [L|L].
  - assert (HH : Rabs (S - Q) <= 0.0023 * Q) by (rewrite U in H; lra).
    assert (P : 0 < sqrt Q) by (apply sqrt_lt_R0; lra).
    assert (D : (sqrt S - sqrt Q) * (sqrt S + sqrt Q) = S - Q) by (replace ((sqrt S - sqrt Q) * (sqrt S + sqrt Q)) with (sqrt S * sqrt S - sqrt Q * sqrt Q) by ring; rewrite !sqrt_def by assumption; reflexivity).
    assert (QQ : Q = sqrt Q * sqrt Q) by (now rewrite sqrt_def). 
    assert (LB : 0.99 * sqrt Q <= sqrt S).
    { rewrite <- (sqrt_square (0.99 * sqrt Q)) by lra. apply sqrt_le_1; [nra|exact HS|]. replace (0.99 * sqrt Q * (0.99 * sqrt Q)) with (0.99 * 0.99 * (sqrt Q * sqrt Q)) by ring. rewrite <- QQ. assert (K := Rle_abs (Q - S)). rewrite Rabs_minus_sym in K. lra. }
    assert (AB : Rabs (sqrt S - sqrt Q) * (sqrt S + sqrt Q) <= 0.0023 * (sqrt Q * sqrt Q)).
    { rewrite <- QQ. rewrite <- (Rabs_pos_eq (sqrt S + sqrt Q)) by lra. rewrite <- Rabs_mult, D. exact HH. }
    pose proof (Rabs_pos (sqrt S - sqrt Q)). set (e := Rabs (sqrt S - sqrt Q)) in *. apply Rle_trans with (0.00118 * sqrt Q); [|lra].
    apply Rmult_le_reg_r with (1.99 * sqrt Q); [lra|]. apply Rle_trans with (e * (sqrt S + sqrt Q)); [apply Rmult_le_compat_l; lra|]. nra.
  - assert (SB : S <= 1.1e-18). { assert (K := Rle_abs (S - Q)). rewrite U in H. lra. }
    assert (A : sqrt S <= 1.5e-9). { rewrite <- (sqrt_square 1.5e-9) by lra. apply sqrt_le_1; lra. }
    assert (B : sqrt Q <= 1.5e-9). { rewrite <- (sqrt_square 1.5e-9) by lra. apply sqrt_le_1; lra. }
    apply Rabs_le. lra.
Qed.
(** the whole last step: the three scaled differences are near, so is the root. *)
Lemma form_close X Y Z R x y z r : r * r <= 3 -> Rabs (R - r) <= 9600 * u -> Rabs Z <= 1000 -> 0 <= radv X Y Z R ->
  Rabs (X - x) <= 110 * u + 1230 * u * Rabs x -> Rabs (Y - y) <= 13000 * u + 40 * u * Rabs y -> Rabs (Z - z) <= 45000 * u + 1350 * u * Rabs z ->
  Rabs (rnd (sqrt (radv X Y Z R)) - sqrt (qf r x y z)) <= 0.0036 + 0.0015 * sqrt (qf r x y z).
Proof.
  intros H D BZ NN HX HY HZ. pose proof u16 as U. pose proof eta45 as Et.
  pose proof (radv_close X Y Z r R H D BZ) as RC. pose proof (qf_nonneg r X Y Z H) as Q1. pose proof (qf_nonneg r x y z H) as Q0.
  pose proof (sqrt_close _ _ NN Q1 RC) as SC. pose proof (qf_lip r x y z X Y Z H) as LP.
  pose proof (rnd_err_abs (sqrt (radv X Y Z R))) as RE. rewrite (Rabs_pos_eq (sqrt (radv X Y Z R))) in RE by apply sqrt_pos.
  assert (AX : Rabs x <= 1 * sqrt (qf r x y z)). { apply abs_sqrt; [exact Q0|lra|]. pose proof (qf_x r x y z H). lra. }
  assert (AY : Rabs y <= 2 * sqrt (qf r x y z)). { apply abs_sqrt; [exact Q0|lra|]. pose proof (qf_y r x y z H). lra. }
  assert (AZ : Rabs z <= 2 * sqrt (qf r x y z)). { apply abs_sqrt; [exact Q0|lra|]. pose proof (qf_z r x y z H). lra. }
  pose proof (sqrt_pos (qf r x y z)) as P0. pose proof (sqrt_pos (qf r X Y Z)) as P1. pose proof (sqrt_pos (radv X Y Z R)) as P2.
  set (E := sqrt (qf r x y z)) in *. set (E1 := sqrt (qf r X Y Z)) in *. set (s := sqrt (radv X Y Z R)) in *. clearbody E E1 s.
  rewrite U in *. assert (L1 : Rabs (E1 - E) <= 0.00346424 + 0.00024 * E) by lra. clear LP HX HY HZ.
  assert (B1 : E1 <= E + (0.00346424 + 0.00024 * E)). { pose proof (Rle_abs (E1 - E)). lra. }
  assert (B2 : s <= E1 + (0.00118 * E1 + 2e-9)). { pose proof (Rle_abs (s - E1)). lra. }
  replace (rnd s - E) with ((rnd s - s) + (s - E1) + (E1 - E)) by ring. eapply Rle_trans; [apply Rabs_triang|]. eapply Rle_trans; [apply Rplus_le_compat_r, Rabs_triang|]. lra.
Qed.
