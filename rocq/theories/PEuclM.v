(** * Euclidean colour differences as distances, in binary32. *)
From Coq Require Import ZArith Reals Lra Lia Psatz.
From Flocq Require Import Core IEEE754.BinarySingleNaN.
From Verif Require Import Num NumF MVec MTri MDelta F32 PMatF PHsvF PDelta PEuclF PFma5.
Local Open Scope R_scope.

Lemma dist3_n3 p q : dist3 p q = n3 (B2R (v0 p) - B2R (v0 q)) (B2R (v1 p) - B2R (v1 q)) (B2R (v2 p) - B2R (v2 q)).
Proof. reflexivity. Qed.
Lemma dist2_n3 p q : dist2 p q = n3 0 (B2R (v1 p) - B2R (v1 q)) (B2R (v2 p) - B2R (v2 q)).
Proof. unfold dist2, n3. f_equal. ring. Qed.
Lemma dist3_tri a b c : dist3 a c <= dist3 a b + dist3 b c.
Proof.
  rewrite !dist3_n3. eapply Rle_trans; [|apply n3_triangle]. right. f_equal; ring.
Qed.
Lemma dist2_tri a b c : dist2 a c <= dist2 a b + dist2 b c.
Proof.
  rewrite !dist2_n3. eapply Rle_trans; [|apply n3_triangle]. right. f_equal; ring.
Qed.
Lemma tri_err d1 d2 d3 e1 e2 e3 t : 0 <= t -> d3 <= d1 + d2 -> 0 <= d1 -> 0 <= d2 -> Rabs (e1 - d1) <= 4 * u * d1 + t -> Rabs (e2 - d2) <= 4 * u * d2 + t -> Rabs (e3 - d3) <= 4 * u * d3 + t ->
  e3 <= (1 + 9 * u) * (e1 + e2) + 4 * t.
Proof.
  intros T H P1 P2 H1 H2 H3. apply Rabs_le_inv in H1, H2, H3. assert (U : u = / 16777216) by reflexivity. rewrite U in *. lra.
Qed.
Section Lm.
Variable lm : libm.
Local Notation N := (FN lm).
Lemma E76_tri a b c : close a b -> close b c -> close a c ->
  B2R (Delta_E76 N a c) <= (1 + 9 * u) * (B2R (Delta_E76 N a b) + B2R (Delta_E76 N b c)) + bpow radix2 (-71).
Proof.
  intros (A & B & A0 & A1 & A2) (_ & C & B0 & B1 & B2) (_ & _ & C0 & C1 & C2).
  replace (bpow radix2 (-71)) with (4 * bpow radix2 (-73)) by (change (-71)%Z with (2 + -73)%Z; rewrite bpow_plus; reflexivity).
  eapply tri_err; [apply bpow_ge_0|apply (dist3_tri a b c)|apply sqrt_pos|apply sqrt_pos| | |].
  - exact (proj2 (E76_error lm a b A B A0 A1 A2)).
  - exact (proj2 (E76_error lm b c B C B0 B1 B2)).
  - exact (proj2 (E76_error lm a c A C C0 C1 C2)).
Qed.
Lemma UV_tri a b c : close a b -> close b c -> close a c ->
  B2R (Delta_UV N a c) <= (1 + 9 * u) * (B2R (Delta_UV N a b) + B2R (Delta_UV N b c)) + bpow radix2 (-71).
Proof.
  intros (A & B & A0 & A1 & A2) (_ & C & B0 & B1 & B2) (_ & _ & C0 & C1 & C2).
  replace (bpow radix2 (-71)) with (4 * bpow radix2 (-73)) by (change (-71)%Z with (2 + -73)%Z; rewrite bpow_plus; reflexivity).
  eapply tri_err; [apply bpow_ge_0|apply (dist2_tri a b c)|apply sqrt_pos|apply sqrt_pos| | |].
  - exact (proj2 (UV_error lm a b A B A1 A2)).
  - exact (proj2 (UV_error lm b c B C B1 B2)).
  - exact (proj2 (UV_error lm a c A C C1 C2)).
Qed.
(** a computed difference of 0 *)
Lemma E76_zero_near a b : close a b -> B2R (Delta_E76 N a b) = 0 ->
  Rabs (B2R (v0 a) - B2R (v0 b)) <= bpow radix2 (-72) /\ Rabs (B2R (v1 a) - B2R (v1 b)) <= bpow radix2 (-72) /\ Rabs (B2R (v2 a) - B2R (v2 b)) <= bpow radix2 (-72).
Proof.
  intros (A & B & A0 & A1 & A2) Z. pose proof (proj2 (E76_error lm a b A B A0 A1 A2)) as E. rewrite Z in E. apply Rabs_le_inv in E.
  assert (P : 0 <= dist3 a b) by apply sqrt_pos. assert (U : u = / 16777216) by reflexivity. rewrite U in E.
  assert (T : bpow radix2 (-72) = 2 * bpow radix2 (-73)) by (change (-72)%Z with (1 + -73)%Z; rewrite bpow_plus; reflexivity).
  pose proof (bpow_gt_0 radix2 (-73)) as P73. assert (D : dist3 a b <= bpow radix2 (-72)) by (rewrite T; lra).
  assert (G : forall x y z, Rabs x <= sqrt (x * x + y * y + z * z)).
  { intros x y z. rewrite <- (sqrt_Rsqr_abs x). apply sqrt_le_1_alt. unfold Rsqr. nra. }
  unfold dist3 in D. pose proof (G (B2R (v0 a) - B2R (v0 b)) (B2R (v1 a) - B2R (v1 b)) (B2R (v2 a) - B2R (v2 b))) as G0.
  pose proof (G (B2R (v1 a) - B2R (v1 b)) (B2R (v0 a) - B2R (v0 b)) (B2R (v2 a) - B2R (v2 b))) as G1. pose proof (G (B2R (v2 a) - B2R (v2 b)) (B2R (v0 a) - B2R (v0 b)) (B2R (v1 a) - B2R (v1 b))) as G2.
  match type of D with sqrt ?e <= _ => match type of G1 with _ <= sqrt ?f => replace f with e in G1 by ring end; match type of G2 with _ <= sqrt ?f => replace f with e in G2 by ring end end. lra.
Qed.
(** counterexamples: [on x] is the colour (0, x, 0). *)
Definition on (x : f32) : Vector3 f32 := V3 (@fofZ N 0) x (@fofZ N 0).
Definition two_80 : f32 := @fdiv N (@fofZ N 1) (@fofZ N (2 ^ 80)).
Definition b34 : f32 := @fdiv N (@fofZ N 3) (@fofZ N (2 ^ 26)).
Lemma z0 : fin (@fofZ N 0) /\ B2R (@fofZ N 0) = 0. Proof. split; reflexivity. Qed.
Lemma z1 : fin (@fofZ N 1) /\ B2R (@fofZ N 1) = 1. Proof. f32_val. Qed.
Lemma v80 : fin two_80 /\ B2R two_80 = / 1208925819614629174706176. Proof. unfold two_80. f32_val. Qed.
Lemma v34 : fin b34 /\ B2R b34 = 3 / 67108864. Proof. unfold b34. f32_val. Qed.
Lemma on_close x y : fin x -> fin y -> 0 <= B2R x <= 1 -> 0 <= B2R y <= 1 -> close (on x) (on y).
Proof.
  intros Fx Fy Hx Hy. destruct z0 as [F0 V0]. assert (L : 1 <= bpow radix2 60) by (apply (bpow_le radix2 0 60); lia).
  unfold close, on, allV. cbn [v0 v1 v2]. rewrite V0. rewrite (Rminus_diag_eq 0 0) by reflexivity. rewrite Rabs_R0. repeat split; try assumption; try lra. apply Rabs_le. lra.
Qed.
Lemma E76_zero_refuted : exists a b, close a b /\ B2R (v1 a) <> B2R (v1 b) /\ B2R (Delta_E76 N a b) = 0 /\ B2R (Delta_UV N a b) = 0.
Proof.
  exists (on two_80), (on (@fofZ N 0)). destruct z0 as [F0 V0], v80 as [F8 V8]. split; [apply on_close; try assumption; rewrite ?V0, ?V8; lra|].
  split; [cbn [on v1]; rewrite V0, V8; lra|]. split.
  - assert (G : fin (Delta_E76 N (on two_80) (on (@fofZ N 0))) /\ B2R (Delta_E76 N (on two_80) (on (@fofZ N 0))) = 0) by (unfold on, two_80; f32_val). apply G.
  - assert (G : fin (Delta_UV N (on two_80) (on (@fofZ N 0))) /\ B2R (Delta_UV N (on two_80) (on (@fofZ N 0))) = 0) by (unfold on, two_80; f32_val). apply G.
Qed.
Lemma E76_tri_refuted : exists a b c, close a b /\ close b c /\ close a c /\
  B2R (Delta_E76 N a b) + B2R (Delta_E76 N b c) < B2R (Delta_E76 N a c) /\ B2R (Delta_UV N a b) + B2R (Delta_UV N b c) < B2R (Delta_UV N a c).
Proof.
  exists (on (@fofZ N 0)), (on b34), (on (@fofZ N 1)). destruct z0 as [F0 V0], z1 as [F1 V1], v34 as [F3 V3].
  split; [apply on_close; try assumption; rewrite ?V0, ?V3; lra|]. split; [apply on_close; try assumption; rewrite ?V1, ?V3; lra|]. split; [apply on_close; try assumption; rewrite ?V0, ?V1; lra|].
  assert (A : fin (Delta_E76 N (on (@fofZ N 0)) (on b34)) /\ B2R (Delta_E76 N (on (@fofZ N 0)) (on b34)) = 3 / 67108864) by (unfold on, b34; f32_val).
  assert (B : fin (Delta_E76 N (on b34) (on (@fofZ N 1))) /\ B2R (Delta_E76 N (on b34) (on (@fofZ N 1))) = 16777215 / 16777216) by (unfold on, b34; f32_val).
  assert (C : fin (Delta_E76 N (on (@fofZ N 0)) (on (@fofZ N 1))) /\ B2R (Delta_E76 N (on (@fofZ N 0)) (on (@fofZ N 1))) = 1) by (unfold on; f32_val).
  assert (A' : fin (Delta_UV N (on (@fofZ N 0)) (on b34)) /\ B2R (Delta_UV N (on (@fofZ N 0)) (on b34)) = 3 / 67108864) by (unfold on, b34; f32_val).
  assert (B' : fin (Delta_UV N (on b34) (on (@fofZ N 1))) /\ B2R (Delta_UV N (on b34) (on (@fofZ N 1))) = 16777215 / 16777216) by (unfold on, b34; f32_val).
  assert (C' : fin (Delta_UV N (on (@fofZ N 0)) (on (@fofZ N 1))) /\ B2R (Delta_UV N (on (@fofZ N 0)) (on (@fofZ N 1))) = 1) by (unfold on; f32_val).
  rewrite (proj2 A), (proj2 B), (proj2 C), (proj2 A'), (proj2 B'), (proj2 C'). lra.
Qed.
Lemma tri_case : close (on (@fofZ N 0)) (on b34) /\ close (on b34) (on (@fofZ N 1)) /\ close (on (@fofZ N 0)) (on (@fofZ N 1)).
Proof.
  destruct z0 as [F0 V0], z1 as [F1 V1], v34 as [F3 V3].
  split; [apply on_close; try assumption; rewrite ?V0, ?V3; lra|]. split; [apply on_close; try assumption; rewrite ?V1, ?V3; lra|]. apply on_close; try assumption; rewrite ?V0, ?V1; lra.
Qed.
End Lm.
