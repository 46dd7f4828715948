(** * Properties C115 onwards. *)
From Coq Require Import ZArith Reals.
From Flocq Require Import Core BinarySingleNaN.
From Verif Require Import Num NumR NumF MVec MTri MDelta RTac F32 PIvF PE00c PE00F PE00F2.
Local Open Scope R_scope.

(** C115: the CIE 2000 colour difference compared with the plain CIE 1976 one. *)
Theorem C115_triangle_refuted : exists (p q r : Vector3 R) dpq dqr dpr,
  Delta_E00 RN (finV p) (finV q) (Some 1) (Some 1) (Some 1) = Some dpq /\
  Delta_E00 RN (finV q) (finV r) (Some 1) (Some 1) (Some 1) = Some dqr /\
  Delta_E00 RN (finV p) (finV r) (Some 1) (Some 1) (Some 1) = Some dpr /\ dpq + dqr < dpr - 26.
Proof. exact triangle_refuted. Qed.
Print Assumptions C115_triangle_refuted.
Theorem C115_greys_partial (L1 L2 kl kc kh : R) : 0 < kl -> 0 < kc -> 0 < kh ->
  Delta_E00 RN (finV (V3 L1 0 0)) (finV (V3 L2 0 0)) (Some kl) (Some kc) (Some kh) =
  Some (Rabs (L2 - L1) / (kl * (1 + 0.015 * ((L1 + L2) / 2 - 50) ^ 2 / sqrt (20 + ((L1 + L2) / 2 - 50) ^ 2)))).
Proof. exact (E00_grey L1 L2 kl kc kh). Qed.
Print Assumptions C115_greys_partial.
Theorem C115_at_most_E76_partial (p q : Vector3 R) (kl kc kh : R) : 1 <= kl -> 1 <= kc -> 1 <= kh -> exists d e,
  Delta_E00 RN (finV p) (finV q) (Some kl) (Some kc) (Some kh) = Some d /\ Delta_E76 RN (finV p) (finV q) = Some e /\ d <= 2.1214 * e.
Proof. exact (E00_E76 p q kl kc kh). Qed.
Print Assumptions C115_at_most_E76_partial.
Theorem C115_axes_partial (p q : Vector3 R) (kl kc kh : R) : 1 <= kl -> 1 <= kc -> 1 <= kh -> exists d,
  Delta_E00 RN (finV p) (finV q) (Some kl) (Some kc) (Some kh) = Some d /\
  d <= sqrt ((v0 q - v0 p) ^ 2 + 4.5 * (v1 q - v1 p) ^ 2 + 2 * (v2 q - v2 p) ^ 2).
Proof. exact (E00_upper p q kl kc kh). Qed.
Print Assumptions C115_axes_partial.
Theorem C115_lightness_partial (p q : Vector3 R) (kl kc kh : R) : 0 < kl -> 0 < kc -> 0 < kh -> 0 <= v0 p <= 100 -> 0 <= v0 q <= 100 -> exists d,
  Delta_E00 RN (finV p) (finV q) (Some kl) (Some kc) (Some kh) = Some d /\ Rabs (v0 q - v0 p) <= 1.75 * kl * d.
Proof. exact (E00_lightness p q kl kc kh). Qed.
Print Assumptions C115_lightness_partial.
Example C115_case : Delta_E00 RN (finV (V3 40 0 0)) (finV (V3 60 0 0)) (Some 2) (Some 1) (Some 1) = Some 10.
Proof. exact E00_grey_case. Qed.

(** C116: the same function in binary32, for any C library meeting the weak bounds [elementary] (PE00F.v).
    [lab_ok]: components finite, at most 1024 in magnitude; [w_ok]: weight in [1/1024, 1024]. *)
Theorem C116_E00_finite_symmetric (lm : libm) (p q : Vector3 f32) (kl kc kh : f32) : elementary lm ->
  w_ok kl -> w_ok kc -> w_ok kh -> lab_ok p -> lab_ok q ->
  let d := Delta_E00 (FN lm) p q kl kc kh in let d' := Delta_E00 (FN lm) q p kl kc kh in
  fin d /\ 0 <= B2R d /\ fin d' /\ B2R d' = B2R d /\ (p = q -> B2R d = 0).
Proof. exact (fun E => E00_binary32 lm E p q kl kc kh). Qed.
Print Assumptions C116_E00_finite_symmetric.
Example C116_case : (exists lm, elementary lm) /\
  lab_ok (V3 (lit 24 128 p24 p24e 50%dec) (lit 24 128 p24 p24e 2.6772%dec) (lit 24 128 p24 p24e (-79.7751)%dec)) /\
  w_ok (lit 24 128 p24 p24e 1%dec).
Proof. exact (conj elementary_exists E00_f32_case). Qed.
