(** * Properties C135 to C137: symmetries of HSV, its accuracy in binary32, and interpolation in binary32. *)
From Coq Require Import ZArith Reals Lra Lia List.
From Flocq Require Import Core BinarySingleNaN.
From Verif Require Import Num NumR NumF MVec MTri MSpectrum Tables RTac F32 PSpecF PMatF PHsvSym PFetchI.
Import ListNotations.
Local Open Scope R_scope.

(** C135: a cyclic shift of the channels turns the hue by 120 degrees. *)
Theorem C135_rotation (r g b : R) : ~ (r = g /\ g = b) -> exists h s v h', 0 <= h < 360 /\
  terminates_with (fun n => toHSV RN n (finV (V3 r g b))) (Ret (finV (V3 h s v))) /\
  terminates_with (fun n => toHSV RN n (finV (V3 b r g))) (Ret (finV (V3 h' s v))) /\
  (h < 240 -> h' = h + 120) /\ (240 <= h -> h' = h - 240).
Proof. exact (sym_rot r g b). Qed.
Print Assumptions C135_rotation.
Theorem C135_reflection (r g b : R) : ~ (r = g /\ g = b) -> exists h s v h', 0 <= h < 360 /\
  terminates_with (fun n => toHSV RN n (finV (V3 r g b))) (Ret (finV (V3 h s v))) /\
  terminates_with (fun n => toHSV RN n (finV (V3 r b g))) (Ret (finV (V3 h' s v))) /\
  (h = 0 -> h' = 0) /\ (h <> 0 -> h' = 360 - h).
Proof. exact (sym_swap r g b). Qed.
Print Assumptions C135_reflection.
Theorem C135_exposure (k : R) (t : Vector3 R) : 0 < k -> exists h s v,
  terminates_with (fun n => toHSV RN n (finV t)) (Ret (finV (V3 h s v))) /\
  terminates_with (fun n => toHSV RN n (finV (V3 (k * v0 t) (k * v1 t) (k * v2 t)))) (Ret (finV (V3 h s (k * v)))).
Proof. exact (sym_exposure k t). Qed.
Print Assumptions C135_exposure.
(** adding the same amount to every channel: the chroma s * v stays as well. *)
Theorem C135_white (c : R) (t : Vector3 R) : exists h s v s',
  terminates_with (fun n => toHSV RN n (finV t)) (Ret (finV (V3 h s v))) /\
  terminates_with (fun n => toHSV RN n (finV (V3 (v0 t + c) (v1 t + c) (v2 t + c)))) (Ret (finV (V3 h s' (v + c)))) /\
  (v <> 0 -> v + c <> 0 -> s' * (v + c) = s * v).
Proof. exact (sym_white c t). Qed.
Print Assumptions C135_white.
Example C135_case : ~ (1 = 0.5 /\ 0.5 = 0) /\ toHSV RN 3 (finV (V3 1 0.5 0)) = Ret (finV (V3 30 1 1)) /\ toHSV RN 3 (finV (V3 0 1 0.5)) = Ret (finV (V3 150 1 1)).
Proof. split; [lra|exact hsv_sym_ex]. Qed.

(** C136: hue within 602 * 2^-24 degrees (around the circle), saturation within 2.01 * 2^-24, value exact. *)
Theorem C136_accuracy (lm : libm) (t : Vector3 f32) : allV fin t -> allV (fun x => 0 <= B2R x <= bpow radix2 120) t ->
  exists (h s v : f32) (hr sr vr : R), terminates_with (fun n => toHSV (FN lm) n t) (Ret (V3 h s v)) /\ allV fin (V3 h s v) /\
    terminates_with (fun n => toHSV RN n (finV (V3 (B2R (v0 t)) (B2R (v1 t)) (B2R (v2 t))))) (Ret (finV (V3 hr sr vr))) /\
    B2R v = vr /\ Rabs (B2R s - sr) <= 2.01 * / 16777216 /\
    (Rabs (B2R h - hr) <= 602 * / 16777216 \/ Rabs (B2R h - hr + 360) <= 602 * / 16777216).
Proof. exact (hsv_accurate16 lm t). Qed.
Print Assumptions C136_accuracy.
Theorem C136_permutations (lm : libm) (a b c a' b' c' : f32) : allV fin (V3 a b c) -> allV (fun x => 0 <= B2R x <= bpow radix2 120) (V3 a b c) ->
  (V3 a' b' c' = V3 b c a \/ V3 a' b' c' = V3 c a b \/ V3 a' b' c' = V3 a c b \/ V3 a' b' c' = V3 c b a \/ V3 a' b' c' = V3 b a c) ->
  exists h s v h' s' v' : f32, terminates_with (fun n => toHSV (FN lm) n (V3 a b c)) (Ret (V3 h s v)) /\ allV fin (V3 h s v) /\
    terminates_with (fun n => toHSV (FN lm) n (V3 a' b' c')) (Ret (V3 h' s' v')) /\ allV fin (V3 h' s' v') /\ B2R s' = B2R s /\ B2R v' = B2R v.
Proof. exact (hsv_permute lm a b c a' b' c'). Qed.
Print Assumptions C136_permutations.
Example C136_case (lm : libm) : let t := V3 (@flit (FN lm) 0.1%dec) (@flit (FN lm) 0.2%dec) (@flit (FN lm) 0.7%dec) in
  allV fin t /\ allV (fun x : f32 => 0 <= B2R x <= bpow radix2 120) t.
Proof. exact (hsv_acc_ex lm). Qed.

(** C137: [sm s i] is sample number i.  The index and the weights are computed without error, so the only errors are
    those of the two products and their sum. *)
Theorem C137_interpolation (lm : libm) (s : list f32) (t : f32) (i : nat) :
  length s = 400%nat -> Forall fin s -> Forall (fun y => Rabs (B2R y) <= bpow radix2 126) s ->
  fin t -> (1 <= i <= 398)%nat -> 380 + INR i <= B2R t < 381 + INR i ->
  let a := B2R (sm s i) in let b := B2R (sm s (S i)) in let r := B2R t - 380 - INR i in
  exists y, S_fetch (FN lm) s t = Ret y /\ fin y /\
    Rabs (B2R y - (a * (1 - r) + b * r)) <= 2.01 * / 16777216 * (Rabs a * (1 - r) + Rabs b * r) + 3 * bpow radix2 (-150).
Proof. exact (fetch_interp_nat lm s t i). Qed.
Print Assumptions C137_interpolation.
Theorem C137_first_interval (lm : libm) (s : list f32) (t : f32) :
  length s = 400%nat -> fin t -> 380 <= B2R t < 381 -> S_fetch (FN lm) s t = Ret (sm s 0).
Proof. exact (fetch_first_F lm s t). Qed.
Print Assumptions C137_first_interval.
(** rounding shows even on a constant spectrum. *)
Theorem C137_constant_spectrum (lm : libm) : exists (c t y : f32), fin c /\ fin t /\ fin y /\ 400 <= B2R t <= 401 /\
  S_fetch (FN lm) (S_E (FN lm) c) t = Ret y /\ B2R y < B2R c.
Proof. exact (fetch_constant lm). Qed.
Print Assumptions C137_constant_spectrum.
Example C137_case (lm : libm) : length (CIE_D65 (FN lm)) = 400%nat /\ Forall fin (CIE_D65 (FN lm)) /\ Forall (fun y : f32 => Rabs (B2R y) <= bpow radix2 126) (CIE_D65 (FN lm)) /\
  fin (@flit (FN lm) 555.25%dec) /\ 380 + INR 175 <= B2R (@flit (FN lm) 555.25%dec) < 381 + INR 175.
Proof. exact (fetch_case lm). Qed.
