(** * Properties C113-C114: the S-Log family and colour temperatures in binary32.

    [sony_slog], [sony_slog2], [sony_dec] are Sony's formulas (SpecOtf.v, POtf2.v);
    [legal] the scaling of an S-Log2 signal to code values; [accurate lm]: the float
    functions of the C library are within 2 units in the last place; [u] = 2^-24. *)
From Coq Require Import ZArith Reals Lra Lia List.
From Flocq Require Import Core BinarySingleNaN.
From Verif Require Import Num NumR NumF MVec MTri MOtf SpecMat SpecOtf RTac F32 PLibm PNearF POtf2 PSlogF PCct PBlackF LSlog.
Local Open Scope R_scope.

(** C113 *)
Theorem C113_slog (lm : libm) (x : f32) : accurate lm -> fin x ->
  let v := Rmax 0 (Rmin 10 (B2R x)) in let c := Y_to_SLog (FN lm) x in let y := SLog_to_Y (FN lm) c in
  fin c /\ Rabs (B2R c - sony_slog v) <= 5 * u /\ fin y /\ Rabs (B2R y - v) <= 46 * u * (v + 0.037584).
Proof. exact (C113_slog_l lm x). Qed.
Print Assumptions C113_slog.
Theorem C113_slog_decode (lm : libm) (c : f32) : accurate lm -> fin c -> 0 <= B2R c <= 1.1 ->
  let v := sony_slog_inv (B2R c) in let y := SLog_to_Y (FN lm) c in fin y /\ Rabs (B2R y - v) <= 18.4 * u * (v + 0.037584).
Proof. exact (C113_slog_dec_l lm c). Qed.
Print Assumptions C113_slog_decode.
Theorem C113_slog2 (lm : libm) (x : f32) : accurate lm -> fin x -> 0 <= B2R x <= 14 ->
  let v := B2R x in let c := Y_to_SLog2 (FN lm) x in let y := SLog2_to_Y (FN lm) c in
  fin c /\ Rabs (B2R c - legal (sony_slog2 v)) <= 7.5 * u /\ fin y /\ Rabs (B2R y - v) <= 82 * u * (v + 0.0532).
Proof. exact (C113_slog2_l lm x). Qed.
Print Assumptions C113_slog2.
Theorem C113_slog2_negative (lm : libm) (x : f32) : fin x -> -1 <= B2R x < 0 ->
  let c := Y_to_SLog2 (FN lm) x in fin c /\ Rabs (B2R c - legal (sony_slog2 (B2R x))) <= 13.5 * u.
Proof. exact (C113_slog2_neg_l lm x). Qed.
Print Assumptions C113_slog2_negative.
Theorem C113_slog2_decode (lm : libm) (c : f32) : accurate lm -> fin c -> 0 <= B2R c <= 1 ->
  let v := Rmax 0 (sony_slog2_inv (unlegal (B2R c))) in let y := SLog2_to_Y (FN lm) c in fin y /\ Rabs (B2R y - v) <= 33 * u * (v + 0.0532).
Proof. exact (C113_slog2_dec_l lm c). Qed.
Print Assumptions C113_slog2_decode.
Theorem C113_slog3_decode (lm : libm) (c : f32) : accurate lm -> fin c -> 0 <= B2R c <= 1 ->
  let v := sony_dec (B2R c) in let y := SLog3_to_Y (FN lm) c in fin y /\ Rabs (B2R y - v) <= 32 * u * (Rabs v + 0.01).
Proof. exact (C113_slog3_dec_l lm c). Qed.
Print Assumptions C113_slog3_decode.
(** the S-Log3 encoder (see C35) against the exact evaluation of its own formula: at one float
    the two are on different pieces, which do not meet. *)
Theorem C113_slog3_encode (lm : libm) (x : f32) : accurate lm -> fin x -> 0 <= B2R x <= 40 -> B2R x <> B2R (@flit (FN lm) 0.01125%dec) ->
  exists e, Y_to_SLog3 RN (Some (B2R x)) = Some e /\ near (Y_to_SLog3 (FN lm) x) e (0.9 * u).
Proof. exact (fun A => slog3_enc_near lm A x). Qed.
Print Assumptions C113_slog3_encode.
Theorem C113_slog3_encode_join (lm : libm) : let x := @flit (FN lm) 0.01125%dec in
  exists e, Y_to_SLog3 RN (Some (B2R x)) = Some e /\ fin (Y_to_SLog3 (FN lm) x) /\ B2R (Y_to_SLog3 (FN lm) x) < e - 0.2.
Proof. exact (slog3_enc_knee lm). Qed.
Print Assumptions C113_slog3_encode_join.
Example C113_case : exists (lm : libm) (x : f32), accurate lm /\ fin x /\ 0 <= B2R x <= 10 /\ B2R x = 3 / 16.
Proof. destruct accurate_exists as [lm A]. exists lm, (@flit (FN lm) 0.1875%dec). assert (H : fin (@flit (FN lm) 0.1875%dec) /\ B2R (@flit (FN lm) 0.1875%dec) = 3 / 16) by f32_val. destruct H as [F V]. rewrite V. split; [exact A|]. split; [exact F|]. lra. Qed.

(** C114 *)
Theorem C114_chromaticity (lm : libm) (T : f32) : fin T -> 0 <= B2R T <= 13000 ->
  let x := blackbody_x_approx (FN lm) T in let y := blackbody_y_approx (FN lm) T in
  fin x /\ Rabs (B2R x - bb_x (B2R T)) <= 0.83 * u /\ fin y /\ Rabs (B2R y - bb_y (B2R T)) <= 0.91 * u.
Proof. exact (C114_xy_l lm T). Qed.
Print Assumptions C114_chromaticity.
Theorem C114_fromCT (lm : libm) (T Y : f32) : fin T -> fin Y -> 1100 <= B2R T <= 13000 -> 1e-6 <= B2R Y <= 1e6 ->
  exists X' Z' X Z, fromCT (FN lm) T Y = V3 X' Y Z' /\ fromCT RN (Some (B2R T)) (Some (B2R Y)) = finV (V3 X (B2R Y) Z) /\
    near X' X (14.8 * u * B2R Y) /\ near Z' Z (19 * u * B2R Y).
Proof. exact (fromCT_near lm T Y). Qed.
Print Assumptions C114_fromCT.
Example C114_case (lm : libm) : let N := FN lm in let t : Vector3 f32 := fromCT N (@flit N 6504%dec) (@flit N 1%dec) in
  V3 (B2SF (v0 t)) (B2SF (v1 t)) (B2SF (v2 t)) = V3 (SpecFloat.S754_finite false 16257179 (-24)) (SpecFloat.S754_finite false 8388608 (-23)) (SpecFloat.S754_finite false 9391079 (-23)).
Proof. vm_compute. reflexivity. Qed.
