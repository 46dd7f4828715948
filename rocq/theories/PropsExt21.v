(** * Properties C141 and C142: order of values through the transfer functions in binary32. *)
From Coq Require Import ZArith Reals List.
From Flocq Require Import Core BinarySingleNaN.
From Verif Require Import Num NumF MVec MTri MOtf F32 PLibm PCodes POrd POrd2 POrd3 ExecLibm.
Import ListNotations.
Local Open Scope R_scope.

(** C141: with an accurate library whose functions are monotone ([ordered]), raising channels never lowers a channel of the result.
    [leV c c']: channel by channel finite and in order; [inV a b c]: channels within [a, b]. *)
Theorem C141_decode_sRGB (lm : libm) : accurate lm -> ordered lm -> forall c c' g, leV c c' -> leV (toScene (FN lm) SRGB c g) (toScene (FN lm) SRGB c' g).
Proof. exact (dec_srgb lm). Qed.
Print Assumptions C141_decode_sRGB.
Theorem C141_decode_PQ (lm : libm) : accurate lm -> ordered lm -> forall c c' g, leV c c' -> inV 0 1 c -> inV 0 1 c' ->
  leV (toScene (FN lm) ST2084 c g) (toScene (FN lm) ST2084 c' g).
Proof. exact (dec_pq' lm). Qed.
Print Assumptions C141_decode_PQ.
Theorem C141_decode_HLG (lm : libm) : accurate lm -> ordered lm -> forall c c' g, leV c c' -> inV (-10) 10 c' ->
  leV (toScene (FN lm) HLG c g) (toScene (FN lm) HLG c' g).
Proof. exact (dec_hlg lm). Qed.
Print Assumptions C141_decode_HLG.
Theorem C141_decode_SLog (lm : libm) : accurate lm -> ordered lm -> forall c c' g, leV c c' -> inV (-5) 5 c -> inV (-5) 5 c' ->
  leV (toScene (FN lm) SLOG c g) (toScene (FN lm) SLOG c' g).
Proof. exact (dec_slog lm). Qed.
Print Assumptions C141_decode_SLog.
Theorem C141_decode_gamma (lm : libm) : accurate lm -> ordered lm -> forall c c' g, leV c c' -> inV 0 1 c -> inV 0 1 c' -> is_finite g = true -> 0 < B2R g ->
  leV (toScene (FN lm) GAMMA c g) (toScene (FN lm) GAMMA c' g).
Proof. exact (dec_gamma' lm). Qed.
Print Assumptions C141_decode_gamma.
Theorem C141_encode_BT709 (lm : libm) : accurate lm -> ordered lm -> forall c c' g, leV c c' -> leV (toScreen (FN lm) BT709 c g) (toScreen (FN lm) BT709 c' g).
Proof. exact (enc_bt lm). Qed.
Print Assumptions C141_encode_BT709.
Theorem C141_encode_HLG (lm : libm) : accurate lm -> ordered lm -> forall c c' g, leV c c' -> inV (-1e20) 1e20 c' ->
  leV (toScreen (FN lm) HLG c g) (toScreen (FN lm) HLG c' g).
Proof. exact (enc_hlg lm). Qed.
Print Assumptions C141_encode_HLG.
Theorem C141_encode_SLog (lm : libm) : accurate lm -> ordered lm -> forall c c' g, leV c c' -> leV (toScreen (FN lm) SLOG c g) (toScreen (FN lm) SLOG c' g).
Proof. exact (enc_slog lm). Qed.
Print Assumptions C141_encode_SLog.
Theorem C141_encode_SLog3 (lm : libm) : accurate lm -> ordered lm -> forall c c' g, leV c c' -> inV (-1000000) 1000000 c -> inV (-1000000) 1000000 c' ->
  leV (toScreen (FN lm) SLOG3 c g) (toScreen (FN lm) SLOG3 c' g).
Proof. exact (enc_slog3 lm). Qed.
Print Assumptions C141_encode_SLog3.
Theorem C141_encode_gamma (lm : libm) : accurate lm -> ordered lm -> forall c c' g, leV c c' -> inV 0 1 c -> inV 0 1 c' -> is_finite g = true -> / 1000000 <= B2R g <= 1000000 ->
  leV (toScreen (FN lm) GAMMA c g) (toScreen (FN lm) GAMMA c' g).
Proof. exact (enc_gamma' lm). Qed.
Print Assumptions C141_encode_gamma.
(** In particular code values of any depth up to 24 bits decode in order. *)
Theorem C141_codes (lm : libm) : accurate lm -> ordered lm -> forall t M k k' a b a' b' g, In t [SRGB; ST2084; HLG] -> (0 <= k <= k')%Z -> (k' <= M)%Z -> (0 < M <= 2 ^ 24)%Z ->
  leF (v0 (toScene (FN lm) t (V3 (code lm k M) a b) g)) (v0 (toScene (FN lm) t (V3 (code lm k' M) a' b') g)).
Proof. exact (codes_all lm). Qed.
Print Assumptions C141_codes.
(** Such a library exists: the correctly rounded one. *)
Example C141_library : exists lm, accurate lm /\ ordered lm. Proof. exact ordered_exists. Qed.
Example C141_case (lm : libm) : let N := FN lm in let c := V3 (@flit N 0.02%dec) (@flit N 0.3%dec) (@flit N 0.5%dec) in let c' := V3 (@flit N 0.9%dec) (@flit N 0.4%dec) (@flit N 0.5%dec) in
  leV c c' /\ inV 0 1 c /\ inV 0 1 c' /\ is_finite (@flit N 2.2%dec) = true /\ 2 < B2R (@flit N 2.2%dec) < 3.
Proof. exact (ord_case lm). Qed.

(** C142: sRGB encoding and BT.709 decoding do not preserve the order. *)
Theorem C142_sRGB_encode_refuted (lm : libm) : accurate lm -> exists x x' : f32, is_finite x = true /\ is_finite x' = true /\ 0 < B2R x < B2R x' /\ B2R x' < 1 /\ forall a b g,
  is_finite (v0 (toScreen (FN lm) SRGB (V3 x a b) g)) = true /\ is_finite (v0 (toScreen (FN lm) SRGB (V3 x' a b) g)) = true /\
  B2R (v0 (toScreen (FN lm) SRGB (V3 x' a b) g)) < B2R (v0 (toScreen (FN lm) SRGB (V3 x a b) g) : f32).
Proof. exact (srgb_drop lm). Qed.
Print Assumptions C142_sRGB_encode_refuted.
(** In 12 bits, code 332 decodes to less light than code 331. *)
Theorem C142_BT709_decode_refuted (lm : libm) : accurate lm -> forall a b g,
  is_finite (v0 (toScene (FN lm) BT709 (V3 (code lm 331 4095) a b) g)) = true /\ is_finite (v0 (toScene (FN lm) BT709 (V3 (code lm 332 4095) a b) g)) = true /\
  B2R (v0 (toScene (FN lm) BT709 (V3 (code lm 332 4095) a b) g)) < B2R (v0 (toScene (FN lm) BT709 (V3 (code lm 331 4095) a b) g) : f32).
Proof. exact (bt_drop lm). Qed.
Print Assumptions C142_BT709_decode_refuted.
(** Order is kept on either side of the switch. *)
Theorem C142_sRGB_encode_partial (lm : libm) : accurate lm -> ordered lm -> forall x x' : f32, leF x x' ->
  B2R x' < B2R (@flit (FN lm) 0.0031308%dec) \/ B2R (@flit (FN lm) 0.0031308%dec) <= B2R x -> forall a b a' b' g,
  leF (v0 (toScreen (FN lm) SRGB (V3 x a b) g)) (v0 (toScreen (FN lm) SRGB (V3 x' a' b') g)).
Proof. exact (srgb_sides lm). Qed.
Print Assumptions C142_sRGB_encode_partial.
Theorem C142_BT709_decode_partial (lm : libm) : accurate lm -> ordered lm -> forall x x' : f32, leF x x' ->
  B2R x' < B2R (@flit (FN lm) 0.081%dec) \/ B2R (@flit (FN lm) 0.081%dec) <= B2R x -> forall a b a' b' g,
  leF (v0 (toScene (FN lm) BT709 (V3 x a b) g)) (v0 (toScene (FN lm) BT709 (V3 x' a' b') g)).
Proof. exact (bt_sides lm). Qed.
Print Assumptions C142_BT709_decode_partial.
(** Whatever the two values, the loss is at most 1e-7 in sRGB encoding and 5.5e-5 in BT.709 decoding. *)
Theorem C142_slack_partial (lm : libm) : accurate lm -> ordered lm -> forall x x' : f32, leF x x' -> forall a b a' b' g,
  B2R (v0 (toScreen (FN lm) SRGB (V3 x a b) g)) <= B2R (v0 (toScreen (FN lm) SRGB (V3 x' a' b') g) : f32) + / 10000000 /\
  B2R (v0 (toScene (FN lm) BT709 (V3 x a b) g)) <= B2R (v0 (toScene (FN lm) BT709 (V3 x' a' b') g) : f32) + 0.000055.
Proof. exact (srgb_bt_slack lm). Qed.
Print Assumptions C142_slack_partial.
(** PQ encoding loses order as well, with the executable library of ExecLibm.v (96 bits before rounding): the first input is the smaller. *)
Example C142_PQ_encode : let N := FN exec_libm in let x : f32 := @flit N 1.0133928060531616%dec in let y : f32 := @flit N 1.0133929252624512%dec in
  @fltb N x y = true /\ @fltb N (Y_to_ST2084 N y) (Y_to_ST2084 N x) = true.
Proof. vm_compute. split; reflexivity. Qed.
Example C142_case (lm : libm) : let N := FN lm in leF (@flit N 0.004%dec) (@flit N 0.5%dec) /\ B2R (@flit N 0.0031308%dec) <= B2R (@flit N 0.004%dec) /\ leF (@flit N 0.1%dec) (@flit N 0.5%dec) /\ B2R (@flit N 0.081%dec) <= B2R (@flit N 0.1%dec).
Proof. exact (ord_case2 lm). Qed.
