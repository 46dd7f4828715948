(** * Properties C97-: transfer functions in binary32.

    [fin x]: [x] is neither infinite nor NaN, [u] = 2^-24 (F32.v).
    [near x r e]: [x] is finite and within [e] of the real [r] (PNearF.v).
    [rel x r k]: [x] is finite, [r > 0], and [x] is within [k r] of [r] (PRelF.v).
    [accurate lm]: powf, expf, logf and log10f of the C library [lm] are within [4 u] of the real
    function, relatively, where its value is between 2^-126 and 2^127, and exact at the
    trivial points (PLibm.v); [C98_library] shows that such a library exists. *)
From Coq Require Import ZArith Reals Lra Lia List.
From Flocq Require Import Core BinarySingleNaN.
From Verif Require Import Num NumR NumF MVec MTri MOtf RTac SpecMat F32 PLibm PNearF PRelF POtfF POtfF2 POtfF3 MVec MTri PMatF PLabF.
Import ListNotations.
Local Open Scope R_scope.

(** C97: whatever the C library does. *)
Theorem C97_clipping (lm : libm) (C : f32) : fin C -> let N := FN lm in
  (B2R C < 0 -> B2R (Y_to_sRGB N C) = 0 /\ B2R (sRGB_to_Y N C) = 0 /\ B2R (Y_to_BT709 N C) = 0 /\ B2R (BT709_to_Y N C) = 0 /\
                B2R (Y_to_HLG N C) = 0 /\ B2R (HLG_to_Y N C) = 0 /\ B2R (Y_to_ST2084 N C) = 0) /\
  (1 < B2R C -> B2R (Y_to_sRGB N C) = 1 /\ B2R (sRGB_to_Y N C) = 1 /\ B2R (Y_to_BT709 N C) = 1 /\ B2R (BT709_to_Y N C) = 1) /\
  (100 <= B2R C -> B2R (Y_to_ST2084 N C) = 1).
Proof. exact (otf_clip lm C). Qed.
Print Assumptions C97_clipping.
Theorem C97_srgb_linear_segment (lm : libm) (C : f32) : fin C -> bpow radix2 (-100) <= B2R C < B2R (@flit (FN lm) 0.0031308%dec) ->
  rel (Y_to_sRGB (FN lm) C) (12.92 * B2R C) (1.2 * u) /\ rel (sRGB_to_Y (FN lm) (Y_to_sRGB (FN lm) C)) (B2R C) (2.01 * u).
Proof. exact (srgb_lin lm C). Qed.
Print Assumptions C97_srgb_linear_segment.
Theorem C97_bt709_linear_segment (lm : libm) (C : f32) : fin C -> bpow radix2 (-100) <= B2R C < B2R (@flit (FN lm) 0.018%dec) ->
  rel (Y_to_BT709 (FN lm) C) (4.5 * B2R C) u /\ rel (BT709_to_Y (FN lm) (Y_to_BT709 (FN lm) C)) (B2R C) (2.01 * u).
Proof. exact (bt_lin lm C). Qed.
Print Assumptions C97_bt709_linear_segment.
Theorem C97_hlg_root_segment (lm : libm) (C : f32) : fin C -> bpow radix2 (-100) <= B2R C < 1 ->
  rel (HLG_to_Y (FN lm) (Y_to_HLG (FN lm) C)) (B2R C) (3.01 * u).
Proof. exact (hlg_rt_lo lm C). Qed.
Print Assumptions C97_hlg_root_segment.
(** 0.7 survives the HLG round trip; 0.2 loses one unit in the last place. *)
Example C97_case (lm : libm) : let x := @flit (FN lm) 0.7%dec in is_finite x = true /\
  B2SF x = SpecFloat.S754_finite false 11744051 (-24) /\ B2SF (HLG_to_Y (FN lm) (Y_to_HLG (FN lm) x)) = SpecFloat.S754_finite false 11744051 (-24) /\
  B2SF (@flit (FN lm) 0.2%dec) = SpecFloat.S754_finite false 13421773 (-26) /\ B2SF (HLG_to_Y (FN lm) (Y_to_HLG (FN lm) (@flit (FN lm) 0.2%dec))) = SpecFloat.S754_finite false 13421772 (-26).
Proof. repeat split; vm_compute; reflexivity. Qed.

(** C98 *)
Theorem C98_library : exists lm, accurate lm.
Proof. exact accurate_exists. Qed.
Print Assumptions C98_library.
Theorem C98_srgb_accuracy (lm : libm) (C : f32) : accurate lm -> fin C ->
  exists e d, Y_to_sRGB RN (Some (B2R C)) = Some e /\ near (Y_to_sRGB (FN lm) C) e (9 * u) /\
              sRGB_to_Y RN (Some (B2R C)) = Some d /\ near (sRGB_to_Y (FN lm) C) d (16 * u).
Proof. exact (fun A => srgb_stmt lm A C). Qed.
Print Assumptions C98_srgb_accuracy.
Theorem C98_srgb_round_trip (lm : libm) (C : f32) : accurate lm -> fin C -> 0 <= B2R C <= 1 ->
  near (sRGB_to_Y (FN lm) (Y_to_sRGB (FN lm) C)) (B2R C) (41 * u).
Proof. exact (fun A => srgb_rt_near lm A C). Qed.
Print Assumptions C98_srgb_round_trip.
Example C98_case (lm : libm) : accurate lm -> let x := @flit (FN lm) 0.5%dec in fin x /\ B2R x = 0.5 /\ 0.7353 < B2R (Y_to_sRGB (FN lm) x) < 0.7354.
Proof. exact (srgb_half lm). Qed.

(** C99: the one float at which the encoder is not accurate is the literal 0.018f, which lies below
    0.018 but takes the branch above it; the exact curve jumps there. *)
Theorem C99_bt709_accuracy (lm : libm) (C : f32) : accurate lm -> fin C ->
  exists e d, Y_to_BT709 RN (Some (B2R C)) = Some e /\ BT709_to_Y RN (Some (B2R C)) = Some d /\ near (BT709_to_Y (FN lm) C) d (14 * u) /\
    (B2R C <> B2R (@flit (FN lm) 0.018%dec) -> near (Y_to_BT709 (FN lm) C) e (9 * u)) /\
    (B2R C = B2R (@flit (FN lm) 0.018%dec) -> fin (Y_to_BT709 (FN lm) C) /\ e + 0.0002 <= B2R (Y_to_BT709 (FN lm) C)).
Proof. exact (fun A => bt_stmt lm A C). Qed.
Print Assumptions C99_bt709_accuracy.
Theorem C99_bt709_round_trip (lm : libm) (C : f32) : accurate lm -> fin C -> 0 <= B2R C <= 1 ->
  near (BT709_to_Y (FN lm) (Y_to_BT709 (FN lm) C)) (B2R C) (34 * u).
Proof. exact (fun A => bt_rt_near lm A C). Qed.
Print Assumptions C99_bt709_round_trip.
Example C99_case (lm : libm) : let x := @flit (FN lm) 0.018%dec in is_finite x = true /\ B2SF x = SpecFloat.S754_finite false 9663676 (-29) /\ 9663676 / 536870912 < 0.018.
Proof. split; [vm_compute; reflexivity|]. split; [vm_compute; reflexivity|lra]. Qed.

(** C100 *)
Theorem C100_gamma (lm : libm) (v g : f32) : accurate lm -> fin v -> fin g -> bpow radix2 (-60) <= B2R v <= bpow radix2 60 -> 1 <= B2R g <= 8 ->
  exists e, gamma RN (Some (B2R v)) (Some (B2R g)) = Some e /\
    rel (gamma (FN lm) v g) e ((5 + 1.1 * Rabs (ln (B2R v))) * u) /\
    rel (degamma (FN lm) (gamma (FN lm) v g) g) (B2R v) ((5 + 5 * B2R g + 1.1 * Rabs (ln (B2R v))) * u).
Proof. exact (fun A => gamma_stmt lm A v g). Qed.
Print Assumptions C100_gamma.
Theorem C100_pq_encode (lm : libm) (C : f32) : accurate lm -> fin C -> bpow radix2 (-50) <= B2R C ->
  exists e, Y_to_ST2084 RN (Some (B2R C)) = Some e /\ rel (Y_to_ST2084 (FN lm) C) e (437 * u) /\ e <= 1.
Proof. exact (fun A => pq_stmt lm A C). Qed.
Print Assumptions C100_pq_encode.
Theorem C100_hlg (lm : libm) (C : f32) : accurate lm -> fin C -> bpow radix2 (-100) <= B2R C <= 12 ->
  exists e, Y_to_HLG RN (Some (B2R C)) = Some e /\ near (Y_to_HLG (FN lm) C) e (4.1 * u) /\
    near (HLG_to_Y (FN lm) (Y_to_HLG (FN lm) C)) (B2R C) (450 * u) /\ (B2R C < 1 -> near (HLG_to_Y (FN lm) (Y_to_HLG (FN lm) C)) (B2R C) (3.01 * u * B2R C)).
Proof. exact (fun A => hlg_stmt lm A C). Qed.
Print Assumptions C100_hlg.
Theorem C100_hlg_decode (lm : libm) (c : f32) : accurate lm -> fin c -> 0.5 < B2R c <= 1 ->
  exists v, HLG_to_Y RN (Some (B2R c)) = Some v /\ near (HLG_to_Y (FN lm) c) v (160 * u).
Proof. exact (fun A => hlg_dec_stmt lm A c). Qed.
Print Assumptions C100_hlg_decode.
Example C100_case (lm : libm) : let x := @flit (FN lm) 2.2%dec in is_finite x = true /\ B2SF x = SpecFloat.S754_finite false 9227469 (-22).
Proof. split; vm_compute; reflexivity. Qed.

(** C101 *)
Theorem C101_to_lab (lm : libm) (t w : Vector3 f32) : accurate lm ->
  fin (v0 t) /\ fin (v1 t) /\ fin (v2 t) -> fin (v0 w) /\ fin (v1 w) /\ fin (v2 w) ->
  (forall x, x = B2R (v0 t) \/ x = B2R (v1 t) \/ x = B2R (v2 t) -> 0 <= x <= bpow radix2 100) ->
  (forall x, x = B2R (v0 w) \/ x = B2R (v1 w) \/ x = B2R (v2 w) -> bpow radix2 (-20) <= x <= bpow radix2 20) ->
  exists L a b, toCIELAB RN (finV (vR t)) (finV (vR w)) = finV (V3 L a b) /\
    let r := toCIELAB (FN lm) t w in near (v0 r) L (850 * u) /\ near (v1 r) a (6400 * u) /\ near (v2 r) b (2550 * u).
Proof. exact (fun A => toLab_stmt lm A t w). Qed.
Print Assumptions C101_to_lab.
Theorem C101_from_lab (lm : libm) (t w : Vector3 f32) : accurate lm ->
  fin (v0 t) /\ fin (v1 t) /\ fin (v2 t) -> fin (v0 w) /\ fin (v1 w) /\ fin (v2 w) ->
  0 <= B2R (v0 t) <= 100 -> Rabs (B2R (v1 t)) <= 500 -> Rabs (B2R (v2 t)) <= 200 ->
  (forall x, x = B2R (v0 w) \/ x = B2R (v1 w) \/ x = B2R (v2 w) -> bpow radix2 (-20) <= x <= bpow radix2 20) ->
  exists x y z, fromCIELAB RN (finV (vR t)) (finV (vR w)) = finV (V3 x y z) /\
    let r := fromCIELAB (FN lm) t w in
    near (v0 r) x (22 * u * B2R (v0 w)) /\ near (v1 r) y (22 * u * B2R (v1 w)) /\ near (v2 r) z (22 * u * B2R (v2 w)).
Proof. exact (fun A => fromLab_stmt lm A t w). Qed.
Print Assumptions C101_from_lab.
Theorem C101_lab_round_trip (lm : libm) (t w : Vector3 f32) : accurate lm ->
  fin (v0 t) /\ fin (v1 t) /\ fin (v2 t) -> fin (v0 w) /\ fin (v1 w) /\ fin (v2 w) ->
  (forall x, x = B2R (v0 t) \/ x = B2R (v1 t) \/ x = B2R (v2 t) -> 0 <= x <= bpow radix2 100) ->
  (forall x, x = B2R (v0 w) \/ x = B2R (v1 w) \/ x = B2R (v2 w) -> bpow radix2 (-20) <= x <= bpow radix2 20) ->
  let r := fromCIELAB (FN lm) (toCIELAB (FN lm) t w) w in
  near (v0 r) (Rmin (B2R (v0 t)) (B2R (v0 w))) (83 * u * B2R (v0 w)) /\ near (v1 r) (Rmin (B2R (v1 t)) (B2R (v1 w))) (83 * u * B2R (v1 w)) /\
  near (v2 r) (Rmin (B2R (v2 t)) (B2R (v2 w))) (83 * u * B2R (v2 w)).
Proof. exact (fun A => labrt_stmt lm A t w). Qed.
Print Assumptions C101_lab_round_trip.
Example C101_case (lm : libm) : accurate lm -> let t := V3 (@flit (FN lm) 0.5%dec) (@flit (FN lm) 0.5%dec) (@flit (FN lm) 0.5%dec) in let w := lab_default_white (FN lm) in
  near (v1 (fromCIELAB (FN lm) (toCIELAB (FN lm) t w) w)) 0.5 (83 * u).
Proof. exact (lab_half lm). Qed.
