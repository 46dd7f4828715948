(** * Properties C28-C36: transfer functions. *)
From Coq Require Import ZArith Reals Lra Lia List.
From Flocq Require Import Core.Raux.
From Verif Require Import Num NumR MVec MTri MOtf SpecMat RTac PMat RPow POtf POtf2 LOtf POtf3.
Local Open Scope R_scope.

(** [comps P t]: all three components of [t] satisfy [P]. *)

(** C28 *)
Theorem C28_bt709_round_trip (t : Vector3 R) (g g' : F RN) : comps (fun x => 0 <= x <= 1) t ->
  toScene RN BT709 (toScreen RN BT709 (finV t) g) g' = finV t.
Proof. exact (C28_l t g g'). Qed.
Print Assumptions C28_bt709_round_trip.
Theorem C28_bt709_ranges (t : Vector3 R) (g : F RN) : exists c s,
  toScreen RN BT709 (finV t) g = finV c /\ comps (fun x => 0 <= x <= 1) c /\
  toScene RN BT709 (finV t) g = finV s /\ comps (fun x => 0 <= x <= 1) s.
Proof. exact (C28_range_l t g). Qed.
Print Assumptions C28_bt709_ranges.
Theorem C28_bt709_monotone : increasing_on (fun _ => True) (Y_to_BT709 RN).
Proof. exact C28_mono_l. Qed.
Print Assumptions C28_bt709_monotone.
Example C28_case : comps (fun x => 0 <= x <= 1) (V3 0.01 0.5 1).
Proof. unfold comps; cbn [v0 v1 v2]; lra. Qed.

(** C29: false just above 0.081, and decoding steps down there. *)
Theorem C29_bt709_decode_encode_refuted :
  (exists c, 0 <= c <= 1 /\
     toScreen RN BT709 (toScene RN BT709 (finV (V3 c c c)) None) None <> finV (V3 c c c)) /\
  (exists c d, 0 <= c < d /\ d <= 1 /\ exists y z, BT709_to_Y RN (Some c) = Some y /\
     BT709_to_Y RN (Some d) = Some z /\ z < y).
Proof. exact C29_l. Qed.
Print Assumptions C29_bt709_decode_encode_refuted.
(** exact everywhere else in [0,1], and never off by more than 0.0006. *)
Theorem C29_bt709_decode_encode_partial (c : R) : 0 <= c <= 1 ->
  exists v c', BT709_to_Y RN (Some c) = Some v /\ Y_to_BT709 RN (Some v) = Some c' /\
    (c < 0.081 \/ 0.08125 <= c -> c' = c) /\ Rabs (c' - c) <= 0.0006.
Proof. exact (C29_partial_l c). Qed.
Print Assumptions C29_bt709_decode_encode_partial.
Example C29_case : 0 <= 0.5 <= 1 /\ (0.5 < 0.081 \/ 0.08125 <= 0.5).
Proof. lra. Qed.

(** C30 *)
Theorem C30_srgb_ranges (t : Vector3 R) (g : F RN) : exists c s,
  toScreen RN SRGB (finV t) g = finV c /\ comps (fun x => 0 <= x <= 1) c /\
  toScene RN SRGB (finV t) g = finV s /\ comps (fun x => 0 <= x <= 1) s.
Proof. exact (C30_range_l t g). Qed.
Print Assumptions C30_srgb_ranges.
Theorem C30_srgb_decode_monotone : increasing_on (fun _ => True) (sRGB_to_Y RN).
Proof. exact C30_mono_l. Qed.
Print Assumptions C30_srgb_decode_monotone.
Theorem C30_srgb_encode_decode (v : R) : 0 <= v <= 1 ->
  exists c v', Y_to_sRGB RN (Some v) = Some c /\ sRGB_to_Y RN (Some c) = Some v' /\
    (v < 0.0031308 \/ 0.0031309 <= v -> v' = v) /\ Rabs (v' - v) <= 2e-7.
Proof. exact (C30_rt_l v). Qed.
Print Assumptions C30_srgb_encode_decode.
Theorem C30_srgb_decode_encode (c : R) : 0 <= c <= 1 -> (c < 0.040449936 \/ 0.04045 <= c) ->
  exists v, sRGB_to_Y RN (Some c) = Some v /\ Y_to_sRGB RN (Some v) = Some c.
Proof. exact (C30_rt2_l c). Qed.
Print Assumptions C30_srgb_decode_encode.
Example C30_case : 0 <= 0.2 <= 1 /\ (0.2 < 0.0031308 \/ 0.0031309 <= 0.2) /\ (0.2 < 0.040449936 \/ 0.04045 <= 0.2).
Proof. lra. Qed.

(** C31: false at the switch point 0.0031308, where encoding also steps down. *)
Theorem C31_srgb_exact_refuted :
  (exists v, 0 <= v <= 1 /\ toScene RN SRGB (toScreen RN SRGB (finV (V3 v v v)) None) None <> finV (V3 v v v)) /\
  (exists v w, 0 <= v < w /\ w <= 1 /\ exists y z, Y_to_sRGB RN (Some v) = Some y /\
     Y_to_sRGB RN (Some w) = Some z /\ z < y).
Proof. exact C31_l. Qed.
Print Assumptions C31_srgb_exact_refuted.
(** monotone on each side of it, exact away from it. *)
Theorem C31_srgb_exact_partial :
  increasing_on (fun v => v < 0.0031308) (Y_to_sRGB RN) /\
  increasing_on (fun v => 0.0031308 <= v) (Y_to_sRGB RN) /\
  (forall (t : Vector3 R) g g', comps (fun v => 0 <= v < 0.0031308 \/ 0.0031309 <= v <= 1) t ->
    toScene RN SRGB (toScreen RN SRGB (finV t) g) g' = finV t).
Proof. exact C31_partial_l. Qed.
Print Assumptions C31_srgb_exact_partial.
Example C31_case : comps (fun v => 0 <= v < 0.0031308 \/ 0.0031309 <= v <= 1) (V3 0 0.001 1).
Proof. unfold comps; cbn [v0 v1 v2]; lra. Qed.

(** C32: [c1q], [m2q] are the PQ constants 0.8359375 and 78.84375. *)
Theorem C32_pq_encode_decode (t : Vector3 R) (g g' : F RN) : comps (fun x => 0 <= x <= 100) t ->
  toScene RN ST2084 (toScreen RN ST2084 (finV t) g) g' = finV t.
Proof. exact (C32_l t g g'). Qed.
Print Assumptions C32_pq_encode_decode.
Theorem C32_pq_decode_encode (t : Vector3 R) (g g' : F RN) :
  comps (fun c => Rpower 0.8359375 78.84375 < c <= 1) t ->
  toScreen RN ST2084 (toScene RN ST2084 (finV t) g) g' = finV t.
Proof. exact (C32_dec_l t g g'). Qed.
Print Assumptions C32_pq_decode_encode.
Theorem C32_pq_dark (c : R) : 0 <= c <= Rpower 0.8359375 78.84375 -> ST2084_to_Y RN (Some c) = Some 0.
Proof. exact (pq_dec_dark c). Qed.
Print Assumptions C32_pq_dark.
Theorem C32_pq_monotone : increasing_on (fun _ => True) (Y_to_ST2084 RN) /\
  forall v, exists c, Y_to_ST2084 RN (Some v) = Some c /\ 0 <= c <= 1.
Proof. exact C32_mono_l. Qed.
Print Assumptions C32_pq_monotone.
Example C32_case : comps (fun x => 0 <= x <= 100) (V3 0 12.5 100) /\
  comps (fun c => Rpower 0.8359375 78.84375 < c <= 1) (V3 0.5 0.9 1).
Proof. exact C32_ex. Qed.

(** C33 *)
Theorem C33_hlg_encode_decode (t : Vector3 R) (g g' : F RN) : comps (fun x => 0 <= x) t ->
  toScene RN HLG (toScreen RN HLG (finV t) g) g' = finV t.
Proof. exact (C33_l t g g'). Qed.
Print Assumptions C33_hlg_encode_decode.
Theorem C33_hlg_decode_encode (c : R) : 0 <= c ->
  exists v c', HLG_to_Y RN (Some c) = Some v /\ 0 <= v /\ Y_to_HLG RN (Some v) = Some c' /\
    (c < 0.5 \/ 0.500000001 <= c -> c' = c) /\ Rabs (c' - c) <= 1e-9.
Proof. exact (hlg_rt2 c). Qed.
Print Assumptions C33_hlg_decode_encode.
Theorem C33_hlg_monotone : increasing_on (fun _ => True) (Y_to_HLG RN).
Proof. exact C33_mono_l. Qed.
Print Assumptions C33_hlg_monotone.
Example C33_case : comps (fun x => 0 <= x) (V3 0.25 1 12).
Proof. unfold comps; cbn [v0 v1 v2]; lra. Qed.

(** C34 *)
Theorem C34_slog_round_trip (t : Vector3 R) (g g' : F RN) : comps (fun x => 0 <= x <= 10) t ->
  toScene RN SLOG (toScreen RN SLOG (finV t) g) g' = finV t.
Proof. exact (C34_slog_l t g g'). Qed.
Print Assumptions C34_slog_round_trip.
Theorem C34_slog2_round_trip (v : R) : 0 <= v ->
  exists c v', Y_to_SLog2 RN (Some v) = Some c /\ SLog2_to_Y RN (Some c) = Some v' /\
  (1e-15 <= v -> v' = v) /\ Rabs (v' - v) <= 1e-15.
Proof. exact (slog2_rt v). Qed.
Print Assumptions C34_slog2_round_trip.
Theorem C34_monotone (v w : R) : 0 <= v -> v < w ->
  (exists a b, Y_to_SLog2 RN (Some v) = Some a /\ Y_to_SLog2 RN (Some w) = Some b /\ a < b) /\
  (w <= 10 -> exists a b, Y_to_SLog RN (Some v) = Some a /\ Y_to_SLog RN (Some w) = Some b /\ a < b).
Proof. exact (C34_mono_l v w). Qed.
Print Assumptions C34_monotone.
(** outside its range the S-Log encoder saturates; S-Log2 decodes nothing negative. *)
Theorem C34_slog_saturates (v : R) : exists c, Y_to_SLog RN (Some v) = Some c /\ SLog_to_Y RN (Some c) = Some (Rmin 10 (Rmax 0 v)).
Proof. exact (slog_rt_all v). Qed.
Print Assumptions C34_slog_saturates.
Theorem C34_outside_range : increasing_on (fun _ => True) (Y_to_SLog RN) /\ increasing_on (fun v => v < 0) (Y_to_SLog2 RN) /\
  forall v, v < 0 -> exists c, Y_to_SLog2 RN (Some v) = Some c /\ SLog2_to_Y RN (Some c) = Some 0.
Proof. exact (conj slog_all (conj slog2_all_neg slog2_rt_neg)). Qed.
Print Assumptions C34_outside_range.
Example C34_case : comps (fun x => 0 <= x <= 10) (V3 0 0.18 10).
Proof. unfold comps; cbn [v0 v1 v2]; lra. Qed.

(** C35: false already at 18% grey; the encoder's factor 261.5 sits inside the logarithm. *)
Theorem C35_slog3_refuted :
  (exists c, Y_to_SLog3 RN (Some 0.18) = Some c /\ c > 420 / 1023) /\
  (exists c v', Y_to_SLog3 RN (Some 0.18) = Some c /\ SLog3_to_Y RN (Some c) = Some v' /\ v' > 0.18).
Proof. exact C35_l. Qed.
Print Assumptions C35_slog3_refuted.
(** the linear segment round-trips, and decoding is Sony's formula ([sony_dec]) everywhere. *)
Theorem C35_slog3_partial (v : R) :
  (v <= 0.01125 -> exists c, Y_to_SLog3 RN (Some v) = Some c /\ SLog3_to_Y RN (Some c) = Some v) /\
  SLog3_to_Y RN (Some v) = Some (sony_dec v).
Proof. exact (C35_partial_l v). Qed.
Print Assumptions C35_slog3_partial.
Example C35_case : sony_dec (420 / 1023) = 0.18.
Proof. exact C35_ex. Qed.

(** C36 *)
Theorem C36_gamma_round_trip (t : Vector3 R) (g : R) : comps (fun x => 0 <= x) t -> 0 < g ->
  toScene RN GAMMA (toScreen RN GAMMA (finV t) (Some g)) (Some g) = finV t.
Proof. exact (C36_l t g). Qed.
Print Assumptions C36_gamma_round_trip.
Theorem C36_linear (N : Num) (t : Vector3 (F N)) (g : F N) :
  toScreen N LINEAR t g = t /\ toScene N LINEAR t g = t.
Proof. exact (C36_linear_l N t g). Qed.
Print Assumptions C36_linear.
(** one scalar function per curve, applied to each channel. *)
Theorem C36_channels (N : Num) (ty : TYPE) (g : F N) : exists f h : F N -> F N,
  forall a b c, toScreen N ty (V3 a b c) g = V3 (f a) (f b) (f c) /\
                toScene N ty (V3 a b c) g = V3 (h a) (h b) (h c).
Proof. exact (C36_channels_l N ty g). Qed.
Print Assumptions C36_channels.
Example C36_case : comps (fun x => 0 <= x) (V3 0 0.5 3) /\ 0 < 2.2.
Proof. unfold comps; cbn [v0 v1 v2]; lra. Qed.
