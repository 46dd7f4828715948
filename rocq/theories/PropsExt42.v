(** * Property C167: CIE 1960 u, v when the compiler fuses multiplications and additions.

    [ev lm e r]: [r] is a value of the expression [e] for some choice of fused operations (MFma.v), [evV] likewise for colours.
    [to_yuv lm t r], [of_yuv lm t r]: [r] is a value of [toYuv], [fromYuv] at [t]; the conversions to and from Yxy inside them have
    nothing to fuse (PFma9.v). *)
From Coq Require Import ZArith Reals.
From Flocq Require Import Core BinarySingleNaN.
From Verif Require Import Num NumF MVec MTri MFma F32 PMatF PFma9.
Local Open Scope R_scope.

(** C167: bounds of the form of C121 that hold for every choice. *)
Theorem C167_toYuv (lm : libm) (X Y Z : f32) (r : Vector3 f32) : fin X -> fin Y -> fin Z -> 0 <= B2R X -> 0 <= B2R Y -> 0 <= B2R Z ->
  2e-8 <= B2R X + B2R Y + B2R Z <= 1e30 -> to_yuv lm (V3 X Y Z) r -> v0 r = Y /\ fin (v1 r) /\ fin (v2 r) /\
  let D := B2R X + 15 * B2R Y + 3 * B2R Z in
  Rabs (B2R (v1 r) - 4 * B2R X / D) <= 21 * u * (4 * B2R X / D) + 1e-43 /\ Rabs (B2R (v2 r) - 6 * B2R Y / D) <= 21 * u * (6 * B2R Y / D) + 1e-43.
Proof. exact (fun FX FY FZ PX PY PZ => toYuv_fused lm X Y Z FX FY FZ PX PY PZ r). Qed.
Print Assumptions C167_toYuv.
Theorem C167_Yxy_Yuv_Yxy (lm : libm) (Y x y : f32) (r r' : Vector3 f32) : fin x -> fin y -> 0 <= B2R x -> 0 <= B2R y -> B2R x + B2R y <= 1.0001 ->
  evV lm (YxyToYuv (EN lm) (inV lm (V3 Y x y))) r -> evV lm (YuvToYxy (EN lm) (inV lm r)) r' ->
  v0 r' = Y /\ fin (v1 r') /\ fin (v2 r') /\ Rabs (B2R (v1 r') - B2R x) <= 76 * u * B2R x + 1e-43 /\ Rabs (B2R (v2 r') - B2R y) <= 76 * u * B2R y + 1e-43.
Proof. exact (yxy_yuv_fused lm Y x y r r'). Qed.
Print Assumptions C167_Yxy_Yuv_Yxy.
(** The two conversions may make different choices; the luminance comes back bit for bit. *)
Theorem C167_XYZ_Yuv_XYZ (lm : libm) (X Y Z : f32) (m r : Vector3 f32) : fin X -> fin Y -> fin Z -> 0 <= B2R X -> 0 <= B2R Y -> 0 <= B2R Z ->
  let S := B2R X + B2R Y + B2R Z in 1e-6 <= S <= 1e6 -> 1e-6 * S <= B2R Y -> to_yuv lm (V3 X Y Z) m -> of_yuv lm m r ->
  v1 r = Y /\ fin (v0 r) /\ fin (v2 r) /\ Rabs (B2R (v0 r) - B2R X) <= 162 * u * B2R X + 1e-30 /\ Rabs (B2R (v2 r) - B2R Z) <= 166 * u * S.
Proof. exact (fun FX FY FZ PX PY PZ => round_fused lm X Y Z FX FY FZ PX PY PZ m r). Qed.
Print Assumptions C167_XYZ_Yuv_XYZ.
(** Not fusing anything is one of the choices. *)
Theorem C167_unfused (lm : libm) (t m : Vector3 f32) : to_yuv lm t (toYuv (FN lm) t) /\ of_yuv lm m (fromYuv (FN lm) m).
Proof. exact (yuv_plain lm t m). Qed.
Print Assumptions C167_unfused.
Theorem C167_choice_matters (lm : libm) : exists t r r', evV lm (YxyToYuv (EN lm) (inV lm t)) r /\ evV lm (YxyToYuv (EN lm) (inV lm t)) r' /\ B2R (v1 r) <> B2R (v1 r').
Proof. exact (yuv_matters lm). Qed.
Print Assumptions C167_choice_matters.
(** XYZ = (1, 2, 3). *)
Example C167_case (lm : libm) : exists X Y Z m r, fin X /\ fin Y /\ fin Z /\ B2R X = 1 /\ B2R Y = 2 /\ B2R Z = 3 /\ to_yuv lm (V3 X Y Z) m /\ of_yuv lm m r.
Proof. exact (case167 lm). Qed.
Print Assumptions C167_case.
