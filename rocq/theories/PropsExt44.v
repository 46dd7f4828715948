(** * Property C169: ST 2084 and HLG when the compiler fuses multiplications and additions.

    [ev lm e r]: [r] is a value of the expression [e] for some choice of fused operations (MFma.v).  The comparisons are on the argument.
    [near x r e]: [x] is finite and within [e] of the real [r] (PNearF.v); [rel x r k]: [x] is finite, [r > 0], and [x] is within [k r] of [r] (PRelF.v). *)
From Coq Require Import ZArith Reals.
From Flocq Require Import Core BinarySingleNaN.
From Verif Require Import Num NumR NumF MVec MOtf MFma F32 PLibm PNearF PRelF PFma11.
Local Open Scope R_scope.

(** C169: the bounds of C100 hold for every choice. *)
Theorem C169_pq_encode (lm : libm) (C r : f32) : accurate lm -> fin C -> bpow radix2 (-50) <= B2R C -> ev lm (Y_to_ST2084 (EN lm) (Val C)) r ->
  exists e, Y_to_ST2084 RN (Some (B2R C)) = Some e /\ rel r e (437 * u) /\ e <= 1.
Proof. exact (fun A => pq_fstmt lm A C r). Qed.
Print Assumptions C169_pq_encode.
(** The encoder and the decoder may make different choices. *)
Theorem C169_hlg (lm : libm) (C y z : f32) : accurate lm -> fin C -> bpow radix2 (-100) <= B2R C <= 12 ->
  ev lm (Y_to_HLG (EN lm) (Val C)) y -> ev lm (HLG_to_Y (EN lm) (Val y)) z ->
  exists e, Y_to_HLG RN (Some (B2R C)) = Some e /\ near y e (4.1 * u) /\ near z (B2R C) (450 * u) /\ (B2R C < 1 -> near z (B2R C) (3.01 * u * B2R C)).
Proof. exact (fun A => hlg_fstmt lm A C y z). Qed.
Print Assumptions C169_hlg.
(** The HLG decoder, and the encoder below 1, have nothing to fuse, whatever the C library does. *)
Theorem C169_hlg_unaffected (lm : libm) (C r : f32) :
  (ev lm (HLG_to_Y (EN lm) (Val C)) r -> r = HLG_to_Y (FN lm) C) /\ (fin C -> B2R C < 1 -> ev lm (Y_to_HLG (EN lm) (Val C)) r -> r = Y_to_HLG (FN lm) C).
Proof. exact (conj (hlg_dec_fused lm C r) (hlg_lo_fused lm C r)). Qed.
Print Assumptions C169_hlg_unaffected.
(** Not fusing anything is one of the choices. *)
Theorem C169_unfused (lm : libm) (C : f32) : ev lm (Y_to_ST2084 (EN lm) (Val C)) (Y_to_ST2084 (FN lm) C) /\
  ev lm (Y_to_HLG (EN lm) (Val C)) (Y_to_HLG (FN lm) C) /\ ev lm (HLG_to_Y (EN lm) (Val C)) (HLG_to_Y (FN lm) C).
Proof. exact (otf_plain lm C). Qed.
Print Assumptions C169_unfused.
Example C169_case (lm : libm) : let x := @flit (FN lm) 4%dec in fin x /\ B2R x = 4 /\ (exists r, ev lm (Y_to_ST2084 (EN lm) (Val x)) r) /\
  exists y z, ev lm (Y_to_HLG (EN lm) (Val x)) y /\ ev lm (HLG_to_Y (EN lm) (Val y)) z.
Proof. exact (case169 lm). Qed.
Print Assumptions C169_case.
