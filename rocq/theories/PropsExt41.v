(** * Property C166: which values fusing allows.

    [ev lm e r]: [r] is a value of the expression [e] for some choice of fused operations; [EN lm] turns a function of the model into
    the expression it evaluates (MFma.v).  [values lm e l]: the values of [e] are finite and, as real numbers, exactly those listed
    in [l]; [only lm e v]: [v] is the only value of [e] (PFma8.v).  [rnd]: rounding to binary32, to nearest even. *)
From Coq Require Import ZArith Reals List.
From Flocq Require Import Core BinarySingleNaN.
From Verif Require Import Num NumF MVec MTri MFma F32 PMatF PFma8.
Import ListNotations.
Local Open Scope R_scope.

(** C166: a sum or difference with a product is rounded twice or once. *)
Theorem C166_four_forms (lm : libm) (x y z : f32) : fin x -> fin y -> fin z ->
  Rabs (B2R x * B2R y) <= bpow radix2 125 -> Rabs (B2R z) <= bpow radix2 125 ->
  let a : F (EN lm) := Val x in let b : F (EN lm) := Val y in let c : F (EN lm) := Val z in let p := B2R x * B2R y in
  values lm (a * b + c)%num [rnd (rnd p + B2R z); rnd (p + B2R z)] /\ values lm (c + a * b)%num [rnd (B2R z + rnd p); rnd (B2R z + p)] /\
  values lm (a * b - c)%num [rnd (rnd p - B2R z); rnd (p - B2R z)] /\ values lm (c - a * b)%num [rnd (B2R z - rnd p); rnd (B2R z - p)].
Proof. exact (forms lm x y z). Qed.
Print Assumptions C166_four_forms.
(** the dot product of two vectors, or of two colours, has six values. *)
Theorem C166_dot (lm : libm) (a b : Vector3 f32) : allV fin a -> allV fin b ->
  let p0 := B2R (v0 a) * B2R (v0 b) in let p1 := B2R (v1 a) * B2R (v1 b) in let p2 := B2R (v2 a) * B2R (v2 b) in
  Rabs p0 <= bpow radix2 120 -> Rabs p1 <= bpow radix2 120 -> Rabs p2 <= bpow radix2 120 ->
  let l := flat_map (fun s => [rnd (s + rnd p2); rnd (s + p2)]) [rnd (rnd p0 + rnd p1); rnd (p0 + rnd p1); rnd (rnd p0 + p1)] in
  values lm (V_dot (EN lm) (inV lm a) (inV lm b)) l /\ values lm (T_dot (EN lm) (inV lm a) (inV lm b)) l.
Proof. exact (dots lm a b). Qed.
Print Assumptions C166_dot.
(** single operations and library functions have one value, comparisons and truncation one outcome. *)
Theorem C166_nothing_else (lm : libm) (x y : f32) : let n := FN lm in let e := EN lm in let a : F e := Val x in let b : F e := Val y in
  (only lm (@fadd e a b) (@fadd n x y) /\ only lm (@fsub e a b) (@fsub n x y) /\ only lm (@fmul e a b) (@fmul n x y) /\ only lm (@fdiv e a b) (@fdiv n x y) /\
   only lm (@fopp e a) (@fopp n x) /\ only lm (@ffabs e a) (@ffabs n x)) /\
  (only lm (@fsqrt e a) (@fsqrt n x) /\ only lm (@fcbrt e a) (@fcbrt n x) /\ only lm (@fexp e a) (@fexp n x) /\ only lm (@flog e a) (@flog n x) /\
   only lm (@flog10 e a) (@flog10 n x) /\ only lm (@fsin e a) (@fsin n x) /\ only lm (@fcos e a) (@fcos n x) /\
   only lm (@fpow e a b) (@fpow n x y) /\ only lm (@fatan2 e a b) (@fatan2 n x y) /\ only lm (@ffmod e a b) (@ffmod n x y)) /\
  (@fltb e a b = @fltb n x y /\ @fleb e a b = @fleb n x y /\ @feqb e a b = @feqb n x y /\ @ftoint e a = @ftoint n x).
Proof. exact (rest lm x y). Qed.
Print Assumptions C166_nothing_else.
(** 4097 * 4097 - 16785408 is 0 or 1. *)
Example C166_case (lm : libm) : exists x y z : f32, fin x /\ fin y /\ fin z /\ Rabs (B2R x * B2R y) <= bpow radix2 125 /\ Rabs (B2R z) <= bpow radix2 125 /\
  rnd (rnd (B2R x * B2R y) - B2R z) = 0 /\ rnd (B2R x * B2R y - B2R z) = 1.
Proof. exact (case166 lm). Qed.
Print Assumptions C166_case.
