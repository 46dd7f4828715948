(** * Fused multiply-add.

    C++ compilers may evaluate a sum or difference one of whose operands is a product with a single
    rounding (GCC does so by default when the target has the instruction).  The instance [EN lm] of [Num] has
    expressions as numbers: a function of the model without comparisons, run on [EN lm], returns the
    expression the C++ function evaluates.  [ev e r]: [r] is a value of [e] for some choice, at every
    addition and subtraction of a product, of fusing or not.  [plain e] is the value without fusing.
    Comparisons, conversions to int and [double] work on [plain]; so only functions without [double] are used
    on [EN lm], and functions with comparisons only where the compared values cannot be fused (the HSV
    conversions, C165; CIELAB, C168; transfer functions, C153, C169). *)
From Coq Require Import ZArith Reals List.
From Flocq Require Import Core BinarySingleNaN.
From Verif Require Import Num NumF MVec.
Import ListNotations.

Inductive exp : Type :=
| Val (x : f32)
| Add (a b : exp) | Sub (a b : exp) | Mul (a b : exp) | Neg (a : exp)
| Op1 (f : f32 -> f32) (a : exp) | Op2 (f : f32 -> f32 -> f32) (a b : exp).

Section WithLibm.
Variable lm : libm.
Let N := FN lm.
Fixpoint plain (e : exp) : f32 :=
  match e with
  | Val x => x
  | Add a b => @fadd N (plain a) (plain b) | Sub a b => @fsub N (plain a) (plain b)
  | Mul a b => @fmul N (plain a) (plain b) | Neg a => @fopp N (plain a)
  | Op1 f a => f (plain a) | Op2 f a b => f (plain a) (plain b)
  end.
Definition fma (x y z : f32) : f32 := Bfma mode_NE x y z.
Inductive ev : exp -> f32 -> Prop :=
| ev_val x : ev (Val x) x
| ev_add a b x y : ev a x -> ev b y -> ev (Add a b) (@fadd N x y)
| ev_sub a b x y : ev a x -> ev b y -> ev (Sub a b) (@fsub N x y)
| ev_mul a b x y : ev a x -> ev b y -> ev (Mul a b) (@fmul N x y)
| ev_neg a x : ev a x -> ev (Neg a) (@fopp N x)
| ev_op1 f a x : ev a x -> ev (Op1 f a) (f x)
| ev_op2 f a b x y : ev a x -> ev b y -> ev (Op2 f a b) (f x y)
| ev_fma_l a b c x y z : ev a x -> ev b y -> ev c z -> ev (Add (Mul a b) c) (fma x y z)
| ev_fma_r a b c x y z : ev a x -> ev b y -> ev c z -> ev (Add c (Mul a b)) (fma x y z)
| ev_fms a b c x y z : ev a x -> ev b y -> ev c z -> ev (Sub (Mul a b) c) (fma x y (@fopp N z))
| ev_fnma a b c x y z : ev a x -> ev b y -> ev c z -> ev (Sub c (Mul a b)) (fma (@fopp N x) y z).

Definition EN : Num := {|
  F := exp; D := f64;
  fadd := Add; fsub := Sub; fmul := Mul; fdiv := Op2 (@fdiv N); fopp := Neg; ffabs := Op1 (@ffabs N);
  fltb := fun a b => @fltb N (plain a) (plain b); fleb := fun a b => @fleb N (plain a) (plain b); feqb := fun a b => @feqb N (plain a) (plain b);
  flit := fun d => Val (@flit N d); fofZ := fun z => Val (@fofZ N z); ftoint := fun a => @ftoint N (plain a); fltinf := fun a => @fltinf N (plain a);
  fnan := Val (@fnan N); fpi := Val (@fpi N);
  fsqrt := Op1 (@fsqrt N); fpow := Op2 (@fpow N); fexp := Op1 (@fexp N); flog := Op1 (@flog N); flog10 := Op1 (@flog10 N); fsin := Op1 (@fsin N);
  fcos := Op1 (@fcos N); fatan2 := Op2 (@fatan2 N); ffmod := Op2 (@ffmod N); fcbrt := Op1 (@fcbrt N);
  dadd := @dadd N; dsub := @dsub N; dmul := @dmul N; ddiv := @ddiv N; dopp := @dopp N; dlit := @dlit N; dofZ := @dofZ N; dpow := @dpow N; dexp := @dexp N;
  widen := fun a => @widen N (plain a); narrow := fun d => Val (@narrow N d)
|}.

(** Componentwise. *)
Definition evV (e : Vector3 (F EN)) (r : Vector3 f32) : Prop := ev (v0 e) (v0 r) /\ ev (v1 e) (v1 r) /\ ev (v2 e) (v2 r).
Definition evM (e : Matrix3 (F EN)) (r : Matrix3 f32) : Prop :=
  ev (m0 e) (m0 r) /\ ev (m1 e) (m1 r) /\ ev (m2 e) (m2 r) /\ ev (m3 e) (m3 r) /\ ev (m4 e) (m4 r) /\ ev (m5 e) (m5 r) /\
  ev (m6 e) (m6 r) /\ ev (m7 e) (m7 r) /\ ev (m8 e) (m8 r).
Definition plainV (e : Vector3 (F EN)) : Vector3 f32 := V3 (plain (v0 e)) (plain (v1 e)) (plain (v2 e)).
Definition inV (v : Vector3 f32) : Vector3 (F EN) := V3 (Val (v0 v) : F EN) (Val (v1 v)) (Val (v2 v)).
Definition inM (m : Matrix3 f32) : Matrix3 (F EN) :=
  M3 (Val (m0 m) : F EN) (Val (m1 m)) (Val (m2 m)) (Val (m3 m)) (Val (m4 m)) (Val (m5 m)) (Val (m6 m)) (Val (m7 m)) (Val (m8 m)).
Definition inS (s : list f32) : list (F EN) := map (fun x => Val x : F EN) s.
End WithLibm.
