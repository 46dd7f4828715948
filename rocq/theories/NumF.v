(** * The IEEE-754 instance of [Num] (Flocq's [BinarySingleNaN]).

    [float] is binary32, [double] is binary64, every operation rounds to nearest,
    ties to even, in its own format (FLT_EVAL_METHOD = 0, no contraction into
    fused multiply-add, no -ffast-math).  [sqrtf] is correctly rounded, as IEEE
    requires.  NaN payloads are not distinguished.  Decimal literals are correctly
    rounded.  The remaining C library functions are those of an arbitrary [libm]:
    a theorem about [FN lm] for all [lm] assumes nothing about them. *)
From Coq Require Import ZArith Reals Bool.
From Flocq Require Import Core BinarySingleNaN.
From Verif Require Import Num.
Local Open Scope Z_scope.

Definition f32 := binary_float 24 128.
Definition f64 := binary_float 53 1024.

Lemma p24 : Prec_gt_0 24. Proof. reflexivity. Qed.
Lemma p24e : Prec_lt_emax 24 128. Proof. reflexivity. Qed.
Lemma p53 : Prec_gt_0 53. Proof. reflexivity. Qed.
Lemma p53e : Prec_lt_emax 53 1024. Proof. reflexivity. Qed.
#[global] Existing Instance p24.
#[global] Existing Instance p24e.
#[global] Existing Instance p53.
#[global] Existing Instance p53e.

(** The correctly rounded value of the decimal [dm * 10^de]. *)
Section Lit.
Context (prec emax : Z) (Hp : Prec_gt_0 prec) (Hpe : Prec_lt_emax prec emax).
Definition lit_quot (s : bool) (a b : positive) : binary_float prec emax :=
  SF2B _ (proj1 (Bdiv_correct_aux prec emax Hp Hpe mode_NE s a 0 false b 0)).
Definition lit (d : dec) : binary_float prec emax :=
  match dm d, de d with
  | Z0, _ => B754_zero false
  | m, Z0 => binary_normalize prec emax Hp Hpe mode_NE m 0 false
  | m, Zpos p => binary_normalize prec emax Hp Hpe mode_NE (m * Z.pow_pos 10 p) 0 false
  | Zpos a, Zneg p => lit_quot false a (Pos.pow 10 p)
  | Zneg a, Zneg p => lit_quot true a (Pos.pow 10 p)
  end.
Definition of_Z (z : Z) : binary_float prec emax :=
  binary_normalize prec emax Hp Hpe mode_NE z 0 false.
End Lit.

(** Conversions between the formats. *)
Definition f32_to_f64 (x : f32) : f64 :=
  match x with
  | B754_zero s => B754_zero s
  | B754_infinity s => B754_infinity s
  | B754_nan => B754_nan
  | B754_finite s m e _ =>
      binary_normalize 53 1024 p53 p53e mode_NE (SpecFloat.cond_Zopp s (Zpos m)) e s
  end.
Definition f64_to_f32 (x : f64) : f32 :=
  match x with
  | B754_zero s => B754_zero s
  | B754_infinity s => B754_infinity s
  | B754_nan => B754_nan
  | B754_finite s m e _ =>
      binary_normalize 24 128 p24 p24e mode_NE (SpecFloat.cond_Zopp s (Zpos m)) e s
  end.

(** (int)x: undefined for a NaN, an infinity, or a truncated value that does not
    fit in 32 bits. *)
Definition f32_toint (x : f32) : option Z :=
  if is_finite x then
    let z := Btrunc x in
    if (- 2 ^ 31 <=? z) && (z <=? 2 ^ 31 - 1) then Some z else None
  else None.

(** The C library functions the code calls, other than [sqrtf] and [fabsf]. *)
Record libm := mkLibm {
  lm_powf : f32 -> f32 -> f32;
  lm_expf : f32 -> f32;
  lm_logf : f32 -> f32;
  lm_log10f : f32 -> f32;
  lm_sinf : f32 -> f32;
  lm_cosf : f32 -> f32;
  lm_atan2f : f32 -> f32 -> f32;
  lm_fmodf : f32 -> f32 -> f32;
  lm_cbrtf : f32 -> f32;
  lm_pow : f64 -> f64 -> f64;
  lm_exp : f64 -> f64
}.

Definition FN (lm : libm) : Num := {|
  F := f32; D := f64;
  fadd := Bplus mode_NE;
  fsub := Bminus mode_NE;
  fmul := Bmult mode_NE;
  fdiv := Bdiv mode_NE;
  fopp := Bopp;
  ffabs := Babs;
  fltb := Bltb;
  fleb := Bleb;
  feqb := Beqb;
  flit := lit 24 128 p24 p24e;
  fofZ := of_Z 24 128 p24 p24e;
  ftoint := f32_toint;
  fltinf := fun x => Bltb x (B754_infinity false);
  fnan := B754_nan;
  fpi := lit 24 128 p24 p24e 3.14159265358979323846%dec;
  fsqrt := Bsqrt mode_NE;
  fpow := lm_powf lm;
  fexp := lm_expf lm;
  flog := lm_logf lm;
  flog10 := lm_log10f lm;
  fsin := lm_sinf lm;
  fcos := lm_cosf lm;
  fatan2 := lm_atan2f lm;
  ffmod := lm_fmodf lm;
  fcbrt := lm_cbrtf lm;
  dadd := Bplus mode_NE;
  dsub := Bminus mode_NE;
  dmul := Bmult mode_NE;
  ddiv := Bdiv mode_NE;
  dopp := Bopp;
  dlit := lit 53 1024 p53 p53e;
  dofZ := of_Z 53 1024 p53 p53e;
  dpow := lm_pow lm;
  dexp := lm_exp lm;
  widen := f32_to_f64;
  narrow := f64_to_f32
|}.

(** A concrete [libm], used only to run the model in examples: every function
    returns NaN. *)
Definition no_libm : libm :=
  mkLibm (fun _ _ => B754_nan) (fun _ => B754_nan) (fun _ => B754_nan) (fun _ => B754_nan)
         (fun _ => B754_nan) (fun _ => B754_nan) (fun _ _ => B754_nan) (fun _ _ => B754_nan)
         (fun _ => B754_nan) (fun _ _ => B754_nan) (fun _ => B754_nan).
