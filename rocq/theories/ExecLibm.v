(** * An executable C library, for evaluating the binary32 model.

    Fixed point with 96 fractional bits.  Nothing is proved about it and no
    property depends on it; it only serves the tests in Validation.v. *)
From Coq Require Import ZArith List Bool.
From Flocq Require Import Core BinarySingleNaN.
From Verif Require Import Num NumF.
Local Open Scope Z_scope.

Definition SC : Z := 2 ^ 96.
Definition PIx : Z := 248902613312231085230521944622.
Definition LN2 : Z := 54916777467707473351141471128.
Definition LN10 : Z := 182429585950654714090129938606.
Definition fxm (a b : Z) : Z := a * b / SC.
(** a finite float as mantissa and exponent; fixed point. *)
Definition parts {p e} (x : binary_float p e) : option (Z * Z) :=
  match x with
  | B754_zero _ => Some (0, 0)
  | B754_finite s m k _ => Some (SpecFloat.cond_Zopp s (Zpos m), k)
  | _ => None
  end.
Definition shift (m e : Z) : Z := if 0 <=? e then m * 2 ^ e else m / 2 ^ (- e).
Definition fx {p e} (x : binary_float p e) : option Z := match parts x with Some (m, k) => Some (shift m (k + 96)) | None => None end.
Definition out32 (m e : Z) : f32 := binary_normalize 24 128 p24 p24e mode_NE m e false.
Definition out64 (m e : Z) : f64 := binary_normalize 53 1024 p53 p53e mode_NE m e false.
(** ln of a positive mantissa and exponent: 2 atanh ((t-1)/(t+1)) with t in [1,2). *)
Fixpoint atanh_s (n : nat) (k y2 t : Z) : Z := match n with O => 0 | S n => t / k + atanh_s n (k + 2) y2 (fxm t y2) end.
Definition lnZ (m e : Z) : Z :=
  let b := Z.log2 m in let t := shift m (96 - b) in
  let y := (t - SC) * SC / (t + SC) in (e + b) * LN2 + 2 * atanh_s 50 1 (fxm y y) y.
(** exp x = 2^n r, returned as mantissa and exponent. *)
Fixpoint exp_s (n : nat) (k t x : Z) : Z := match n with O => t | S n => t + exp_s n (k + 1) (fxm t x / k) x end.
Definition expZ (x : Z) : Z * Z := let n := x / LN2 in (exp_s 35 1 SC (x - n * LN2), n - 96).
(** sine and cosine after reduction to [-pi,pi). *)
Fixpoint trig_s (n : nat) (k t x2 : Z) : Z := match n with O => t | S n => t - trig_s n (k + 2) (fxm t x2 / (k * (k + 1))) x2 end.
Definition red (x : Z) : Z := (x + PIx) mod (2 * PIx) - PIx.
Definition sinZ (x : Z) : Z := let r := red x in trig_s 30 2 r (fxm r r).
Definition cosZ (x : Z) : Z := let r := red x in trig_s 30 1 SC (fxm r r).
(** atan on [0,1] after two halvings. *)
Fixpoint atan_s (n : nat) (k y2 t : Z) : Z := match n with O => 0 | S n => t / k - atan_s n (k + 2) y2 (fxm t y2) end.
Definition half (t : Z) : Z := t * SC / (SC + Z.sqrt (SC * SC + t * t)).
Definition atan01 (t : Z) : Z := let h := half (half t) in 4 * atan_s 50 1 (fxm h h) h.
Definition atan2Z (y x : Z) : Z :=
  let a := Z.abs y in let b := Z.abs x in
  if (a =? 0) && (b =? 0) then 0 else
  let r := if a <=? b then atan01 (a * SC / b) else PIx / 2 - atan01 (b * SC / a) in
  let r := if x <? 0 then PIx - r else r in if y <? 0 then - r else r.
Definition powG {p e} (out : Z -> Z -> binary_float p e) (x y : binary_float p e) : binary_float p e :=
  match parts x, fx y with
  | Some (m, k), Some y => if m =? 0 then (if 0 <? y then B754_zero false else B754_infinity false) else if m <? 0 then B754_nan else
      let (a, b) := expZ (fxm y (lnZ m k)) in out a b
  | _, _ => B754_nan
  end.
Definition expG {p e} (out : Z -> Z -> binary_float p e) (x : binary_float p e) : binary_float p e :=
  match fx x with Some x => let (a, b) := expZ x in out a b | None => B754_nan end.
Definition logG (d : Z) (x : f32) : f32 :=
  match parts x with Some (m, k) => if m <=? 0 then B754_nan else out32 (lnZ m k * SC / d) (-96) | None => B754_nan end.
Definition un (f : Z -> Z) (x : f32) : f32 := match fx x with Some x => out32 (f x) (-96) | None => B754_nan end.
Definition fmodE (x y : f32) : f32 :=
  match parts x, parts y with
  | Some (a, j), Some (b, k) => let e := Z.min j k in if b =? 0 then B754_nan else out32 (Z.rem (a * 2 ^ (j - e)) (b * 2 ^ (k - e))) e
  | _, _ => B754_nan
  end.
Definition cbrtE (x : f32) : f32 :=
  match parts x with
  | Some (m, k) => if m =? 0 then x else let (a, b) := expZ (lnZ (Z.abs m) k / 3) in out32 (Z.sgn m * a) b
  | None => x
  end.
Definition exec_libm : libm :=
  mkLibm (powG out32) (expG out32) (logG SC) (logG LN10) (un sinZ) (un cosZ)
    (fun y x => match fx y, fx x with Some y, Some x => out32 (atan2Z y x) (-96) | _, _ => B754_nan end) fmodE cbrtE (powG out64) (expG out64).
