(** * The checked-real-number instance of [Num].

    A value is [Some r] (the exact real the code would compute without rounding)
    or [None] ("no finite value": a division by zero, the logarithm of a
    non-positive number, ...).  [None] propagates and compares false with
    everything, like a NaN.  Simplifications, all part of the trusted reading of
    the [RN] theorems: no rounding, no overflow, decimal literals are their exact
    decimal value and the literal for pi is pi itself; there is one zero, so
    [atan2(0, x)] for [x < 0] is pi. *)
From Coq Require Import ZArith Reals Lra Bool.
From Flocq Require Import Core.Raux Core.Defs Core.Generic_fmt.
From Verif Require Import Num.
Local Open Scope R_scope.

Definition RX := option R.
Definition rx1 (f : R -> RX) (x : RX) : RX := match x with Some a => f a | None => None end.
Definition rx2 (f : R -> R -> RX) (x y : RX) : RX :=
  match x, y with Some a, Some b => f a b | _, _ => None end.
Definition rxb (f : R -> R -> bool) (x y : RX) : bool :=
  match x, y with Some a, Some b => f a b | _, _ => false end.

(** The value of a decimal literal. *)
Definition Rdec (d : dec) : R :=
  match de d with
  | Z0 => IZR (dm d)
  | Zpos p => IZR (dm d * Z.pow_pos 10 p)
  | Zneg p => IZR (dm d) / IZR (Z.pow_pos 10 p)
  end.

Definition rx_div (a b : R) : RX := if Req_bool b 0 then None else Some (a / b).
Definition rx_sqrt (a : R) : RX := if Rlt_bool a 0 then None else Some (sqrt a).
Definition rx_log (a : R) : RX := if Rle_bool a 0 then None else Some (ln a).
Definition rx_log10 (a : R) : RX := if Rle_bool a 0 then None else Some (ln a / ln 10).
(** C's [pow]: [x > 0] any [y]; [x = 0]: 0 for [y > 0], 1 for [y = 0], an infinity
    for [y < 0]; [x < 0]: only integer [y]. *)
Definition rx_pow (x y : R) : RX :=
  if Rlt_bool 0 x then Some (Rpower x y)
  else if Req_bool y 0 then Some 1
  else if Req_bool x 0 then (if Rlt_bool 0 y then Some 0 else None)
  else if Req_bool y (IZR (Ztrunc y)) then Some (powerRZ x (Ztrunc y))
  else None.
Definition R_atan2 (y x : R) : R :=
  if Rlt_bool 0 x then atan (y / x)
  else if Rlt_bool x 0 then (if Rle_bool 0 y then atan (y / x) + PI else atan (y / x) - PI)
  else if Rlt_bool 0 y then PI / 2
  else if Rlt_bool y 0 then - (PI / 2)
  else 0.
Definition rx_fmod (x y : R) : RX :=
  if Req_bool y 0 then None else Some (x - y * IZR (Ztrunc (x / y))).
Definition R_cbrt (x : R) : R :=
  if Rlt_bool 0 x then Rpower x (1 / 3)
  else if Rlt_bool x 0 then - Rpower (- x) (1 / 3)
  else 0.
(** (int)x: undefined when the truncated value does not fit in 32 bits. *)
Definition rx_toint (x : RX) : option Z :=
  match x with
  | Some r =>
      let z := Ztrunc r in
      if ((- 2 ^ 31 <=? z) && (z <=? 2 ^ 31 - 1))%Z then Some z else None
  | None => None
  end.

Definition RN : Num := {|
  F := RX; D := RX;
  fadd := rx2 (fun a b => Some (a + b));
  fsub := rx2 (fun a b => Some (a - b));
  fmul := rx2 (fun a b => Some (a * b));
  fdiv := rx2 rx_div;
  fopp := rx1 (fun a => Some (- a));
  ffabs := rx1 (fun a => Some (Rabs a));
  fltb := rxb Rlt_bool;
  fleb := rxb Rle_bool;
  feqb := rxb Req_bool;
  flit := fun d => Some (Rdec d);
  fofZ := fun z => Some (IZR z);
  ftoint := rx_toint;
  fltinf := fun x => match x with Some _ => true | None => false end;
  fnan := None;
  fpi := Some PI;
  fsqrt := rx1 rx_sqrt;
  fpow := rx2 rx_pow;
  fexp := rx1 (fun a => Some (exp a));
  flog := rx1 rx_log;
  flog10 := rx1 rx_log10;
  fsin := rx1 (fun a => Some (sin a));
  fcos := rx1 (fun a => Some (cos a));
  fatan2 := rx2 (fun y x => Some (R_atan2 y x));
  ffmod := rx2 rx_fmod;
  fcbrt := rx1 (fun a => Some (R_cbrt a));
  dadd := rx2 (fun a b => Some (a + b));
  dsub := rx2 (fun a b => Some (a - b));
  dmul := rx2 (fun a b => Some (a * b));
  ddiv := rx2 rx_div;
  dopp := rx1 (fun a => Some (- a));
  dlit := fun d => Some (Rdec d);
  dofZ := fun z => Some (IZR z);
  dpow := rx2 rx_pow;
  dexp := rx1 (fun a => Some (exp a));
  widen := fun x => x;
  narrow := fun x => x
|}.
