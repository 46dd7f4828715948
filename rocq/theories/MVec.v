(** * Model of [Vector3] and [Matrix3]  (include/colorsystem.hpp:49-178). *)
From Coq Require Import ZArith List.
From Verif Require Import Num.
Local Open Scope num_scope.

(** hpp:49-54  [class Vector3], the array [v_] of three floats. *)
Record Vector3 (A : Type) := V3 { v0 : A; v1 : A; v2 : A }.
Arguments V3 {A}. Arguments v0 {A}. Arguments v1 {A}. Arguments v2 {A}.

(** hpp:66-70,77-82  [class Matrix3], the array [m_] of nine floats; the
    constructor stores its arguments a00..a22 in order. *)
Record Matrix3 (A : Type) := M3 {
  m0 : A; m1 : A; m2 : A; m3 : A; m4 : A; m5 : A; m6 : A; m7 : A; m8 : A }.
Arguments M3 {A}.
Arguments m0 {A}. Arguments m1 {A}. Arguments m2 {A}.
Arguments m3 {A}. Arguments m4 {A}. Arguments m5 {A}.
Arguments m6 {A}. Arguments m7 {A}. Arguments m8 {A}.

(** hpp:55  [Vector3::operator[]] with an arbitrary run-time index: reading a
    [std::array] out of range is undefined behaviour. *)
Definition V_index {A} (v : Vector3 A) (i : Z) : outcome A :=
  match i with
  | 0%Z => Ret (v0 v) | 1%Z => Ret (v1 v) | 2%Z => Ret (v2 v)
  | _ => UB
  end.
(** hpp:90  [Matrix3::operator[]] with an arbitrary run-time index. *)
Definition M_index {A} (m : Matrix3 A) (i : Z) : outcome A :=
  match i with
  | 0%Z => Ret (m0 m) | 1%Z => Ret (m1 m) | 2%Z => Ret (m2 m)
  | 3%Z => Ret (m3 m) | 4%Z => Ret (m4 m) | 5%Z => Ret (m5 m)
  | 6%Z => Ret (m6 m) | 7%Z => Ret (m7 m) | 8%Z => Ret (m8 m)
  | _ => UB
  end.

(** Reads at the constant indices the library itself uses (always in range:
    see [mref_in_range] in [PVec.v]). *)
Definition vref {A} (v : Vector3 A) (i : Z) : A :=
  match i with 0%Z => v0 v | 1%Z => v1 v | _ => v2 v end.
Definition mref {A} (m : Matrix3 A) (i : Z) : A :=
  match i with
  | 0%Z => m0 m | 1%Z => m1 m | 2%Z => m2 m
  | 3%Z => m3 m | 4%Z => m4 m | 5%Z => m5 m
  | 6%Z => m6 m | 7%Z => m7 m | _ => m8 m
  end.
Notation "v .[ i ]" := (vref v i%Z) (at level 2, left associativity, format "v .[ i ]").
Notation "m .@[ i ]" := (mref m i%Z) (at level 2, left associativity, format "m .@[ i ]").

(** hpp:73  [M(x, y) = x + y * 3] (x = column, y = row, from 0). *)
Definition M (x y : Z) : Z := (x + y * 3)%Z.
(** hpp:74  [I(y, x) = (x - 1) + (y - 1) * 3] (y = row, x = column, from 1). *)
Definition I (y x : Z) : Z := ((x - 1) + (y - 1) * 3)%Z.

(** hpp:92  [row(i)] and hpp:93 [col(i)], any run-time [i]. *)
Definition M_row {A} (m : Matrix3 A) (i : Z) : outcome (Vector3 A) :=
  let! a := M_index m (M 0 i) in
  let! b := M_index m (M 1 i) in
  let! c := M_index m (M 2 i) in
  Ret (V3 a b c).
Definition M_col {A} (m : Matrix3 A) (i : Z) : outcome (Vector3 A) :=
  let! a := M_index m (M i 0) in
  let! b := M_index m (M i 1) in
  let! c := M_index m (M i 2) in
  Ret (V3 a b c).

(** hpp:94-99  [transpose]. *)
Definition M_transpose {A} (a : Matrix3 A) : Matrix3 A :=
  M3 a.@[M 0 0] a.@[M 0 1] a.@[M 0 2]
     a.@[M 1 0] a.@[M 1 1] a.@[M 1 2]
     a.@[M 2 0] a.@[M 2 1] a.@[M 2 2].

(** hpp:84-87  [fromArray(p)]: reads p[0..8]; [p] is modelled as the list of
    floats it points to, a shorter list is an out-of-bounds read. *)
Definition M_fromArray {A} (p : list A) : outcome (Matrix3 A) :=
  match p with
  | (a :: b :: c :: d :: e :: f :: g :: h :: i :: _)%list => Ret (M3 a b c d e f g h i)
  | _ => UB
  end.

Section WithNum.
Context (N : Num).

(** hpp:62-63  [Vector3::dot]. *)
Definition V_dot (a b : Vector3 (F N)) : F N :=
  a.[0] * b.[0] + a.[1] * b.[1] + a.[2] * b.[2].

(** hpp:83  default constructor. *)
Definition M_default : Matrix3 (F N) :=
  M3 #1 #0 #0  #0 #1 #0  #0 #0 #1.

(** hpp:88  [Matrix3::diag] (the [0] arguments are ints converted to float). *)
Definition M_diag (v : Vector3 (F N)) : Matrix3 (F N) :=
  M3 v.[0] (fofZ 0) (fofZ 0)  (fofZ 0) v.[1] (fofZ 0)  (fofZ 0) (fofZ 0) v.[2].

(** hpp:101-105  [crosstalk]. *)
Definition M_crosstalk (r : F N) : Matrix3 (F N) :=
  let a := #1 - #2 * r in
  M3 a r r  r a r  r r a.

(** hpp:106-112  [crosstalkInvert]. *)
Definition M_crosstalkInvert (r : F N) : Matrix3 (F N) :=
  let i := #1 / (#3 * r - #1) in
  let a := (r - #1) * i in
  let b := r * i in
  M3 a b b  b a b  b b a.

(** hpp:114-128  [mul(Matrix3, Matrix3)]. *)
Definition M_mul (a b : Matrix3 (F N)) : Matrix3 (F N) :=
  M3 (a.@[M 0 0] * b.@[M 0 0] + a.@[M 1 0] * b.@[M 0 1] + a.@[M 2 0] * b.@[M 0 2])
     (a.@[M 0 0] * b.@[M 1 0] + a.@[M 1 0] * b.@[M 1 1] + a.@[M 2 0] * b.@[M 1 2])
     (a.@[M 0 0] * b.@[M 2 0] + a.@[M 1 0] * b.@[M 2 1] + a.@[M 2 0] * b.@[M 2 2])

     (a.@[M 0 1] * b.@[M 0 0] + a.@[M 1 1] * b.@[M 0 1] + a.@[M 2 1] * b.@[M 0 2])
     (a.@[M 0 1] * b.@[M 1 0] + a.@[M 1 1] * b.@[M 1 1] + a.@[M 2 1] * b.@[M 1 2])
     (a.@[M 0 1] * b.@[M 2 0] + a.@[M 1 1] * b.@[M 2 1] + a.@[M 2 1] * b.@[M 2 2])

     (a.@[M 0 2] * b.@[M 0 0] + a.@[M 1 2] * b.@[M 0 1] + a.@[M 2 2] * b.@[M 0 2])
     (a.@[M 0 2] * b.@[M 1 0] + a.@[M 1 2] * b.@[M 1 1] + a.@[M 2 2] * b.@[M 1 2])
     (a.@[M 0 2] * b.@[M 2 0] + a.@[M 1 2] * b.@[M 2 1] + a.@[M 2 2] * b.@[M 2 2]).

(** hpp:130-136  [apply]. *)
Definition M_apply (m : Matrix3 (F N)) (v : Vector3 (F N)) : Vector3 (F N) :=
  V3 (m.@[M 0 0] * v.[0] + m.@[M 1 0] * v.[1] + m.@[M 2 0] * v.[2])
     (m.@[M 0 1] * v.[0] + m.@[M 1 1] * v.[1] + m.@[M 2 1] * v.[2])
     (m.@[M 0 2] * v.[0] + m.@[M 1 2] * v.[1] + m.@[M 2 2] * v.[2]).

(** hpp:138-144  [det]. *)
Definition M_det (m : Matrix3 (F N)) : F N :=
  m.@[I 1 1] * m.@[I 2 2] * m.@[I 3 3] + m.@[I 2 1] * m.@[I 3 2] * m.@[I 1 3] +
  m.@[I 3 1] * m.@[I 1 2] * m.@[I 2 3] - m.@[I 1 1] * m.@[I 3 2] * m.@[I 2 3] -
  m.@[I 3 1] * m.@[I 2 2] * m.@[I 1 3] - m.@[I 2 1] * m.@[I 1 2] * m.@[I 3 3].

(** hpp:146-150  [mul(Matrix3, float)]. *)
Definition M_scale (m : Matrix3 (F N)) (a : F N) : Matrix3 (F N) :=
  M3 (m.@[0] * a) (m.@[1] * a) (m.@[2] * a) (m.@[3] * a) (m.@[4] * a)
     (m.@[5] * a) (m.@[6] * a) (m.@[7] * a) (m.@[8] * a).
(** hpp:151-152  [div(Matrix3, float)]. *)
Definition M_div (m : Matrix3 (F N)) (a : F N) : Matrix3 (F N) := M_scale m (#1 / a).

(** hpp:154-159  [add]. *)
Definition M_add (a b : Matrix3 (F N)) : Matrix3 (F N) :=
  M3 (a.@[0] + b.@[0]) (a.@[1] + b.@[1]) (a.@[2] + b.@[2])
     (a.@[3] + b.@[3]) (a.@[4] + b.@[4]) (a.@[5] + b.@[5])
     (a.@[6] + b.@[6]) (a.@[7] + b.@[7]) (a.@[8] + b.@[8]).

(** hpp:161-174  [invert]. *)
Definition M_invert (a : Matrix3 (F N)) : Matrix3 (F N) :=
  M_scale
    (M3 (a.@[I 2 2] * a.@[I 3 3] - a.@[I 2 3] * a.@[I 3 2])
        (a.@[I 1 3] * a.@[I 3 2] - a.@[I 1 2] * a.@[I 3 3])
        (a.@[I 1 2] * a.@[I 2 3] - a.@[I 1 3] * a.@[I 2 2])
        (a.@[I 2 3] * a.@[I 3 1] - a.@[I 2 1] * a.@[I 3 3])
        (a.@[I 1 1] * a.@[I 3 3] - a.@[I 1 3] * a.@[I 3 1])
        (a.@[I 1 3] * a.@[I 2 1] - a.@[I 1 1] * a.@[I 2 3])
        (a.@[I 2 1] * a.@[I 3 2] - a.@[I 2 2] * a.@[I 3 1])
        (a.@[I 1 2] * a.@[I 3 1] - a.@[I 1 1] * a.@[I 3 2])
        (a.@[I 1 1] * a.@[I 2 2] - a.@[I 1 2] * a.@[I 2 1]))
    (#1 / M_det a).

End WithNum.
