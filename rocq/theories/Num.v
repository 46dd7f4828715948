(** * The arithmetic interface of the model.

    Every numeric function of [include/colorsystem.hpp] is transcribed once, as
    a Gallina function over an arbitrary [Num].  Two instances are used:

    - [RN]   (file [NumR.v]): "checked real numbers" [option R], where [None]
      stands for "no finite value" (division by zero, root or log of a
      non-positive number, ...).  Theorems about [RN] are the ideal,
      rounding-free semantics of the code.
    - [FN lm] (file [NumF.v]): IEEE-754 binary32/binary64 with
      round-to-nearest-even (Flocq), with NaN and infinities, where the C
      library functions ([powf], [sinf], ...) are those of an arbitrary [lm].
      Theorems about [FN] are about the floating-point program itself.

    Nothing in this file makes an assumption about the operations. *)
From Coq Require Import ZArith List.
From Coq Require Number Decimal.
Import ListNotations.

(** ** C/C++ literals: the decimal number [dm * 10^de]. *)
Record dec := mkdec { dm : Z; de : Z }.

Definition dec_of_number (n : Number.number) : option dec :=
  match n with
  | Number.Decimal d =>
      let '(i, f, e) :=
        match d with
        | Decimal.Decimal i f => (i, f, Decimal.Pos Decimal.Nil)
        | Decimal.DecimalExp i f e => (i, f, e)
        end in
      Some (mkdec (Z.of_int (Decimal.app_int i f))
                  (Z.of_int e - Z.of_nat (Decimal.nb_digits f)))
  | Number.Hexadecimal _ => None
  end.
Definition number_of_dec (d : dec) : option Number.number :=
  Some (Number.Decimal
    (Decimal.DecimalExp (Z.to_int (dm d)) Decimal.Nil (Z.to_int (de d)))).

Declare Scope dec_scope.
Delimit Scope dec_scope with dec.
Number Notation dec dec_of_number number_of_dec : dec_scope.

(** ** Outcomes of a C++ call.
    [UB]: undefined behaviour (out-of-bounds access, float-to-int cast out of
    range, integer division by zero, ...).  [Abort]: a failed [assert].
    [Timeout]: the fuel of the model ran out; a call "does not terminate" when
    every fuel gives [Timeout]. *)
Inductive outcome (A : Type) : Type :=
| Ret (a : A)
| UB
| Abort
| Timeout.
Arguments Ret {A} a.
Arguments UB {A}.
Arguments Abort {A}.
Arguments Timeout {A}.

Definition bind {A B} (x : outcome A) (k : A -> outcome B) : outcome B :=
  match x with
  | Ret a => k a
  | UB => UB
  | Abort => Abort
  | Timeout => Timeout
  end.
Notation "'let!' x ':=' c 'in' k" := (bind c (fun x => k))
  (at level 200, x pattern, c at level 100, k at level 200, right associativity).

Definition of_option {A} (x : option A) : outcome A :=
  match x with Some a => Ret a | None => UB end.

(** A fuelled call terminates with [r] / never terminates. *)
Definition terminates_with {A} (f : nat -> outcome A) (r : outcome A) : Prop :=
  exists n, forall m, (n <= m)%nat -> f m = r /\ r <> Timeout.
Definition never_terminates {A} (f : nat -> outcome A) : Prop :=
  forall n, f n = Timeout.

(** ** The operations the code uses. [F] is C [float], [D] is C [double]. *)
Record Num := mkNum {
  F : Type;
  D : Type;
  (* float arithmetic *)
  fadd : F -> F -> F;
  fsub : F -> F -> F;
  fmul : F -> F -> F;
  fdiv : F -> F -> F;
  fopp : F -> F;
  ffabs : F -> F;
  fltb : F -> F -> bool;
  fleb : F -> F -> bool;
  feqb : F -> F -> bool;
  flit : dec -> F;                 (* a literal  1.5f *)
  fofZ : Z -> F;                   (* int -> float conversion *)
  ftoint : F -> option Z;          (* (int)x ; None = undefined behaviour *)
  fltinf : F -> bool;              (* x < std::numeric_limits<float>::infinity() *)
  fnan : F;                        (* std::numeric_limits<float>::quiet_NaN() *)
  fpi : F;                         (* 3.14159265358979323846f *)
  (* C library, float *)
  fsqrt : F -> F;
  fpow : F -> F -> F;
  fexp : F -> F;
  flog : F -> F;
  flog10 : F -> F;
  fsin : F -> F;
  fcos : F -> F;
  fatan2 : F -> F -> F;
  ffmod : F -> F -> F;
  fcbrt : F -> F;
  (* double arithmetic *)
  dadd : D -> D -> D;
  dsub : D -> D -> D;
  dmul : D -> D -> D;
  ddiv : D -> D -> D;
  dopp : D -> D;
  dlit : dec -> D;
  dofZ : Z -> D;
  dpow : D -> D -> D;
  dexp : D -> D;
  (* conversions *)
  widen : F -> D;
  narrow : D -> F
}.

Arguments fadd {n} _ _.
Arguments fsub {n} _ _.
Arguments fmul {n} _ _.
Arguments fdiv {n} _ _.
Arguments fopp {n} _.
Arguments ffabs {n} _.
Arguments fltb {n} _ _.
Arguments fleb {n} _ _.
Arguments feqb {n} _ _.
Arguments flit {n} _%dec.
Arguments fofZ {n} _%Z.
Arguments ftoint {n} _.
Arguments fltinf {n} _.
Arguments fnan {n}.
Arguments fpi {n}.
Arguments fsqrt {n} _.
Arguments fpow {n} _ _.
Arguments fexp {n} _.
Arguments flog {n} _.
Arguments flog10 {n} _.
Arguments fsin {n} _.
Arguments fcos {n} _.
Arguments fatan2 {n} _ _.
Arguments ffmod {n} _ _.
Arguments fcbrt {n} _.
Arguments dadd {n} _ _.
Arguments dsub {n} _ _.
Arguments dmul {n} _ _.
Arguments ddiv {n} _ _.
Arguments dopp {n} _.
Arguments dlit {n} _%dec.
Arguments dofZ {n} _%Z.
Arguments dpow {n} _ _.
Arguments dexp {n} _.
Arguments widen {n} _.
Arguments narrow {n} _.

Declare Scope num_scope.
Delimit Scope num_scope with num.
Notation "x + y" := (fadd x y) : num_scope.
Notation "x - y" := (fsub x y) : num_scope.
Notation "x * y" := (fmul x y) : num_scope.
Notation "x / y" := (fdiv x y) : num_scope.
Notation "- x" := (fopp x) : num_scope.
Notation "x <? y" := (fltb x y) : num_scope.
Notation "x <=? y" := (fleb x y) : num_scope.
Notation "x >? y" := (fltb y x) (only parsing) : num_scope.
Notation "x >=? y" := (fleb y x) (only parsing) : num_scope.
Notation "x =? y" := (feqb x y) : num_scope.
Notation "# x" := (flit x) (at level 1, x at level 0, format "# x") : num_scope.
(** C [if (x)] on a float: true when [x != 0] (so also for a NaN). *)
Definition ftrue {N : Num} (x : F N) : bool := negb (feqb x (fofZ 0)).
