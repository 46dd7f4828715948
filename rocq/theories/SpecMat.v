(** * Specification: 3x3 real matrices, independent of the model's formulas.
    A matrix is given by its entries [ent m i j] (row [i], column [j], from 0). *)
From Coq Require Import ZArith Reals List.
From Verif Require Import MVec.
Local Open Scope R_scope.

Definition ent (m : Matrix3 R) (i j : nat) : R :=
  nth (3 * i + j) (m0 m :: m1 m :: m2 m :: m3 m :: m4 m :: m5 m :: m6 m :: m7 m :: m8 m :: nil) 0.
Definition cmp (v : Vector3 R) (i : nat) : R := nth i (v0 v :: v1 v :: v2 v :: nil) 0.
Definition mkM (f : nat -> nat -> R) : Matrix3 R :=
  M3 (f 0 0)%nat (f 0 1)%nat (f 0 2)%nat (f 1 0)%nat (f 1 1)%nat (f 1 2)%nat
     (f 2 0)%nat (f 2 1)%nat (f 2 2)%nat.
Definition mkV (f : nat -> R) : Vector3 R := V3 (f 0%nat) (f 1%nat) (f 2%nat).
Definition sum3 (f : nat -> R) : R := f 0%nat + f 1%nat + f 2%nat.

Definition mulR (a b : Matrix3 R) : Matrix3 R :=
  mkM (fun i j => sum3 (fun k => ent a i k * ent b k j)).
Definition addR (a b : Matrix3 R) : Matrix3 R := mkM (fun i j => ent a i j + ent b i j).
Definition scaleR (a : Matrix3 R) (k : R) : Matrix3 R := mkM (fun i j => ent a i j * k).
Definition applyR (a : Matrix3 R) (v : Vector3 R) : Vector3 R :=
  mkV (fun i => sum3 (fun k => ent a i k * cmp v k)).
Definition transposeR (a : Matrix3 R) : Matrix3 R := mkM (fun i j => ent a j i).
Definition idR : Matrix3 R := mkM (fun i j => if Nat.eqb i j then 1 else 0).
Definition diagR (v : Vector3 R) : Matrix3 R := mkM (fun i j => if Nat.eqb i j then cmp v i else 0).
(** Laplace expansion along the first row. *)
Definition detR (a : Matrix3 R) : R :=
  ent a 0 0 * (ent a 1 1 * ent a 2 2 - ent a 1 2 * ent a 2 1)
  - ent a 0 1 * (ent a 1 0 * ent a 2 2 - ent a 1 2 * ent a 2 0)
  + ent a 0 2 * (ent a 1 0 * ent a 2 1 - ent a 1 1 * ent a 2 0).
Definition is_inverse (a b : Matrix3 R) : Prop := mulR a b = idR /\ mulR b a = idR.
Definition invR (a : Matrix3 R) : Matrix3 R :=
  mkM (fun i j =>
    let p := fun x => ((x + 1) mod 3)%nat in
    let q := fun x => ((x + 2) mod 3)%nat in
    (ent a (p j) (p i) * ent a (q j) (q i) - ent a (p j) (q i) * ent a (q j) (p i)) / detR a).
