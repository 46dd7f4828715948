(** * The hexcone colour model (A. R. Smith, SIGGRAPH 1978) in its single-formula form; no model file is imported
      except the vector type. *)
From Coq Require Import ZArith Reals.
From Flocq Require Import Core.Raux.
From Verif Require Import MVec.
Local Open Scope R_scope.

(** [x] reduced to 0 <= . < 6. *)
Definition wrap6 (x : R) : R := x - 6 * IZR (Zfloor (x / 6)).
(** The trapezoid: rises on 0..1, is 1 on 1..3, falls on 3..4, is 0 on 4..6. *)
Definition tooth (k : R) : R := Rmax 0 (Rmin (Rmin k (4 - k)) 1).
Definition hexcone (h s v : R) : Vector3 R :=
  let channel n := v - v * s * tooth (wrap6 (n + h / 60)) in V3 (channel 5) (channel 3) (channel 1).
