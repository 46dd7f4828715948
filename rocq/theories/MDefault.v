(** * Model of the default constructor of [class Spectrum] (include/colorsystem.hpp:1242). *)
From Coq Require Import ZArith.
From Verif Require Import Num MVec MSpectrum.

(** hpp:1242  [Spectrum() : s_{}]: value-initialised, 400 zeros. *)
Definition S_default (N : Num) : Spectrum N := S_tabulate N (fun _ => fofZ 0).
