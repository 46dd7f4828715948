(** * Planck's law: spectral radiance of a black body per metre of wavelength. *)
From Coq Require Import Reals.
Local Open Scope R_scope.

Definition planck_law (h c k T l : R) : R := 2 * h * c ^ 2 / l ^ 5 / (exp (h * c / (k * l * T)) - 1).
