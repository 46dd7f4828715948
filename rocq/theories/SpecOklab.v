(** * Oklab as published (B. Ottosson, A perceptual color space for image processing, 2020):
    cone responses by the matrix M1, cube roots, then the matrix M2. *)
From Coq Require Import Reals.
From Verif Require Import MVec.
Local Open Scope R_scope.

Definition published_oklab (t lab : Vector3 R) : Prop := exists l m s : R,
  l ^ 3 = 0.8189330101 * v0 t + 0.3618667424 * v1 t - 0.1288597137 * v2 t /\
  m ^ 3 = 0.0329845436 * v0 t + 0.9293118715 * v1 t + 0.0361456387 * v2 t /\
  s ^ 3 = 0.0482003018 * v0 t + 0.2643662691 * v1 t + 0.6338517070 * v2 t /\
  lab = V3 (0.2104542553 * l + 0.7936177850 * m - 0.0040720468 * s)
           (1.9779984951 * l - 2.4285922050 * m + 0.4505937099 * s)
           (0.0259040371 * l + 0.7827717662 * m - 0.8086757660 * s).
