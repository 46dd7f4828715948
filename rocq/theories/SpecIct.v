(** * ICtCp as published: Recommendation ITU-R BT.2100, table 7 (PQ system), for display light in cd/m2. *)
From Coq Require Import Reals.
From Verif Require Import MVec SpecOtf.
Local Open Scope R_scope.

Definition bt2100_LMS (rgb : Vector3 R) : Vector3 R :=
  V3 ((1688 * v0 rgb + 2146 * v1 rgb + 262 * v2 rgb) / 4096)
     ((683 * v0 rgb + 2951 * v1 rgb + 462 * v2 rgb) / 4096)
     ((99 * v0 rgb + 309 * v1 rgb + 3688 * v2 rgb) / 4096).
Definition bt2100_ICtCp (rgb : Vector3 R) : Vector3 R :=
  let l := pq_encode (v0 (bt2100_LMS rgb)) in
  let m := pq_encode (v1 (bt2100_LMS rgb)) in
  let s := pq_encode (v2 (bt2100_LMS rgb)) in
  V3 (0.5 * l + 0.5 * m)
     ((6610 * l - 13613 * m + 7003 * s) / 4096)
     ((17933 * l - 17390 * m - 543 * s) / 4096).
