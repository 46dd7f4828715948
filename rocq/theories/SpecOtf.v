(** * The published transfer functions, written from their standards (no model file is imported). *)
From Coq Require Import Reals Lra.
Local Open Scope R_scope.

(** Values outside the unit interval are brought back to it before encoding or decoding. *)
Definition unit_clip (x : R) : R := Rmax 0 (Rmin x 1).

(** IEC 61966-2-1 (sRGB). *)
Definition iec_encode (x : R) : R := if Rle_dec x 0.0031308 then 12.92 * x else 1.055 * Rpower x (1 / 2.4) - 0.055.
Definition iec_decode (c : R) : R := if Rle_dec c 0.04045 then c / 12.92 else Rpower ((c + 0.055) / 1.055) 2.4.

(** Recommendation ITU-R BT.709, item 1.2, and its inverse. *)
Definition bt709_encode (x : R) : R := if Rlt_dec x 0.018 then 4.5 * x else 1.099 * Rpower x 0.45 - 0.099.
Definition bt709_decode (c : R) : R := if Rlt_dec c 0.081 then c / 4.5 else Rpower ((c + 0.099) / 1.099) (1 / 0.45).

(** SMPTE ST 2084 (the PQ curve): luminance in cd/m2 up to 10000. *)
Definition st_m1 : R := 2610 / 4096 * (1 / 4).
Definition st_m2 : R := 2523 / 4096 * 128.
Definition st_c1 : R := 3424 / 4096.
Definition st_c2 : R := 2413 / 4096 * 32.
Definition st_c3 : R := 2392 / 4096 * 32.
Definition pq_encode (nits : R) : R :=
  let y := Rpower (nits / 10000) st_m1 in Rpower ((st_c1 + st_c2 * y) / (1 + st_c3 * y)) st_m2.
Definition pq_decode (c : R) : R :=
  let n := Rpower c (1 / st_m2) in
  if Rle_dec n st_c1 then 0 else 10000 * Rpower ((n - st_c1) / (st_c2 - st_c3 * n)) (1 / st_m1).

(** Recommendation ITU-R BT.2100, table 5: the HLG reference OETF for scene light [e] in 0..1. *)
Definition bt_a : R := 0.17883277.
Definition bt_b : R := 1 - 4 * bt_a.
Definition bt_c : R := 0.55991073.
Definition hlg_encode (e : R) : R := if Rle_dec e (1 / 12) then sqrt (3 * e) else bt_a * ln (12 * e - bt_b) + bt_c.
Definition hlg_decode (c : R) : R := if Rle_dec c (1 / 2) then c * c / 3 else (exp ((c - bt_c) / bt_a) + bt_b) / 12.

(** Sony: S-Log (2008) and S-Log2 (2012). *)
Definition lg (x : R) : R := ln x / ln 10.
Definition sony_slog (x : R) : R := (0.432699 * lg (x + 0.037584) + 0.616596) + 0.03.
Definition sony_slog_inv (y : R) : R := Rpower 10 ((y - 0.616596 - 0.03) / 0.432699) - 0.037584.
Definition sony_slog2 (x : R) : R :=
  if Rle_dec 0 x then (0.432699 * lg (155 * x / 219 + 0.037584) + 0.616596) + 0.03
  else x * 3.53881278538813 + 0.030001222851889303.
Definition sony_slog2_inv (y : R) : R :=
  if Rle_dec 0.030001222851889303 y then 219 * (Rpower 10 ((y - 0.616596 - 0.03) / 0.432699) - 0.037584) / 155
  else (y - 0.030001222851889303) / 3.53881278538813.
(** An S-Log2 signal of 0 to 1 (0 to 100 %) is carried between code values 64 and 940 of 1024. *)
Definition legal (y : R) : R := (64 + 876 * y) / 1024.
Definition unlegal (c : R) : R := (1024 * c - 64) / 876.
