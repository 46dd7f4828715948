(** * CIEDE2000 as published (CIE 142-2001 / Sharma, Wu, Dalal 2005), over the reals. *)
From Coq Require Import Reals.
From Verif Require Import MVec NumR.
Local Open Scope R_scope.

Definition cosd (x : R) : R := cos (x * PI / 180).
Definition sind (x : R) : R := sin (x * PI / 180).
(** hue angle in degrees, in [0,360). *)
Definition cie_hue (a b : R) : R :=
  let t := R_atan2 b a * 180 / PI in if Rlt_dec t 0 then t + 360 else t.
Definition cie_mean_hue (c1 c2 h1 h2 : R) : R :=
  if Req_EM_T (c1 * c2) 0 then h1 + h2
  else if Rle_dec (Rabs (h1 - h2)) 180 then (h1 + h2) / 2
  else if Rlt_dec (h1 + h2) 360 then (h1 + h2 + 360) / 2
  else (h1 + h2 - 360) / 2.
Definition cie_hue_diff (c1 c2 h1 h2 : R) : R :=
  if Req_EM_T (c1 * c2) 0 then 0
  else if Rle_dec (Rabs (h2 - h1)) 180 then h2 - h1
  else if Rlt_dec 180 (h2 - h1) then h2 - h1 - 360
  else h2 - h1 + 360.

Definition CIEDE2000 (p q : Vector3 R) (kl kc kh : R) : R :=
  let c1 := sqrt (v1 p ^ 2 + v2 p ^ 2) in
  let c2 := sqrt (v1 q ^ 2 + v2 q ^ 2) in
  let cm := (c1 + c2) / 2 in
  let g := (1 - sqrt (cm ^ 7 / (cm ^ 7 + 25 ^ 7))) / 2 in
  let a1 := (1 + g) * v1 p in
  let a2 := (1 + g) * v1 q in
  let C1 := sqrt (a1 ^ 2 + v2 p ^ 2) in
  let C2 := sqrt (a2 ^ 2 + v2 q ^ 2) in
  let h1 := cie_hue a1 (v2 p) in
  let h2 := cie_hue a2 (v2 q) in
  let dL := v0 q - v0 p in
  let dC := C2 - C1 in
  let dh := cie_hue_diff C1 C2 h1 h2 in
  let dH := 2 * sqrt (C1 * C2) * sind (dh / 2) in
  let Lm := (v0 p + v0 q) / 2 in
  let Cm := (C1 + C2) / 2 in
  let hm := cie_mean_hue C1 C2 h1 h2 in
  let T := 1 - 0.17 * cosd (hm - 30) + 0.24 * cosd (2 * hm) + 0.32 * cosd (3 * hm + 6)
             - 0.20 * cosd (4 * hm - 63) in
  let dTheta := 30 * exp (- ((hm - 275) / 25) ^ 2) in
  let RC := 2 * sqrt (Cm ^ 7 / (Cm ^ 7 + 25 ^ 7)) in
  let SL := 1 + 0.015 * (Lm - 50) ^ 2 / sqrt (20 + (Lm - 50) ^ 2) in
  let SC := 1 + 0.045 * Cm in
  let SH := 1 + 0.015 * Cm * T in
  let RT := - sind (2 * dTheta) * RC in
  sqrt ((dL / (kl * SL)) ^ 2 + (dC / (kc * SC)) ^ 2 + (dH / (kh * SH)) ^ 2
        + RT * (dC / (kc * SC)) * (dH / (kh * SH))).
(** The two CIEDE2000 hue angles [h1', h2'] of a pair of colours. *)
Definition cie_hues (p q : Vector3 R) : R * R :=
  let cm := (sqrt (v1 p ^ 2 + v2 p ^ 2) + sqrt (v1 q ^ 2 + v2 q ^ 2)) / 2 in
  let g := (1 - sqrt (cm ^ 7 / (cm ^ 7 + 25 ^ 7))) / 2 in
  (cie_hue ((1 + g) * v1 p) (v2 p), cie_hue ((1 + g) * v1 q) (v2 q)).
