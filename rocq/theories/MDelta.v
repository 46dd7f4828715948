(** * Model of the ICtCp / Oklab conversions and [class Delta]
    (include/colorsystem.hpp:1397-1540). *)
From Coq Require Import ZArith List Bool.
From Verif Require Import Num MVec MTri MOtf.
Local Open Scope num_scope.

Section WithNum.
Context (N : Num).
Local Notation F := (F N).
Local Notation T3 := (Vector3 F).

(** hpp:1400-1401 = hpp:1411-1412 *)
Definition HPE_LMS : Gamut F := Gamut_of_fromXYZ N
  (M3 #0.3592 #0.6976 (- #0.0358) (- #0.1922) #1.1004 #0.0755 #0.0070 #0.0749 #0.8434).

(** hpp:1397-1406 *)
Definition XYZ_to_ICtCp (xyz : T3) : T3 :=
  let lms := G_fromXYZ_t N HPE_LMS xyz in
  let pq := V3 (Y_to_ST2084 N lms.[0]) (Y_to_ST2084 N lms.[1]) (Y_to_ST2084 N lms.[2]) in
  V3 ((pq.[0] + pq.[1]) * #0.5)
     ((#6610 * pq.[0] - #13613 * pq.[1] + #7003 * pq.[2]) / #4096)
     ((#17933 * pq.[0] - #17390 * pq.[1] - #543 * pq.[2]) / #4096).

(** hpp:1408-1417 *)
Definition ICtCp_to_XYZ (icc : T3) : T3 :=
  let lms := V3 (ST2084_to_Y N (icc.[0] + #0.00860904 * icc.[1] + #0.11103 * icc.[2]))
                (ST2084_to_Y N (icc.[0] - #0.00860904 * icc.[1] - #0.11103 * icc.[2]))
                (ST2084_to_Y N (icc.[0] + #0.560031 * icc.[1] - #0.320627 * icc.[2])) in
  G_toXYZ_t N HPE_LMS lms.

(** hpp:1422-1425 = hpp:1457-1460 *)
Definition ok_m1 : Matrix3 F :=
  M3 #0.8189330101 #0.3618667424 (- #0.1288597137) (- #0.0329845436) #0.9293118715
     #0.0361456387 #0.0482003018 #0.2643662691 #0.6338517070.
Definition ok_m2 : Matrix3 F :=
  M3 #0.2104542553 #0.7936177850 (- #0.0040720468) #1.9779984951 (- #2.4285922050)
     #0.4505937099 #0.0259040371 #0.7827717662 (- #0.8086757660).

(** hpp:1419-1453; the debugging [printf]s (hpp:1428-1448) write to stdout and
    are not modelled. *)
Definition XYZ_to_OKLAB (xyz : T3) : T3 :=
  let lms := T_apply N xyz ok_m1 in
  let dash := V3 (fcbrt lms.[0]) (fcbrt lms.[1]) (fcbrt lms.[2]) in
  T_apply N dash ok_m2.

(** hpp:1455-1466 *)
Definition OKLAB_to_XYZ (lab : T3) : T3 :=
  let m1i := M_invert N ok_m1 in
  let m2i := M_invert N ok_m2 in
  let dash := T_apply N lab m2i in
  let lms := V3 (dash.[0] * dash.[0] * dash.[0]) (dash.[1] * dash.[1] * dash.[1])
                (dash.[2] * dash.[2] * dash.[2]) in
  T_apply N lms m1i.

(** hpp:1472-1475 *)
Definition Delta_UV (a_Yuv b_Yuv : T3) : F :=
  fsqrt ((a_Yuv.[1] - b_Yuv.[1]) * (a_Yuv.[1] - b_Yuv.[1]) +
         (a_Yuv.[2] - b_Yuv.[2]) * (a_Yuv.[2] - b_Yuv.[2])).

(** hpp:1476-1480 *)
Definition Delta_E76 (a_LAB b_LAB : T3) : F :=
  fsqrt ((a_LAB.[0] - b_LAB.[0]) * (a_LAB.[0] - b_LAB.[0]) +
         (a_LAB.[1] - b_LAB.[1]) * (a_LAB.[1] - b_LAB.[1]) +
         (a_LAB.[2] - b_LAB.[2]) * (a_LAB.[2] - b_LAB.[2])).

(** hpp:1496  [pow25_7]. *)
Definition pow25_7 : F := #25 * #25 * #25 * #25 * #25 * #25 * #25.

(** hpp:1495-1497  [G] as a function of [Cbar]. *)
Definition e00_G (Cbar : F) : F :=
  let C7 := fpow Cbar #7 in
  (#1 - fsqrt (C7 / (C7 + pow25_7))) / #2.

(** hpp:1503-1504  hue angle in degrees. *)
Definition e00_hue (b ad : F) : F :=
  ffmod (#360 + fatan2 b ad * #180.0 / fpi) #360.

(** hpp:1505 *)
Definition e00_HdBar (h1 h2 : F) : F :=
  (if ffabs (h1 - h2) >? #180 then h1 + h2 + #360 else h1 + h2) / #2.

(** hpp:1506-1509 *)
Definition e00_T (HdBar : F) : F :=
  let T1 := #1 - #0.17 * fcos (fpi * (#1 * HdBar - #30) / #180) in
  let T2 := #0.24 * fcos (fpi * (#2 * HdBar) / #180) +
            #0.32 * fcos (fpi * (#3 * HdBar + #6) / #180) in
  let T3 := #0.20 * fcos (fpi * (#4 * HdBar - #63) / #180) in
  T1 + T2 - T3.

(** hpp:1510 *)
Definition e00_deltah (h1 h2 : F) : F :=
  if ffabs (h2 - h1) <=? #180 then h2 - h1
  else if h2 <=? h1 then h2 - h1 + #360 else h2 - h1 - #360.

(** hpp:1514-1515 *)
Definition e00_Sl (Lbar : F) : F :=
  let Lbar2 := (Lbar - #50) * (Lbar - #50) in
  #1 + #0.015 * Lbar2 / fsqrt (#20 + Lbar2).

(** hpp:1518-1522  [Rt] as a function of [HdBar] and [CdBar]. *)
Definition e00_Rt (HdBar CdBar : F) : F :=
  let HdBar2 := (HdBar - #275) * (HdBar - #275) / (#25 * #25) in
  let deltaTheta := #30 * fexp (- HdBar2) in
  let CdBar7 := fpow CdBar #7 in
  let Rc := #2 * fsqrt (CdBar7 / (CdBar7 + pow25_7)) in
  - Rc * fsin (#2 * deltaTheta * fpi / #180).

(** hpp:1481-1528  [E00]. *)
Definition Delta_E00 (lab1 lab2 : T3) (Kl Kc Kh : F) : F :=
  let L1 := lab1.[0] in
  let a1 := lab1.[1] in
  let b1 := lab1.[2] in
  let L2 := lab2.[0] in
  let a2 := lab2.[1] in
  let b2 := lab2.[2] in
  let Lbar := (L1 + L2) / #2 in
  let C1 := fsqrt (a1 * a1 + b1 * b1) in
  let C2 := fsqrt (a2 * a2 + b2 * b2) in
  let Cbar := (C1 + C2) / #2 in
  let G := e00_G Cbar in
  let ad1 := a1 * (#1 + G) in
  let ad2 := a2 * (#1 + G) in
  let Cd1 := fsqrt (ad1 * ad1 + b1 * b1) in
  let Cd2 := fsqrt (ad2 * ad2 + b2 * b2) in
  let CdBar := (Cd1 + Cd2) / #2 in
  let h1 := e00_hue b1 ad1 in
  let h2 := e00_hue b2 ad2 in
  let HdBar := e00_HdBar h1 h2 in
  let T := e00_T HdBar in
  let deltah := e00_deltah h1 h2 in
  let deltaL := L2 - L1 in
  let deltaC := Cd2 - Cd1 in
  let deltaH := #2 * fsqrt (Cd1 * Cd2) * fsin (fpi * deltah / (#180 * #2)) in
  let Sl := e00_Sl Lbar in
  let Sc := #1 + #0.045 * CdBar in
  let Sh := #1 + #0.015 * CdBar * T in
  let Rt := e00_Rt HdBar CdBar in
  let dl := deltaL / (Kl * Sl) in
  let dc := deltaC / (Kc * Sc) in
  let dh := deltaH / (Kh * Sh) in
  fsqrt (dl * dl + dc * dc + dh * dh + Rt * dc * dh).

(** hpp:1531-1539 *)
Definition Delta_ICtCp (a_xyz b_xyz : T3) : F :=
  let a_itp := XYZ_to_ICtCp a_xyz in
  let b_itp := XYZ_to_ICtCp b_xyz in
  let dI := a_itp.[0] - b_itp.[0] in
  let dT := a_itp.[1] - b_itp.[1] in
  let dP := a_itp.[2] - b_itp.[2] in
  fsqrt (dI * dI + dT * dT * #0.25 + dP * dP).

End WithNum.
