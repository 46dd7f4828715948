(** * Model of [util::sqrtf], [Tristimulus] and [Gamut]
    (include/colorsystem.hpp:23-47, 180-559). *)
From Coq Require Import ZArith List Bool.
From Verif Require Import Num MVec.
Import ListNotations.
Local Open Scope num_scope.

(** hpp:180-188  [class Tristimulus]: one [Vector3]; modelled by that vector. *)
Notation Tristimulus := Vector3.

Section WithNum.
Context (N : Num).
Local Notation F := (F N).
Local Notation T3 := (Vector3 F).

(** hpp:27-30  [sqrtNewtonRaphsonF]: unbounded recursion, here with fuel. *)
Fixpoint sqrtNewtonRaphsonF (fuel : nat) (x curr prev : F) : outcome F :=
  match fuel with
  | O => Timeout
  | S fuel' =>
      if curr =? prev then Ret curr
      else sqrtNewtonRaphsonF fuel' x (#0.5 * (curr + x / curr)) curr
  end.

(** hpp:40-44  [util::sqrtf]. *)
Definition util_sqrtf (fuel : nat) (x : F) : outcome F :=
  if (x >=? #0) && fltinf x then sqrtNewtonRaphsonF fuel x x #0
  else Ret fnan.

(** hpp:186  [Tristimulus()] and hpp:188 [Tristimulus(v)]. *)
Definition T_zero : T3 := V3 (fofZ 0) (fofZ 0) (fofZ 0).
Definition T_splat (v : F) : T3 := V3 v v v.

(** hpp:200-206  [scale], [operator*(float)], [operator/(float)]. *)
Definition T_scale (t : T3) (s : F) : T3 := V3 (t.[0] * s) (t.[1] * s) (t.[2] * s).
Definition T_divf (t : T3) (s : F) : T3 := T_scale t (#1 / s).

(** hpp:209-213  [apply]. *)
Definition T_apply (t : T3) (m : Matrix3 F) : T3 := M_apply N m t.
(** hpp:215-220  [add]. *)
Definition T_add (a b : T3) : T3 := V3 (a.[0] + b.[0]) (a.[1] + b.[1]) (a.[2] + b.[2]).
(** hpp:222-227  [mul]. *)
Definition T_mul (a b : T3) : T3 := V3 (a.[0] * b.[0]) (a.[1] * b.[1]) (a.[2] * b.[2]).
(** hpp:228-232  [dot]. *)
Definition T_dot (a b : T3) : F := a.[0] * b.[0] + a.[1] * b.[1] + a.[2] * b.[2].

(** hpp:233-234  [mini], [maxi]. *)
Definition mini (a b : F) : F := if a <? b then a else b.
Definition maxi (a b : F) : F := if a >? b then a else b.
(** hpp:235-244  [min], [max]. *)
Definition T_min (a b : T3) : T3 :=
  V3 (mini a.[0] b.[0]) (mini a.[1] b.[1]) (mini a.[2] b.[2]).
Definition T_max (a b : T3) : T3 :=
  V3 (maxi a.[0] b.[0]) (maxi a.[1] b.[1]) (maxi a.[2] b.[2]).
(** hpp:246-247  [min3], [max3]. *)
Definition T_min3 (t : T3) : F := mini (mini t.[0] t.[1]) t.[2].
Definition T_max3 (t : T3) : F := maxi (maxi t.[0] t.[1]) t.[2].
(** hpp:249-253  [clip]. *)
Definition T_clip (t : T3) (l h : F) : T3 := T_max (T_min t (T_splat h)) (T_splat l).
(** hpp:254-255  [positive]. *)
Definition T_positive (t : T3) : T3 := T_max t (T_splat #0).
(** hpp:256-258  [isNegative], [hasNegative]. *)
Definition isNegative (a : F) : bool := a <? #0.
Definition T_hasNegative (t : T3) : bool :=
  isNegative t.[0] || isNegative t.[1] || isNegative t.[2].
(** hpp:259  [abs_f]. *)
Definition abs_f (f : F) : F := if f <? #0 then - f else f.

(** hpp:261  [z_from_xy]: the [1] is an int converted to float. *)
Definition z_from_xy (x y : F) : F := fofZ 1 - x - y.
(** hpp:262-265 *)
Definition X_from_Yxy (Y x y : F) : F := if abs_f y <? #1e-8 then #0 else x * Y / y.
(** hpp:266-271 *)
Definition Y_from_Yxy (Y x y : F) : F := Y.
(** hpp:272-275 *)
Definition Z_from_Yxy (Y x y : F) : F :=
  if abs_f y <? #1e-8 then #0 else z_from_xy x y * Y / y.
(** hpp:276-281 *)
Definition Y_from_XYZ (x y z : F) : F := y.
(** hpp:282-285 *)
Definition x_from_XYZ (x y z : F) : F :=
  if abs_f (x + y + z) <? #1e-8 then #0.3127 else x / (x + y + z).
(** hpp:286-289 *)
Definition y_from_XYZ (x y z : F) : F :=
  if abs_f (x + y + z) <? #1e-8 then #0.3290 else y / (x + y + z).
(** hpp:290-293, 298, 301  [fromYxy]. *)
Definition fromYxy3 (Y x y : F) : T3 :=
  V3 (X_from_Yxy Y x y) (Y_from_Yxy Y x y) (Z_from_Yxy Y x y).
Definition fromYxy (t : T3) : T3 := fromYxy3 t.[0] t.[1] t.[2].
(** hpp:294-297, 299, 302  [toYxy]. *)
Definition toYxy3 (X Y Z : F) : T3 :=
  V3 (Y_from_XYZ X Y Z) (x_from_XYZ X Y Z) (y_from_XYZ X Y Z).
Definition toYxy (t : T3) : T3 := toYxy3 t.[0] t.[1] t.[2].

(** hpp:312-315 *)
Definition u_from_xy (x y : F) : F := #4 * x / (- #2 * x + #12 * y + #3).
Definition v_from_xy (x y : F) : F := #6 * y / (- #2 * x + #12 * y + #3).
Definition x_from_uv (u v : F) : F := #3 * u / (#2 * u - #8 * v + #4).
Definition y_from_uv (u v : F) : F := #2 * v / (#2 * u - #8 * v + #4).
(** hpp:316-323 *)
Definition YxyToYuv (Yxy : T3) : T3 :=
  V3 Yxy.[0] (u_from_xy Yxy.[1] Yxy.[2]) (v_from_xy Yxy.[1] Yxy.[2]).
Definition YuvToYxy (Yuv : T3) : T3 :=
  V3 Yuv.[0] (x_from_uv Yuv.[1] Yuv.[2]) (y_from_uv Yuv.[1] Yuv.[2]).
(** hpp:324-335  [toYuv], [fromYuv]. *)
Definition toYuv (XYZ : T3) : T3 := YxyToYuv (toYxy XYZ).
Definition fromYuv (Yuv : T3) : T3 := fromYxy (YuvToYxy Yuv).

(** hpp:338-344  [blackbody_x_approx]: evaluated in double, then narrowed. *)
Local Infix "+d" := dadd (at level 50, left associativity).
Local Infix "*d" := dmul (at level 40, left associativity).
Definition blackbody_x_approx (T : F) : F :=
  let T := widen T in
  narrow (dlit 0.811973208 +d
          T *d (dopp (dlit 0.00016747) +d T *d (dlit 0.00000000331067 +d
                  T *d (dlit 0.00000000000690001 +d
                     T *d (dopp (dlit 1.39671E-15) +d
                        T *d (dlit 1.11951E-19 +d T *d dopp (dlit 3.31672E-24))))))).
(** hpp:345-350  [blackbody_y_approx]. *)
Definition blackbody_y_approx (T : F) : F :=
  let T := widen T in
  narrow (dlit 0.136977825 +d
          T *d (dlit 0.000317653 +d T *d (dopp (dlit 0.000000127946) +d
                  T *d (dlit 0.0000000000222415 +d
                     T *d (dopp (dlit 1.81438E-15) +d T *d dlit 5.67564E-20))))).

(** hpp:353-364  [fromPlanckianLocus]: the two local variables, then the result. *)
Definition planckian_x (T : F) : F :=
  if T <? #4000
  then (- #0.2661239e9 / (T * T * T)) - (#0.2343580e6 / (T * T)) + (#0.8776956e3 / T) + #0.179910
  else (- #3.0258469e9 / (T * T * T)) + (#2.1070379e6 / (T * T)) + (#0.2226347e3 / T) + #0.240390.
Definition planckian_y (T x : F) : F :=
  if T <? #2222
  then (- #1.1063814 * x * x * x) - (#1.34811020 * x * x) + (#2.18555832 * x) - #0.20219683
  else if T <? #4000
  then - #1.1063814 * x * x * x - #1.34811020 * x * x + #2.18555832 * x - #0.20219683
  else #3.0817580 * x * x * x - #5.87338670 * x * x + #3.75112997 * x - #0.37001483.
Definition fromPlanckianLocus (T Y : F) : T3 :=
  let x := planckian_x T in
  let y := planckian_y T x in
  fromYxy (V3 Y x y).

(** hpp:365-368  [fromCT]. *)
Definition fromCT (T Y : F) : T3 :=
  fromYxy (V3 Y (blackbody_x_approx T) (blackbody_y_approx T)).

(** hpp:369-402  [CCT_x_approx], [CCT_y_approx], [fromCCT].  The two approx
    functions share every line but the last, so the offset point [(u, v)] they
    both compute is one definition.  [sq] is the square root they call, which in
    the code is [util::sqrtf]. *)
Definition CCT_uv (sq : F -> outcome F) (T dUV : F) : outcome (F * F) :=
  let x1 := blackbody_x_approx T in
  let y1 := blackbody_y_approx T in
  let u1 := u_from_xy x1 y1 in
  let v1 := v_from_xy x1 y1 in
  let x2 := blackbody_x_approx (T - #1) in
  let y2 := blackbody_y_approx (T - #1) in
  let u2 := u_from_xy x2 y2 in
  let v2 := v_from_xy x2 y2 in
  let du := u2 - u1 in
  let dv := v2 - v1 in
  let! l := sq (du * du + dv * dv) in
  Ret (u1 - dUV * dv / l, v1 + dUV * du / l).
Definition CCT_x_approx (sq : F -> outcome F) (T dUV : F) : outcome F :=
  let! (u, v) := CCT_uv sq T dUV in Ret (x_from_uv u v).
Definition CCT_y_approx (sq : F -> outcome F) (T dUV : F) : outcome F :=
  let! (u, v) := CCT_uv sq T dUV in Ret (y_from_uv u v).
Definition fromCCT_sq (sq : F -> outcome F) (T dUV Y : F) : outcome T3 :=
  let! x := CCT_x_approx sq T dUV in
  let! y := CCT_y_approx sq T dUV in
  Ret (fromYxy (V3 Y x y)).
Definition fromCCT (fuel : nat) (T dUV Y : F) : outcome T3 :=
  fromCCT_sq (util_sqrtf fuel) T dUV Y.

(** hpp:405-410  [CIELAB_curve]. *)
Definition CIELAB_curve (f : F) : F :=
  let threshold := #216 / #24389.0 in
  let K := #24389.0 / #27.0 in
  if f >? #1 then #1
  else if f >? threshold then fpow f (#1 / #3)
  else (K * f + #16) / #116.
(** hpp:411-415  [CIELAB_decurve]. *)
Definition CIELAB_decurve (f : F) : F :=
  let K := (#3 / #29) * (#3 / #29) * (#3 / #29) in
  if f >? #1 then #1
  else if f >? #6 / #29 then fpow f #3
  else (#116 * f - #16) * K.
(** hpp:416-425  [toCIELAB(t, white)]. *)
Definition toCIELAB (t white : T3) : T3 :=
  let x0 := white.[0] in
  let y0 := white.[1] in
  let z0 := white.[2] in
  let x1 := CIELAB_curve (t.[0] / x0) in
  let y1 := CIELAB_curve (t.[1] / y0) in
  let z1 := CIELAB_curve (t.[2] / z0) in
  V3 (#116 * y1 - #16) (#500 * (x1 - y1)) (#200 * (y1 - z1)).
(** hpp:426-435  [fromCIELAB(t, white)]. *)
Definition fromCIELAB (t white : T3) : T3 :=
  let x0 := white.[0] in
  let y0 := white.[1] in
  let z0 := white.[2] in
  let fy := (t.[0] + #16) / #116 in
  let fx := fy + (t.[1] / #500) in
  let fz := fy - (t.[2] / #200) in
  V3 (CIELAB_decurve fx * x0) (CIELAB_decurve fy * y0) (CIELAB_decurve fz * z0).
(** hpp:439-440  the overloads without a white point use D50. *)
Definition lab_default_white : T3 := V3 #0.9642 #1.0 #0.8249.
Definition toCIELAB_D50 (t : T3) : T3 := toCIELAB t lab_default_white.
Definition fromCIELAB_D50 (t : T3) : T3 := fromCIELAB t lab_default_white.

(** hpp:442-445  [mod360]: unbounded recursion, here with fuel. *)
Fixpoint mod360 (fuel : nat) (r : F) : outcome F :=
  match fuel with
  | O => Timeout
  | S fuel' =>
      if r <? #0 then mod360 fuel' (r + #360)
      else if r >? #360 then mod360 fuel' (r - #360)
      else Ret r
  end.
(** hpp:446-453  [toHSV_atan]. *)
Definition toHSV_atan (fuel : nat) (t : T3) : outcome T3 :=
  let max := maxi (maxi t.[0] t.[1]) t.[2] in
  let min := mini (mini t.[0] t.[1]) t.[2] in
  let! h := mod360 fuel ((#180 / fpi) *
              fatan2 (fsqrt #3 * (t.[1] - t.[2])) (#2 * t.[0] - t.[1] - t.[2])) in
  Ret (V3 h (if max =? #0 then #0 else (max - min) / max) max).
(** hpp:454-465  [toHSV]: the hue before [mod360], then the result. *)
Definition hsv_hue_raw (t : T3) : F :=
  let max := maxi (maxi t.[0] t.[1]) t.[2] in
  let min := mini (mini t.[0] t.[1]) t.[2] in
  let d := max - min in
  if max =? min then #0
  else if max =? t.[0] then #60 * (t.[1] - t.[2]) / d
  else if max =? t.[1] then #60 * (t.[2] - t.[0]) / d + #120
  else #60 * (t.[0] - t.[1]) / d + #240.
Definition toHSV (fuel : nat) (t : T3) : outcome T3 :=
  let max := maxi (maxi t.[0] t.[1]) t.[2] in
  let min := mini (mini t.[0] t.[1]) t.[2] in
  let d := max - min in
  let! h := mod360 fuel (hsv_hue_raw t) in
  Ret (V3 h (if max =? #0 then #0 else d / max) max).
(** hpp:467-487  [fromHSV]; [%] on ints is C's truncated remainder. *)
Definition fromHSV (fuel : nat) (t : T3) : outcome T3 :=
  let! h := mod360 fuel t.[0] in
  let! d := of_option (ftoint (h / #60)) in
  let i := Z.rem d 6 in
  let r := (h / #60) - fofZ d in
  let s := t.[1] in
  let v := t.[2] in
  let m := v * (#1 - s) in
  let n := v * (#1 - s * r) in
  let p := v * (#1 - s * (#1 - r)) in
  Ret (if Z.eqb i 0 then V3 v p m
       else if Z.eqb i 1 then V3 n v m
       else if Z.eqb i 2 then V3 m v p
       else if Z.eqb i 3 then V3 m n v
       else if Z.eqb i 4 then V3 p m v
       else if Z.eqb i 5 then V3 v m n
       else V3 (fofZ 0) (fofZ 0) (fofZ 0)).

End WithNum.

(** ** [class Gamut]  (hpp:493-559); the name is not modelled. *)
Record Gamut (A : Type) := mkGamut { g_toXYZ : Matrix3 A; g_fromXYZ : Matrix3 A }.
Arguments mkGamut {A}. Arguments g_toXYZ {A}. Arguments g_fromXYZ {A}.

Section WithNumG.
Context (N : Num).
Local Notation F := (F N).
Local Notation T3 := (Vector3 F).

(** hpp:500-505  [primMat]. *)
Definition primMat (xR yR xG yG xB yB : F) : Matrix3 F :=
  M3 xR xG xB yR yG yB (z_from_xy N xR yR) (z_from_xy N xG yG) (z_from_xy N xB yB).
(** hpp:506  [Gamut::diag]. *)
Definition G_diag (v : T3) : Matrix3 F :=
  M3 v.[0] (fofZ 0) (fofZ 0)  (fofZ 0) v.[1] (fofZ 0)  (fofZ 0) (fofZ 0) v.[2].
(** hpp:507  [mulDiag]. *)
Definition mulDiag (m : Matrix3 F) (v : T3) : Matrix3 F :=
  M_mul N m (G_diag (M_apply N (M_invert N m) v)).
(** hpp:508-512  [fromPrimaries]. *)
Definition fromPrimaries (xR yR xG yG xB yB xW yW : F) : Matrix3 F :=
  mulDiag (primMat xR yR xG yG xB yB) (fromYxy3 N #1 xW yW).
(** hpp:513-516  constructor from a [fromXYZ] matrix. *)
Definition Gamut_of_fromXYZ (m : Matrix3 F) : Gamut F := mkGamut (M_invert N m) m.
(** hpp:517-524  constructor from primaries and white. *)
Definition Gamut_of_primaries (xR yR xG yG xB yB xW yW : F) : Gamut F :=
  mkGamut (fromPrimaries xR yR xG yG xB yB xW yW)
          (M_invert N (fromPrimaries xR yR xG yG xB yB xW yW)).
(** hpp:529-530  [toXYZ(tri)], [fromXYZ(tri)]. *)
Definition G_toXYZ_t (g : Gamut F) (t : T3) : T3 := M_apply N (g_toXYZ g) t.
Definition G_fromXYZ_t (g : Gamut F) (t : T3) : T3 := M_apply N (g_fromXYZ g) t.
(** hpp:532-536  [primaryVector]. *)
Definition primaryVector (g : Gamut F) : T3 :=
  let m := g_toXYZ g in
  V3 (m.@[0] + m.@[3] + m.@[6]) (m.@[1] + m.@[4] + m.@[7]) (m.@[2] + m.@[5] + m.@[8]).
(** hpp:537-542  [primaryMatrix]. *)
Definition primaryMatrix (g : Gamut F) : Matrix3 F :=
  let t := primaryVector g in
  let m := g_toXYZ g in
  M3 (m.@[0] / t.[0]) (m.@[1] / t.[1]) (m.@[2] / t.[2])
     (m.@[3] / t.[0]) (m.@[4] / t.[1]) (m.@[5] / t.[2])
     (m.@[6] / t.[0]) (m.@[7] / t.[1]) (m.@[8] / t.[2]).
(** hpp:543  [primaryWhite]. *)
Definition primaryWhite (g : Gamut F) : T3 := M_apply N (primaryMatrix g) (primaryVector g).
(** hpp:544-558  [primaryRed], [primaryGreen], [primaryBlue]. *)
Definition primaryRed (g : Gamut F) : T3 :=
  let n := primaryMatrix g in V3 n.@[0] n.@[3] n.@[6].
Definition primaryGreen (g : Gamut F) : T3 :=
  let n := primaryMatrix g in V3 n.@[1] n.@[4] n.@[7].
Definition primaryBlue (g : Gamut F) : T3 :=
  let n := primaryMatrix g in V3 n.@[2] n.@[5] n.@[8].

(** ** Constants  (hpp:1353-1380). *)
Definition Illuminant_A : T3 := V3 #1.09850 #1 #0.35585.
Definition Illuminant_B : T3 := V3 #1.99072 #1 #0.85223.
Definition Illuminant_C : T3 := V3 #0.98074 #1.0 #1.18232.
Definition Illuminant_D50 : T3 := V3 #0.96422 #1.0 #0.82521.
Definition Illuminant_D55 : T3 := V3 #0.95682 #1.0 #0.92149.
Definition Illuminant_D60 : T3 := V3 #0.95265 #1.0 #1.00883.
Definition Illuminant_D65 : T3 := V3 #0.95047 #1.0 #1.08883.
Definition Illuminant_D75 : T3 := V3 #0.94972 #1.0 #1.22638.
Definition Illuminant_E : T3 := V3 #1 #1 #1.
Definition Illuminant_F2 : T3 := V3 #0.99186 #1 #0.67393.
Definition Illuminant_F7 : T3 := V3 #0.95041 #1 #1.08747.
Definition Illuminant_F11 : T3 := V3 #1.00962 #1 #0.64350.

Definition AdobeRGB := Gamut_of_primaries #0.64 #0.33 #0.21 #0.71 #0.15 #0.06 #0.3127 #0.3290.
Definition Rec709 := Gamut_of_primaries #0.64 #0.33 #0.30 #0.60 #0.15 #0.06 #0.3127 #0.3290.
Definition Rec2020 := Gamut_of_primaries #0.708 #0.292 #0.17 #0.797 #0.131 #0.046 #0.3127 #0.3290.
Definition DCI_P3 := Gamut_of_primaries #0.68 #0.32 #0.265 #0.69 #0.15 #0.06 #0.314 #0.351.
Definition S_Gamut := Gamut_of_primaries #0.73 #0.28 #0.14 #0.855 #0.10 (- #0.05) #0.3127 #0.3290.
Definition S_Gamut3_Cine :=
  Gamut_of_primaries #0.766 #0.275 #0.225 #0.800 #0.089 (- #0.087) #0.3127 #0.3290.
Definition ACEScg :=
  Gamut_of_primaries #0.713 #0.293 #0.165 #0.830 #0.128 #0.044 #0.32168 #0.33767.
Definition ACES2065 :=
  Gamut_of_primaries #0.73470 #0.26530 #0 #1 #0.0001 (- #0.077) #0.32168 #0.33767.
Definition LMS := Gamut_of_fromXYZ
  (M3 #0.8951 #0.2664 (- #0.1614) (- #0.7502) #1.7135 #0.0367 #0.0389 (- #0.0685) #1.0296).
Definition XYZ_gamut := Gamut_of_fromXYZ
  (M3 (fofZ 1) (fofZ 0) (fofZ 0) (fofZ 0) (fofZ 1) (fofZ 0) (fofZ 0) (fofZ 0) (fofZ 1)).

(** hpp:1383  [GamutConvert]. *)
Definition GamutConvert (src dst : Gamut F) : Matrix3 F :=
  M_mul N (g_fromXYZ dst) (g_toXYZ src).

(** hpp:1386-1395  [Bradford]. *)
Definition Bradford (white_src white_dst : T3) : Matrix3 F :=
  let lms_src := G_fromXYZ_t LMS white_src in
  let lms_dst := G_fromXYZ_t LMS white_dst in
  let scale := M_diag N (V3 (lms_dst.[0] / lms_src.[0])
                            (lms_dst.[1] / lms_src.[1])
                            (lms_dst.[2] / lms_src.[2])) in
  M_mul N (M_mul N (g_toXYZ LMS) scale) (g_fromXYZ LMS).

End WithNumG.
