(** * Model of [class OTF]  (include/colorsystem.hpp:560-786). *)
From Coq Require Import ZArith List Bool.
From Verif Require Import Num MVec MTri.
Local Open Scope num_scope.

(** hpp:563-574 *)
Inductive TYPE := LINEAR | GAMMA | SRGB | BT709 | ST2084 | SLOG | SLOG2 | SLOG3 | HLG.

Section WithNum.
Context (N : Num).
Local Notation F := (F N).
Local Notation T3 := (Vector3 F).

(** hpp:576-577 *)
Definition gamma (v g : F) : F := fpow v (#1 / g).
Definition degamma (v g : F) : F := fpow v g.

(** hpp:580-585 = hpp:604-609: the constants local to both ST2084 functions. *)
Definition pq_m1 : F := #0.1593017578125.
Definition pq_m2 : F := #78.84375.
Definition pq_c1 : F := #0.8359375.
Definition pq_c2 : F := #18.8515625.
Definition pq_c3 : F := #18.6875.
Definition pq_C : F := #100.0.

(** hpp:578-596 *)
Definition ST2084_to_Y (pixel : F) : F :=
  let Np := fpow pixel (#1.0 / pq_m2) in
  let L := Np - pq_c1 in
  let L := if L <? #0.0 then #0.0 else L in
  let L := L / (pq_c2 - pq_c3 * Np) in
  let L := fpow L (#1.0 / pq_m1) in
  L * pq_C.

(** hpp:598-618 *)
Definition Y_to_ST2084 (C : F) : F :=
  if C <=? #0 then #0
  else if C >=? #100 then #1
  else
    let L := C / pq_C in
    let Lm := fpow L pq_m1 in
    let N := (pq_c1 + pq_c2 * Lm) / (#1.0 + pq_c3 * Lm) in
    fpow N pq_m2.

(** hpp:619-624 *)
Definition Y_to_sRGB (C : F) : F :=
  if C <? #0 then #0
  else if C >? #1 then #1
  else if C <? #0.0031308 then C * #12.92
  else #1.055 * fpow C (#1.0 / #2.4) - #0.055.

(** hpp:625-628 *)
Definition sRGB_to_Y (C : F) : F :=
  if C <? #0 then #0
  else if C >? #1 then #1
  else if C <? #0.04045 then C / #12.92
  else fpow ((C + #0.055) / #1.055) #2.4.

(** hpp:629-632 *)
Definition Y_to_BT709 (C : F) : F :=
  if C <? #0 then #0
  else if C >? #1 then #1
  else if C <? #0.018 then C * #4.50
  else #1.099 * fpow C #0.45 - #0.099.

(** hpp:633-637 *)
Definition BT709_to_Y (C : F) : F :=
  if C <? #0 then #0
  else if C >? #1 then #1
  else if C <? #0.081 then C / #4.50
  else fpow ((C + #0.099) / #1.099) (#1 / #0.45).

(** hpp:641-643 = hpp:649-651 *)
Definition hlg_a : F := #0.17883277.
Definition hlg_b : F := #0.28466892.
Definition hlg_c : F := #0.55991073.

(** hpp:639-645 *)
Definition Y_to_HLG (C : F) : F :=
  if C <? #0 then #0
  else if C <? #1 then #0.5 * fsqrt C
  else hlg_a * flog (C - hlg_b) + hlg_c.

(** hpp:647-653 ([exp] of a float: the C++ overload set gives the float one). *)
Definition HLG_to_Y (C : F) : F :=
  if C <? #0 then #0
  else if C <=? #0.5 then #4 * C * C
  else fexp ((C - hlg_c) / hlg_a) + hlg_b.

(** hpp:656-661: [xc] is a float, [log10f]'s argument and the last two
    additions are computed in double. *)
Definition Y_to_SLog (x : F) : F :=
  let xc := if x <? fofZ 0 then fofZ 0 else if x >? fofZ 10 then fofZ 10 else x in
  narrow (dadd (dadd
    (widen (#0.432699 * flog10 (narrow (dadd (widen xc) (dlit 0.037584)))))
    (dlit 0.616596)) (dlit 0.03)).

(** hpp:664-668 *)
Definition SLog_to_Y (x : F) : F :=
  fpow #10 ((x - #0.616596 - #0.03) / #0.432699) - #0.037584.

(** hpp:670-675 *)
Definition Y_to_SLog3 (x : F) : F :=
  let y := if x >? #0.01125
           then #420 + flog10 ((x + #0.01) / #0.19 * #261.5)
           else x * (#171.2102946929 - #95) / #0.01125 + #95 in
  y / #1023.

(** hpp:676-681: the else-branch multiplies by the double [0.01125], so the
    conditional is computed in double. *)
Definition SLog3_to_Y (x : F) : F :=
  narrow
    (if x >? #171.2102946929 / #1023
     then widen (fpow #10 ((x * #1023 - #420) / #261.5) * #0.19 - #0.01)
     else ddiv (dmul (widen (x * #1023 - #95)) (dlit 0.01125))
               (widen (#171.2102946929 - #95))).

(** hpp:683-694 *)
Definition slog2_BLACK : F := #64 / #1024.
Definition slog2_WV : F := #876 / #1024.
Definition CV_to_IRE_SLog2 (cv : F) : F := (cv - slog2_BLACK) / slog2_WV.
Definition IRE_to_CV_SLog2 (ire : F) : F := (ire * slog2_WV) + slog2_BLACK.

(** hpp:695-700 *)
Definition Y_to_SLog2 (x : F) : F :=
  let y := if x <? #0 then x * #3.53881278538813 + #0.030001222851889303
           else (#0.432699 * flog10 (#155.0 * x / #219.0 + #0.037584) + #0.616596) + #0.03 in
  IRE_to_CV_SLog2 y.

(** hpp:701-708 *)
Definition SLog2_to_Y (C : F) : F :=
  let x := CV_to_IRE_SLog2 C in
  let y := if x >=? #0.030001222851889303
           then #219.0 * (fpow #10.0 ((x - #0.616596 - #0.03) / #0.432699) - #0.037584) / #155.0
           else (x - #0.030001222851889303) / #3.53881278538813 in
  if y >? #0 then y else #0.

(** hpp:709-748  [toScreen]. *)
Definition toScreen (type : TYPE) (scene : T3) (g : F) : T3 :=
  match type with
  | GAMMA => V3 (gamma scene.[0] g) (gamma scene.[1] g) (gamma scene.[2] g)
  | SRGB => V3 (Y_to_sRGB scene.[0]) (Y_to_sRGB scene.[1]) (Y_to_sRGB scene.[2])
  | BT709 => V3 (Y_to_BT709 scene.[0]) (Y_to_BT709 scene.[1]) (Y_to_BT709 scene.[2])
  | ST2084 => V3 (Y_to_ST2084 scene.[0]) (Y_to_ST2084 scene.[1]) (Y_to_ST2084 scene.[2])
  | SLOG => V3 (Y_to_SLog scene.[0]) (Y_to_SLog scene.[1]) (Y_to_SLog scene.[2])
  | SLOG2 => V3 (Y_to_SLog2 scene.[0]) (Y_to_SLog2 scene.[1]) (Y_to_SLog2 scene.[2])
  | SLOG3 => V3 (Y_to_SLog3 scene.[0]) (Y_to_SLog3 scene.[1]) (Y_to_SLog3 scene.[2])
  | HLG => V3 (Y_to_HLG scene.[0]) (Y_to_HLG scene.[1]) (Y_to_HLG scene.[2])
  | LINEAR => scene
  end.

(** hpp:749-785  [toScene]. *)
Definition toScene (type : TYPE) (screen : T3) (g : F) : T3 :=
  match type with
  | GAMMA => V3 (degamma screen.[0] g) (degamma screen.[1] g) (degamma screen.[2] g)
  | SRGB => V3 (sRGB_to_Y screen.[0]) (sRGB_to_Y screen.[1]) (sRGB_to_Y screen.[2])
  | BT709 => V3 (BT709_to_Y screen.[0]) (BT709_to_Y screen.[1]) (BT709_to_Y screen.[2])
  | ST2084 => V3 (ST2084_to_Y screen.[0]) (ST2084_to_Y screen.[1]) (ST2084_to_Y screen.[2])
  | SLOG => V3 (SLog_to_Y screen.[0]) (SLog_to_Y screen.[1]) (SLog_to_Y screen.[2])
  | SLOG2 => V3 (SLog2_to_Y screen.[0]) (SLog2_to_Y screen.[1]) (SLog2_to_Y screen.[2])
  | SLOG3 => V3 (SLog3_to_Y screen.[0]) (SLog3_to_Y screen.[1]) (SLog3_to_Y screen.[2])
  | HLG => V3 (HLG_to_Y screen.[0]) (HLG_to_Y screen.[1]) (HLG_to_Y screen.[2])
  | LINEAR => screen
  end.

End WithNum.
