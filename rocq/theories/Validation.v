(** * The model against the project's own test suite.

    The expectations of /repo/test evaluated on the binary32 model, with the
    executable C library of ExecLibm.v.  These are tests of the model, not properties.  [ap e m v] is
    Catch's [v == Approx(e).margin(m)]: within [m], or within 100 FLT_EPSILON
    relative. *)
From Coq Require Import ZArith List Bool.
From Flocq Require Import Core BinarySingleNaN.
From Verif Require Import Num NumF MVec MTri MOtf MDelta MSpectrum Tables ExecLibm.
Import ListNotations.
Local Open Scope bool_scope.

Definition N := FN exec_libm.
Definition l (d : dec) : f32 := @flit N d.
Definition ap (e m v : f32) : bool :=
  let d := @ffabs N (@fsub N v e) in @fleb N d m || @fleb N d (@fmul N (l 1.1920929e-5%dec) (@ffabs N e)).
Definition apV (m : dec) (v : Vector3 f32) (e : list dec) : bool :=
  match e with
  | [a; b; c] => ap (l a) (l m) (v0 v) && ap (l b) (l m) (v1 v) && ap (l c) (l m) (v2 v)
  | _ => false
  end.
Definition apM (m : dec) (x : Matrix3 f32) (e : list dec) : bool :=
  match e with
  | [a; b; c; d; e; f; g; h; i] => ap (l a) (l m) (m0 x) && ap (l b) (l m) (m1 x) && ap (l c) (l m) (m2 x) && ap (l d) (l m) (m3 x) &&
      ap (l e) (l m) (m4 x) && ap (l f) (l m) (m5 x) && ap (l g) (l m) (m6 x) && ap (l h) (l m) (m7 x) && ap (l i) (l m) (m8 x)
  | _ => false
  end.
Definition tri (a b c : dec) : Vector3 f32 := V3 (l a) (l b) (l c).
Local Open Scope dec_scope.

(** test/colorsystem.cpp:14-50 *)
Example adobe_toXYZ : apM 0.000001 (g_toXYZ (AdobeRGB N))
  [0.576669; 0.185558; 0.188229; 0.297345; 0.627363; 0.075291; 0.027031; 0.070689; 0.991337] = true.
Proof. vm_compute. reflexivity. Qed.
Example adobe_toXYZ_white : apV 0.000001 (G_toXYZ_t N (AdobeRGB N) (tri 1 1 1)) [0.950456; 1.000000; 1.089058] = true.
Proof. vm_compute. reflexivity. Qed.
Example adobe_fromXYZ : apM 0.000001 (g_fromXYZ (AdobeRGB N))
  [2.041588; -0.565007; -0.344731; -0.969244; 1.875968; 0.041555; 0.013444; -0.118362; 1.015175] = true.
Proof. vm_compute. reflexivity. Qed.
Example adobe_fromXYZ_white : apV 0.000001 (G_fromXYZ_t N (AdobeRGB N) (tri 1 1 1)) [1.131850; 0.948279; 0.910257] = true.
Proof. vm_compute. reflexivity. Qed.
(** test/colorsystem.cpp:62-101 *)
Example toYxy_X : apV 0.000001 (toYxy N (tri 1 0 0)) [0; 1; 0] = true.
Proof. vm_compute. reflexivity. Qed.
Example toYxy_Y : apV 0.000001 (toYxy N (tri 0 1 0)) [1; 0; 1] = true.
Proof. vm_compute. reflexivity. Qed.
Example toYxy_Z : apV 0.000001 (toYxy N (tri 0 0 1)) [0; 0; 0] = true.
Proof. vm_compute. reflexivity. Qed.
Example toYxy_5R : apV 1e-5 (toYxy N (tri 19.58 11.39 4.90)) [11.39; 0.54586; 0.31754] = true.
Proof. vm_compute. reflexivity. Qed.
Example fromYxy_D65 : apV 1e-5 (fromYxy N (tri 1 0.3127 0.3290)) [0.95046; 1; 1.08906] = true.
Proof. vm_compute. reflexivity. Qed.
Example fromYxy_5R : apV 1e-3 (fromYxy N (tri 11.39 0.54586 0.31754)) [19.58; 11.39; 4.90] = true.
Proof. vm_compute. reflexivity. Qed.
(** test/aces2065.cpp:11-24 *)
Example aces_toXYZ : apM 1e-5 (g_toXYZ (ACES2065 N))
  [0.9525523959; 0.0000000000; 0.0000936786; 0.3439664498; 0.7281660966; -0.0721325464; 0.0000000000; 0.0000000000; 1.0088251844] = true.
Proof. vm_compute. reflexivity. Qed.
Example aces_fromXYZ : apM 1e-5 (g_fromXYZ (ACES2065 N))
  [1.0498110175; 0.0000000000; -0.0000974845; -0.4959030231; 1.3733130458; 0.0982400361; 0.0000000000; 0.0000000000; 0.9912520182] = true.
Proof. vm_compute. reflexivity. Qed.
(** test/matrices.cpp:10-32 *)
Example aces_to_cg : apM 1e-6 (GamutConvert N (ACES2065 N) (ACEScg N))
  [1.4514393161; -0.2365107469; -0.2149285693; -0.0765537734; 1.1762296998; -0.0996759264; 0.0083161484; -0.0060324498; 0.9977163014] = true.
Proof. vm_compute. reflexivity. Qed.
Example bradford_D65_D50 : apM 1e-2 (Bradford N (Illuminant_D65 N) (Illuminant_D50 N))
  [1.047886; 0.022919; -0.050216; 0.029582; 0.990484; -0.017079; -0.009252; 0.015073; 0.751678] = true.
Proof. vm_compute. reflexivity. Qed.
(** test/units.cpp:9-18 *)
Example lumens_555 : match lumensFromMonochromaticFlux N (CIE1931 N) (l 555) (l 1) with Ret v => ap (l 683) (l 0.683) v | _ => false end = true.
Proof. vm_compute. reflexivity. Qed.
Example candellas_555 : match candellasFromMonochromaticRadiance N (CIE1931 N) (l 555) (l 1) with Ret v => apV 1e-3 v [349.730225; 683; 3.927249] | _ => false end = true.
Proof. vm_compute. reflexivity. Qed.
(** test/spectrum.cpp:16-28 *)
Example spectrum_D65 : let a := toYxy N (fromSpectrum N (CIE1931 N) (CIE_D65 N)) in let b := toYxy N (Illuminant_D65 N) in
  ap (v1 b) (l 1e-4) (v1 a) && ap (v2 b) (l 1e-4) (v2 a) = true.
Proof. vm_compute. reflexivity. Qed.
Example spectrum_E : let a := toYxy N (fromSpectrum N (CIE1931 N) (S_E N (l 1))) in let b := toYxy N (Illuminant_E N) in
  ap (v1 b) (l 1e-5) (v1 a) && ap (v2 b) (l 1e-5) (v2 a) = true.
Proof. vm_compute. reflexivity. Qed.
(** test/illuminants.cpp:9-25 *)
Example illuminants_Yxy :
  let xy (t : Vector3 f32) (x y : dec) := let a := toYxy N t in ap (l x) (l 1e-4) (v1 a) && ap (l y) (l 1e-4) (v2 a) in
  xy (Illuminant_D65 N) 0.3127 0.3290 && xy (Illuminant_E N) 0.33333333 0.33333333 && xy (Illuminant_D50 N) 0.345703 0.358539 &&
  xy (Illuminant_D60 N) 0.32168 0.33767 = true.
Proof. vm_compute. reflexivity. Qed.
(** test/colorsystem.cpp:105-118: the Planckian locus and fromCT at 6504 K *)
Example locus_6504 : apV 1e-2 (toYxy N (fromPlanckianLocus N (l 6504) (l 1))) [1; 0.3127; 0.3290] = true.
Proof. vm_compute. reflexivity. Qed.
Example fromCT_6504 : apV 1e-2 (toYxy N (fromCT N (l 6504) (l 1))) [1; 0.3127; 0.3290] = true.
Proof. vm_compute. reflexivity. Qed.
(** test/colorsystem.cpp: the blackbody spectrum at 6504 K.  Evaluates to [true] as well; left out
    because coqchk, which has no virtual machine, needs five minutes for it:
let a := toYxy N (fromSpectrum N (CIE1931 N) (S_blackbody N (l 6504))) in let b := toYxy N (Illuminant_D65 N) in
  ap (v1 b) (l 1e-2) (v1 a) && ap (v2 b) (l 1e-2) (v2 a) *)
(** test/cielab.cpp:9-35 *)
Example cielab_1 : apV 1e-1 (toCIELAB_D50 N (tri 0.4 0.5 0.6)) [76.0693; -23.9455; -21.1024] = true.
Proof. vm_compute. reflexivity. Qed.
Example cielab_2 : apV 1e-1 (toCIELAB_D50 N (tri 0.7 0.6 0.5)) [81.8382; 27.6605; -0.5517] = true.
Proof. vm_compute. reflexivity. Qed.
Example e00_1 : ap (l 2.0424596801565738) (l 1e-6) (Delta_E00 N (tri 50 2.6772 (-79.7751)) (tri 50 0 (-82.7485)) (l 1) (l 1) (l 1)) = true.
Proof. vm_compute. reflexivity. Qed.
Example e00_2 : ap (l 2.8615) (l 1e-6) (Delta_E00 N (tri 50 3.1571 (-77.2803)) (tri 50 0 (-82.7485)) (l 1) (l 1) (l 1)) = true.
Proof. vm_compute. reflexivity. Qed.
(** test/oklab.cpp:20-46 *)
Definition okl (x y z a b c : dec) : bool := apV 1e-1 (XYZ_to_OKLAB N (tri x y z)) [a; b; c] && apV 1e-1 (OKLAB_to_XYZ N (tri a b c)) [x; y; z].
Example oklab_1 : okl 0.950 1.000 1.089 1.000 0.000 0.000 = true. Proof. vm_compute. reflexivity. Qed.
(** oklab_2 fails: see C105. *)
Example oklab_2 : okl 1.000 0.000 0.000 0.450 1.236 (-0.019) = false. Proof. vm_compute. reflexivity. Qed.
Example oklab_3 : okl 0.000 1.000 0.000 0.922 (-0.671) 0.263 = true. Proof. vm_compute. reflexivity. Qed.
Example oklab_4 : okl 0.000 0.000 1.000 0.153 (-1.415) (-0.449) = true. Proof. vm_compute. reflexivity. Qed.
(** test/screen.cpp:15-64 and test/colorsystem.cpp:52-60 *)
Definition rt (ty : TYPE) (a b c : dec) : bool := let g := l 1 in apV 0.000001 (toScene N ty (toScreen N ty (tri a b c) g) g) [a; b; c].
Example srgb_rt : rt SRGB 0 0 0 && rt SRGB 0.25 0.5 0.75 && rt SRGB 1 1 1 && apV 0.000001 (toScreen N SRGB (tri 0 0 0) (l 1)) [0; 0; 0] &&
  apV 0.000001 (toScreen N SRGB (tri 1 1 1) (l 1)) [1; 1; 1] = true.
Proof. vm_compute. reflexivity. Qed.
Example bt709_rt : rt BT709 0 0 0 && rt BT709 0.25 0.5 0.75 && rt BT709 1 1 1 = true.
Proof. vm_compute. reflexivity. Qed.
Example hlg_rt : rt HLG 0 0 0 && rt HLG 0.25 0.5 0.75 && rt HLG 1 2.2 4.4 && apV 0.000001 (toScreen N HLG (tri 0 0 0) (l 1)) [0; 0; 0] = true.
Proof. vm_compute. reflexivity. Qed.
Example bt709_adobe : apV 0.000001 (toScreen N BT709 (G_fromXYZ_t N (AdobeRGB N) (tri 1 1 1)) (l 1)) [1.0; 0.974048; 0.954468] = true.
Proof. vm_compute. reflexivity. Qed.
