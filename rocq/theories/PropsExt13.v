(** * Properties C127 onwards. *)
From Coq Require Import ZArith Reals Lra Lia List.
From Flocq Require Import Core BinarySingleNaN.
From Verif Require Import Num NumR NumF MVec MTri MSpectrum Tables RTac F32 PSpec PSpecF PObsF PBluer PBluer3.
Import ListNotations.
Local Open Scope R_scope.

(** C127.  [boundS e s]: 400 finite samples of magnitude at most 2^e; [closeT K e r t a]: each component of [r] is finite and within
    K u times that of [a], plus 2^e, of that of [t]; the exact values integrate the exact decimal tables. *)
Theorem C127_spectrum (lm : libm) (s : list f32) : boundS 100 s -> Forall (fun o : forall N : Num, Observer N => exists t a,
  fromSpectrum RN (o RN) (finS (map (fun x => B2R x) s)) = finV t /\ fromSpectrum RN (o RN) (finS (map (fun x => Rabs (B2R x)) s)) = finV a /\
  closeT 805 (-134) (fromSpectrum (FN lm) (o (FN lm)) s) t a) [CIE1931; CIE31JV; CIE2012].
Proof. exact (integrate_acc lm s). Qed.
Print Assumptions C127_spectrum.
Theorem C127_reflectance (lm : libm) (r l : list f32) : boundS 50 r -> boundS 50 l -> Forall (fun o : forall N : Num, Observer N => exists t a,
  fromReflectanceAndLight RN (o RN) (finS (map (fun x => B2R x) r)) (finS (map (fun x => B2R x) l)) = finV t /\
  fromReflectanceAndLight RN (o RN) (finS (map (fun x => Rabs (B2R x)) r)) (finS (map (fun x => Rabs (B2R x)) l)) = finV a /\
  closeT 807 (-133) (fromReflectanceAndLight (FN lm) (o (FN lm)) r l) t a) [CIE1931; CIE31JV; CIE2012].
Proof. exact (reflect_acc lm r l). Qed.
Print Assumptions C127_reflectance.
Theorem C127_macbeth (lm : libm) : Forall (fun o : forall N : Num, Observer N => forall k, (k < 24)%nat -> exists t,
  nth_error (Macbeth_reference RN (Macbeth_Patch RN) (CIE_D65 RN) (o RN)) k = Some (finV t) /\ (0 <= v0 t /\ 0 <= v1 t /\ 0 <= v2 t) /\
  exists r, nth_error (Macbeth_reference (FN lm) (Macbeth_Patch (FN lm)) (CIE_D65 (FN lm)) (o (FN lm))) k = Some r /\
    closeT 810 (-133) r t t) [CIE1931; CIE31JV; CIE2012].
Proof. exact (chart_acc lm). Qed.
Print Assumptions C127_macbeth.
(** The D65 spectrum of the library is within both bounds. *)
Example C127_case (lm : libm) : boundS 50 (CIE_D65 (FN lm)) /\ boundS 100 (CIE_D65 (FN lm)) /\
  B2SF (nth 180 (CIE_D65 (FN lm)) (B754_nan : f32)) = SpecFloat.S754_finite false 13107200 (-17).
Proof. exact (obsF_case lm). Qed.

(** C128 *)
Theorem C128_hotter_is_bluer (T T' : R) : 0 < T -> T < T' -> exists s s', spectrumR s /\ spectrumR s' /\
  S_blackbody RN (Some T) = finS s /\ S_blackbody RN (Some T') = finS s' /\
  forall i j, (i < j < 400)%nat -> smp s i / smp s j < smp s' i / smp s' j.
Proof. exact (C128_l T T'). Qed.
Print Assumptions C128_hotter_is_bluer.
Example C128_case : 0 < 2856 /\ 2856 < 6504 /\ (70 < 320 < 400)%nat.
Proof. repeat split; first [lra|lia]. Qed.

(** C129 *)
Theorem C129_chromaticity : Forall (fun o => forall T T', 800 <= T < T' -> exists Y x y Y' x' y',
    toYxy RN (fromSpectrum RN o (S_blackbody RN (Some T))) = finV (V3 Y x y) /\
    toYxy RN (fromSpectrum RN o (S_blackbody RN (Some T'))) = finV (V3 Y' x' y') /\
    x' < x /\ x' + y' < x + y) [CIE1931 RN; CIE31JV RN; CIE2012 RN].
Proof. exact C129_l. Qed.
Print Assumptions C129_chromaticity.
Example C129_case : 800 <= 2856 < 6504.
Proof. lra. Qed.
