(** * Properties C132 onwards. *)
From Coq Require Import ZArith Reals Lra Lia List.
From Flocq Require Import Core BinarySingleNaN.
From Verif Require Import Num NumF MVec MTri MSpectrum Tables F32 PMatF PGamF PStops.
Import ListNotations.
Local Open Scope R_scope.

(** C132.  [stop s k]: s is the float 2^k with -20 <= k <= 20; [midh lo hi x]: x is finite and either 0 or of magnitude between 2^lo
    and 2^hi; [eqf], [eqV]: both sides finite and numerically equal; [gams lm]: the ten predefined gamuts. *)
Theorem C132_matrix (lm : libm) (s : f32) (k : Z) (m : Matrix3 f32) (t : Vector3 f32) :
  stop s k -> allM (midh (-40) 40) m -> allV (midh (-40) 40) t ->
  eqV (M_apply (FN lm) m (T_scale (FN lm) t s)) (T_scale (FN lm) (M_apply (FN lm) m t) s).
Proof. exact (fun S M T => apply_stop lm s k (-40) (-40) m t S M T ltac:(discriminate) ltac:(discriminate)). Qed.
Print Assumptions C132_matrix.
Theorem C132_gamuts (lm : libm) (s : f32) (k : Z) (G H : Gamut f32) (t : Vector3 f32) :
  stop s k -> In G (gams lm) -> In H (gams lm) -> allV (midh (-30) 40) t ->
  eqV (G_toXYZ_t (FN lm) G (T_scale (FN lm) t s)) (T_scale (FN lm) (G_toXYZ_t (FN lm) G t) s) /\
  eqV (G_fromXYZ_t (FN lm) G (T_scale (FN lm) t s)) (T_scale (FN lm) (G_fromXYZ_t (FN lm) G t) s) /\
  eqV (M_apply (FN lm) (GamutConvert (FN lm) G H) (T_scale (FN lm) t s)) (T_scale (FN lm) (M_apply (FN lm) (GamutConvert (FN lm) G H) t) s).
Proof. exact (gamut_stop lm s k G H t). Qed.
Print Assumptions C132_gamuts.
Theorem C132_hsv (lm : libm) (s : f32) (k : Z) (t : Vector3 f32) :
  stop s k -> allV (midh (-40) 40) t -> allV (fun x => 0 <= B2R x) t ->
  exists h c v h' c' v', terminates_with (fun n => toHSV (FN lm) n t) (Ret (V3 h c v)) /\
    terminates_with (fun n => toHSV (FN lm) n (T_scale (FN lm) t s)) (Ret (V3 h' c' v')) /\ eqf h' h /\ eqf c' c /\ eqf v' (@fmul (FN lm) v s).
Proof. exact (hsv_stop lm s k t). Qed.
Print Assumptions C132_hsv.
Theorem C132_chromaticity (lm : libm) (s : f32) (k : Z) (t : Vector3 f32) :
  stop s k -> allV (midh (-40) 40) t -> allV (fun x => 0 <= B2R x) t ->
  (bpow radix2 (-5) <= B2R (v0 t) \/ bpow radix2 (-5) <= B2R (v1 t) \/ bpow radix2 (-5) <= B2R (v2 t)) ->
  let r := toYxy (FN lm) t in eqV (toYxy (FN lm) (T_scale (FN lm) t s)) (V3 (@fmul (FN lm) (v0 r) s) (v1 r) (v2 r)).
Proof. exact (Yxy_stop lm s k t). Qed.
Print Assumptions C132_chromaticity.
Theorem C132_lab (lm : libm) (s : f32) (k : Z) (t w : Vector3 f32) :
  stop s k -> allV (fun x => midh (-40) 40 x /\ B2R x <> 0) t -> allV (fun x => midh (-40) 40 x /\ B2R x <> 0) w ->
  toCIELAB (FN lm) (T_scale (FN lm) t s) (T_scale (FN lm) w s) = toCIELAB (FN lm) t w.
Proof. exact (Lab_stop lm s k t w). Qed.
Print Assumptions C132_lab.
Theorem C132_bradford (lm : libm) (s : f32) (k : Z) (a b : Vector3 f32) :
  stop s k -> allV (midh (-10) 10) a -> allV (midh (-10) 10) b ->
  allV (fun x => B2R x <> 0) (G_fromXYZ_t (FN lm) (LMS (FN lm)) a) -> allV (fun x => B2R x <> 0) (G_fromXYZ_t (FN lm) (LMS (FN lm)) b) ->
  Bradford (FN lm) (T_scale (FN lm) a s) (T_scale (FN lm) b s) = Bradford (FN lm) a b.
Proof. exact (Bradford_stop lm s k a b). Qed.
Print Assumptions C132_bradford.
(** [mid_spectrum p]: 400 samples, each 0 or of magnitude between 2^-20 and 2^40. *)
Theorem C132_spectrum (lm : libm) (s : f32) (k : Z) (p : list f32) : stop s k -> mid_spectrum p ->
  Forall (fun o : forall N : Num, Observer N =>
    eqV (fromSpectrum (FN lm) (o (FN lm)) (S_scale (FN lm) p s)) (T_scale (FN lm) (fromSpectrum (FN lm) (o (FN lm)) p) s)) [CIE1931; CIE31JV; CIE2012].
Proof. exact (spectrum_stop lm s k p). Qed.
Print Assumptions C132_spectrum.
Example C132_case (lm : libm) : stop (@flit (FN lm) 2%dec) 1 /\ allV (midh (-40) 40) (Illuminant_D65 (FN lm)) /\ allV (midh (-10) 10) (Illuminant_D65 (FN lm)) /\
  allV (fun x : f32 => 0 <= B2R x) (Illuminant_D65 (FN lm)) /\ allV (fun x : f32 => B2R x <> 0) (G_fromXYZ_t (FN lm) (LMS (FN lm)) (Illuminant_D65 (FN lm))) /\
  bpow radix2 (-5) <= B2R (v1 (Illuminant_D65 (FN lm))) /\ mid_spectrum (S_E (FN lm) (@flit (FN lm) 1%dec)).
Proof. exact (stops_case lm). Qed.
