(** * Property C152. *)
From Coq Require Import ZArith Reals List.
From Flocq Require Import Core BinarySingleNaN.
From Verif Require Import Num NumR NumF MVec MTri MSpectrum MFma RTac F32 SpecMat PMatF PSpecF PNearF PGamF PGamF2 PInvF PFma PFma2 PFma3.
Import ListNotations.
Local Open Scope R_scope.

(** C152: error bounds that hold whichever multiplications and additions the compiler fuses.  [ev lm e r]: [r] is a value of the
    expression [e] for some choice of the fused operations; [EN lm] turns a function of the model into the expression it
    evaluates (MFma.v).  Not fusing anything is one of the choices. *)
Theorem C152_unfused (lm : libm) (m : Matrix3 f32) (v : Vector3 f32) :
  evV lm (M_apply (EN lm) (inM lm m) (inV lm v)) (M_apply (FN lm) m v).
Proof. exact (apply_plain lm m v). Qed.
Print Assumptions C152_unfused.
(** the bound of C06. *)
Theorem C152_apply (lm : libm) (m : Matrix3 f32) (v r : Vector3 f32) (i : Z) : allM fin m -> allV fin v -> (0 <= i < 3)%Z ->
  evV lm (M_apply (EN lm) (inM lm m) (inV lm v)) r ->
  exists row x, M_row m i = Ret row /\ V_index r i = Ret x /\
    (absdot row v <= bpow radix2 126 -> fin x /\ Rabs (B2R x - PMatF.dotR row v) <= 4 * u * absdot row v + 4 * eta).
Proof. exact (apply_fused lm m v r i). Qed.
Print Assumptions C152_apply.
(** integers are exact, so there the choice does not matter. *)
Theorem C152_integers (lm : libm) (m : Matrix3 f32) (v r : Vector3 f32) (i : Z) :
  allM (fun x => fin x /\ exists k, B2R x = IZR k) m -> allV (fun x => fin x /\ exists k, B2R x = IZR k) v -> (0 <= i < 3)%Z ->
  evV lm (M_apply (EN lm) (inM lm m) (inV lm v)) r ->
  exists row x, M_row m i = Ret row /\ V_index r i = Ret x /\ (absdot row v <= 16777216 -> fin x /\ B2R x = PMatF.dotR row v).
Proof. exact (int_fused lm m v r i). Qed.
Print Assumptions C152_integers.
(** in general it does: cancellation may leave 2^-24 or nothing. *)
Theorem C152_choice_matters (lm : libm) : exists (m : Matrix3 f32) (v r : Vector3 f32), allM fin m /\ allV fin v /\
  evV lm (M_apply (EN lm) (inM lm m) (inV lm v)) r /\ B2R (v0 (M_apply (FN lm) m v)) = 0 /\ B2R (v0 r) = / 16777216.
Proof. exact (matters lm). Qed.
Print Assumptions C152_choice_matters.
(** the bound of C61. *)
Theorem C152_spectra (lm : libm) (a b : list f32) (r : f32) : length a = 400%nat -> length b = 400%nat -> Forall fin a -> Forall fin b ->
  sum_f_R0 (fun i => Rabs (val a i * val b i)) 399 <= bpow radix2 126 -> ev lm (S_dot (EN lm) (inS lm a) (inS lm b)) r ->
  fin r /\ Rabs (B2R r - sum_f_R0 (fun i => val a i * val b i) 399) <= 401 * u * sum_f_R0 (fun i => Rabs (val a i * val b i)) 399 + 401 * eta.
Proof. exact (spectrum_fused lm a b r). Qed.
Print Assumptions C152_spectra.
(** the bound of C122. *)
Theorem C152_determinant (lm : libm) (m : Matrix3 f32) (r : f32) : allM sm m -> ev lm (M_det (EN lm) (inM lm m)) r ->
  near r (detR (mR m)) (7.01 * u * perm (mR m) + 2e-35).
Proof. exact (det_fused lm m r). Qed.
Print Assumptions C152_determinant.
(** the bounds of C96. *)
Theorem C152_gamuts (lm : libm) :
  Forall (fun G : forall N : Num, Gamut (F N) => forall t r : Vector3 f32, allV fin t -> norm3 t <= bpow radix2 110 ->
    (evV lm (M_apply (EN lm) (inM lm (g_toXYZ (G (FN lm)))) (inV lm t)) r -> exists e, G_toXYZ_t RN (G RN) (finV (vR t)) = finV e /\ near_app 10 r e (norm3 t)) /\
    (evV lm (M_apply (EN lm) (inM lm (g_fromXYZ (G (FN lm)))) (inV lm t)) r -> exists e, G_fromXYZ_t RN (G RN) (finV (vR t)) = finV e /\ near_app 30 r e (norm3 t)))
  (AdobeRGB :: Rec709 :: Rec2020 :: DCI_P3 :: S_Gamut :: S_Gamut3_Cine :: ACEScg :: ACES2065 :: LMS :: XYZ_gamut :: nil).
Proof. exact (all_agreeF lm). Qed.
Print Assumptions C152_gamuts.
(** A fused evaluation of 3*5+2*4+7*1, all three products being fused with a sum or not. *)
Example C152_case (lm : libm) : let z k : f32 := @fofZ (FN lm) k in let a := V3 (z 3%Z) (z 2%Z) (z 7%Z) in let b := V3 (z 5%Z) (z 4%Z) (z 1%Z) in
  exists r, ev lm (V_dot (EN lm) (inV lm a) (inV lm b)) r /\ r = fma (z 7%Z) (z 1%Z) (fma (z 3%Z) (z 5%Z) (@fmul (FN lm) (z 2%Z) (z 4%Z))) /\ B2R r = 30.
Proof. exact (fused_case lm). Qed.
