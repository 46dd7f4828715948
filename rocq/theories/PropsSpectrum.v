(** * Properties C52-C61: spectra, observers and the built-in tables.

    Over the reals a spectrum is a list [s] of 400 numbers ([spectrumR s], sample
    [i] is [smp s i]) and [finS s] is that spectrum in the model; [observerR X Y Z]
    is the observer constructed from three such lists (PSpec.v). *)
From Coq Require Import ZArith Reals Lra Lia List.
From Flocq Require Import Core BinarySingleNaN.
From Verif Require Import Num NumR NumF MVec MTri MSpectrum Tables TablesCES RTac F32 PSpec PSpecF PTables PFetchU.
Import ListNotations.
Local Open Scope R_scope.

(** C52.  [same_but_zero x y]: [y] is [x], or [x] is -0 and [y] is +0 (PSpecF.v);
    [sm s i] is sample [i]. *)
Theorem C52_fetch_at_grid (lm : libm) (s : list f32) (t : f32) (i : nat) :
  length s = 400%nat -> Forall fin s -> (i < 400)%nat -> fin t -> B2R t = 380 + INR i ->
  exists y, S_fetch (FN lm) s t = Ret y /\ same_but_zero (sm s i) y.
Proof. exact (C52_fetch_l lm s t i). Qed.
Print Assumptions C52_fetch_at_grid.
Theorem C52_constructor_copies (lm : libm) (s : list f32) : length s = 400%nat -> Forall fin s ->
  exists r, S_of_samples_default (FN lm) s = Ret r /\ length r = 400%nat /\
  forall i, (i < 400)%nat -> same_but_zero (sm s i) (sm r i).
Proof. exact (C52_ctor_l lm s). Qed.
Print Assumptions C52_constructor_copies.
Theorem C52_fetch_at_grid_real (s : list R) (i : nat) : spectrumR s -> (i < 400)%nat ->
  S_fetch RN (finS s) (Some (380 + INR i)) = Ret (Some (smp s i)).
Proof. exact (fetch_grid s i). Qed.
Print Assumptions C52_fetch_at_grid_real.
Example C52_case : length (CIE_D65 (FN no_libm)) = 400%nat /\
  oSF (S_fetch (FN no_libm) (CIE_D65 (FN no_libm)) (@flit (FN no_libm) 560)) = Ret (B2SF (@flit (FN no_libm) 100)).
Proof. split; vm_compute; reflexivity. Qed.

(** C53 is false: on the first interval the result does not depend on the second
    sample.  It holds on every other interval. *)
Theorem C53_interpolation_refuted : exists s t, spectrumR s /\ 380 <= t <= 381 /\
  S_fetch RN (finS s) (Some t) <> Ret (Some ((381 - t) * smp s 0 + (t - 380) * smp s 1)).
Proof. exact C53_witness. Qed.
Print Assumptions C53_interpolation_refuted.
Theorem C53_interpolation_partial (s : list R) (i : nat) (t : R) :
  spectrumR s -> (1 <= i <= 398)%nat -> 380 + INR i <= t <= 381 + INR i ->
  S_fetch RN (finS s) (Some t) =
  Ret (Some ((381 + INR i - t) * smp s i + (t - 380 - INR i) * smp s (S i))).
Proof. exact (C53_l s i t). Qed.
Print Assumptions C53_interpolation_partial.
Theorem C53_first_interval_constant_partial (s : list R) (t : R) :
  spectrumR s -> 380 <= t < 381 -> S_fetch RN (finS s) (Some t) = Ret (Some (smp s 0)).
Proof. exact (C53_first_l s t). Qed.
Print Assumptions C53_first_interval_constant_partial.
Theorem C53_stays_between_samples_partial (s : list R) (t : R) :
  spectrumR s -> -1000000000 <= t <= 1000000000 -> exists y, S_fetch RN (finS s) (Some t) = Ret (Some y) /\
  (forall lo hi, Forall (fun x => lo <= x <= hi) s -> lo <= y <= hi).
Proof. exact (fetch_range s t). Qed.
Print Assumptions C53_stays_between_samples_partial.
Example C53_case : spectrumR ramp /\ smp ramp 1 = 1 /\ smp ramp 2 = 2.
Proof. split; [exact ramp_ok|]. rewrite !ramp_smp by lia. cbn [INR]. lra. Qed.

(** C54: every float wavelength; samples may be NaN or infinite. *)
Theorem C54_fetch_memory_safe (lm : libm) (s : list f32) (t : f32) :
  length s = 400%nat -> fin t -> IZR (- 2 ^ 31 + 256) <= B2R t <= IZR (2 ^ 31 + 256) -> exists y, S_fetch (FN lm) s t = Ret y.
Proof. exact (fetch_safe lm s t). Qed.
Print Assumptions C54_fetch_memory_safe.
Theorem C54_above_range (lm : libm) (s : list f32) (t : f32) :
  length s = 400%nat -> fin t -> 779 <= B2R t <= IZR (2 ^ 31 + 256) -> S_fetch (FN lm) s t = Ret (sm s 399).
Proof. exact (fetch_above lm s t). Qed.
Print Assumptions C54_above_range.
Theorem C54_below_range (lm : libm) (s : list f32) (t : f32) :
  length s = 400%nat -> fin t -> IZR (- 2 ^ 31 + 256) <= B2R t <= 380 -> S_fetch (FN lm) s t = Ret (sm s 0).
Proof. exact (fetch_below lm s t). Qed.
Print Assumptions C54_below_range.
Theorem C54_undefined (lm : libm) (s : list f32) (t : f32) :
  is_finite t = false \/ B2R t < IZR (- 2 ^ 31 + 256) \/ IZR (2 ^ 31 + 256) < B2R t -> S_fetch (FN lm) s t = UB.
Proof. exact (fetch_ub lm s t). Qed.
Print Assumptions C54_undefined.
Example C54_case : oSF (S_fetch (FN no_libm) (CIE_D65 (FN no_libm)) (@flit (FN no_libm) 1e10)) = UB /\
  oSF (S_fetch (FN no_libm) (CIE_D65 (FN no_libm)) (@flit (FN no_libm) 1e9)) = Ret (B2SF (sm (CIE_D65 (FN no_libm)) 399)).
Proof. split; vm_compute; reflexivity. Qed.

(** C55.  [obs_ok X Y Z]: 400 samples each, sums not zero. *)
Theorem C55_linear (X Y Z a b : list R) (k : R) : obs_ok X Y Z -> spectrumR a -> spectrumR b ->
  let o := observerR X Y Z in
  fromSpectrum RN o (S_add RN (finS a) (finS b)) =
    T_add RN (fromSpectrum RN o (finS a)) (fromSpectrum RN o (finS b)) /\
  fromSpectrum RN o (S_scale RN (finS a) (Some k)) = T_scale RN (fromSpectrum RN o (finS a)) (Some k).
Proof. exact (C55_l X Y Z a b k). Qed.
Print Assumptions C55_linear.
Theorem C55_value (X Y Z s : list R) : obs_ok X Y Z -> spectrumR s ->
  fromSpectrum RN (observerR X Y Z) (finS s) =
  finV (V3 (dotR s X / sumR X) (dotR s Y / sumR Y) (dotR s Z / sumR Z)).
Proof. exact (fromSpectrum_fin X Y Z s). Qed.
Print Assumptions C55_value.
Theorem C55_monotone (X Y Z a b : list R) :
  obs_ok X Y Z -> nonneg X -> nonneg Y -> nonneg Z -> spectrumR a -> spectrumR b ->
  (forall i, (i < 400)%nat -> smp a i <= smp b i) -> exists ta tb,
  fromSpectrum RN (observerR X Y Z) (finS a) = finV ta /\ fromSpectrum RN (observerR X Y Z) (finS b) = finV tb /\
  v0 ta <= v0 tb /\ v1 ta <= v1 tb /\ v2 ta <= v2 tb.
Proof. exact (C55_mono_l X Y Z a b). Qed.
Print Assumptions C55_monotone.
Theorem C55_nonnegative (X Y Z a : list R) :
  obs_ok X Y Z -> nonneg X -> nonneg Y -> nonneg Z -> spectrumR a -> nonneg a -> exists t,
  fromSpectrum RN (observerR X Y Z) (finS a) = finV t /\ 0 <= v0 t /\ 0 <= v1 t /\ 0 <= v2 t.
Proof. exact (C55_nonneg_l X Y Z a). Qed.
Print Assumptions C55_nonnegative.
(** the predefined observers meet the hypotheses. *)
Theorem C55_predefined_observers : forall o, In o [CIE1931 RN; CIE31JV RN; CIE2012 RN] ->
  exists X Y Z, o = observerR X Y Z /\ obs_ok X Y Z /\ nonneg X /\ nonneg Y /\ nonneg Z.
Proof. exact predefined_ok. Qed.
Print Assumptions C55_predefined_observers.
Example C55_case : spectrumR ramp /\ nonneg ramp /\ spectrumR (scaleS 2 ramp) /\
  forall i, (i < 400)%nat -> smp ramp i <= smp (scaleS 2 ramp) i.
Proof. exact C55_ex. Qed.

(** C56 *)
Theorem C56_equal_energy (X Y Z : list R) (e : R) : obs_ok X Y Z ->
  fromSpectrum RN (observerR X Y Z) (S_E RN (Some e)) = finV (V3 e e e).
Proof. exact (C56_l X Y Z e). Qed.
Print Assumptions C56_equal_energy.
Example C56_case : exists X Y Z, CIE1931 RN = observerR X Y Z /\ obs_ok X Y Z.
Proof. exact C56_ex. Qed.

(** C57: the first two in any arithmetic, hence bit for bit in binary32. *)
Theorem C57_reflectance_is_product (N : Num) (o : Observer N) (r l : Spectrum N) :
  fromReflectanceAndLight N o r l = fromSpectrum N o (S_mul N r l).
Proof. exact (C57_l N o r l). Qed.
Print Assumptions C57_reflectance_is_product.
Theorem C57_symmetric (lm : libm) (o : Observer (FN lm)) (r l : Spectrum (FN lm)) :
  fromReflectanceAndLight (FN lm) o r l = fromReflectanceAndLight (FN lm) o l r.
Proof. exact (C57_sym_l (FN lm) o r l (mul_comm lm)). Qed.
Print Assumptions C57_symmetric.
Theorem C57_no_amplification (X Y Z r l : list R) :
  obs_ok X Y Z -> nonneg X -> nonneg Y -> nonneg Z -> spectrumR r -> spectrumR l -> nonneg l ->
  Forall (fun x => 0 <= x <= 1) r -> exists t t',
  fromReflectanceAndLight RN (observerR X Y Z) (finS r) (finS l) = finV t /\
  fromSpectrum RN (observerR X Y Z) (finS l) = finV t' /\
  0 <= v0 t <= v0 t' /\ 0 <= v1 t <= v1 t' /\ 0 <= v2 t <= v2 t'.
Proof. exact (C57_bound_l X Y Z r l). Qed.
Print Assumptions C57_no_amplification.
(** every Macbeth patch under every non-negative light and predefined observer. *)
Theorem C57_macbeth (o : Observer RN) (l : list R) : In o [CIE1931 RN; CIE31JV RN; CIE2012 RN] ->
  spectrumR l -> nonneg l -> exists t', fromSpectrum RN o (finS l) = finV t' /\
  Forall (fun m => exists t, m = finV t /\ 0 <= v0 t <= v0 t' /\ 0 <= v1 t <= v1 t' /\ 0 <= v2 t <= v2 t')
    (Macbeth_reference RN (Macbeth_Patch RN) (finS l) o).
Proof. exact (C57_macbeth_l o l). Qed.
Print Assumptions C57_macbeth.
Example C57_case : length (Macbeth_Patch RN) = 24%nat /\ spectrumR ramp /\ nonneg ramp.
Proof. exact C57_ex. Qed.

(** C58 *)
Theorem C58_photometric_units (X Y Z : list R) (t w : R) :
  spectrumR X -> spectrumR Y -> spectrumR Z -> -1000000000 <= t <= 1000000000 -> exists x y z,
  S_fetch RN (finS X) (Some t) = Ret (Some x) /\ S_fetch RN (finS Y) (Some t) = Ret (Some y) /\
  S_fetch RN (finS Z) (Some t) = Ret (Some z) /\
  lumensFromMonochromaticFlux RN (observerR X Y Z) (Some t) (Some w) = Ret (Some (683 * w * y)) /\
  candellasFromMonochromaticRadiance RN (observerR X Y Z) (Some t) (Some w) =
    Ret (finV (V3 (683 * w * x) (683 * w * y) (683 * w * z))).
Proof. exact (C58_l X Y Z t w). Qed.
Print Assumptions C58_photometric_units.
Theorem C58_lumens_at_grid (X Y Z : list R) (i : nat) (w : R) :
  spectrumR X -> spectrumR Y -> spectrumR Z -> (i < 400)%nat ->
  lumensFromMonochromaticFlux RN (observerR X Y Z) (Some (380 + INR i)) (Some w) = Ret (Some (683 * w * smp Y i)).
Proof. exact (C58_grid_l X Y Z i w). Qed.
Print Assumptions C58_lumens_at_grid.
(** 555 nm, the 1931 observer: one watt is 683 lumens. *)
Example C58_case : lumensFromMonochromaticFlux RN (CIE1931 RN) (Some 555) (Some 1) = Ret (Some 683).
Proof. exact C58_ex. Qed.

(** C59.  [rangeR hi s]: 400 real samples in [0,hi]; [rangeF hi s]: 400 finite floats in [0,hi]. *)
Theorem C59_tables_physical : (length (Macbeth_Patch RN) = 24%nat /\ Forall (rangeR 1) (Macbeth_Patch RN)) /\
  (length (TM_30_15_sample RN) = 99%nat /\ Forall (rangeR 1) (TM_30_15_sample RN)) /\
  Forall (rangeR 3) [CIE1931_X RN; CIE1931_Y RN; CIE1931_Z RN; CIE2012_X RN; CIE2012_Y RN; CIE2012_Z RN;
    CIE1931_JuddVos_X RN; CIE1931_JuddVos_Y RN; CIE1931_JuddVos_Z RN] /\ rangeR 200 (CIE_D65 RN).
Proof. exact C59_real_l. Qed.
Print Assumptions C59_tables_physical.
Theorem C59_tables_physical_binary32 (lm : libm) : let N := FN lm in
  (length (Macbeth_Patch N) = 24%nat /\ Forall (rangeF 1) (Macbeth_Patch N)) /\
  (length (TM_30_15_sample N) = 99%nat /\ Forall (rangeF 1) (TM_30_15_sample N)) /\
  Forall (rangeF 3) [CIE1931_X N; CIE1931_Y N; CIE1931_Z N; CIE2012_X N; CIE2012_Y N; CIE2012_Z N;
    CIE1931_JuddVos_X N; CIE1931_JuddVos_Y N; CIE1931_JuddVos_Z N] /\ rangeF 200 (CIE_D65 N).
Proof. exact (C59_float_l lm). Qed.
Print Assumptions C59_tables_physical_binary32.
Example C59_case : nth 180 T_CIE_D65 (mkdec 0 0) = mkdec 10000000 (-5) /\ nth 0 T_Macbeth01 (mkdec 0 0) = mkdec 54745777 (-9).
Proof. split; reflexivity. Qed.

(** C60 *)
Theorem C60_blackbody_increasing (T T' : R) : 0 < T -> T < T' -> exists s s', spectrumR s /\ spectrumR s' /\
  S_blackbody RN (Some T) = finS s /\ S_blackbody RN (Some T') = finS s' /\
  (forall i, (i < 400)%nat -> 0 < smp s i < smp s' i).
Proof. exact (C60_l T T'). Qed.
Print Assumptions C60_blackbody_increasing.
Theorem C60_blackbody_is_planck (T : R) (i : nat) : 0 < T -> (i < 400)%nat -> exists s, S_blackbody RN (Some T) = finS s /\
  let l := (380 + INR i) * 1e-9 in
  smp s i = 2 * 5.950379064e-17 / l ^ 5 / (exp (1.438776827e-2 / (l * T)) - 1) / 1e9.
Proof. exact (C60_planck_l T i). Qed.
Print Assumptions C60_blackbody_is_planck.
Example C60_case : 0 < 2856 /\ 2856 < 6504.
Proof. lra. Qed.

(** C61.  [u] is 2^-24 and [eta] is 2^-150 (F32.v); [val s i] is sample [i] as a real. *)
Theorem C61_dot_rounding_error (lm : libm) (a b : list f32) :
  length a = 400%nat -> length b = 400%nat -> Forall fin a -> Forall fin b ->
  sum_f_R0 (fun i => Rabs (val a i * val b i)) 399 <= bpow radix2 126 ->
  fin (S_dot (FN lm) a b) /\
  Rabs (B2R (S_dot (FN lm) a b) - sum_f_R0 (fun i => val a i * val b i) 399) <=
  401 * u * sum_f_R0 (fun i => Rabs (val a i * val b i)) 399 + 401 * eta.
Proof. exact (C61_l lm a b). Qed.
Print Assumptions C61_dot_rounding_error.
Theorem C61_tables_apply (lm : libm) : forall a b, In a (Macbeth_Patch (FN lm)) -> In b [CIE_D65 (FN lm)] ->
  length a = 400%nat /\ length b = 400%nat /\ Forall fin a /\ Forall fin b /\
  sum_f_R0 (fun i => Rabs (val a i * val b i)) 399 <= bpow radix2 126.
Proof. exact (C61_tables lm). Qed.
Print Assumptions C61_tables_apply.
