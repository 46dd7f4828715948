(** * Properties C71-C85: scalar division, dot product, extrema, hue by arctangent,
    colour temperature in binary32, gamuts from charts and profiles, streams,
    the default white of CIELAB, spectra from samples.

    [finV], [finM]: the vector or matrix of those real numbers in the model (RTac.v);
    [noM] has no finite entry (LMat.v); [ent m i j] is entry (i,j) (SpecMat.v);
    [u] = 2^-24, [eta] = 2^-150, [fin x]: [x] is finite (F32.v); [allV P v], [allM P m]:
    all entries satisfy [P]; [absdot a b] = sum |a_i b_i|, [dotR a b] = sum a_i b_i (PMatF.v). *)
From Coq Require Import ZArith Reals Lra Lia List.
From Flocq Require Import Core BinarySingleNaN.
From Verif Require Import Num NumR NumF MVec MTri MSpectrum MSolver MStream Tables SpecMat SpecDelta SpecStream RTac F32 PMat LMat PMatF PHsv PHsvA PExt PStream3 PLab PD50 PSpec PSpec2 PSolver3 LStream.
Import ListNotations.
Local Open Scope R_scope.

(** C71 *)
Theorem C71_divide_tristimulus (t : Vector3 R) (s : R) :
  (s <> 0 -> T_divf RN (finV t) (Some s) = finV (V3 (v0 t / s) (v1 t / s) (v2 t / s))) /\
  (s = 0 -> T_divf RN (finV t) (Some s) = V3 (None : F RN) None None).
Proof. exact (T_divf_real t s). Qed.
Print Assumptions C71_divide_tristimulus.
Theorem C71_divide_matrix (m : Matrix3 R) (s : R) :
  (s <> 0 -> exists d, M_div RN (finM m) (Some s) = finM d /\ forall i j, (i < 3)%nat -> (j < 3)%nat -> ent d i j = ent m i j / s) /\
  (s = 0 -> M_div RN (finM m) (Some s) = noM).
Proof. exact (M_div_real m s). Qed.
Print Assumptions C71_divide_matrix.
Example C71_case : T_divf RN (finV (V3 1 (-2) 3)) (Some 4) = finV (V3 (1 / 4) (-2 / 4) (3 / 4)).
Proof. exact (proj1 (T_divf_real (V3 1 (-2) 3) 4) ltac:(lra)). Qed.

(** C72 is false: the reciprocal is rounded first.  41/41 is not 1, and the smallest
    positive float divided by itself is infinite. *)
Theorem C72_division_rounds_once_refuted (lm : libm) :
  (exists x y : f32, fin x /\ B2R x = 41 /\ T_divf (FN lm) (V3 x x x) x = V3 y y y /\ B2R y < 1) /\
  (exists x : f32, fin x /\ 0 < B2R x /\
    T_divf (FN lm) (V3 x x x) x = V3 (B754_infinity false : f32) (B754_infinity false) (B754_infinity false)).
Proof. exact (conj (div_self_41 lm) (div_self_tiny lm)). Qed.
Print Assumptions C72_division_rounds_once_refuted.
Theorem C72_tristimulus_error_partial (lm : libm) (t : Vector3 f32) (s : f32) (i : Z) (x : f32) :
  fin s -> bpow radix2 (-126) <= Rabs (B2R s) <= bpow radix2 126 ->
  V_index t i = Ret x -> fin x -> Rabs (B2R x / B2R s) <= bpow radix2 126 ->
  exists y, V_index (T_divf (FN lm) t s) i = Ret y /\ fin y /\
    Rabs (B2R y - B2R x / B2R s) <= 3 * u * Rabs (B2R x / B2R s) + eta.
Proof. exact (T_divf_float lm t s i x). Qed.
Print Assumptions C72_tristimulus_error_partial.
Theorem C72_matrix_error_partial (lm : libm) (m : Matrix3 f32) (s : f32) (i : Z) (x : f32) :
  fin s -> bpow radix2 (-126) <= Rabs (B2R s) <= bpow radix2 126 ->
  M_index m i = Ret x -> fin x -> Rabs (B2R x / B2R s) <= bpow radix2 126 ->
  exists y, M_index (M_div (FN lm) m s) i = Ret y /\ fin y /\
    Rabs (B2R y - B2R x / B2R s) <= 3 * u * Rabs (B2R x / B2R s) + eta.
Proof. exact (M_div_float lm m s i x). Qed.
Print Assumptions C72_matrix_error_partial.
Example C72_case : let N := FN no_libm in let s := @flit N 3 in let t := V3 (@flit N 1) (@flit N 2) (@flit N 7) in
  (fin s /\ B2R s = 3) /\ B2SF (v2 (T_divf N t s)) = SpecFloat.S754_finite false 9786710 (-22).
Proof. split; [f32_val|vm_compute; reflexivity]. Qed.

(** C73 *)
Theorem C73_dot_symmetric (lm : libm) (a b : Vector3 f32) : T_dot (FN lm) a b = T_dot (FN lm) b a.
Proof. exact (T_dot_sym lm a b). Qed.
Print Assumptions C73_dot_symmetric.
Theorem C73_dot_error (lm : libm) (a b : Vector3 f32) : allV fin a -> allV fin b -> absdot a b <= bpow radix2 126 ->
  fin (T_dot (FN lm) a b) /\ Rabs (B2R (T_dot (FN lm) a b) - PMatF.dotR a b) <= 4 * u * absdot a b + 4 * eta.
Proof. exact (T_dot_error lm a b). Qed.
Print Assumptions C73_dot_error.
Theorem C73_dot_exact (a b : Vector3 R) : T_dot RN (finV a) (finV b) = Some (v0 a * v0 b + v1 a * v1 b + v2 a * v2 b).
Proof. exact (T_dot_real a b). Qed.
Print Assumptions C73_dot_exact.
Example C73_case : let N := FN no_libm in B2SF (T_dot N (V3 (@flit N 1) (@flit N 2) (@flit N 3)) (V3 (@flit N 4) (@flit N (-5)) (@flit N 6))) = B2SF (@flit N 12).
Proof. vm_compute. reflexivity. Qed.

(** C74 is false with a NaN component; it holds for every other input, infinities included. *)
Theorem C74_extrema_refuted (lm : libm) : exists x y : f32, fin x /\ fin y /\ @fltb (FN lm) x y = true /\
  T_min3 (FN lm) (V3 x (B754_nan : f32) y) = y.
Proof. exact (min3_nan_l lm). Qed.
Print Assumptions C74_extrema_refuted.
Theorem C74_smallest_partial (lm : libm) (t : Vector3 f32) : allV (fun x => x <> B754_nan) t ->
  let m := T_min3 (FN lm) t in (m = v0 t \/ m = v1 t \/ m = v2 t) /\ allV (fun x => @fleb (FN lm) m x = true) t.
Proof. exact (min3_spec lm t). Qed.
Print Assumptions C74_smallest_partial.
Theorem C74_largest_partial (lm : libm) (t : Vector3 f32) : allV (fun x => x <> B754_nan) t ->
  let m := T_max3 (FN lm) t in (m = v0 t \/ m = v1 t \/ m = v2 t) /\ allV (fun x => @fleb (FN lm) x m = true) t.
Proof. exact (max3_spec lm t). Qed.
Print Assumptions C74_largest_partial.
Theorem C74_componentwise_partial (lm : libm) (a b : Vector3 f32) :
  allV (fun x => x <> B754_nan) a -> allV (fun x => x <> B754_nan) b -> forall i x y, V_index a i = Ret x -> V_index b i = Ret y ->
  exists m M : f32, V_index (T_min (FN lm) a b) i = Ret m /\ V_index (T_max (FN lm) a b) i = Ret M /\
    (m = x \/ m = y) /\ @fleb (FN lm) m x = true /\ @fleb (FN lm) m y = true /\
    (M = x \/ M = y) /\ @fleb (FN lm) x M = true /\ @fleb (FN lm) y M = true.
Proof. exact (Tmin_spec lm a b). Qed.
Print Assumptions C74_componentwise_partial.
Example C74_case : let N := FN no_libm in allV (fun x : f32 => x <> B754_nan) (V3 (@flit N 1) (B754_infinity true : f32) (@flit N 2)) /\
  T_min3 N (V3 (@flit N 1) (B754_infinity true : f32) (@flit N 2)) = B754_infinity true.
Proof. split; [repeat split; discriminate|vm_compute; reflexivity]. Qed.

(** C75.  [max3 t] is the largest component, [sat t] the saturation and [hue t] the hue
    that [toHSV] returns (C19, PHsv.v); [cie_hue x y] is the polar angle of (x,y) in
    degrees, in [0,360) (SpecDelta.v). *)
Theorem C75_hue_is_polar_angle (t : Vector3 R) :
  terminates_with (fun n => toHSV_atan RN n (finV t))
    (Ret (finV (V3 (cie_hue (2 * v0 t - v1 t - v2 t) (sqrt 3 * (v1 t - v2 t))) (sat t) (max3 t)))).
Proof. exact (toHSV_atan_l t). Qed.
Print Assumptions C75_hue_is_polar_angle.
Theorem C75_agrees_with_toHSV (t : Vector3 R) : exists h h' s v,
  terminates_with (fun n => toHSV RN n (finV t)) (Ret (finV (V3 h s v))) /\
  terminates_with (fun n => toHSV_atan RN n (finV t)) (Ret (finV (V3 h' s v))) /\
  0 <= h < 360 /\ 0 <= h' < 360 /\ Rabs (h' - h) <= 6 / 5.
Proof. exact (C75_l t). Qed.
Print Assumptions C75_agrees_with_toHSV.
Example C75_case : Rabs (hueA (V3 1 0.3 0.2) - hue (V3 1 0.3 0.2)) <= 6 / 5 /\ hue (V3 1 0.3 0.2) = 7.5.
Proof. exact hue_example. Qed.

(** C76: every input, NaN and infinities included. *)
Theorem C76_fromCCT_terminates (lm : libm) (T d Y : f32) : exists r, terminates_with (fun n => fromCCT (FN lm) n T d Y) (Ret r).
Proof. exact (fromCCT_terminates lm T d Y). Qed.
Print Assumptions C76_fromCCT_terminates.
Example C76_case : match fromCCT (FN no_libm) 100 (@flit (FN no_libm) 6504) (@flit (FN no_libm) 0) (@flit (FN no_libm) 1) with
  Ret r => (is_finite (v0 r) && is_finite (v1 r) && is_finite (v2 r))%bool = true | _ => False end.
Proof. vm_compute. reflexivity. Qed.

(** C77 is false: whatever gamut [described d] the profile bytes [d] are taken to
    describe, as soon as some profile describes a gamut other than XYZ. *)
Theorem C77_profile_refuted (N : Num) (described : list Z -> Gamut (F N)) (d : list Z) : d <> [] -> described d <> XYZ_gamut N ->
  exists d', d' <> [] /\ loadGamutFromICCProfileMemory N (Some d') <> Ret (described d').
Proof. exact (icc_refuted N described d). Qed.
Print Assumptions C77_profile_refuted.
Theorem C77_profile_partial (N : Num) (d : list Z) : loadGamutFromICCProfileMemory N None = Ret (XYZ_gamut N) /\
  loadGamutFromICCProfileMemory N (Some []) = UB /\ (d <> [] -> loadGamutFromICCProfileMemory N (Some d) = Ret (XYZ_gamut N)).
Proof. exact (icc_l N d). Qed.
Print Assumptions C77_profile_partial.
Example C77_case : [1%Z] <> [] /\ Rec709 (FN no_libm) <> XYZ_gamut (FN no_libm).
Proof. split; [discriminate|]. intros E. apply (f_equal (fun g => B2SF (m0 (g_toXYZ g)))) in E. vm_compute in E. discriminate. Qed.

(** C78 *)
Theorem C78_gamut_from_chart (lm : libm) (patch : list (Vector3 f32)) (l : Spectrum (FN lm)) (o : Observer (FN lm)) :
  ((length patch <= 24)%nat -> exists g, makeGamut (FN lm) (Macbeth_Patch (FN lm)) patch l o = Ret g /\
     Corrector_solve_light (FN lm) (Macbeth_Patch (FN lm)) patch l o = Ret (g_fromXYZ g) /\ g_toXYZ g = M_invert (FN lm) (g_fromXYZ g)) /\
  ((24 < length patch)%nat -> makeGamut (FN lm) (Macbeth_Patch (FN lm)) patch l o = UB).
Proof. exact (makeGamut_l lm patch l o). Qed.
Print Assumptions C78_gamut_from_chart.
Theorem C78_too_few_patches (lm : libm) (patch : list (Vector3 f32)) (l : Spectrum (FN lm)) (o : Observer (FN lm)) : (length patch < 2)%nat ->
  exists g, makeGamut (FN lm) (Macbeth_Patch (FN lm)) patch l o = Ret g /\
    allM (fun x : f32 => x = B754_zero false) (g_fromXYZ g) /\ allM (fun x : f32 => is_finite x = false) (g_toXYZ g).
Proof. exact (makeGamut_few lm patch l o). Qed.
Print Assumptions C78_too_few_patches.
Example C78_case : length (Macbeth_reference (FN no_libm) (Macbeth_Patch (FN no_libm)) (CIE_D65 (FN no_libm)) (CIE1931 (FN no_libm))) = 24%nat.
Proof. exact (light_len no_libm _ _). Qed.

(** C79.  [drain n]: the client's loop [while (!feof()) push_back(getUint8())] with at
    most [n] iterations (PStream3.v). *)
Theorem C79_feof (s : stream) : wf s -> small s ->
  feof s = Ret (true, s) /\ at_end s \/ feof s = Ret (false, s) /\ (ptr s < size s)%Z.
Proof. exact (feof_l s). Qed.
Print Assumptions C79_feof.
Theorem C79_read_everything (s : stream) : wf s -> small s ->
  terminates_with (fun n => drain n s) (Ret (ahead s, set_ptr s (size s))).
Proof. exact (drain_all s). Qed.
Print Assumptions C79_read_everything.
Example C79_case : drain 4 (mkStream [9; 8; 7; 6]%Z 1 BIG LITTLE) = Ret ([8; 7; 6]%Z, mkStream [9; 8; 7; 6]%Z 4 BIG LITTLE).
Proof. vm_compute. reflexivity. Qed.

(** C80 *)
Theorem C80_follow_pointer32 (s : stream) : wf s -> at_end s -> (size s + 4 < 2 ^ 31)%Z ->
  exists s1, putPointer32 s = Ret (ptr s, s1) /\
  forall s2 d, buf s2 = buf s1 ++ d -> Forall byte d -> (size s2 < 2 ^ 31)%Z -> rE s2 = wE s2 ->
    exists s3 s4, (let* _ := adjustPointer32 (ptr s) in let* _ := seekTo (ptr s) in getPointer32) s2 = Ret (size s2, s3) /\
      seekTo (size s2) s3 = Ret (size s2, s4) /\ at_end s4 /\ buf s4 = buf s ++ wire (wE s2) 4 (size s2) ++ d.
Proof. exact (follow32_l s). Qed.
Print Assumptions C80_follow_pointer32.
Theorem C80_follow_pointer64 (s : stream) : wf s -> at_end s -> (size s + 8 < 2 ^ 31)%Z ->
  exists s1, putPointer64 s = Ret (ptr s, s1) /\
  forall s2 d, buf s2 = buf s1 ++ d -> Forall byte d -> (size s2 < 2 ^ 31)%Z -> rE s2 = wE s2 ->
    exists s3 s4, (let* _ := adjustPointer64 (ptr s) in let* _ := seekTo (ptr s) in getPointer64) s2 = Ret (size s2, s3) /\
      seekTo (size s2) s3 = Ret (size s2, s4) /\ at_end s4 /\ buf s4 = buf s ++ wire (wE s2) 8 (size s2) ++ d.
Proof. exact (follow64_l s). Qed.
Print Assumptions C80_follow_pointer64.
Example C80_case : (let* p := putPointer32 in let* _ := putUint8 77 in let* _ := adjustPointer32 p in let* _ := seekTo p in getPointer32) (mkStream [1]%Z 1 BIG BIG) =
  Ret (6%Z, mkStream [1; 0; 0; 0; 6; 77]%Z 5 BIG BIG).
Proof. vm_compute. reflexivity. Qed.

(** C81 is false for a stream that held bytes before. *)
Theorem C81_init_zeroes_refuted : exists s n, wf s /\ buf (init_null s n) <> repeat 0%Z n.
Proof. exact init_null_dirty. Qed.
Print Assumptions C81_init_zeroes_refuted.
Theorem C81_init_keeps_partial (s : stream) (n : nat) : Forall byte (buf s) -> let s' := init_null s n in
  wf s' /\ size s' = Z.of_nat n /\ ptr s' = 0%Z /\ rE s' = LITTLE /\ wE s' = LITTLE /\
  forall i, (i < n)%nat -> nth i (buf s') 0%Z = nth i (buf s) 0%Z.
Proof. exact (init_null_l s n). Qed.
Print Assumptions C81_init_keeps_partial.
Theorem C81_constructors_partial (n : nat) (d : list Z) : init_null MS_new n = mkStream (repeat 0%Z n) 0 LITTLE LITTLE /\
  (d <> [] -> Forall byte d -> exists s, init_data d = Ret s /\ wf s /\ buf s = d /\ ptr s = 0%Z).
Proof. exact (conj (init_null_new n) (init_data_l d)). Qed.
Print Assumptions C81_constructors_partial.
Example C81_case : init_null (mkStream [7; 8]%Z 2 BIG BIG) 3 = mkStream [7; 8; 0]%Z 0 LITTLE LITTLE.
Proof. vm_compute. reflexivity. Qed.

(** C82 is false: the white of the overloads without a white point is not the
    library's D50 white, and what exceeds it is clipped. *)
Theorem C82_default_white_refuted : exists t : Vector3 R, finV t = Illuminant_D50 RN /\
  fromCIELAB_D50 RN (toCIELAB_D50 RN (finV t)) <> finV t.
Proof. exact d50_refuted. Qed.
Print Assumptions C82_default_white_refuted.
Theorem C82_round_trip_partial (t : Vector3 R) : v0 t <= 0.9642 -> v1 t <= 1 -> v2 t <= 0.8249 ->
  fromCIELAB_D50 RN (toCIELAB_D50 RN (finV t)) = finV t.
Proof. exact (d50_round_trip t). Qed.
Print Assumptions C82_round_trip_partial.
Theorem C82_above_white_partial (t : Vector3 R) : 0.9642 <= v0 t -> 1 <= v1 t -> 0.8249 <= v2 t ->
  fromCIELAB_D50 RN (toCIELAB_D50 RN (finV t)) = finV (V3 0.9642 1 0.8249).
Proof. exact (d50_above t). Qed.
Print Assumptions C82_above_white_partial.
Example C82_case : let t := V3 0.3 0.4 (-0.1) in v0 t <= 0.9642 /\ v1 t <= 1 /\ v2 t <= 0.8249.
Proof. cbn [v0 v1 v2]. lra. Qed.

(** C83: [one] is the float 1. *)
Theorem C83_white_is_exact (lm : libm) (w : Vector3 f32) : (forall y, lm_powf lm (one lm) y = one lm) ->
  allV (fun x => fin x /\ B2R x <> 0) w ->
  toCIELAB (FN lm) w w = V3 (@flit (FN lm) 100) (@flit (FN lm) 0) (@flit (FN lm) 0) /\
  fromCIELAB (FN lm) (toCIELAB (FN lm) w w) w = w.
Proof. exact (fun H => white_lab lm H w). Qed.
Print Assumptions C83_white_is_exact.
Example C83_case : exists lm, (forall y, lm_powf lm (one lm) y = one lm) /\ allV (fun x : f32 => fin x /\ B2R x <> 0) (Illuminant_D65 (FN lm)).
Proof. exact white_example. Qed.

(** C84 is false on the first interval; two samples give a step.  [pos n lo hi t] is the
    wavelength [t] in sampling steps from the first sample, [resampled s p y] says that
    [y] is the interpolant at that position: linear, except that it is constant on the
    first interval and beyond the ends (PSpec2.v). *)
Theorem C84_resampling_refuted : exists s r, (2 <= length s)%nat /\ S_of_samples RN (finS s) (Z.of_nat (length s)) (Some 380) (Some 779) = Ret (finS r) /\
  exists k p i, (k + 1 < length s)%nat /\ (i < 400)%nat /\ p = pos (length s) 380 779 (380 + INR i) /\ INR k <= p <= INR k + 1 /\
    smp r i <> (INR k + 1 - p) * smp s k + (p - INR k) * smp s (S k).
Proof. exact resample_refuted. Qed.
Print Assumptions C84_resampling_refuted.
Theorem C84_resampling_partial (s : list R) (lo hi : R) : (2 <= length s)%nat -> (Z.of_nat (length s) <= 1000000000)%Z -> lo < hi ->
  (forall i, (i < 400)%nat -> Rabs (pos (length s) lo hi (380 + INR i)) <= 2000000000) ->
  exists r, S_of_samples RN (finS s) (Z.of_nat (length s)) (Some lo) (Some hi) = Ret (finS r) /\ spectrumR r /\
    forall i, (i < 400)%nat -> resampled s (pos (length s) lo hi (380 + INR i)) (smp r i).
Proof. exact (resample_l s lo hi). Qed.
Print Assumptions C84_resampling_partial.
Theorem C84_two_samples_partial (a b : R) : a <> b -> exists r, S_of_samples RN (finS [a; b]) 2 (Some 380) (Some 779) = Ret (finS r) /\ spectrumR r /\
  (forall i, (i < 399)%nat -> smp r i = a) /\ smp r 399 = b.
Proof. exact (resample_two a b). Qed.
Print Assumptions C84_two_samples_partial.
Example C84_case : forall i, (i < 400)%nat -> Rabs (pos (length [1; 2; 4; 3]) 300 900 (380 + INR i)) <= 2000000000.
Proof. exact resample_example. Qed.

(** C85.  [obs_ok X Y Z]: 400 samples each, non-zero sums; [impulse i] is 1 at 380+i nm
    and 0 elsewhere. *)
Theorem C85_xyz_is_impulse_response (X Y Z : list R) (i : nat) : obs_ok X Y Z -> (i < 400)%nat ->
  Observer_xyz RN (observerR X Y Z) (Some (380 + INR i)) = Ret (fromSpectrum RN (observerR X Y Z) (finS (impulse i))).
Proof. exact (xyz_l X Y Z i). Qed.
Print Assumptions C85_xyz_is_impulse_response.
Example C85_case : smp (impulse 180) 180 = 1 /\ smp (impulse 180) 181 = 0.
Proof. rewrite !impulse_smp by lia. split; reflexivity. Qed.
