(** * Property C138: spectra built from samples on other grids, in binary32. *)
From Coq Require Import ZArith Reals Lra Lia List.
From Flocq Require Import Core BinarySingleNaN.
From Verif Require Import Num NumF MVec MSpectrum F32 PResamp.
Import ListNotations.
Local Open Scope R_scope.

(** C138: no read outside the samples and no conversion that is undefined. *)
Theorem C138_safe (lm : libm) (s : list f32) (lo hi : f32) : (1 <= Z.of_nat (length s) <= 65536)%Z ->
  fin lo -> fin hi -> Rabs (B2R lo) <= 4096 -> Rabs (B2R hi) <= 4096 -> B2R lo + 1 <= B2R hi ->
  exists r, S_of_samples (FN lm) s (Z.of_nat (length s)) lo hi = Ret r /\ length r = 400%nat.
Proof. exact (resample_safe lm s lo hi). Qed.
Print Assumptions C138_safe.
Example C138_safe_case (lm : libm) : (1 <= Z.of_nat (length (ramp lm)) <= 65536)%Z /\ fin (@flit (FN lm) 300%dec) /\ fin (@flit (FN lm) 830%dec) /\
  Rabs (B2R (@flit (FN lm) 300%dec)) <= 4096 /\ Rabs (B2R (@flit (FN lm) 830%dec)) <= 4096 /\ B2R (@flit (FN lm) 300%dec) + 1 <= B2R (@flit (FN lm) 830%dec).
Proof. exact (safe_case lm). Qed.
(** a range of no width is undefined behaviour, and so is having no samples. *)
Theorem C138_no_width (lm : libm) (s : list f32) n (lo hi : f32) : fin lo -> fin hi -> B2R lo = B2R hi -> S_of_samples (FN lm) s n lo hi = UB.
Proof. exact (resample_degenerate lm s n lo hi). Qed.
Print Assumptions C138_no_width.
Theorem C138_no_samples (lm : libm) n (lo hi : f32) : S_of_samples (FN lm) [] n lo hi = UB.
Proof. exact (resample_empty lm n lo hi). Qed.
Print Assumptions C138_no_samples.
(** on a grid of whole nanometres: the first sample below the SECOND grid point, the last sample from the last grid
    point on, and linear interpolation in between. *)
Theorem C138_regular_grid (lm : libm) (s : list f32) (lo d : Z) (flo fhi : f32) :
  let n := Z.of_nat (length s) in let hi := (lo + (n - 1) * d)%Z in
  (0 <= lo)%Z -> (1 <= d)%Z -> (2 <= n)%Z -> (hi <= 4000)%Z -> fin flo -> B2R flo = IZR lo -> fin fhi -> B2R fhi = IZR hi ->
  Forall fin s -> Forall (fun y => Rabs (B2R y) <= bpow radix2 125) s ->
  exists r, S_of_samples (FN lm) s n flo fhi = Ret r /\ length r = 400%nat /\ Forall fin r /\
    forall i, (i < 400)%nat -> let w := (380 + Z.of_nat i)%Z in let y := nth i r B754_nan in
      ((w < lo + d)%Z -> y = nth 0 s B754_nan) /\ ((hi <= w)%Z -> y = nth (length s - 1) s B754_nan) /\
      ((lo + d <= w < hi)%Z -> let k := ((w - lo) / d)%Z in let e := IZR (w - lo - k * d) / IZR d in
        let a := B2R (nth (Z.to_nat k) s B754_nan) in let b := B2R (nth (S (Z.to_nat k)) s B754_nan) in
        Rabs (B2R y - (a * (1 - e) + b * e)) <= 5 * / 16777216 * (Rabs a + Rabs b) + 3 * bpow radix2 (-150)).
Proof. exact (resample_grid16 lm s lo d flo fhi). Qed.
Print Assumptions C138_regular_grid.
Example C138_ramp (lm : libm) : exists r, S_of_samples (FN lm) (ramp lm) 81 (@flit (FN lm) 380%dec) (@flit (FN lm) 780%dec) = Ret r /\ length r = 400%nat /\
  B2R (nth 4 r B754_nan) = 0 /\ Rabs (B2R (nth 21 r B754_nan) - 4.2) <= 46 * / 16777216 /\ Rabs (B2R (nth 399 r B754_nan) - 79.8) <= 796 * / 16777216.
Proof. exact (ramp_case16 lm). Qed.
