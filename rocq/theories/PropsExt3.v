(** * Properties C91-: binary32 behaviour of the colour models.

    [allV P t]: the three components of [t] satisfy [P] (PMatF.v); [fin x]: [x] is neither infinite
    nor NaN, [u] = 2^-24, [eta] = 2^-150 (F32.v). *)
From Coq Require Import ZArith Reals Lra Lia List.
From Flocq Require Import Core BinarySingleNaN.
From Verif Require Import Num NumR NumF MVec MTri MDelta RTac SpecMat F32 PMatF PHsvF PYxyF PEuclF PGamut PGamF PGamF2.
Import ListNotations.
Local Open Scope R_scope.

(** C91: the value is the largest component itself, not merely a number close to it. *)
Theorem C91_toHSV_range (lm : libm) (t : Vector3 f32) :
  allV fin t -> allV (fun x => 0 <= B2R x <= bpow radix2 120) t ->
  exists h s v : f32, terminates_with (fun n => toHSV (FN lm) n t) (Ret (V3 h s v)) /\ allV fin (V3 h s v) /\
    0 <= B2R h <= 360 /\ 0 <= B2R s <= 1 /\ (v = v0 t \/ v = v1 t \/ v = v2 t) /\ allV (fun x => B2R x <= B2R v) t.
Proof. exact (hsv_to_range lm t). Qed.
Print Assumptions C91_toHSV_range.
Theorem C91_fromHSV_range (lm : libm) (h s v : f32) :
  fin h -> fin s -> fin v -> Rabs (B2R h) <= bpow radix2 33 -> 0 <= B2R s <= 1 -> 0 <= B2R v ->
  exists t : Vector3 f32, terminates_with (fun n => fromHSV (FN lm) n (V3 h s v)) (Ret t) /\ allV fin t /\
    allV (fun x => 0 <= B2R x <= B2R v) t /\
    (B2R (v0 t) = B2R v \/ B2R (v1 t) = B2R v \/ B2R (v2 t) = B2R v) /\
    exists m, (m = B2R (v0 t) \/ m = B2R (v1 t) \/ m = B2R (v2 t)) /\ allV (fun x => m <= B2R x) t /\
      Rabs (m - B2R v * (1 - B2R s)) <= 3.01 * u * B2R v + eta.
Proof. exact (hsv_from_range lm h s v). Qed.
Print Assumptions C91_fromHSV_range.
Example C91_case (lm : libm) : let N := FN lm in
  let t := V3 (@flit N 0.1%dec) (@flit N 0.2%dec) (@flit N 0.7%dec) in
  (let! r := toHSV N 2 t in Ret (vSF r)) =
    Ret (V3 (SpecFloat.S754_finite false 15073280 (-16)) (SpecFloat.S754_finite false 14380470 (-24)) (SpecFloat.S754_finite false 11744051 (-24))).
Proof. vm_compute. reflexivity. Qed.

(** C92: the colour comes back within 24 u of its largest component; not exactly, see the case. *)
Theorem C92_hsv_round_trip_error (lm : libm) (t : Vector3 f32) :
  allV fin t -> allV (fun x => 0 <= B2R x <= bpow radix2 120) t ->
  exists t' : Vector3 f32,
    terminates_with (fun n => let! h := toHSV (FN lm) n t in fromHSV (FN lm) n h) (Ret t') /\ allV fin t' /\
    let M := Rmax (Rmax (B2R (v0 t)) (B2R (v1 t))) (B2R (v2 t)) in
    Rabs (B2R (v0 t') - B2R (v0 t)) <= 24 * u * M + eta /\
    Rabs (B2R (v1 t') - B2R (v1 t)) <= 24 * u * M + eta /\
    Rabs (B2R (v2 t') - B2R (v2 t)) <= 24 * u * M + eta.
Proof. exact (hsv_rt_F lm t). Qed.
Print Assumptions C92_hsv_round_trip_error.
Example C92_case (lm : libm) : let N := FN lm in
  let t := V3 (@flit N 0.1%dec) (@flit N 0.2%dec) (@flit N 0.7%dec) in
  vSF t = V3 (SpecFloat.S754_finite false 13421773 (-27)) (SpecFloat.S754_finite false 13421773 (-26)) (SpecFloat.S754_finite false 11744051 (-24)) /\
  (let! h := toHSV N 2 t in let! r := fromHSV N 2 h in Ret (vSF r)) =
    Ret (V3 (SpecFloat.S754_finite false 13421777 (-27)) (SpecFloat.S754_finite false 13421777 (-26)) (SpecFloat.S754_finite false 11744051 (-24))).
Proof. split; vm_compute; reflexivity. Qed.

(** C93: the luminance comes back bit for bit. *)
Theorem C93_fromYxy_toYxy (lm : libm) (X Y Z : f32) :
  fin X -> fin Y -> fin Z -> 0 <= B2R X -> 0 <= B2R Y -> 0 <= B2R Z ->
  let S := B2R X + B2R Y + B2R Z in 2e-8 <= S <= bpow radix2 100 -> 2e-8 * S <= B2R Y ->
  exists X' Z' : f32, fromYxy (FN lm) (toYxy (FN lm) (V3 X Y Z)) = V3 X' Y Z' /\ fin X' /\ fin Z' /\
    Rabs (B2R X' - B2R X) <= 4.1 * u * B2R X + / IZR (2 ^ 70) * S /\ Rabs (B2R Z' - B2R Z) <= 10 * u * S.
Proof. exact (yxy_rt_F lm X Y Z). Qed.
Print Assumptions C93_fromYxy_toYxy.
Theorem C93_toYxy_fromYxy (lm : libm) (Y x y : f32) :
  fin Y -> fin x -> fin y -> 0 <= B2R x -> 2e-8 <= B2R y -> B2R x + B2R y <= 1 ->
  2e-8 * B2R y <= B2R Y <= bpow radix2 100 * B2R y ->
  exists x' y' : f32, toYxy (FN lm) (fromYxy (FN lm) (V3 Y x y)) = V3 Y x' y' /\ fin x' /\ fin y' /\
    Rabs (B2R x' - B2R x) <= 10 * u * B2R x + / IZR (2 ^ 70) /\ Rabs (B2R y' - B2R y) <= 8 * u * B2R y.
Proof. exact (yxy_rt_F2 lm Y x y). Qed.
Print Assumptions C93_toYxy_fromYxy.
(** Cancellation: from (1,2,0), Z comes back negative; its error is relative to the sum only. *)
Example C93_case (lm : libm) : let N := FN lm in
  vSF (fromYxy N (toYxy N (V3 (@flit N 1%dec) (@flit N 2%dec) (@flit N 0%dec)))) =
    V3 (SpecFloat.S754_finite false 8388608 (-23)) (SpecFloat.S754_finite false 8388608 (-22)) (SpecFloat.S754_finite true 12582912 (-46)).
Proof. vm_compute. reflexivity. Qed.

(** C94: the true distances are written out; [4 u] relative, and 2^-73 for differences whose squares
    underflow. *)
Theorem C94_E76_error (lm : libm) (p q : Vector3 f32) :
  allV fin p -> allV fin q ->
  let d0 := B2R (v0 p) - B2R (v0 q) in let d1 := B2R (v1 p) - B2R (v1 q) in let d2 := B2R (v2 p) - B2R (v2 q) in
  Rabs d0 <= bpow radix2 60 -> Rabs d1 <= bpow radix2 60 -> Rabs d2 <= bpow radix2 60 ->
  fin (Delta_E76 (FN lm) p q) /\
  Rabs (B2R (Delta_E76 (FN lm) p q) - sqrt (d0 * d0 + d1 * d1 + d2 * d2)) <= 4 * u * sqrt (d0 * d0 + d1 * d1 + d2 * d2) + bpow radix2 (-73).
Proof. exact (E76_error lm p q). Qed.
Print Assumptions C94_E76_error.
Theorem C94_UV_error (lm : libm) (p q : Vector3 f32) :
  allV fin p -> allV fin q ->
  let d1 := B2R (v1 p) - B2R (v1 q) in let d2 := B2R (v2 p) - B2R (v2 q) in
  Rabs d1 <= bpow radix2 60 -> Rabs d2 <= bpow radix2 60 ->
  fin (Delta_UV (FN lm) p q) /\
  Rabs (B2R (Delta_UV (FN lm) p q) - sqrt (d1 * d1 + d2 * d2)) <= 4 * u * sqrt (d1 * d1 + d2 * d2) + bpow radix2 (-73).
Proof. exact (UV_error lm p q). Qed.
Print Assumptions C94_UV_error.
(** (50, 2.5, -7.1) to (47, 2.4, 9): the bits of 16.3773…; the lightness does not enter the second. *)
Example C94_case (lm : libm) : let N := FN lm in
  let p := V3 (@flit N 50%dec) (@flit N 2.5%dec) (@flit N (-7.1)%dec) in
  let q := V3 (@flit N 47%dec) (@flit N 2.4%dec) (@flit N 9%dec) in
  (B2SF (Delta_E76 N p q), B2SF (Delta_UV N p q)) =
    (SpecFloat.S754_finite false 8586487 (-19), SpecFloat.S754_finite false 8441200 (-19)).
Proof. vm_compute. reflexivity. Qed.

(** C95: [norm3 t] is the largest absolute component of [t]; [back t t']: [t'] is finite and each
    component is within [50 u (norm3 t) + 128 eta] of the one of [t]; [gams lm] is the list of the
    ten predefined gamuts as the static initialisers compute them in binary32 (PGamF.v). *)
Theorem C95_gamut_round_trip (lm : libm) (G : Gamut f32) (t : Vector3 f32) :
  In G (gams lm) -> allV fin t -> norm3 t <= bpow radix2 110 ->
  back t (G_fromXYZ_t (FN lm) G (G_toXYZ_t (FN lm) G t)) /\ back t (G_toXYZ_t (FN lm) G (G_fromXYZ_t (FN lm) G t)).
Proof. exact (gam_round lm G t). Qed.
Print Assumptions C95_gamut_round_trip.
Theorem C95_convert_round_trip (lm : libm) (G H : Gamut f32) (t : Vector3 f32) :
  In G (gams lm) -> In H (gams lm) -> allV fin t -> norm3 t <= bpow radix2 110 ->
  back t (M_apply (FN lm) (GamutConvert (FN lm) H G) (M_apply (FN lm) (GamutConvert (FN lm) G H) t)).
Proof. exact (gam_conv lm G H t). Qed.
Print Assumptions C95_convert_round_trip.
Example C95_members (lm : libm) : let N := FN lm in
  gams lm = [AdobeRGB N; Rec709 N; Rec2020 N; DCI_P3 N; S_Gamut N; S_Gamut3_Cine N; ACEScg N; ACES2065 N; LMS N; XYZ_gamut N].
Proof. reflexivity. Qed.
(** Not exact: Rec.709 (0.1, 0.2, 0.7) moves by 3, 2 and 2 units in the last place. *)
Example C95_case (lm : libm) : let N := FN lm in
  let t := V3 (@flit N 0.1%dec) (@flit N 0.2%dec) (@flit N 0.7%dec) in
  vSF t = V3 (SpecFloat.S754_finite false 13421773 (-27)) (SpecFloat.S754_finite false 13421773 (-26)) (SpecFloat.S754_finite false 11744051 (-24)) /\
  vSF (G_fromXYZ_t N (Rec709 N) (G_toXYZ_t N (Rec709 N) t)) =
    V3 (SpecFloat.S754_finite false 13421776 (-27)) (SpecFloat.S754_finite false 13421775 (-26)) (SpecFloat.S754_finite false 11744053 (-24)).
Proof. split; vm_compute; reflexivity. Qed.

(** C96: the same code over the reals and in binary32. [near_app K f e M]: [f] is finite and each
    component is within [K u M + 4 eta] of the real one (PGamF2.v); [vR t] are the values of [t]. *)
Theorem C96_gamut_accuracy (lm : libm) :
  Forall (fun G : forall N : Num, Gamut (F N) => forall t : Vector3 f32, allV fin t -> norm3 t <= bpow radix2 110 ->
    (exists e, G_toXYZ_t RN (G RN) (finV (vR t)) = finV e /\ near_app 10 (G_toXYZ_t (FN lm) (G (FN lm)) t) e (norm3 t)) /\
    (exists e, G_fromXYZ_t RN (G RN) (finV (vR t)) = finV e /\ near_app 30 (G_fromXYZ_t (FN lm) (G (FN lm)) t) e (norm3 t)))
  (AdobeRGB :: Rec709 :: Rec2020 :: DCI_P3 :: S_Gamut :: S_Gamut3_Cine :: ACEScg :: ACES2065 :: LMS :: XYZ_gamut :: nil).
Proof. exact (all_agree lm). Qed.
Print Assumptions C96_gamut_accuracy.
(** The white of Rec.709: Y is one unit in the last place above 1. *)
Example C96_case (lm : libm) : let N := FN lm in let w := V3 (@flit N 1%dec) (@flit N 1%dec) (@flit N 1%dec) in
  allV (fun x => is_finite x = true) w /\
  vSF (G_toXYZ_t N (Rec709 N) w) = V3 (SpecFloat.S754_finite false 15946006 (-24)) (SpecFloat.S754_finite false 8388609 (-23)) (SpecFloat.S754_finite false 9135679 (-23)).
Proof. split; [repeat split; vm_compute; reflexivity|vm_compute; reflexivity]. Qed.
