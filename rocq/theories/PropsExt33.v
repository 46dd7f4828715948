(** * Properties C157 and C158: what the library does with a NaN. *)
From Coq Require Import ZArith Reals List.
From Flocq Require Import Core BinarySingleNaN.
From Verif Require Import Num NumF MVec MTri MOtf MDelta MSpectrum F32 PLibm PNan.
Local Open Scope R_scope.

(** C157.  [is_nan3] / [is_nan9]: some component is a NaN; [nan3] / [nan9]: all are.  One NaN channel makes every channel NaN
    after a matrix; a NaN entry makes the whole inverse NaN and survives in a product; a NaN white makes every entry of the
    Bradford matrix NaN. *)
Theorem C157_matrices (lm : libm) (m a b : Matrix3 f32) (t ws wd : Vector3 f32) :
  (is_nan3 t -> M_apply (FN lm) m t = nan3) /\ (is_nan9 m -> M_invert (FN lm) m = nan9) /\
  (is_nan9 a \/ is_nan9 b -> is_nan9 (M_mul (FN lm) a b)) /\ (is_nan3 ws \/ is_nan3 wd -> Bradford (FN lm) ws wd = nan9).
Proof. exact (conj (apply_nan lm m t) (conj (invert_nan lm m) (conj (mulM_nan lm a b) (bradford_nan lm ws wd)))). Qed.
Print Assumptions C157_matrices.
(** The conversions keep a NaN, whatever the mathematical library; so does fromHSV whenever it returns. *)
Theorem C157_conversions (lm : libm) (t w : Vector3 f32) : is_nan3 t ->
  is_nan3 (toYxy (FN lm) t) /\ is_nan3 (toYuv (FN lm) t) /\ is_nan3 (fromYuv (FN lm) t) /\ is_nan3 (toCIELAB (FN lm) t w) /\ is_nan3 (fromCIELAB (FN lm) t w) /\
  (forall n r, fromHSV (FN lm) n t = Ret r -> is_nan3 r).
Proof. exact (fun H => conj (toYxy_nan lm t H) (conj (toYuv_nan lm t H) (conj (fromYuv_nan lm t H) (conj (toLab_nan lm t w H) (conj (fromLab_nan lm t w H) (fun n r => fromHSV_nan lm n t r H)))))). Qed.
Print Assumptions C157_conversions.
(** Both chromaticity coordinates of a colour with a NaN are NaN. *)
Theorem C157_chromaticities (lm : libm) (t : Vector3 f32) : is_nan3 t ->
  v1 (toYxy (FN lm) t) = B754_nan /\ v2 (toYxy (FN lm) t) = B754_nan /\ v1 (toYuv (FN lm) t) = B754_nan /\ v2 (toYuv (FN lm) t) = B754_nan.
Proof. exact (chroma_nan lm t). Qed.
Print Assumptions C157_chromaticities.
(** A colour difference with a NaN in either colour is a NaN (for UV: in the components it uses), whatever the library. *)
Theorem C157_differences (lm : libm) (a b : Vector3 f32) (kl kc kh : f32) :
  (is_nan3 a \/ is_nan3 b -> Delta_E76 (FN lm) a b = B754_nan /\ Delta_E00 (FN lm) a b kl kc kh = B754_nan) /\
  (v1 a = B754_nan \/ v2 a = B754_nan \/ v1 b = B754_nan \/ v2 b = B754_nan -> Delta_UV (FN lm) a b = B754_nan).
Proof. exact (conj (fun H => conj (E76_nan lm a b H) (E00_nan lm a b kl kc kh H)) (UV_nan lm a b)). Qed.
Print Assumptions C157_differences.
(** One NaN sample in a spectrum makes the whole colour NaN, for every observer. *)
Theorem C157_spectra (lm : libm) (o : Observer (FN lm)) (s l : list f32) (i : nat) : (i < 400)%nat ->
  (nth_error s i = Some B754_nan -> fromSpectrum (FN lm) o s = nan3) /\
  (nth_error s i = Some B754_nan \/ nth_error l i = Some B754_nan -> fromReflectanceAndLight (FN lm) o s l = nan3).
Proof. exact (fun Hi => conj (fromSpectrum_nan lm o s i Hi) (fromRef_nan lm o s l i Hi)). Qed.
Print Assumptions C157_spectra.
(** With a library that returns NaN for NaN as C requires: every transfer function but the S-Log2 decoder keeps a NaN in its
    channel, Oklab and ICtCp give NaN in every channel, and the arctangent HSV conversion gives a NaN hue. *)
Theorem C157_library (lm : libm) : nan_libm lm ->
  (forall ty g, (ty = GAMMA -> forall s, g <> B754_infinity s) -> keeps (fun t => toScreen (FN lm) ty t g)) /\
  (forall ty g, ty <> SLOG2 -> (ty = GAMMA -> ~ (fin g /\ B2R g = 0)) -> keeps (fun t => toScene (FN lm) ty t g)) /\
  (forall t, is_nan3 t -> XYZ_to_OKLAB (FN lm) t = nan3 /\ OKLAB_to_XYZ (FN lm) t = nan3) /\
  (forall t, is_nan3 t -> XYZ_to_ICtCp (FN lm) t = nan3 /\ ICtCp_to_XYZ (FN lm) t = nan3) /\
  (forall a b, is_nan3 a \/ is_nan3 b -> Delta_ICtCp (FN lm) a b = B754_nan) /\
  (forall t, is_nan3 t -> exists s v, terminates_with (fun n => toHSV_atan (FN lm) n t) (Ret (V3 (B754_nan : f32) s v))).
Proof. exact (fun L => conj (toScreen_nan lm L) (conj (toScene_nan lm L) (conj (oklab_nan lm L) (conj (ictcp_nan lm L) (conj (dICtCp_nan lm L) (hsvat_nan lm L)))))). Qed.
Print Assumptions C157_library.
Example C157_case : (exists lm, accurate lm /\ nan_libm lm) /\ is_nan3 (V3 (lit 24 128 p24 p24e 0.5%dec) B754_nan (lit 24 128 p24 p24e 0.25%dec)) /\
  is_nan9 (M3 (lit 24 128 p24 p24e 1%dec) (lit 24 128 p24 p24e 2%dec) (lit 24 128 p24 p24e 3%dec) (lit 24 128 p24 p24e 4%dec) (lit 24 128 p24 p24e 5%dec) B754_nan
    (lit 24 128 p24 p24e 7%dec) (lit 24 128 p24 p24e 8%dec) (lit 24 128 p24 p24e 10%dec)).
Proof. exact nan_case. Qed.

(** C158: a NaN in the input of toHSV, of the S-Log2 decoder and of fromYxy shows in the output.  REFUTED three times:
    a NaN green channel between any two finite channels becomes the grey (0, 0, blue); a NaN S-Log2 code becomes exactly
    black; and fromYxy of a NaN x with y = 0 is (0, Y, 0). *)
Theorem C158_toHSV_refuted (lm : libm) (r b : f32) : fin r -> fin b ->
  exists h s : f32, terminates_with (fun n => toHSV (FN lm) n (V3 r (B754_nan : f32) b)) (Ret (V3 h s b)) /\ fin h /\ fin s /\ B2R h = 0 /\ B2R s = 0.
Proof. exact (toHSV_green lm r b). Qed.
Print Assumptions C158_toHSV_refuted.
Theorem C158_slog2_refuted (lm : libm) (g : f32) : toScene (FN lm) SLOG2 nan3 g = V3 (@flit (FN lm) 0%dec) (@flit (FN lm) 0%dec) (@flit (FN lm) 0%dec).
Proof. exact (slog2_black lm g). Qed.
Print Assumptions C158_slog2_refuted.
Theorem C158_fromYxy_refuted (lm : libm) (Y : f32) : fromYxy (FN lm) (V3 Y (B754_nan : f32) (@flit (FN lm) 0%dec)) = V3 (@flit (FN lm) 0%dec) Y (@flit (FN lm) 0%dec).
Proof. exact (fromYxy_lost lm Y). Qed.
Print Assumptions C158_fromYxy_refuted.
(** What does hold: a NaN blue gives a NaN value; a NaN red gives a NaN hue when green and blue differ. *)
Theorem C158_toHSV_partial (lm : libm) (x y : f32) :
  (forall n t, toHSV (FN lm) n (V3 x y (B754_nan : f32)) = Ret t -> v2 t = B754_nan) /\
  (fin x -> fin y -> B2R x <> B2R y -> exists s v, terminates_with (fun n => toHSV (FN lm) n (V3 (B754_nan : f32) x y)) (Ret (V3 (B754_nan : f32) s v))).
Proof. exact (conj (fun n t => toHSV_blue lm n x y t) (toHSV_red lm x y)). Qed.
Print Assumptions C158_toHSV_partial.
(** fromYxy keeps a NaN except a NaN x beside a y below 1e-8 in size. *)
Theorem C158_fromYxy_partial (lm : libm) (t : Vector3 f32) : is_nan3 t ->
  (v1 t = B754_nan -> @fltb (FN lm) (@ffabs (FN lm) (v2 t)) (@flit (FN lm) 1e-8%dec) = false) -> is_nan3 (fromYxy (FN lm) t).
Proof. exact (fromYxy_keeps lm t). Qed.
Print Assumptions C158_fromYxy_partial.
Example C158_case : fin (lit 24 128 p24 p24e 1%dec) /\ fin (lit 24 128 p24 p24e 0.25%dec) /\ B2R (lit 24 128 p24 p24e 1%dec) <> B2R (lit 24 128 p24 p24e 0.25%dec).
Proof. exact hsv_nan_case. Qed.
