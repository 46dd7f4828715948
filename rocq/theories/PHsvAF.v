(** * Hue by arctangent in binary32. *)
From Coq Require Import ZArith Reals Lra Lia List Bool Psatz.
From Flocq Require Import Core IEEE754.BinarySingleNaN Plus_error.
From Verif Require Import Num NumR NumF MVec MTri F32 RTac SpecDelta PHsv PHsvF PHsvSym PMatF PNearF PLibm PE00 PHsvA PE00d PE00acc PE00acc2 PE00acc8.
Local Open Scope R_scope.

(** ** How the angle moves with the point *)
Lemma atan2_up y x : 0 < y -> R_atan2 y x = PI / 2 - atan (x / y).
Proof.
  intros B. pose proof PI_RGT_0 as P. unfold R_atan2. destruct (Rtotal_order 0 x) as [H|[H|H]].
  - rewrite Rlt_bool_true by lra. replace (y / x) with (/ (x / y)) by (field; lra). apply atan_inv. now apply Rdiv_lt_0_compat.
  - subst x. rewrite !Rlt_bool_false, Rlt_bool_true by lra. replace (0 / y) with 0 by (field; lra). rewrite atan_0. lra.
  - rewrite Rlt_bool_false, Rlt_bool_true, Rle_bool_true by lra. replace (y / x) with (- (/ (- x / y))) by (field; lra). rewrite atan_opp, atan_inv by (apply Rdiv_lt_0_compat; lra).
    replace (- x / y) with (- (x / y)) by (field; lra). rewrite atan_opp. lra.
Qed.
Lemma atan2_dn y x : y < 0 -> R_atan2 y x = - R_atan2 (- y) x.
Proof.
  intros B. pose proof PI_RGT_0 as P. rewrite (atan2_up (- y) x) by lra. unfold R_atan2. destruct (Rtotal_order 0 x) as [H|[H|H]].
  - rewrite Rlt_bool_true by lra. replace (y / x) with (- / (x / - y)) by (field; lra). rewrite atan_opp, atan_inv by (apply Rdiv_lt_0_compat; lra). lra.
  - subst x. rewrite !Rlt_bool_false, Rlt_bool_true by lra. replace (0 / - y) with 0 by (field; lra). rewrite atan_0. lra.
  - rewrite Rlt_bool_false, Rlt_bool_true, Rle_bool_false by lra. replace (y / x) with (/ (- x / - y)) by (field; lra). rewrite atan_inv by (apply Rdiv_lt_0_compat; lra).
    replace (- x / - y) with (- (x / - y)) by (field; lra). rewrite atan_opp. lra.
Qed.
Lemma sq_abs x : x ^ 2 = Rabs x * Rabs x.
Proof. rewrite <- Rabs_mult, (Rabs_pos_eq (x * x)) by nra. ring. Qed.
Lemma far_l X x y n e : 0 < n -> x ^ 2 + y ^ 2 = n ^ 2 -> Rabs (X - x) <= e -> e <= n / 100 -> 0.9801 * n ^ 2 <= X ^ 2 + y ^ 2.
Proof.
  intros N S E L. apply Rnot_lt_le. intros C. assert (B : Rabs X < n). { apply Rnot_le_lt. intros B. pose proof (sq_abs X). nra. }
  assert (Q : X ^ 2 + y ^ 2 < 0.9801 * n ^ 2) by exact C. apply Rabs_def2 in B. apply Rabs_le_inv in E. pose proof (pow2_ge_0 y).
  assert (B2 : Rabs X <= 0.99 * n). { apply Rnot_lt_le. intros B2. pose proof (sq_abs X). nra. }
  apply Rabs_le_inv in B2. set (d := X - x) in *. assert (x = X - d) by (unfold d; ring). clearbody d. subst x.
  assert (D : Rabs d <= n / 100) by (apply Rabs_le; lra). assert (XD : Rabs (X * d) <= 0.99 * n * (n / 100)). { rewrite Rabs_mult. apply Rmult_le_compat; auto using Rabs_pos. apply Rabs_le. lra. }
  apply Rabs_le_inv in XD. assert (d ^ 2 <= (n / 100) ^ 2). { rewrite (sq_abs d). replace ((n / 100) ^ 2) with (n / 100 * (n / 100)) by ring. apply Rmult_le_compat; auto using Rabs_pos. }
  replace ((X - d) ^ 2) with (X ^ 2 - 2 * (X * d) + d ^ 2) in S by ring. assert (E1 : (n / 100) ^ 2 = n ^ 2 / 10000) by field. assert (E2 : 0.99 * n * (n / 100) = 0.0099 * n ^ 2) by lra. rewrite E1 in *. rewrite E2 in XD. lra.
Qed.
Lemma abs_le_n x n : 0 < n -> x ^ 2 <= n ^ 2 -> Rabs x <= n.
Proof.
  intros N S. apply Rnot_lt_le. intros C. pose proof (sq_abs x). nra.
Qed.
Lemma step1 x x' y n e : 0 < y -> 0 < n -> x ^ 2 + y ^ 2 = n ^ 2 -> Rabs (x' - x) <= e -> e <= n / 100 -> Rabs (atan (x' / y) - atan (x / y)) <= 1.03 * (e / n).
Proof.
  intros Y N S E L. pose proof (pow2_ge_0 x). pose proof (pow2_ge_0 y). assert (Yn := abs_le_n y n N ltac:(lra)). rewrite Rabs_pos_eq in Yn by lra.
  assert (e0 : 0 <= e) by (pose proof (Rabs_pos (x' - x)); lra). assert (Y2 : 0 < y ^ 2) by nra. assert (N2 : 0 < n ^ 2) by nra.
  assert (H1 := atan_mvt (x / y) (x' / y) (0.9801 * n ^ 2 / y ^ 2) ltac:(apply Rdiv_lt_0_compat; lra)). eapply Rle_trans; [apply H1|].
  - intros c C. assert (K : 0.9801 * n ^ 2 <= (c * y) ^ 2 + y ^ 2).
    { apply (far_l _ x y n e); auto. apply Rabs_le_inv in E. assert (Iy := Rinv_0_lt_compat y Y).
      assert (C1 : Rmin x x' <= c * y <= Rmax x x').
      { assert (A : x / y * y = x) by (field; lra). assert (A' : x' / y * y = x') by (field; lra). destruct C as [C1 C2]. apply (Rmult_le_compat_r y) in C1; [|lra]. apply (Rmult_le_compat_r y) in C2; [|lra].
        revert C1 C2. unfold Rmin, Rmax. destruct (Rle_dec (x / y) (x' / y)) as [D|D]; destruct (Rle_dec x x') as [D'|D']; rewrite ?A, ?A'; intros; try lra. }
      apply Rabs_le. revert C1. unfold Rmin, Rmax. destruct (Rle_dec x x'); lra. }
    apply Rmult_le_reg_r with (y ^ 2); [exact Y2|]. unfold Rdiv. rewrite Rmult_assoc, Rinv_l, Rmult_1_r by lra. replace ((1 + c ^ 2) * y ^ 2) with ((c * y) ^ 2 + y ^ 2) by ring. exact K.
  - replace (x' / y - x / y) with ((x' - x) / y) by (field; lra). unfold Rdiv at 2. rewrite Rabs_mult, Rabs_inv, (Rabs_pos_eq y) by lra.
    replace (Rabs (x' - x) * / y / (0.9801 * n ^ 2 / y ^ 2)) with (/ 0.9801 * ((Rabs (x' - x) * / n) * (y * / n))) by (field; repeat split; lra).
    assert (In := Rinv_0_lt_compat n N). assert (Q1 : y * / n <= 1). { apply Rmult_le_reg_r with n; [exact N|]. rewrite Rmult_assoc, Rinv_l by lra. lra. }
    assert (Q2 : Rabs (x' - x) * / n * (y * / n) <= e * / n * 1). { apply Rmult_le_compat; [apply Rmult_le_pos; [apply Rabs_pos|lra]|apply Rmult_le_pos; lra|apply Rmult_le_compat_r; lra|exact Q1]. }
    assert (0 <= e * / n) by (apply Rmult_le_pos; lra). unfold Rdiv. lra.
Qed.
Lemma btw a b c k : 0 <= k -> (k <= a /\ k <= b) \/ (a <= - k /\ b <= - k) -> Rmin a b <= c <= Rmax a b -> k ^ 2 <= c ^ 2.
Proof. intros K H C. revert C. unfold Rmin, Rmax. destruct (Rle_dec a b); nra. Qed.
Lemma step2 x y y' n e : 0 < y -> 0 < y' -> 0 < n -> 0.9801 * n ^ 2 <= x ^ 2 + y ^ 2 -> Rabs x <= 1.01 * n -> Rabs (y' - y) <= e -> y <= 1.5 * y' -> y' <= 1.5 * y ->
  Rabs (atan (x / y') - atan (x / y)) <= 1.55 * (e / n).
Proof.
  intros Y Y' N S X E L L'. set (Z := Rmax y y'). assert (HZ : y <= Z /\ y' <= Z) by (split; [apply Rmax_l|apply Rmax_r]).
  assert (HQ : Z <= 1.5 * y /\ Z <= 1.5 * y' /\ Z ^ 2 <= 1.5 * (y * y')). { unfold Z, Rmax. destruct (Rle_dec y y'); repeat split; nra. } clearbody Z.
  assert (S' : 0.9801 * n ^ 2 <= x ^ 2 + Z ^ 2) by nra. assert (Z0 : 0 < Z) by lra. assert (N2 : 0 < n ^ 2) by nra.
  assert (H1 := atan_mvt (x / y) (x / y') ((x ^ 2 + Z ^ 2) / Z ^ 2) ltac:(apply Rdiv_lt_0_compat; nra)). eapply Rle_trans; [apply H1|].
  - intros c C. replace ((x ^ 2 + Z ^ 2) / Z ^ 2) with (1 + (Rabs x / Z) ^ 2).
    2: { replace ((Rabs x / Z) ^ 2) with (x ^ 2 / Z ^ 2); [field; lra|]. replace ((Rabs x / Z) ^ 2) with ((Rabs x * Rabs x) / Z ^ 2) by (field; lra). rewrite <- Rabs_mult, (Rabs_pos_eq (x * x)) by nra. field. lra. }
    apply Rplus_le_compat_l. apply (btw (x / y) (x / y')); [|clear C|exact C].
    + apply Rmult_le_pos; [apply Rabs_pos|left; apply Rinv_0_lt_compat; lra].
    + assert (I1 : / Z <= / y) by (apply Rinv_le; lra). assert (I2 : / Z <= / y') by (apply Rinv_le; lra).
      destruct (Rle_or_lt 0 x) as [P|P]; [left; rewrite Rabs_pos_eq by lra|right; rewrite Rabs_left by lra]; unfold Rdiv; split; nra.
  - replace (x / y' - x / y) with (x * (y - y') / (y * y')) by (field; lra). unfold Rdiv at 2. rewrite !Rabs_mult, Rabs_inv, (Rabs_pos_eq (y * y')), (Rabs_minus_sym y) by nra.
    set (d := Rabs (y' - y)) in *. set (ax := Rabs x) in *. assert (d0 : 0 <= d) by apply Rabs_pos. assert (x0 : 0 <= ax) by apply Rabs_pos. clearbody d ax.
    assert (YY : 0 < y * y') by nra. assert (XZ : 0 < x ^ 2 + Z ^ 2) by nra.
    replace (ax * d * / (y * y') / ((x ^ 2 + Z ^ 2) / Z ^ 2)) with ((d * (ax * / (x ^ 2 + Z ^ 2))) * (Z ^ 2 * / (y * y'))) by (field; repeat split; lra).
    assert (Q1 : Z ^ 2 * / (y * y') <= 1.5). { apply Rmult_le_reg_r with (y * y'); [exact YY|]. rewrite Rmult_assoc, Rinv_l by lra. lra. }
    assert (Q2 : ax * / (x ^ 2 + Z ^ 2) <= 1.01 / 0.9801 * / n).
    { apply Rmult_le_reg_r with (x ^ 2 + Z ^ 2); [exact XZ|]. rewrite Rmult_assoc, Rinv_l, Rmult_1_r by lra.
      apply Rle_trans with (1 := X). apply Rle_trans with (1.01 / 0.9801 * / n * (0.9801 * n ^ 2)).
      - right. field. lra.
      - apply Rmult_le_compat_l; [|lra]. apply Rmult_le_pos; [lra|left; now apply Rinv_0_lt_compat]. }
    assert (In := Rinv_0_lt_compat n N). assert (e0 : 0 <= e) by lra.
    assert (I2 : 0 <= ax * / (x ^ 2 + Z ^ 2)) by (apply Rmult_le_pos; [lra|left; now apply Rinv_0_lt_compat]).
    assert (Q3 : d * (ax * / (x ^ 2 + Z ^ 2)) <= e * (1.01 / 0.9801 * / n)) by (apply Rmult_le_compat; lra).
    assert (Q4 : 0 <= d * (ax * / (x ^ 2 + Z ^ 2))) by (apply Rmult_le_pos; lra).
    apply Rle_trans with (e * (1.01 / 0.9801 * / n) * 1.5).
    + apply Rmult_le_compat; try lra. apply Rmult_le_pos; [nra|left; now apply Rinv_0_lt_compat].
    + assert (0 <= e * / n) by (apply Rmult_le_pos; lra). unfold Rdiv. lra.
Qed.
Lemma ang_up x x' y y' n e e' : 0 < y -> 0 < y' -> 0 < n -> x ^ 2 + y ^ 2 = n ^ 2 -> Rabs (x' - x) <= e -> e <= n / 100 -> Rabs (y' - y) <= e' -> y <= 1.5 * y' -> y' <= 1.5 * y ->
  Rabs (R_atan2 y' x' - R_atan2 y x) <= 1.03 * (e / n) + 1.55 * (e' / n).
Proof.
  intros Y Y' N S E L E' L1 L2. rewrite !atan2_up by assumption. pose proof (step1 x x' y n e Y N S E L) as A.
  pose proof (pow2_ge_0 y). pose proof (abs_le_n x n N ltac:(lra)) as Xn.
  assert (X' : Rabs x' <= 1.01 * n). { replace x' with (x + (x' - x)) by ring. eapply Rle_trans; [apply Rabs_triang|]. lra. }
  pose proof (step2 x' y y' n e' Y Y' N (far_l _ _ _ _ _ N S E L) X' E' L1 L2) as B.
  replace (PI / 2 - atan (x' / y') - (PI / 2 - atan (x / y))) with (- ((atan (x' / y) - atan (x / y)) + (atan (x' / y') - atan (x' / y)))) by ring.
  rewrite Rabs_Ropp. eapply Rle_trans; [apply Rabs_triang|]. lra.
Qed.
Lemma ang x x' y y' n e e' : 0 < n -> x ^ 2 + y ^ 2 = n ^ 2 -> 0 < y * y' -> Rabs (x' - x) <= e -> e <= n / 100 -> Rabs (y' - y) <= e' -> Rabs y <= 1.5 * Rabs y' -> Rabs y' <= 1.5 * Rabs y ->
  Rabs (R_atan2 y' x' - R_atan2 y x) <= 1.03 * (e / n) + 1.55 * (e' / n).
Proof.
  intros N S YY E L E' L1 L2. destruct (Rtotal_order 0 y) as [P|[P|P]]; [|subst y; lra|].
  - assert (0 < y') by nra. rewrite !Rabs_pos_eq in L1, L2 by lra. now apply ang_up.
  - assert (y' < 0) by nra. rewrite !Rabs_left in L1, L2 by lra. rewrite (atan2_dn y'), (atan2_dn y) by lra.
    replace (- R_atan2 (- y') x' - - R_atan2 (- y) x) with (- (R_atan2 (- y') x' - R_atan2 (- y) x)) by ring. rewrite Rabs_Ropp.
    assert (S' : x ^ 2 + (- y) ^ 2 = n ^ 2) by (rewrite <- S; ring). assert (E2 : Rabs (- y' - - y) <= e') by (replace (- y' - - y) with (- (y' - y)) by ring; now rewrite Rabs_Ropp).
    apply ang_up; try assumption; lra.
Qed.

(** ** The colour in binary32 *)
Section F.
Context (lm : libm) (Tr : accurate_trig lm).
Notation N := (FN lm).
Notation l_ := (@flit (FN lm)).
Lemma fmt_2x x : fmt x -> fmt (2 * x).
Proof.
  intros Hx. destruct (FLT_format_generic radix2 (-149) 24 x Hx) as [[m e] Ex Em Ee]. cbn [Fnum Fexp] in *.
  rewrite Ex. unfold F2R. cbn [Fnum Fexp]. replace (2 * (IZR m * bpow radix2 e)) with (IZR m * bpow radix2 (e + 1)) by (rewrite bpow_plus; change (bpow radix2 1) with 2; ring).
  apply fmt_F2R; [|lia]. apply Z.lt_le_incl. exact Em.
Qed.
Lemma c3 : fin (@fsqrt N (l_ 3%dec)) /\ Rabs (B2R (@fsqrt N (l_ 3%dec)) - sqrt 3) <= u /\ 1.732 <= B2R (@fsqrt N (l_ 3%dec)) <= 1.7321.
Proof.
  assert (E : fin (@fsqrt N (l_ 3%dec)) /\ B2R (@fsqrt N (l_ 3%dec)) = 14529495 / 8388608) by f32_val. destruct E as [F E]. split; [exact F|]. rewrite E. clear E F.
  assert (P : sqrt 3 * sqrt 3 = 3) by (apply sqrt_sqrt; lra). pose proof (sqrt_pos 3) as P0. set (s := sqrt 3) in *. clearbody s. rewrite u16. split; [|lra].
  apply Rabs_le. split; nra.
Qed.
Lemma sub_e (x y : f32) M : fin x -> fin y -> Rabs (B2R x) <= M -> Rabs (B2R y) <= M -> M <= bpow radix2 122 ->
  fin (@fsub N x y) /\ B2R (@fsub N x y) = rnd (B2R x - B2R y) /\ Rabs (B2R (@fsub N x y) - (B2R x - B2R y)) <= u * Rabs (B2R x - B2R y).
Proof.
  intros Fx Fy Hx Hy HM. assert (A : Rabs (B2R x - B2R y) <= 2 * M). { unfold Rminus. eapply Rle_trans; [apply Rabs_triang|]. rewrite Rabs_Ropp. lra. }
  assert (L : 2 * bpow radix2 122 = bpow radix2 123) by (change 123%Z with (122 + 1)%Z; rewrite bpow_plus; change (bpow radix2 1) with 2; ring).
  assert (bpow radix2 123 <= bpow radix2 127) by (apply bpow_le; lia).
  destruct (sub_ok lm x y Fx Fy) as [F1 V1]; [lra|]. split; [exact F1|]. split; [exact V1|]. rewrite V1. apply (rnd_add_err _ (- B2R y)); [apply fmt_B2R|apply fmt_opp, fmt_B2R].
Qed.
Lemma f32_min (x : f32) : fin x -> B2R x <> 0 -> 2 * eta <= Rabs (B2R x).
Proof.
  intros F Z. replace (2 * eta) with (bpow radix2 (-149)).
  - apply (abs_B2R_ge_emin 24 128 x). destruct x as [s|s| |s m e b]; cbn in Z |- *; try reflexivity; try discriminate; lra.
  - unfold eta. change (-149)%Z with (1 + -150)%Z. rewrite bpow_plus. reflexivity.
Qed.
Lemma ylR d w c s Y u0 eta0 : 0 < d -> Rabs (w - d) <= u0 * Rabs d -> 0 < u0 <= / 1000 -> 1.732 <= c <= 1.7321 -> 1.732 <= s <= 1.7321 -> Rabs (c - s) <= u0 -> 2 * eta0 <= Rabs w -> Rabs (Y - c * w) <= u0 * Rabs (c * w) + eta0 ->
  0 < Y /\ Rabs (Y - s * d) <= 5.5 * u0 * d + eta0 /\ s * d <= 1.5 * Y /\ Y <= 1.5 * (s * d).
Proof.
  intros D W U C S CS H Z. rewrite (Rabs_pos_eq d) in W by lra. apply Rabs_le_inv in W.
  assert (UD : u0 * d <= / 1000 * d) by (apply Rmult_le_compat_r; lra). assert (UD0 : 0 < u0 * d) by nra.
  assert (W0 : 0 < w) by lra. rewrite (Rabs_pos_eq w) in H by lra. assert (P1 : 1.732 * w <= c * w <= 1.7321 * w) by (split; apply Rmult_le_compat_r; lra).
  assert (Q1 : 1.732 * d <= s * d <= 1.7321 * d) by (split; apply Rmult_le_compat_r; lra).
  assert (E : Rabs (c * w - s * d) <= 2.7321 * (u0 * d)).
  { replace (c * w - s * d) with (c * (w - d) + (c - s) * d) by ring. eapply Rle_trans; [apply Rabs_triang|]. rewrite !Rabs_mult, (Rabs_pos_eq c), (Rabs_pos_eq d) by lra.
    assert (c * Rabs (w - d) <= 1.7321 * (u0 * d)) by (apply Rmult_le_compat; try lra; [apply Rabs_pos|apply Rabs_le; lra]).
    assert (Rabs (c - s) * d <= u0 * d) by (apply Rmult_le_compat_r; lra). lra. }
  apply Rabs_le_inv in E. rewrite (Rabs_pos_eq (c * w)) in Z by lra. set (p := c * w) in *. clearbody p.
  assert (U1 : u0 * p <= 1.75 * (u0 * d)). { replace (1.75 * (u0 * d)) with (u0 * (1.75 * d)) by ring. apply Rmult_le_compat_l; lra. }
  apply Rabs_le_inv in Z. split; [lra|]. split; [apply Rabs_le; lra|]. lra.
Qed.
Lemma yl (g b : f32) M : fin g -> fin b -> Rabs (B2R g) <= M -> Rabs (B2R b) <= M -> M <= bpow radix2 122 -> B2R g <> B2R b ->
  let y := sqrt 3 * (B2R g - B2R b) in let y' := @fmul N (@fsqrt N (l_ 3%dec)) (@fsub N g b) in
  fin y' /\ 0 < y * B2R y' /\ Rabs (B2R y' - y) <= 5.5 * u * Rabs (B2R g - B2R b) + eta /\ Rabs y <= 1.5 * Rabs (B2R y') /\ Rabs (B2R y') <= 1.5 * Rabs y.
Proof.
  intros Fg Fb Hg Hb HM D y y'. unfold y, y'. clear y y'. pose proof u16 as U. destruct c3 as (Fc & Ec & Bc). destruct (sub_e g b M Fg Fb Hg Hb HM) as (Fw & Vw & Ew).
  assert (S3 : 1.732 <= sqrt 3 <= 1.7321). { pose proof (PHsvA.sqrt3) as [S _]. exact S. }
  assert (W0 : B2R (@fsub N g b) <> 0).
  { rewrite Vw. apply (round_plus_neq_0 radix2 fe ZnearestE (B2R g) (- B2R b)); [apply fmt_B2R|apply fmt_opp, fmt_B2R|lra]. }
  pose proof (f32_min _ Fw W0) as Hm.
  assert (A : Rabs (B2R g - B2R b) <= 2 * M). { unfold Rminus. eapply Rle_trans; [apply Rabs_triang|]. rewrite Rabs_Ropp. lra. }
  set (w := @fsub N g b) in *. set (c := @fsqrt N (l_ 3%dec)) in *. clearbody w c. set (d := B2R g - B2R b) in *. assert (D0 : d <> 0) by (unfold d; lra). clearbody d.
  assert (Aw : Rabs (B2R w) <= 4 * M). { replace (B2R w) with (d + (B2R w - d)) by ring. eapply Rle_trans; [apply Rabs_triang|]. assert (u * Rabs d <= 1 * Rabs d) by (apply Rmult_le_compat_r; [apply Rabs_pos|rewrite U; lra]). lra. }
  assert (L : 8 * bpow radix2 122 <= bpow radix2 127). { change 8 with (bpow radix2 3). rewrite <- bpow_plus. apply bpow_le. lia. }
  destruct (mul_ok lm c w Fc Fw) as [Fy Vy]. { rewrite Rabs_mult, (Rabs_pos_eq (B2R c)) by lra. apply Rle_trans with (2 * (4 * M)); [apply Rmult_le_compat; try lra; apply Rabs_pos|lra]. }
  split; [exact Fy|]. rewrite Vy. pose proof (rnd_err_abs (B2R c * B2R w)) as E.
  destruct (Rtotal_order 0 d) as [P|[P|P]]; [|congruence|].
  - destruct (ylR d (B2R w) (B2R c) (sqrt 3) (rnd (B2R c * B2R w)) u eta P Ew ltac:(rewrite U; lra) Bc S3 Ec Hm E) as (Y0 & E1 & R1 & R2).
    assert (Q1 : 0 < sqrt 3 * d) by (apply Rmult_lt_0_compat; lra). split; [apply Rmult_lt_0_compat; lra|].
    rewrite (Rabs_pos_eq d), (Rabs_pos_eq (sqrt 3 * d)), (Rabs_pos_eq (rnd _)) by lra. auto.
  - destruct (ylR (- d) (- B2R w) (B2R c) (sqrt 3) (- rnd (B2R c * B2R w)) u eta ltac:(lra)
       ltac:(replace (- B2R w - - d) with (- (B2R w - d)) by ring; rewrite !Rabs_Ropp; exact Ew) ltac:(rewrite U; lra) Bc S3 Ec ltac:(rewrite Rabs_Ropp; exact Hm)
       ltac:(replace (B2R c * - B2R w) with (- (B2R c * B2R w)) by ring; replace (- rnd (B2R c * B2R w) - - (B2R c * B2R w)) with (- (rnd (B2R c * B2R w) - B2R c * B2R w)) by ring; rewrite !Rabs_Ropp; exact E)) as (Y0 & E1 & R1 & R2).
    replace (- rnd (B2R c * B2R w) - sqrt 3 * - d) with (- (rnd (B2R c * B2R w) - sqrt 3 * d)) in E1 by ring. rewrite Rabs_Ropp in E1.
    assert (Q1 : 0 < sqrt 3 * - d) by (apply Rmult_lt_0_compat; lra).
    split. { replace (sqrt 3 * d * rnd (B2R c * B2R w)) with (sqrt 3 * - d * - rnd (B2R c * B2R w)) by ring. apply Rmult_lt_0_compat; lra. }
    rewrite (Rabs_left d), (Rabs_left (sqrt 3 * d)), (Rabs_left (rnd _)) by lra. split; [exact E1|]. lra.
Qed.
Lemma xl (r g b : f32) M : fin r -> fin g -> fin b -> 0 <= B2R r <= M -> 0 <= B2R g <= M -> 0 <= B2R b <= M -> M <= bpow radix2 120 ->
  let x := 2 * B2R r - B2R g - B2R b in let x' := @fsub N (@fsub N (@fmul N (l_ 2%dec) r) g) b in
  fin x' /\ Rabs (B2R x' - x) <= 4.001 * u * M.
Proof.
  intros Fr Fg Fb Hr Hg Hb HM x x'. unfold x, x'. clear x x'. pose proof u16 as U. destruct (l2 lm) as [F2 V2].
  assert (L : 4 * bpow radix2 120 = bpow radix2 122) by (change 4 with (bpow radix2 2); rewrite <- bpow_plus; reflexivity).
  assert (L2 : bpow radix2 122 <= bpow radix2 127) by (apply bpow_le; lia). pose proof (bpow_gt_0 radix2 120).
  destruct (mul_ok lm (l_ 2%dec) r F2 Fr) as [Fp Vp]; [rewrite V2, Rabs_pos_eq; lra|]. rewrite V2, rnd_id in Vp by apply fmt_2x, fmt_B2R.
  set (p := @fmul N _ r) in *. clearbody p.
  destruct (sub_e p g (2 * M) Fp Fg) as (Fq & _ & Eq); [rewrite Vp, Rabs_pos_eq; lra|rewrite Rabs_pos_eq; lra|lra|]. rewrite Vp in Eq. set (q := @fsub N p g) in *. clearbody q.
  assert (A1 : u * Rabs (2 * B2R r - B2R g) <= u * (2 * M)) by (apply Rmult_le_compat_l; [lra|apply Rabs_le; lra]).
  apply Rabs_le_inv in Eq. rewrite U in *.
  destruct (sub_e q b (3 * M) Fq Fb) as (Fz & _ & Ez); [apply Rabs_le; lra|apply Rabs_le; lra|lra|]. split; [exact Fz|]. set (z := @fsub N q b) in *. clearbody z. rewrite U in *.
  assert (A2 : / 16777216 * Rabs (B2R q - B2R b) <= / 16777216 * (2.0001 * M)) by (apply Rmult_le_compat_l; [lra|apply Rabs_le; lra]).
  apply Rabs_le_inv in Ez. apply Rabs_le. lra.
Qed.
Lemma norm_ge r g b : let t := V3 r g b in 3 * (max3 t - min3 t) ^ 2 <= (2 * r - g - b) ^ 2 + (sqrt 3 * (g - b)) ^ 2.
Proof.
  intros t. replace ((sqrt 3 * (g - b)) ^ 2) with (3 * (g - b) ^ 2). 2: { replace ((sqrt 3 * (g - b)) ^ 2) with ((sqrt 3 * sqrt 3) * (g - b) ^ 2) by ring. rewrite sqrt_sqrt by lra. ring. }
  pose proof (max3_in t) as A. pose proof (max3_ge t) as B. assert (C : min3 t = r \/ min3 t = g \/ min3 t = b) by (unfold min3, t; cbn [v0 v1 v2]; unfold Rmin; repeat destruct (Rle_dec _ _); auto).
  unfold t in *. cbn [v0 v1 v2] in *. destruct A as [-> |[-> | ->]]; destruct C as [-> |[-> | ->]]; 
  pose proof (pow2_ge_0 (2 * r - g - b)); pose proof (pow2_ge_0 (2 * g - r - b)); pose proof (pow2_ge_0 (2 * b - r - g)); pose proof (pow2_ge_0 (g - b)); nra.
Qed.
Lemma atan_acc (r g b : f32) : let t := V3 r g b in let M := max3 (tR t) in let D := M - min3 (tR t) in
  allV fin t -> allV (fun x => 0 <= B2R x <= bpow radix2 120) t -> bpow radix2 (-100) <= D -> M <= 65536 * D -> B2R g <> B2R b ->
  near (@fatan2 N (@fmul N (@fsqrt N (l_ 3%dec)) (@fsub N g b)) (@fsub N (@fsub N (@fmul N (l_ 2%dec) r) g) b))
    (R_atan2 (sqrt 3 * (B2R g - B2R b)) (2 * B2R r - B2R g - B2R b)) ((2.4 * (M / D) + 21) * u).
Proof.
  intros t M D (Fr & Fg & Fb) (Hr & Hg & Hb) D0 MD GB. cbn [v0 v1 v2 t] in *. pose proof u16 as U. pose proof (max3_ge (tR t)) as (M0 & M1 & M2). cbn [v0 v1 v2 t tR] in M0, M1, M2. fold t in M0, M1, M2. change (V3 (B2R r) (B2R g) (B2R b)) with (tR t) in M0, M1, M2. fold M in M0, M1, M2.
  pose proof (min3_le (tR t)) as (N0 & N1 & N2). cbn [v0 v1 v2 t tR] in N0, N1, N2. change (V3 (B2R r) (B2R g) (B2R b)) with (tR t) in N0, N1, N2.
  assert (MB : M <= bpow radix2 120). { pose proof (max3_in (tR t)) as C. fold M in C. cbn [v0 v1 v2 t tR] in C. lra. }
  assert (B100 := bpow_gt_0 radix2 (-100)). assert (Dp : 0 < D) by lra.
  destruct (xl r g b M Fr Fg Fb ltac:(lra) ltac:(lra) ltac:(lra) MB) as [Fx Ex].
  destruct (yl g b M Fg Fb) as (Fy & Sy & Ey & R1 & R2); [rewrite Rabs_pos_eq; lra|rewrite Rabs_pos_eq; lra| |exact GB|]. { apply Rle_trans with (1 := MB). apply bpow_le. lia. }
  cbv zeta in *. set (x' := @fsub N (@fsub N _ g) b) in *. set (y' := @fmul N _ (@fsub N g b)) in *. clearbody x' y'.
  set (x := 2 * B2R r - B2R g - B2R b) in *. set (y := sqrt 3 * (B2R g - B2R b)) in *.
  pose proof (norm_ge (B2R r) (B2R g) (B2R b)) as NG. cbv zeta in NG. change (V3 (B2R r) (B2R g) (B2R b)) with (tR t) in NG. fold M in NG. fold D in NG. fold x y in NG.
  set (n := sqrt (x ^ 2 + y ^ 2)). assert (P2 : 0 <= x ^ 2 + y ^ 2) by (pose proof (pow2_ge_0 x); pose proof (pow2_ge_0 y); lra).
  assert (Nn : x ^ 2 + y ^ 2 = n ^ 2) by (unfold n; rewrite pow2_sqrt by lra; reflexivity). assert (n0 : 0 <= n) by apply sqrt_pos. rewrite Nn in NG.
  assert (nD : 1.732 * D <= n). { apply Rnot_lt_le. intros C. assert (n * n < (1.732 * D) * (1.732 * D)) by (apply Rmult_le_0_lt_compat; lra). nra. }
  clearbody n. assert (E100 : eta <= / 1000000000000000 * D).
  { apply Rle_trans with (/ 1000000000000000 * bpow radix2 (-100)); [|apply Rmult_le_compat_l; lra]. unfold eta. change (-150)%Z with (-50 + -100)%Z. rewrite bpow_plus. apply Rmult_le_compat_r; [lra|]. change (bpow radix2 (-50)) with (/ 1125899906842624). lra. }
  assert (GD : Rabs (B2R g - B2R b) <= D) by (apply Rabs_le; unfold D; lra).
  assert (Ey' : Rabs (B2R y' - y) <= 5.51 * u * D). { eapply Rle_trans; [exact Ey|]. assert (u * Rabs (B2R g - B2R b) <= u * D) by (apply Rmult_le_compat_l; lra). rewrite U in *. lra. }
  pose proof (ang x (B2R x') y (B2R y') n _ _ ltac:(lra) Nn Sy Ex ltac:(rewrite U; lra) Ey' R1 R2) as An.
  destruct (tr_atan2 lm Tr y' x' Fy Fx) as [Fa Ea]. { intros Z. rewrite Z in Sy. lra. }
  split; [exact Fa|]. change (@fatan2 N y' x') with (lm_atan2f lm y' x').
  replace (B2R (lm_atan2f lm y' x') - R_atan2 y x) with ((B2R (lm_atan2f lm y' x') - R_atan2 (B2R y') (B2R x')) + (R_atan2 (B2R y') (B2R x') - R_atan2 y x)) by ring.
  eapply Rle_trans; [apply Rabs_triang|].
  assert (In : / n <= / 1.732 * / D). { rewrite <- Rinv_mult. apply Rinv_le; lra. }
  assert (M00 : 0 <= M) by lra. assert (ID := Rinv_0_lt_compat D Dp).
  assert (Q1 : 4.001 * u * M / n <= 4.001 * u * M * (/ 1.732 * / D)) by (apply Rmult_le_compat_l; [rewrite U; lra|exact In]).
  assert (Q2 : 5.51 * u * D / n <= 5.51 * u * D * (/ 1.732 * / D)) by (apply Rmult_le_compat_l; [rewrite U; lra|exact In]).
  replace (5.51 * u * D * (/ 1.732 * / D)) with (5.51 / 1.732 * u) in Q2 by (field; lra). replace (4.001 * u * M * (/ 1.732 * / D)) with (4.001 / 1.732 * (u * (M / D))) in Q1 by (field; lra).
  assert (0 <= M / D) by (apply Rmult_le_pos; lra). assert (0 <= u * (M / D)) by (apply Rmult_le_pos; [rewrite U; lra|assumption]).
  replace ((2.4 * (M / D) + 21) * u) with (2.4 * (u * (M / D)) + 21 * u) by ring. lra.
Qed.
Lemma mod_raw (x : f32) : fin x -> -190 <= B2R x <= 190 -> exists h, (forall n, mod360 N (S (S n)) x = Ret h) /\ fin h /\ 0 <= B2R h <= 360 /\
  ((0 <= B2R x /\ h = x) \/ (B2R x < 0 /\ Rabs (B2R h - (B2R x + 360)) <= 360 * u)).
Proof.
  intros F H. destruct (PHsvF.l0 lm) as [F0 V0]. destruct (l360 lm) as [F3 V3]. pose proof u16 as U. pose proof b127_big as BB. cbn [mod360]. rewrite (ltb_ok lm x) by assumption. rewrite V0. case Rlt_bool_spec; intros L.
  - assert (A : Rabs (B2R x + B2R (l_ 360%dec)) <= bpow radix2 127) by (rewrite V3, Rabs_pos_eq; lra).
    destruct (add_ok lm x (l_ 360%dec) F F3 A) as [Fs Vs]. rewrite V3 in Vs. set (z := @fadd N x _) in *.
    assert (Z : 0 <= B2R z <= 360). { rewrite Vs. split; [apply rnd_ge_fmt; [apply fmt_0|lra]|apply rnd_le_fmt; [apply (fmt_IZR 360); cbn; lia|lra]]. }
    exists z. split; [|split; [exact Fs|split; [exact Z|right; split; [exact L|]]]].
    + intros n. rewrite (ltb_ok lm z) by assumption. rewrite V0, Rlt_bool_false by lra. rewrite (ltb_ok lm _ z) by assumption. rewrite V3, Rlt_bool_false by lra. reflexivity.
    + rewrite Vs. pose proof (rnd_add_err _ _ (fmt_B2R x) (fmt_B2R (l_ 360%dec))) as E. rewrite V3 in E. eapply Rle_trans; [exact E|]. rewrite (Rmult_comm 360). apply Rmult_le_compat_l; [rewrite U; lra|]. rewrite Rabs_pos_eq; lra.
  - exists x. split; [|split; [exact F|split; [lra|left; auto]]]. intros n. rewrite (ltb_ok lm _ x) by assumption. rewrite V3, Rlt_bool_false by lra. reflexivity.
Qed.
Lemma raw_acc (a : f32) th f : near a th f -> Rabs th <= 3.15 -> 0 <= f <= 0.01 -> near (@fmul N (@fdiv N (l_ 180%dec) (@fpi N)) a) (th * 180 / PI) (57.3 * f + 460 * u).
Proof.
  intros Na T Hf. pose proof u16 as U. pose proof eta16 as Et. pose proof PI_tight as P. 
  assert (Q : 0 <= 180 / PI <= 57.3). { split; [apply Rmult_le_pos; [lra|left; apply Rinv_0_lt_compat; lra]|]. apply Rmult_le_reg_r with PI; [lra|]. unfold Rdiv. rewrite Rmult_assoc, Rinv_l by lra. lra. }
  assert (N1 := near_div lm _ _ _ _ _ _ 57.3 3.14 (near_v _ _ (l180 lm)) (near_pi lm) ltac:(rewrite Rabs_pos_eq; lra) ltac:(rewrite U; lra) ltac:(rewrite Rabs_pos_eq; lra) ltac:(cbv zeta; rewrite U; lra)).
  apply (near_le _ _ _ (85.2 * u)) in N1. 2: { rewrite U in *. assert (I : / (3.14 - 1.5 * / 16777216) <= / 3.1399) by (apply Rinv_le; lra). unfold Rdiv. lra. }
  assert (N2 := near_mul lm _ _ _ _ _ _ 57.3 3.15 N1 Na ltac:(rewrite Rabs_pos_eq; lra) T ltac:(rewrite U; nra)).
  apply near_eq with (180 / PI * th); [|field; lra]. eapply near_le; [exact N2|]. rewrite U in *. lra.
Qed.
Lemma hsv_atan_acc (t : Vector3 f32) : let M := max3 (tR t) in let D := M - min3 (tR t) in let B := (140 * (M / D) + 2100) * u in
  allV fin t -> allV (fun x => 0 <= B2R x <= bpow radix2 120) t -> bpow radix2 (-100) <= D -> M <= 65536 * D -> B2R (v1 t) <> B2R (v2 t) ->
  exists (h s v : f32) (hr sr vr : R), terminates_with (fun n => toHSV_atan N n t) (Ret (V3 h s v)) /\ allV fin (V3 h s v) /\
    terminates_with (fun n => toHSV_atan RN n (finV (tR t))) (Ret (finV (V3 hr sr vr))) /\ 0 <= B2R h <= 360 /\
    B2R v = vr /\ Rabs (B2R s - sr) <= 2.01 * u /\ (Rabs (B2R h - hr) <= B \/ Rabs (B2R h - hr + 360) <= B \/ Rabs (B2R h - hr - 360) <= B).
Proof.
  intros M D B F H D0 MD GB. destruct (hsv_accurate lm t F H) as (h0 & s & v & hr0 & sr & vr & T0 & (_ & Fs & Fv) & TR & V & HS & _).
  assert (B100 := bpow_gt_0 radix2 (-100)). assert (Dp : 0 < D) by lra. pose proof u16 as U.
  assert (Q : 0 <= M / D <= 65536). { assert (M0 : 0 <= M) by (apply Rle_trans with (B2R (v0 t)); [apply H|apply (max3_ge (tR t))]). split; [apply Rmult_le_pos; [exact M0|left; now apply Rinv_0_lt_compat]|].
    apply Rmult_le_reg_r with D; [lra|]. unfold Rdiv. rewrite Rmult_assoc, Rinv_l by lra. lra. }
  destruct t as [r g b]. pose proof (atan_acc r g b F H D0 MD GB) as A. fold M D in A. set (th := R_atan2 _ _) in A.
  assert (T : Rabs th <= 3.15). { pose proof PI_tight. pose proof (atan2_range (sqrt 3 * (B2R g - B2R b)) (2 * B2R r - B2R g - B2R b)). apply Rabs_le. unfold th. lra. }
  pose proof (raw_acc _ _ _ A T ltac:(rewrite U; lra)) as [Fx Ex]. set (x := @fmul N _ _) in Fx, Ex.
  assert (Ex' : Rabs (B2R x - th * 180 / PI) <= (138 * (M / D) + 1670) * u). { eapply Rle_trans; [exact Ex|]. rewrite U. lra. } clear Ex.
  assert (DR := deg_range (sqrt 3 * (B2R g - B2R b)) (2 * B2R r - B2R g - B2R b)). fold th in DR.
  destruct (mod_raw x Fx) as (h & Mh & Fh & Rh & Ch). { apply Rabs_le_inv in Ex'. rewrite U in Ex'. lra. }
  exists h, s, v, (hueA (tR (V3 r g b))), sr, vr. split; [|split; [repeat split; assumption|split; [|split; [exact Rh|split; [exact V|split; [exact HS|]]]]]].
  - destruct T0 as (n0 & T0). destruct (T0 (S (S n0)) ltac:(lia)) as [E _]. unfold toHSV in E. cbv zeta in E.
    exists (S (S n0)). intros [|[|n]] L; try lia. split; [|discriminate]. unfold toHSV_atan. cbv zeta. cbn [v0 v1 v2]. fold x. rewrite Mh. cbn [bind].
    destruct (mod360 N (S (S n0)) _) as [h1| | |] in E; try discriminate E. cbn [bind] in E. injection E as _ Es Ev. rewrite <- Es, <- Ev. reflexivity.
  - destruct TR as (n0 & TR). destruct (TR (S (S n0)) ltac:(lia)) as [E _]. change (finV (V3 (B2R (v0 (V3 r g b))) (B2R (v1 (V3 r g b))) (B2R (v2 (V3 r g b))))) with (finV (tR (V3 r g b))) in E. rewrite toHSV_fin in E. injection E as _ <- <-.
    exists 2%nat. intros [|[|n]] L; try lia. split; [apply toHSV_atan_fin|discriminate].
  - change (hueA (tR (V3 r g b))) with (cie_hue (2 * B2R r - B2R g - B2R b) (sqrt 3 * (B2R g - B2R b))). unfold cie_hue. fold th.
    assert (L : (138 * (M / D) + 1670) * u + 360 * u <= B) by (unfold B; rewrite U; lra). apply Rabs_le_inv in Ex'. clearbody B. clear - Ch Ex' L U Q.
    set (e := (138 * (M / D) + 1670) * u) in *. clearbody e. rewrite U in *.
    destruct Ch as [[C1 ->]|[C1 C2]]; destruct (Rlt_dec (th * 180 / PI) 0) as [P|P].
    + right; left. apply Rabs_le. lra.
    + left. apply Rabs_le. lra.
    + left. apply Rabs_le_inv in C2. apply Rabs_le. lra.
    + right; right. apply Rabs_le_inv in C2. apply Rabs_le. lra.
Qed.
End F.
Lemma atan_case : (exists lm, accurate_trig lm) /\ let t := V3 (lit 24 128 p24 p24e 1%dec) (lit 24 128 p24 p24e 0.25%dec) (lit 24 128 p24 p24e 0.5%dec) in
  allV fin t /\ allV (fun x => 0 <= B2R x <= bpow radix2 120) t /\ bpow radix2 (-100) <= max3 (tR t) - min3 (tR t) /\
  max3 (tR t) <= 65536 * (max3 (tR t) - min3 (tR t)) /\ B2R (v1 t) <> B2R (v2 t).
Proof.
  split; [destruct accurate_trig_exists as (lm & _ & H); now exists lm|]. intros t.
  assert (A : fin (v0 t) /\ B2R (v0 t) = 1) by f32_val. assert (B : fin (v1 t) /\ B2R (v1 t) = 0.25) by f32_val. assert (C : fin (v2 t) /\ B2R (v2 t) = 0.5) by f32_val.
  assert (T : tR t = V3 1 0.25 0.5) by (unfold tR; f_equal; [apply A|apply B|apply C]).
  assert (M : max3 (tR t) = 1) by (rewrite T; unfold max3; cbn [v0 v1 v2]; unfold Rmax; repeat destruct (Rle_dec _ _); lra).
  assert (m : min3 (tR t) = 0.25) by (rewrite T; unfold min3; cbn [v0 v1 v2]; unfold Rmin; repeat destruct (Rle_dec _ _); lra).
  rewrite M, m. pose proof (bpow_le radix2 0 120 ltac:(lia)) as L1. pose proof (bpow_le radix2 (-100) (-1) ltac:(lia)) as L2. change (bpow radix2 0) with 1 in L1. change (bpow radix2 (-1)) with (/ 2) in L2.
  destruct A as [A A'], B as [B B'], C as [C C']. split; [repeat split; assumption|]. split.
  - repeat split; [rewrite A'|rewrite A'|rewrite B'|rewrite B'|rewrite C'|rewrite C']; lra.
  - split; [lra|]. split; [lra|]. intros Z. assert (0.25 = 0.5) by (rewrite <- B', <- C'; exact Z). lra.
Qed.
