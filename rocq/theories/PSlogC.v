(** * S-Log and S-Log2 integer codes through decoder and encoder, in binary32. *)
From Coq Require Import ZArith QArith Qreals Reals Lra Lia List Bool.
From Flocq Require Import Core IEEE754.BinarySingleNaN.
From Verif Require Import Num NumR NumF MVec MTri MOtf RTac F32 F64 RPow RExp PHsvF PLibm PPowF PNearF PNearF2 PRelF POtf POtf2 POtfF POtfF2 PCodes SpecOtf PSlogF.
Local Open Scope R_scope.

Lemma lg_115 : lg 11.5 <= 1.067.
Proof.
  pose proof ln10_bounds. unfold lg. apply Rdiv_le_r; [lra|]. replace 11.5 with (10 * 1.15) by lra. rewrite ln_mult by lra. pose proof (ln_le_sub 1.15 ltac:(lra)). lra.
Qed.
Lemma lg_range2 a : 0.037584 <= a <= 11.5 -> -1.43 <= lg a <= 1.067.
Proof. intros H. pose proof lg_037. pose proof lg_115. pose proof (lg_mono 0.037584 a ltac:(lra) ltac:(lra)). pose proof (lg_mono a 11.5 ltac:(lra) ltac:(lra)). lra. Qed.
Lemma lg_pert a b k : 0 < a -> Rabs (b - a) <= k * a -> k <= / 1000 -> Rabs (lg b - lg a) <= 0.44 * k.
Proof.
  intros A B K. pose proof ln10_bounds as T. assert (K0 : 0 <= k). { pose proof (Rabs_pos (b - a)). nra. }
  apply Rabs_le_inv in B. assert (B0 : 0 < b) by nra.
  assert (E : lg b - lg a = ln (b / a) / ln 10) by (unfold lg; rewrite ln_div by assumption; lra). rewrite E.
  assert (Q : 1 - k <= b / a <= 1 + k).
  { split; apply Rmult_le_reg_r with a; try lra; unfold Rdiv; rewrite ?Rmult_assoc, ?Rinv_l by lra; lra. }
  assert (L : - 1.002 * k <= ln (b / a) <= k).
  { split.
    - pose proof (ln_le_sub (/ (b / a)) ltac:(apply Rinv_0_lt_compat; lra)) as X. rewrite ln_Rinv in X by lra.
      assert (/ (b / a) <= / (1 - k)) by (apply Rinv_le; lra). assert (/ (1 - k) <= 1 + 1.002 * k).
      { apply Rmult_le_reg_r with (1 - k); [lra|]. rewrite Rinv_l by lra. nra. } lra.
    - pose proof (ln_le_sub (b / a) ltac:(lra)). lra. }
  assert (I : 0 < / ln 10 <= 0.4348). { split; [apply Rinv_0_lt_compat; lra|]. apply Rmult_le_reg_r with (ln 10); [lra|]. rewrite Rinv_l by lra. lra. }
  unfold Rdiv at 1. apply Rabs_le. split; nra.
Qed.
Lemma sony_slog_le a b : - 0.037584 < a -> a <= b -> sony_slog a <= sony_slog b.
Proof. intros A B. unfold sony_slog. pose proof (lg_mono (a + 0.037584) (b + 0.037584) ltac:(lra) ltac:(lra)). lra. Qed.
Lemma slog_inv_lo c : - 0.037584 < sony_slog_inv c.
Proof. unfold sony_slog_inv. pose proof (Rpower_pos 10 ((c - 0.616596 - 0.03) / 0.432699)). lra. Qed.
Lemma sony_slog_rt2 c : sony_slog (sony_slog_inv c) = c.
Proof.
  unfold sony_slog, sony_slog_inv, lg. set (e := (c - 0.616596 - 0.03) / 0.432699). replace (Rpower 10 e - 0.037584 + 0.037584) with (Rpower 10 e) by lra.
  unfold Rpower. rewrite ln_exp. pose proof ln10_bounds. replace (e * ln 10 / ln 10) with e by (field; lra). unfold e. lra.
Qed.
(** encoding the clipped decoded value: the code itself, or black. *)
Lemma slog_black c : sony_slog (Rmax 0 (sony_slog_inv c)) = Rmax (sony_slog 0) c.
Proof.
  pose proof (slog_inv_lo c). pose proof (sony_slog_rt2 c) as E. unfold Rmax at 1. destruct (Rle_dec 0 (sony_slog_inv c)) as [L|L].
  - rewrite E, Rmax_right; [reflexivity|]. rewrite <- E. apply sony_slog_le; lra.
  - rewrite Rmax_left; [reflexivity|]. rewrite <- E. apply sony_slog_le; lra.
Qed.
Lemma clip10_near x v e : Rabs (x - v) <= e -> v <= 10 -> Rabs (clip10 x - Rmax 0 v) <= e.
Proof. intros H V. apply Rabs_le_inv in H. unfold clip10, Rmax, Rmin. repeat destruct (Rle_dec _ _); apply Rabs_le; lra. Qed.

Section F.
Context (lm : libm) (Acc : accurate lm).
Notation N := (FN lm).
Lemma slog_codes_err (c : f32) : fin c -> 0 <= B2R c <= 1 ->
  near (Y_to_SLog N (SLog_to_Y N c)) (Rmax (sony_slog 0) (B2R c)) (9 * u).
Proof.
  intros F H. pose proof u16 as U. destruct (slog_dec_near lm Acc c F ltac:(lra)) as [Fd Vd]. destruct (slog_enc_near lm Acc _ Fd) as [Fe Ve].
  split; [exact Fe|]. rewrite <- slog_black. set (d := B2R (SLog_to_Y N c)) in *. set (v := sony_slog_inv (B2R c)) in *.
  pose proof (slog_inv_lo (B2R c)) as V0. fold v in V0. assert (V1 : v <= 10).
  { unfold v, sony_slog_inv. pose proof (ten_le ((B2R c - 0.616596 - 0.03) / 0.432699) 1 ltac:(lra)) as T. rewrite Rpower_1 in T by lra. lra. }
  pose proof (clip10_near d v _ Vd V1) as C. set (w := Rmax 0 v) in *.
  assert (W : v <= w /\ 0 <= w) by (unfold w, Rmax; destruct (Rle_dec 0 v); lra).
  pose proof (lg_pert (w + 0.037584) (clip10 d + 0.037584) (18.4 * u)) as P. 
  assert (X : Rabs (lg (clip10 d + 0.037584) - lg (w + 0.037584)) <= 0.44 * (18.4 * u)).
  { apply P; [lra| |rewrite U; lra]. replace (clip10 d + 0.037584 - (w + 0.037584)) with (clip10 d - w) by lra. eapply Rle_trans; [exact C|]. rewrite U; lra. }
  unfold sony_slog in *. set (l1 := lg (clip10 d + 0.037584)) in *. set (l2 := lg (w + 0.037584)) in *.
  apply Rabs_le_inv in X. apply Rabs_le_inv in Ve. apply Rabs_le. rewrite U in *. lra.
Qed.
Lemma slog_codes k M : (0 <= k <= M)%Z -> (0 < M <= 2 ^ 19)%Z ->
  Rabs (IZR M * B2R (Y_to_SLog N (SLog_to_Y N (code lm k M))) - Rmax (IZR M * sony_slog 0) (IZR k)) < / 2.
Proof.
  intros K HM. destruct (code_ok lm k M K ltac:(lia)) as (Fc & _ & Q & C & E). set (c := code lm k M) in *. pose proof u16 as U.
  destruct (slog_codes_err c Fc C) as [_ V]. set (y := B2R (Y_to_SLog N _)) in *.
  assert (M1 : 1 <= IZR M <= 524288) by (split; apply IZR_le; lia).
  assert (X : Rmax (IZR M * sony_slog 0) (IZR k) = IZR M * Rmax (sony_slog 0) (IZR k / IZR M)).
  { rewrite <- RmaxRmult by lra. f_equal. field. lra. }
  rewrite X. assert (Y : Rabs (y - Rmax (sony_slog 0) (IZR k / IZR M)) <= 10 * u).
  { apply Rabs_le_inv in E. apply Rabs_le_inv in V. apply Rabs_le. revert V. unfold Rmax. repeat destruct (Rle_dec _ _); rewrite U in *; lra. }
  replace (IZR M * y - IZR M * Rmax (sony_slog 0) (IZR k / IZR M)) with (IZR M * (y - Rmax (sony_slog 0) (IZR k / IZR M))) by lra.
  rewrite Rabs_mult, (Rabs_pos_eq (IZR M)) by lra. rewrite U in Y. pose proof (Rabs_pos (y - Rmax (sony_slog 0) (IZR k / IZR M))). nra.
Qed.
(** ** S-Log2, over the whole range of its codes *)
Lemma slog_core2 (a : f32) r k : near a r (k * r) -> 0.037584 <= r <= 11.5 -> 0 <= k <= 4 * u ->
  near (@fmul N (@flit N 0.432699%dec) (@flog10 N a)) (0.432699 * lg r) (3.3 * u + 0.22 * k).
Proof.
  intros Ha Hr Hk. pose proof u16 as U. pose proof eta16 as E. pose proof (lg_range2 r Hr) as L. set (l := lg r) in *.
  assert (L1 : near (@flog10 N a) l (5.73 * u + 0.502 * k)).
  { eapply near_le; [apply (near_log10 lm Acc _ _ _ 1.43 Ha)|].
    - lra.
    - rewrite U in *; lra.
    - change (log10R r) with l. apply Rabs_le; lra.
    - rewrite U in *; lra. }
  eapply near_le; [apply (near_mul lm _ _ 0.432699 l (0.09 * u) (5.73 * u + 0.502 * k) 0.432699 1.43)|].
  - flit_near.
  - exact L1.
  - rewrite Rabs_pos_eq; lra.
  - apply Rabs_le; lra.
  - rewrite U in *; lra.
  - rewrite U in *; nra.
Qed.
Lemma slog2_arg2 (x : f32) : fin x -> 0 <= B2R x <= 16 ->
  let r := 155 * B2R x / 219 + 0.037584 in
  near (@fadd N (@fdiv N (@fmul N (@flit N 155.0%dec) x) (@flit N 219.0%dec)) (@flit N 0.037584%dec)) r (3.1 * u * r).
Proof.
  intros F H r. pose proof u16 as U. pose proof eta16 as E. set (v := B2R x) in *. pose proof F32.eta_pos as E0.
  assert (A : near (@fmul N (@flit N 155.0%dec) x) (155 * v) (u * (155 * v) + eta)).
  { eapply near_le; [apply (near_mul lm _ _ 155 v 0 0 155 v (l155 lm))|].
    - apply near_self, F.
    - rewrite Rabs_pos_eq; lra.
    - rewrite Rabs_pos_eq; lra.
    - lra.
    - lra. }
  assert (B : near (@fdiv N (@fmul N (@flit N 155.0%dec) x) (@flit N 219.0%dec)) (155 * v / 219) (2.01 * u * (155 * v / 219) + 2 * eta)).
  { eapply near_le; [apply (near_div lm _ _ _ 219 _ 0 (155 * v / 219) 219 A (l219 lm))|].
    - rewrite Rabs_pos_eq; lra.
    - lra.
    - rewrite Rabs_pos_eq; lra.
    - rewrite U in *; lra.
    - rewrite U in *; lra. }
  eapply near_le; [apply (near_add lm _ _ _ 0.037584 _ (0.0112 * u) r B)|].
  - flit_near.
  - unfold r. rewrite Rabs_pos_eq; lra.
  - unfold r. rewrite U in *; lra.
  - unfold r. rewrite U in *; lra.
Qed.
Lemma slog2_enc_near2 (x : f32) : fin x -> 0 <= B2R x <= 16 -> near (Y_to_SLog2 N x) (legal (sony_slog2 (B2R x))) (8 * u).
Proof.
  intros F H. pose proof u16 as U. pose proof eta16 as E. pose proof (slog2_arg2 x F H) as A. cbv zeta in A. destruct (l0 lm) as [F0 V0].
  unfold Y_to_SLog2, IRE_to_CV_SLog2. rewrite ltb_ok by assumption. rewrite V0, Rlt_bool_false by lra. set (v := B2R x) in *.
  unfold sony_slog2. destruct (Rle_dec 0 v) as [V|V]; [|lra]. set (r := 155 * v / 219 + 0.037584) in *. assert (R : 0.037584 <= r <= 11.5) by (unfold r; lra).
  pose proof (slog_core2 _ r (3.1 * u) A R ltac:(rewrite U; lra)) as M. pose proof (lg_range2 r R) as L. set (l := lg r) in *.
  eapply near_le; [eapply near_eq; [apply (near_add lm _ _ ((0.432699 * l + 0.616596 + 0.03) * 0.85546875) 0.0625 (6.7 * u) 0 1.02)|unfold legal; lra]|].
  - eapply near_le; [apply (near_mul lm _ _ (0.432699 * l + 0.616596 + 0.03) 0.85546875 (6.56 * u) 0 1.11 0.85546875)|].
    + eapply near_le; [apply (near_add lm _ _ (0.432699 * l + 0.616596) 0.03 (5.4 * u) (0.0113 * u) 1.11)|].
      * eapply near_le; [apply (near_add lm _ _ (0.432699 * l) 0.616596 (4 * u) (0.277 * u) 1.08)|].
        -- eapply near_le; [exact M|rewrite U; lra].
        -- flit_near.
        -- apply Rabs_le; lra.
        -- rewrite U; lra.
        -- rewrite U in *; lra.
      * flit_near.
      * apply Rabs_le; lra.
      * rewrite U; lra.
      * rewrite U in *; lra.
    + exact (lwv lm).
    + apply Rabs_le; lra.
    + rewrite Rabs_pos_eq; lra.
    + rewrite U; lra.
    + rewrite U in *; lra.
  - exact (lbk lm).
  - apply Rabs_le; lra.
  - rewrite U; lra.
  - rewrite U in *; lra.
Qed.
Lemma slog2_dec_pos (c : f32) : 0 <= B2R (SLog2_to_Y N c) \/ ~ fin (SLog2_to_Y N c).
Proof.
  destruct (l0 lm) as [F0 V0]. unfold SLog2_to_Y. cbv zeta. set (z := if @fleb N _ _ then _ else _). destruct (@fltb N (@flit N 0%dec) z) eqn:B; [|left; rewrite V0; lra].
  destruct (is_finite z) eqn:Fz; [|right; intros F; unfold fin in F; congruence]. left. change (is_finite z = true) in Fz.
  rewrite ltb_ok in B by assumption. rewrite V0 in B. apply Rlt_le. revert B. case Rlt_bool_spec; [auto|discriminate].
Qed.
Lemma slog2_codes_err (c : f32) : fin c -> 0 <= B2R c <= 1 ->
  near (Y_to_SLog2 N (SLog2_to_Y N c)) (Rmax (legal (sony_slog 0)) (B2R c)) (13.5 * u).
Proof.
  intros F H. pose proof u16 as U. destruct (slog2_dec_near lm Acc c F H) as [Fd Vd]. cbv zeta in Vd. set (d := SLog2_to_Y N c) in *.
  assert (D0 : 0 <= B2R d) by (destruct (slog2_dec_pos c) as [X|X]; [exact X|elim X; exact Fd]).
  set (y := unlegal (B2R c)) in *. pose proof (s2inv y) as I. set (v := Rmax 0 (sony_slog2_inv y)) in *.
  assert (SP : spow y = 219 * sony_slog_inv y / 155) by reflexivity. set (p := Rmax 0 (sony_slog_inv y)).
  assert (PP : Rmax 0 (spow y) = 219 * p / 155) by (rewrite SP; unfold p, Rmax; repeat destruct (Rle_dec _ _); lra). rewrite PP in I.
  assert (P0 : 0 <= p) by (unfold p, Rmax; destruct (Rle_dec _ _); lra).
  assert (Y1 : y <= 1.0959) by (unfold y, unlegal; lra).
  assert (P1 : p <= 11.2).
  { unfold p. apply Rmax_lub; [lra|]. unfold sony_slog_inv. pose proof (ten_le ((y - 0.616596 - 0.03) / 0.432699) (1 + 0.0386) ltac:(lra)) as T.
    rewrite Rpower_plus, Rpower_1 in T by lra. pose proof ln10_bounds as L10. unfold Rpower at 2 in T. pose proof (exp_near (0.0386 * ln 10)) as X. rewrite (Rabs_pos_eq (0.0386 * ln 10)) in X by lra. specialize (X ltac:(lra)). apply Rabs_le_inv in X. nra. }
  assert (D1 : B2R d <= 16) by (apply Rabs_le_inv in Vd; rewrite U in *; lra).
  destruct (slog2_enc_near2 d Fd (conj D0 D1)) as [Fe Ve]. split; [exact Fe|].
  assert (E1 : sony_slog2 (B2R d) = sony_slog (155 * B2R d / 219)) by (unfold sony_slog2, sony_slog; destruct (Rle_dec 0 (B2R d)); lra). rewrite E1 in Ve.
  assert (X : Rabs (lg (155 * B2R d / 219 + 0.037584) - lg (p + 0.037584)) <= 0.44 * (33.1 * u)).
  { apply lg_pert; [lra| |rewrite U; lra]. apply Rabs_le_inv in Vd. apply Rabs_le. rewrite U in *. lra. }
  assert (E2 : Rmax (legal (sony_slog 0)) (B2R c) = legal (sony_slog p)).
  { unfold p. rewrite slog_black. assert (B2R c = legal y) as -> by (unfold legal, y, unlegal; lra). unfold legal, Rmax. repeat destruct (Rle_dec _ _); lra. }
  rewrite E2. unfold legal, sony_slog in *. set (l1 := lg (155 * B2R d / 219 + 0.037584)) in *. set (l2 := lg (p + 0.037584)) in *.
  apply Rabs_le_inv in X. apply Rabs_le_inv in Ve. apply Rabs_le. rewrite U in *. lra.
Qed.
Lemma codes_max (x : f32) c b k M K : (0 < M)%Z -> IZR M * ((K + 1) * u) < / 2 -> Rabs (c - IZR k / IZR M) <= u -> near x (Rmax b c) (K * u) ->
  Rabs (IZR M * B2R x - Rmax (IZR M * b) (IZR k)) < / 2.
Proof.
  intros HM HK E [_ V]. pose proof F32.u_pos as U. set (y := B2R x) in *. assert (M1 : 0 < IZR M) by (apply IZR_lt; lia).
  assert (X : Rmax (IZR M * b) (IZR k) = IZR M * Rmax b (IZR k / IZR M)) by (rewrite <- RmaxRmult by lra; f_equal; field; lra).
  rewrite X. assert (Y : Rabs (y - Rmax b (IZR k / IZR M)) <= (K + 1) * u).
  { apply Rabs_le_inv in E. apply Rabs_le_inv in V. apply Rabs_le. revert V. unfold Rmax. repeat destruct (Rle_dec _ _); lra. }
  replace (IZR M * y - IZR M * Rmax b (IZR k / IZR M)) with (IZR M * (y - Rmax b (IZR k / IZR M))) by lra.
  rewrite Rabs_mult, (Rabs_pos_eq (IZR M)) by lra. eapply Rle_lt_trans; [apply Rmult_le_compat_l; [lra|exact Y]|exact HK].
Qed.
Lemma slog2_codes k M : (0 <= k <= M)%Z -> (0 < M <= 2 ^ 19)%Z ->
  Rabs (IZR M * B2R (Y_to_SLog2 N (SLog2_to_Y N (code lm k M))) - Rmax (IZR M * legal (sony_slog 0)) (IZR k)) < / 2.
Proof.
  intros K HM. destruct (code_ok lm k M K ltac:(lia)) as (Fc & _ & Q & C & E). pose proof u16 as U.
  apply (codes_max _ (B2R (code lm k M)) _ _ _ 13.5); [lia| |exact E|exact (slog2_codes_err _ Fc C)].
  assert (M1 : IZR M <= 524288) by (apply IZR_le; lia). rewrite U. lra.
Qed.
(** ** The levels that come out: black is code 30.69 of 1023 (S-Log) and 90.19 of 1023 (S-Log2). *)
Lemma slog_black_val : 0.0300012 <= sony_slog 0 <= 0.0300013.
Proof.
  unfold sony_slog, lg. replace (0 + 0.037584) with 0.037584 by lra. pose proof ln10_sharp as T.
  assert (A : - Q2R (Qmake 32811769 10000000) <= ln (Q2R (Qmake 37584 1000000))) by (lnbound 4%nat 22%nat).
  assert (B : ln (Q2R (Qmake 37584 1000000)) <= - Q2R (Qmake 32811767 10000000)) by (lnbound 4%nat 22%nat).
  replace (Q2R (Qmake 32811769 10000000)) with 3.2811769 in A by (unfold Q2R; cbn; lra). replace (Q2R (Qmake 32811767 10000000)) with 3.2811767 in B by (unfold Q2R; cbn; lra).
  replace (Q2R (Qmake 37584 1000000)) with 0.037584 in * by (unfold Q2R; cbn; lra). set (l := ln 0.037584) in *.
  assert (D : - 1.42499703 <= l / ln 10 <= - 1.42499693).
  { split; apply Rmult_le_reg_r with (ln 10); try lra; unfold Rdiv; rewrite Rmult_assoc, Rinv_l by lra; lra. }
  lra.
Qed.
Lemma slog_codes_split k M : (0 <= k <= M)%Z -> (0 < M <= 2 ^ 19)%Z -> let r := IZR M * B2R (Y_to_SLog N (SLog_to_Y N (code lm k M))) in
  (0.0300013 * IZR M <= IZR k -> Rabs (r - IZR k) < / 2) /\ (IZR k <= 0.0300012 * IZR M -> 0.0300012 * IZR M - / 2 < r < 0.0300013 * IZR M + / 2).
Proof.
  intros K HM r. pose proof (slog_codes k M K HM) as H. fold r in H. pose proof slog_black_val as B. assert (M1 : 0 < IZR M) by (apply IZR_lt; lia).
  assert (X : 0.0300012 * IZR M <= IZR M * sony_slog 0 <= 0.0300013 * IZR M) by nra. split; intros L.
  - rewrite Rmax_right in H by lra. exact H.
  - rewrite Rmax_left in H by lra. apply Rabs_lt_inv in H. lra.
Qed.
Lemma slog2_codes_split k M : (0 <= k <= M)%Z -> (0 < M <= 2 ^ 19)%Z -> let r := IZR M * B2R (Y_to_SLog2 N (SLog2_to_Y N (code lm k M))) in
  (0.0881652 * IZR M <= IZR k -> Rabs (r - IZR k) < / 2) /\ (IZR k <= 0.088165 * IZR M -> 0.088165 * IZR M - / 2 < r < 0.0881652 * IZR M + / 2).
Proof.
  intros K HM r. pose proof (slog2_codes k M K HM) as H. fold r in H. pose proof slog_black_val as B. assert (M1 : 0 < IZR M) by (apply IZR_lt; lia).
  assert (X0 : 0.088165 <= legal (sony_slog 0) <= 0.0881652) by (unfold legal; lra).
  assert (X : 0.088165 * IZR M <= IZR M * legal (sony_slog 0) <= 0.0881652 * IZR M) by nra. split; intros L.
  - rewrite Rmax_right in H by lra. exact H.
  - rewrite Rmax_left in H by lra. apply Rabs_lt_inv in H. lra.
Qed.
(** ** S-Log3: the linear part survives, the logarithmic part does not. *)
Lemma s3e_lo2 (x : f32) : fin x -> -0.0141 <= B2R x <= 0.012 ->
  near (@fdiv N (@fadd N (@fdiv N (@fmul N x (@fsub N (@flit N 171.2102946929%dec) (@flit N 95%dec))) (@flit N 0.01125%dec)) (@flit N 95%dec)) (@flit N 1023%dec)) ((B2R x * 76.2102946929 / 0.01125 + 95) / 1023) (0.75 * u).
Proof.
  intros F H. pose proof u16 as U. pose proof eta16 as E. set (v := B2R x) in *.
  eapply near_le; [apply (near_div lm _ _ (v * 76.2102946929 / 0.01125 + 95) 1023 (490 * u) 0 0.173 1023)|].
  - eapply near_le; [apply (near_add lm _ _ (v * 76.2102946929 / 0.01125) 95 (310 * u) 0 176.3)|].
    + eapply near_le; [apply (near_div lm _ _ (v * 76.2102946929) 0.01125 (1.6 * u) (0.0076 * u) 96 0.01125)|].
      * eapply near_le; [apply (near_mul lm _ _ v 76.2102946929 0 (32.6 * u) 0.0141 76.2102946929)|].
        -- apply near_self, F.
        -- exact (l76 lm).
        -- apply Rabs_le; lra.
        -- rewrite Rabs_pos_eq; lra.
        -- rewrite U; lra.
        -- rewrite U in *; lra.
      * flit_near.
      * rewrite Rabs_pos_eq; lra.
      * rewrite U; lra.
      * apply Rabs_le; lra.
      * rewrite U; lra.
      * rewrite U in *; lra.
    + exact (l95 lm).
    + apply Rabs_le; lra.
    + rewrite U; lra.
    + rewrite U in *; lra.
  - exact (l1023 lm).
  - rewrite Rabs_pos_eq; lra.
  - lra.
  - apply Rabs_le; lra.
  - rewrite U; lra.
  - rewrite U in *; lra.
Qed.
Lemma slog3_lo_err (c : f32) : fin c -> 0 <= B2R c <= 171.2 / 1023 -> near (Y_to_SLog3 N (SLog3_to_Y N c)) (B2R c) (1.4 * u).
Proof.
  intros F H. pose proof u16 as U. destruct (lthr3 lm) as [Ft Vt]. apply Rabs_le_inv in Vt. destruct (knee3 lm) as [Fk Vk].
  destruct (s3_lo_near lm c F ltac:(lra)) as [Fd Vd].
  assert (E : SLog3_to_Y N c = @narrow N (@ddiv N (@dmul N (@widen N (@fsub N (@fmul N c (@flit N 1023%dec)) (@flit N 95%dec))) (@dlit N 0.01125%dec)) (@widen N (@fsub N (@flit N 171.2102946929%dec) (@flit N 95%dec))))).
  { unfold SLog3_to_Y. rewrite ltb_ok by assumption. rewrite Rlt_bool_false; [reflexivity|]. rewrite U in *; lra. }
  rewrite <- E in Fd, Vd. set (d := SLog3_to_Y N c) in *. clearbody d. clear E. apply Rabs_le_inv in Vd. unfold s3lo in Vd.
  destruct (s3e_lo2 d Fd ltac:(rewrite U in *; lra)) as [Fe Ve]. unfold Y_to_SLog3. rewrite ltb_ok by assumption. rewrite Vk, Rlt_bool_false by (rewrite U in *; lra).
  split; [exact Fe|]. apply Rabs_le_inv in Ve. apply Rabs_le. rewrite U in *. lra.
Qed.
Lemma slog3_lo_codes k M : (0 <= k <= M)%Z -> (0 < M <= 2 ^ 21)%Z -> 1023 * IZR k <= 171 * IZR M ->
  Rabs (IZR M * B2R (Y_to_SLog3 N (SLog3_to_Y N (code lm k M))) - IZR k) < / 2.
Proof.
  intros K HM L. destruct (code_ok lm k M K ltac:(lia)) as (Fc & _ & Q & C & E). pose proof u16 as U.
  assert (M1 : 1 <= IZR M <= 2097152) by (split; apply IZR_le; lia).
  assert (Q1 : IZR k / IZR M <= 171 / 1023). { apply Rmult_le_reg_r with (IZR M); [lra|]. unfold Rdiv at 1. rewrite Rmult_assoc, Rinv_l by lra. lra. }
  destruct (slog3_lo_err _ Fc) as [_ V]. { apply Rabs_le_inv in E. rewrite U in *; lra. }
  apply (code_half _ _ _ (2.4 * u)); [lia| |rewrite U; lra]. apply Rabs_le_inv in E. apply Rabs_le_inv in V. apply Rabs_le. lra.
Qed.
Lemma lg_261 : 2.41 <= lg 261.5 <= 2.42.
Proof.
  pose proof ln10_sharp as T. unfold lg.
  assert (A : - Q2R (Qmake 5567 1000) <= ln (Q2R (Qmake 2 523))) by (lnbound 8%nat 12%nat).
  assert (B : ln (Q2R (Qmake 2 523)) <= - Q2R (Qmake 5566 1000)) by (lnbound 8%nat 12%nat).
  assert (E : ln (Q2R (Qmake 2 523)) = - ln 261.5) by (rewrite <- ln_Rinv by lra; f_equal; unfold Q2R; cbn; lra). rewrite E in A, B.
  assert (QA : Q2R (Qmake 5567 1000) = 5.567) by (unfold Q2R; cbn; lra). assert (QB : Q2R (Qmake 5566 1000) = 5.566) by (unfold Q2R; cbn; lra).
  split; apply Rmult_le_reg_r with (ln 10); try lra; unfold Rdiv; rewrite ?Rmult_assoc, ?Rinv_l by lra; lra.
Qed.
Lemma ten_2306 : Rpower 10 2.306 <= 210.
Proof.
  pose proof ln10_sharp as T. unfold Rpower. rewrite <- (exp_ln 210) by lra. assert (L : 2.306 * ln 10 <= ln 210); [|destruct L as [L|L]; [apply Rlt_le, exp_increasing, L|rewrite L; lra]].
  assert (B : ln (Q2R (Qmake 1 210)) <= - Q2R (Qmake 534 100)) by (lnbound 8%nat 12%nat).
  assert (E : ln (Q2R (Qmake 1 210)) = - ln 210) by (rewrite <- ln_Rinv by lra; f_equal; unfold Q2R; cbn; lra). rewrite E in B.
  assert (QB : Q2R (Qmake 534 100) = 5.34) by (unfold Q2R; cbn; lra). lra.
Qed.
Lemma ten_0951 : 0.111848 <= Rpower 10 (- (0.95136)).
Proof.
  pose proof ln10_sharp as T. unfold Rpower. rewrite <- (exp_ln 0.111848) by lra. assert (L : ln 0.111848 <= - (0.95136) * ln 10); [|destruct L as [L|L]; [apply Rlt_le, exp_increasing, L|rewrite <- L; lra]].
  assert (B : ln (Q2R (Qmake 111848 1000000)) <= - Q2R (Qmake 219061 100000)) by (lnbound 4%nat 16%nat).
  replace 0.111848 with (Q2R (Qmake 111848 1000000)) by (unfold Q2R; cbn; lra). assert (Q2R (Qmake 219061 100000) = 2.19061) by (unfold Q2R; cbn; lra). lra.
Qed.
Lemma lg_ten e : lg (Rpower 10 e) = e.
Proof. pose proof ln10_bounds. unfold lg, Rpower. rewrite ln_exp. field. lra. Qed.
Lemma lg_mul a b : 0 < a -> 0 < b -> lg (a * b) = lg a + lg b.
Proof. intros. unfold lg. rewrite ln_mult by assumption. lra. Qed.
Lemma slog3_hi_err (c : f32) : fin c -> 171.22 / 1023 <= B2R c <= 1 ->
  near (Y_to_SLog3 N (SLog3_to_Y N c)) ((420 + lg 261.5 + (1023 * B2R c - 420) / 261.5) / 1023) (u * 1).
Proof.
  intros F H. pose proof u16 as U. destruct (slog3_dec_near lm Acc c F ltac:(lra)) as [Fd Vd]. set (d := SLog3_to_Y N c) in *. clearbody d.
  unfold sony_dec in Vd. destruct (Rlt_dec (171.2102946929 / 1023) (B2R c)) as [_|X]; [|lra]. set (e := (B2R c * 1023 - 420) / 261.5) in *.
  assert (He : -0.95136 <= e <= 2.306) by (unfold e; lra). pose proof (ten_le e 2.306 ltac:(lra)) as T1. pose proof (ten_le (- (0.95136)) e ltac:(lra)) as T0.
  pose proof ten_2306 as T2. pose proof ten_0951 as T3. pose proof (lg_ten e) as LT. set (p := Rpower 10 e) in *. clearbody p.
  rewrite (Rabs_pos_eq (p * 0.19 - 0.01)) in Vd by lra. apply Rabs_le_inv in Vd.
  destruct (knee3 lm) as [Fk Vk]. unfold Y_to_SLog3. rewrite ltb_ok by assumption. rewrite Vk, Rlt_bool_true by (rewrite U in *; lra).
  destruct (s3e_hi lm Acc d Fd ltac:(rewrite U in *; lra)) as [Fe Ve]. split; [exact Fe|]. revert Ve. set (y := B2R (@fdiv N _ _)). clearbody y. intro Ve.
  unfold slog3_enc_code in Ve. change (log10 ((B2R d + 0.01) / 0.19 * 261.5)) with (lg ((B2R d + 0.01) / 0.19 * 261.5)) in Ve.
  rewrite lg_mul in Ve by (rewrite ?U in *; lra).
  pose proof (lg_pert p ((B2R d + 0.01) / 0.19) (32 * u)) as P.
  assert (Q : Rabs (lg ((B2R d + 0.01) / 0.19) - lg p) <= 0.44 * (32 * u)). { apply P; [lra|apply Rabs_le; rewrite U in *; lra|rewrite U; lra]. }
  rewrite LT in Q. apply Rabs_le_inv in Q. apply Rabs_le_inv in Ve. replace ((1023 * B2R c - 420) / 261.5) with e by (unfold e; lra).
  apply Rabs_le. lra.
Qed.
Lemma slog3_hi_codes k M : (0 <= k <= M)%Z -> (0 < M <= 2 ^ 24)%Z -> 171.23 * IZR M <= 1023 * IZR k ->
  421.4 <= 1023 * B2R (Y_to_SLog3 N (SLog3_to_Y N (code lm k M))) <= 424.8.
Proof.
  intros K HM L. destruct (code_ok lm k M K ltac:(lia)) as (Fc & _ & Q & C & E). pose proof u16 as U. pose proof lg_261 as G.
  assert (M1 : 1 <= IZR M <= 16777216) by (split; apply IZR_le; lia).
  assert (Q1 : 171.23 / 1023 <= IZR k / IZR M). { apply Rmult_le_reg_r with (IZR M); [lra|]. unfold Rdiv at 2. rewrite Rmult_assoc, Rinv_l by lra. lra. }
  destruct (slog3_hi_err _ Fc) as [_ V]. { apply Rabs_le_inv in E. rewrite U in *; lra. }
  apply Rabs_le_inv in V. apply Rabs_le_inv in E. rewrite U in *. lra.
Qed.
End F.
Lemma slog3_codes_refuted : exists (lm : libm) (k M : Z), accurate lm /\ (0 <= k <= M)%Z /\ M = 1023%Z /\
  598 < IZR k - IZR M * B2R (Y_to_SLog3 (FN lm) (SLog3_to_Y (FN lm) (code lm k M))).
Proof.
  destruct accurate_exists as [lm A]. exists lm, 1023%Z, 1023%Z. split; [exact A|]. split; [lia|]. split; [reflexivity|].
  pose proof (slog3_hi_codes lm A 1023 1023 ltac:(lia) ltac:(lia) ltac:(lra)). lra.
Qed.
