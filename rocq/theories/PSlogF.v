(** * S-Log, S-Log2 and S-Log3 in binary32. *)
From Coq Require Import ZArith QArith Qreals Reals Lra Lia List Bool.
From Flocq Require Import Core IEEE754.BinarySingleNaN.
From Verif Require Import Num NumR NumF MVec MTri MOtf RTac F32 F64 RPow RExp PHsvF PLibm PPowF PNearF PNearF2 PRelF POtf POtf2 POtfF POtfF2 SpecOtf.
Local Open Scope R_scope.

(** [flit_near]: a closed float, by computation; the bound is a multiple of [u]. *)
Ltac flit_near := lazymatch goal with
  |- near ?x ?r ?k =>
    let sf := eval vm_compute in (B2SF x) in
    lazymatch sf with
    | SpecFloat.S754_finite ?s ?m ?e =>
        let H := fresh in assert (H : B2SF x = SpecFloat.S754_finite s m e) by (vm_compute; reflexivity);
        let A := fresh in let B := fresh in
        destruct (val_SF x s m e H) as [A B]; split; [exact A|]; rewrite B; clear; try rewrite u16;
        unfold F2R; cbn [Fnum Fexp SpecFloat.cond_Zopp Z.opp]; bpow_val e; apply Rabs_le; try lra
    end
  end.
Lemma lg_log10R x : lg x = log10R x. Proof. reflexivity. Qed.
Lemma lg_037 : -1.43 <= lg 0.037584.
Proof.
  assert (H : - Q2R (Qmake 3285 1000) <= ln (Q2R (Qmake 37584 1000000))) by (lnbound 4%nat 12%nat).
  replace (Q2R (Qmake 3285 1000)) with 3.285 in H by (unfold Q2R; cbn; lra). replace (Q2R (Qmake 37584 1000000)) with 0.037584 in H by (unfold Q2R; cbn; lra).
  pose proof ln10_bounds. unfold lg. apply Rmult_le_reg_r with (ln 10); [lra|]. unfold Rdiv. rewrite Rmult_assoc, Rinv_l by lra. lra.
Qed.
Lemma lg_mono a b : 0 < a -> a <= b -> lg a <= lg b.
Proof. intros A B. pose proof ln10_bounds. unfold lg, Rdiv. apply Rmult_le_compat_r; [apply Rlt_le, Rinv_0_lt_compat; lra|apply ln_mono; assumption]. Qed.
Lemma lg_1005 : lg 10.05 <= 1.003.
Proof.
  pose proof ln10_bounds. unfold lg. apply Rdiv_le_r; [lra|]. replace 10.05 with (10 * 1.005) by lra. rewrite ln_mult by lra. pose proof (ln_le_sub 1.005 ltac:(lra)). lra.
Qed.
Lemma lg_range a : 0.037584 <= a <= 10.05 -> -1.43 <= lg a <= 1.003.
Proof. intros H. pose proof lg_037. pose proof lg_1005. pose proof (lg_mono 0.037584 a ltac:(lra) ltac:(lra)). pose proof (lg_mono a 10.05 ltac:(lra) ltac:(lra)). lra. Qed.
Definition clip10 (x : R) : R := Rmax 0 (Rmin 10 x).
Lemma clip10_range x : 0 <= clip10 x <= 10.
Proof. unfold clip10, Rmax, Rmin. repeat destruct (Rle_dec _ _); lra. Qed.
Lemma clip10_id x : 0 <= x <= 10 -> clip10 x = x.
Proof. intros H. unfold clip10, Rmax, Rmin. repeat destruct (Rle_dec _ _); lra. Qed.

Section F.
Context (lm : libm) (Acc : accurate lm).
Notation N := (FN lm).
Lemma k0 : fin (@fofZ N 0) /\ B2R (@fofZ N 0) = 0. Proof. f32_val. Qed.
Lemma k10 : fin (@fofZ N 10) /\ B2R (@fofZ N 10) = 10. Proof. f32_val. Qed.
(** 0.432699 log10 a, for [a] known to 1.05 u. *)
Lemma slog_core (a : f32) r k : near a r (k * r) -> 0.037584 <= r <= 10.05 -> 0 <= k <= 4 * u ->
  near (@fmul N (@flit N 0.432699%dec) (@flog10 N a)) (0.432699 * lg r) (3.3 * u + 0.22 * k).
Proof.
  intros Ha Hr Hk. pose proof u16 as U. pose proof eta16 as E. pose proof (lg_range r Hr) as L. set (l := lg r) in *.
  assert (L1 : near (@flog10 N a) l (5.73 * u + 0.502 * k)).
  { eapply near_le; [apply (near_log10 lm Acc _ _ _ 1.43 Ha)|].
    - lra.
    - rewrite U in *; lra.
    - change (log10R r) with l. apply Rabs_le; lra.
    - rewrite U in *; lra. }
  eapply near_le; [apply (near_mul lm _ _ 0.432699 l (0.09 * u) (5.73 * u + 0.502 * k) 0.432699 1.43)|].
  - flit_near.
  - exact L1.
  - rewrite Rabs_pos_eq; lra.
  - apply Rabs_le; lra.
  - rewrite U in *; lra.
  - rewrite U in *; nra.
Qed.
Lemma slog_enc_near (x : f32) : fin x -> near (Y_to_SLog N x) (sony_slog (clip10 (B2R x))) (5 * u).
Proof.
  intros Fx. pose proof u16 as U. pose proof eta16 as E. destruct k0 as [F0 V0]. destruct k10 as [F1 V1]. pose proof u64_val as U6. pose proof eta64_eta as E6.
  unfold Y_to_SLog. set (xc := if @fltb N x (@fofZ N 0) then @fofZ N 0 else _).
  assert (X : near xc (clip10 (B2R x)) 0).
  { unfold xc. rewrite !ltb_ok by assumption. rewrite V0, V1. unfold clip10, Rmax, Rmin.
    case Rlt_bool_spec; intro A; [|case Rlt_bool_spec; intro B]; (split; [assumption|]); repeat destruct (Rle_dec _ _); rewrite ?V0, ?V1; apply Rabs_le; lra. }
  pose proof (clip10_range (B2R x)) as R0. set (r := clip10 (B2R x)) in *. clearbody xc.
  assert (A : near (@narrow N (@dadd N (@widen N xc) (@dlit N 0.037584%dec))) (r + 0.037584) (1.01 * u * (r + 0.037584))).
  { eapply near_le; [apply (near_narrow lm _ _ (0.001 * u * (r + 0.037584)) (r + 0.037584))|].
    - eapply dnear_le; [apply (dnear_add lm _ _ r 0.037584 0 (/ 100000000000000000) (r + 0.037584))|].
      + apply dnear_widen, X.
      + dlit_near.
      + rewrite Rabs_pos_eq; lra.
      + lra.
      + rewrite U6, U in *; lra.
    - rewrite Rabs_pos_eq; lra.
    - rewrite U; lra.
    - rewrite U in *; lra. }
  pose proof (slog_core _ (r + 0.037584) (1.01 * u) A ltac:(lra) ltac:(rewrite U; lra)) as M.
  pose proof (lg_range (r + 0.037584) ltac:(lra)) as L. unfold sony_slog. set (l := lg (r + 0.037584)) in *.
  eapply near_le; [apply (near_narrow lm _ _ (3.6 * u) 1.081)|].
  - eapply dnear_le; [apply (dnear_add lm _ _ (0.432699 * l + 0.616596) 0.03 (3.55 * u) (/ 100000000000000000) 1.081)|].
    + eapply dnear_le; [apply (dnear_add lm _ _ (0.432699 * l) 0.616596 (3.53 * u) (/ 10000000000000000) 1.051)|].
      * apply dnear_widen. eapply near_le; [exact M|rewrite U; lra].
      * dlit_near.
      * apply Rabs_le; lra.
      * rewrite U; lra.
      * rewrite U6, U in *; lra.
    + dlit_near.
    + apply Rabs_le; lra.
    + rewrite U; lra.
    + rewrite U6, U in *; lra.
  - apply Rabs_le; lra.
  - rewrite U; lra.
  - rewrite U in *; lra.
Qed.
(** 10 to a power. *)
Lemma ten_pow b y e g P : near b 10 0 -> near y e g -> -3 <= e <= 3 -> 0 <= g <= / 10000 -> Rpower 10 e <= P -> P <= 1000 ->
  near (@fpow N b y) (Rpower 10 e) ((4.1 * u + 2.34 * g) * P).
Proof.
  intros Hb Hy He Hg HP PP. pose proof ln10_bounds as T.
  assert (Hx : near b 10 (0 * 10)) by (rewrite Rmult_0_l; exact Hb).
  eapply near_le; [apply (near_pow lm Acc _ _ 10 e 0 g (2.31 * g) P Hx Hy)|]; try lra.
  - rewrite Rabs_pos_eq by lra. nra.
  - unfold Rpower. pose proof (exp_range (e * ln 10) ltac:(nra)). pose proof (exp_pos (e * ln 10)). lra.
  - apply Rmult_le_compat_r; [pose proof (Rpower_pos 10 e); lra|]. lra.
Qed.
Lemma ten_le e d : e <= d -> Rpower 10 e <= Rpower 10 d.
Proof. intros H. apply Rle_Rpower; lra. Qed.
Lemma ten_101 e : e <= 1.05 -> Rpower 10 e <= 11.5.
Proof.
  intros H. pose proof (ten_le e 1.05 H). replace 1.05 with (1 + 0.05) in H0 by lra. rewrite Rpower_plus, Rpower_1 in H0 by lra.
  assert (Rpower 10 0.05 <= 1.15); [|lra]. unfold Rpower. pose proof ln10_bounds. pose proof (exp_near (0.05 * ln 10)) as X.
  rewrite (Rabs_pos_eq (0.05 * ln 10)) in X by lra. specialize (X ltac:(lra)). apply Rabs_le_inv in X. nra.
Qed.
(** the exponent of the decoders. *)
Lemma slog_exp (x : f32) r e : near x r e -> 0 <= r <= 1.1 -> 0 <= e <= 20 * u ->
  near (@fdiv N (@fsub N (@fsub N x (@flit N 0.616596%dec)) (@flit N 0.03%dec)) (@flit N 0.432699%dec)) ((r - 0.616596 - 0.03) / 0.432699) (2.312 * e + 5.5 * u).
Proof.
  intros Hx Hr He. pose proof u16 as U. pose proof eta16 as E.
  assert (A : near (@fsub N x (@flit N 0.616596%dec)) (r - 0.616596) (e + 0.9 * u)).
  { eapply near_le; [apply (near_sub lm _ _ r 0.616596 e (0.277 * u) 0.6166)|].
    - exact Hx.
    - flit_near.
    - apply Rabs_le; lra.
    - rewrite U in *; lra.
    - rewrite U in *; lra. }
  assert (B : near (@fsub N (@fsub N x (@flit N 0.616596%dec)) (@flit N 0.03%dec)) (r - 0.616596 - 0.03) (e + 1.56 * u)).
  { eapply near_le; [apply (near_sub lm _ _ (r - 0.616596) 0.03 (e + 0.9 * u) (0.0113 * u) 0.6466 A)|].
    - flit_near.
    - apply Rabs_le; lra.
    - rewrite U in *; lra.
    - rewrite U in *; lra. }
  eapply near_le; [apply (near_div lm _ _ _ 0.432699 _ (0.09 * u) 1.495 0.432699 B)|].
  - flit_near.
  - rewrite Rabs_pos_eq; lra.
  - rewrite U; lra.
  - apply Rabs_le; lra.
  - rewrite U in *; lra.
  - rewrite U in *; lra.
Qed.
Lemma l10 : near (@flit N 10%dec) 10 0. Proof. apply (near_lit _ 10); [f32_val|]. rewrite Rminus_diag_eq, Rabs_R0 by reflexivity. lra. Qed.
Lemma l10' : near (@flit N 10.0%dec) 10 0. Proof. apply (near_lit _ 10); [f32_val|]. rewrite Rminus_diag_eq, Rabs_R0 by reflexivity. lra. Qed.
Lemma slog_pow (b x : f32) r e : near b 10 0 -> near x r e -> 0 <= r <= 1.1 -> 0 <= e <= 20 * u ->
  near (@fpow N b (@fdiv N (@fsub N (@fsub N x (@flit N 0.616596%dec)) (@flit N 0.03%dec)) (@flit N 0.432699%dec)))
    (Rpower 10 ((r - 0.616596 - 0.03) / 0.432699)) ((17 * u + 5.42 * e) * Rpower 10 ((r - 0.616596 - 0.03) / 0.432699)).
Proof.
  intros Hb Hx Hr He. pose proof u16 as U. pose proof (slog_exp x r e Hx Hr He) as A. set (q := (r - 0.616596 - 0.03) / 0.432699) in *.
  assert (Q : -1.495 <= q <= 1.05) by (unfold q; lra).
  pose proof (ten_101 q ltac:(lra)). pose proof (Rpower_pos 10 q).
  eapply near_le; [apply (ten_pow _ _ q _ (Rpower 10 q) Hb A)|]; try lra.
  apply Rmult_le_compat_r; lra.
Qed.
Lemma ten_pos_le e : -1.5 <= e <= 1.05 -> 0.03 <= Rpower 10 e <= 11.5.
Proof.
  intros H. split; [|apply ten_101, H]. apply Rle_trans with (exp (- (3.465))).
  - assert (X : Q2R (Qmake 3 100) <= exp (- Q2R (Qmake 3465 1000))) by (apply (exp_lo _ _ 4 12); vm_compute; reflexivity).
    replace (Q2R (Qmake 3 100)) with 0.03 in X by (unfold Q2R; cbn; lra). replace (Q2R (Qmake 3465 1000)) with 3.465 in X by (unfold Q2R; cbn; lra). exact X.
  - unfold Rpower. pose proof ln10_bounds. destruct (Req_dec (e * ln 10) (- (3.465))) as [->|]; [lra|]. apply Rlt_le, exp_increasing. nra.
Qed.
Lemma slog_dec_near_g (x : f32) r e : near x r e -> 0 <= r <= 1.1 -> 0 <= e <= 20 * u -> near (SLog_to_Y N x) (sony_slog_inv r) ((18.4 * u + 5.43 * e) * (sony_slog_inv r + 0.037584)).
Proof.
  intros Hx Hr He. pose proof u16 as U. pose proof eta16 as E. unfold SLog_to_Y, sony_slog_inv. pose proof (slog_pow _ x r e l10 Hx Hr He) as A.
  set (q := (r - 0.616596 - 0.03) / 0.432699) in *. assert (Q : -1.5 <= q <= 1.05) by (unfold q; lra). pose proof (ten_pos_le q Q). set (p := Rpower 10 q) in *.
  assert (0 <= e * p <= 20 * u * 11.5) by (split; [apply Rmult_le_pos; lra|apply Rmult_le_compat; lra]).
  eapply near_le; [apply (near_sub lm _ _ _ 0.037584 _ (0.0112 * u) p A)|].
  - flit_near.
  - apply Rabs_le; lra.
  - rewrite U in *; lra.
  - rewrite U in *; lra.
Qed.
Lemma slog_dec_near (x : f32) : fin x -> 0 <= B2R x <= 1.1 -> near (SLog_to_Y N x) (sony_slog_inv (B2R x)) (18.4 * u * (sony_slog_inv (B2R x) + 0.037584)).
Proof. intros F H. eapply near_le; [apply (slog_dec_near_g x (B2R x) 0); [apply near_self, F|exact H|]|]; pose proof F32.u_pos; lra. Qed.
Lemma sony_slog_range r : 0 <= r <= 10 -> 0.027 <= sony_slog r <= 1.081.
Proof. intros H. unfold sony_slog. pose proof (lg_range (r + 0.037584) ltac:(lra)). lra. Qed.
Lemma sony_slog_rt r : - 0.037584 < r -> sony_slog_inv (sony_slog r) = r.
Proof.
  intros H. unfold sony_slog_inv, sony_slog. replace ((0.432699 * lg (r + 0.037584) + 0.616596 + 0.03 - 0.616596 - 0.03) / 0.432699) with (lg (r + 0.037584)) by lra.
  unfold Rpower, lg. pose proof ln10_bounds. replace (ln (r + 0.037584) / ln 10 * ln 10) with (ln (r + 0.037584)) by (field; lra). rewrite exp_ln by lra. lra.
Qed.
Lemma slog_rt_near (x : f32) : fin x -> near (SLog_to_Y N (Y_to_SLog N x)) (clip10 (B2R x)) (46 * u * (clip10 (B2R x) + 0.037584)).
Proof.
  intros F. pose proof u16 as U. pose proof (slog_enc_near x F) as A. pose proof (clip10_range (B2R x)) as C. pose proof (sony_slog_range _ C).
  eapply near_le; [eapply near_eq; [apply (slog_dec_near_g _ _ _ A)|apply sony_slog_rt]|]; try lra; rewrite ?sony_slog_rt by lra; rewrite U; lra.
Qed.
(** ** S-Log2 *)
Lemma l155 : near (@flit N 155.0%dec) 155 0. Proof. apply (near_lit _ 155); [f32_val|]. rewrite Rminus_diag_eq, Rabs_R0 by reflexivity. lra. Qed.
Lemma l219 : near (@flit N 219.0%dec) 219 0. Proof. apply (near_lit _ 219); [f32_val|]. rewrite Rminus_diag_eq, Rabs_R0 by reflexivity. lra. Qed.
Lemma lbk : near (slog2_BLACK N) 0.0625 0. Proof. apply (near_lit _ (/16)); [unfold slog2_BLACK; f32_val|]. rewrite Rminus_diag_eq, Rabs_R0 by lra. lra. Qed.
Lemma lwv : near (slog2_WV N) 0.85546875 0. Proof. apply (near_lit _ (219/256)); [unfold slog2_WV; f32_val|]. rewrite Rminus_diag_eq, Rabs_R0 by lra. lra. Qed.
Lemma slog2_arg (x : f32) : fin x -> 0 <= B2R x <= 14 ->
  let r := 155 * B2R x / 219 + 0.037584 in
  near (@fadd N (@fdiv N (@fmul N (@flit N 155.0%dec) x) (@flit N 219.0%dec)) (@flit N 0.037584%dec)) r (3.1 * u * r).
Proof.
  intros F H r. pose proof u16 as U. pose proof eta16 as E. set (v := B2R x) in *. pose proof F32.eta_pos as E0.
  assert (A : near (@fmul N (@flit N 155.0%dec) x) (155 * v) (u * (155 * v) + eta)).
  { eapply near_le; [apply (near_mul lm _ _ 155 v 0 0 155 v l155)|].
    - apply near_self, F.
    - rewrite Rabs_pos_eq; lra.
    - rewrite Rabs_pos_eq; lra.
    - lra.
    - lra. }
  assert (B : near (@fdiv N (@fmul N (@flit N 155.0%dec) x) (@flit N 219.0%dec)) (155 * v / 219) (2.01 * u * (155 * v / 219) + 2 * eta)).
  { eapply near_le; [apply (near_div lm _ _ _ 219 _ 0 (155 * v / 219) 219 A l219)|].
    - rewrite Rabs_pos_eq; lra.
    - lra.
    - rewrite Rabs_pos_eq; lra.
    - rewrite U in *; lra.
    - rewrite U in *; lra. }
  eapply near_le; [apply (near_add lm _ _ _ 0.037584 _ (0.0112 * u) r B)|].
  - flit_near.
  - unfold r. rewrite Rabs_pos_eq; lra.
  - unfold r. rewrite U in *; lra.
  - unfold r. rewrite U in *; lra.
Qed.
Lemma slog2_enc_near (x : f32) : fin x -> 0 <= B2R x <= 14 -> near (Y_to_SLog2 N x) (legal (sony_slog2 (B2R x))) (7.5 * u).
Proof.
  intros F H. pose proof u16 as U. pose proof eta16 as E. pose proof (slog2_arg x F H) as A. cbv zeta in A. destruct (l0 lm) as [F0 V0].
  unfold Y_to_SLog2, IRE_to_CV_SLog2. rewrite ltb_ok by assumption. rewrite V0, Rlt_bool_false by lra. set (v := B2R x) in *.
  unfold sony_slog2. destruct (Rle_dec 0 v) as [V|V]; [|lra]. set (r := 155 * v / 219 + 0.037584) in *. assert (R : 0.037584 <= r <= 10.05) by (unfold r; lra).
  pose proof (slog_core _ r (3.1 * u) A R ltac:(rewrite U; lra)) as M. pose proof (lg_range r R) as L. set (l := lg r) in *.
  eapply near_le; [eapply near_eq; [apply (near_add lm _ _ ((0.432699 * l + 0.616596 + 0.03) * 0.85546875) 0.0625 (6.45 * u) 0 0.99)|unfold legal; lra]|].
  - eapply near_le; [apply (near_mul lm _ _ (0.432699 * l + 0.616596 + 0.03) 0.85546875 (6.45 * u) 0 1.081 0.85546875)|].
    + eapply near_le; [apply (near_add lm _ _ (0.432699 * l + 0.616596) 0.03 (5.34 * u) (0.0113 * u) 1.081)|].
      * eapply near_le; [apply (near_add lm _ _ (0.432699 * l) 0.616596 (4 * u) (0.277 * u) 1.051)|].
        -- eapply near_le; [exact M|rewrite U; lra].
        -- flit_near.
        -- apply Rabs_le; lra.
        -- rewrite U; lra.
        -- rewrite U in *; lra.
      * flit_near.
      * apply Rabs_le; lra.
      * rewrite U; lra.
      * rewrite U in *; lra.
    + exact lwv.
    + apply Rabs_le; lra.
    + rewrite Rabs_pos_eq; lra.
    + rewrite U; lra.
    + rewrite U in *; lra.
  - exact lbk.
  - apply Rabs_le; lra.
  - rewrite U; lra.
  - rewrite U in *; lra.
Qed.
(** the negative part, without the library. *)
Lemma slog2_enc_neg (x : f32) : fin x -> -1 <= B2R x < 0 -> near (Y_to_SLog2 N x) (legal (sony_slog2 (B2R x))) (13.5 * u).
Proof.
  intros F H. pose proof u16 as U. pose proof eta16 as E. destruct (l0 lm) as [F0 V0].
  unfold Y_to_SLog2, IRE_to_CV_SLog2. rewrite ltb_ok by assumption. rewrite V0, Rlt_bool_true by lra. set (v := B2R x) in *.
  unfold sony_slog2. destruct (Rle_dec 0 v) as [V|V]; [lra|].
  eapply near_le; [eapply near_eq; [apply (near_add lm _ _ ((v * 3.53881278538813 + 0.030001222851889303) * 0.85546875) 0.0625 (10.4 * u) 0 2.95)|unfold legal; lra]|].
  - eapply near_le; [apply (near_mul lm _ _ (v * 3.53881278538813 + 0.030001222851889303) 0.85546875 (8.6 * u) 0 3.51 0.85546875)|].
    + eapply near_le; [apply (near_add lm _ _ (v * 3.53881278538813) 0.030001222851889303 (5.07 * u) (0.004 * u) 3.51)|].
      * eapply near_le; [apply (near_mul lm _ _ v 3.53881278538813 0 (1.52 * u) 1 3.539)|].
        -- apply near_self, F.
        -- flit_near.
        -- apply Rabs_le; lra.
        -- rewrite Rabs_pos_eq; lra.
        -- rewrite U; lra.
        -- rewrite U in *; lra.
      * flit_near.
      * apply Rabs_le; lra.
      * rewrite U; lra.
      * rewrite U in *; lra.
    + exact lwv.
    + apply Rabs_le; lra.
    + rewrite Rabs_pos_eq; lra.
    + rewrite U; lra.
    + rewrite U in *; lra.
  - exact lbk.
  - apply Rabs_le; lra.
  - rewrite U; lra.
  - rewrite U in *; lra.
Qed.
Lemma thr_lit : fin (@flit N 0.030001222851889303%dec) /\ Rabs (B2R (@flit N 0.030001222851889303%dec) - 0.030001222851889303) <= 0.004 * u.
Proof. change (near (@flit N 0.030001222851889303%dec) 0.030001222851889303 (0.004 * u)). flit_near. Qed.
Definition spow (y : R) : R := 219 * (Rpower 10 ((y - 0.616596 - 0.03) / 0.432699) - 0.037584) / 155.
Lemma spow_thr : spow thr2 <= 1e-15.
Proof.
  pose proof slog2_knee as K. unfold spow.
  assert (H : Rpower 10 ((thr2 - 0.616596 - 0.03) / 0.432699) <= Rpower 10 ((slog (155 * 1e-15 / 219) - 0.616596 - 0.03) / 0.432699)) by (apply ten_le; lra).
  change (slog (155 * 1e-15 / 219)) with (sony_slog (155 * 1e-15 / 219)) in H. pose proof (sony_slog_rt (155 * 1e-15 / 219) ltac:(lra)) as S. unfold sony_slog_inv in S. lra.
Qed.
(** above the switch point by little. *)
Lemma spow_thr_eps d : 0 <= d <= / 1000 -> spow (thr2 + d) <= 1e-15 + 0.3 * d.
Proof.
  intros H. pose proof spow_thr as S. unfold spow in *. pose proof ln10_bounds as T.
  replace ((thr2 + d - 0.616596 - 0.03) / 0.432699) with ((thr2 - 0.616596 - 0.03) / 0.432699 + d / 0.432699) by lra. rewrite Rpower_plus.
  set (p := Rpower 10 ((thr2 - 0.616596 - 0.03) / 0.432699)) in *. assert (P : 0 < p) by apply Rpower_pos.
  unfold Rpower at 1. set (t := d / 0.432699 * ln 10).
  assert (Ht : 0 <= t <= 5.34 * d) by (unfold t; nra).
  pose proof (exp_near t) as X. rewrite (Rabs_pos_eq t) in X by lra. specialize (X ltac:(lra)). apply Rabs_le_inv in X. assert (exp t <= 1 + 5.41 * d) by nra.
  assert (p <= 0.0375841) by lra. assert (p * exp t <= p * (1 + 5.41 * d)) by (apply Rmult_le_compat_l; lra). assert (p * d <= 0.0375841 * d) by (apply Rmult_le_compat_r; lra). lra.
Qed.
Lemma spow_le a b : a <= b -> spow a <= spow b.
Proof. intros H. unfold spow. assert (Rpower 10 ((a - 0.616596 - 0.03) / 0.432699) <= Rpower 10 ((b - 0.616596 - 0.03) / 0.432699)) by (apply ten_le; lra). lra. Qed.
Lemma s2inv y : Rmax 0 (spow y) - 1e-15 <= Rmax 0 (sony_slog2_inv y) <= Rmax 0 (spow y).
Proof.
  unfold sony_slog2_inv. fold (spow y). change 0.030001222851889303 with thr2. destruct (Rle_dec thr2 y) as [L|L]; [lra|].
  pose proof (spow_le y thr2 ltac:(lra)). pose proof spow_thr. rewrite (Rmax_left 0 ((y - thr2) / _)) by lra. unfold Rmax. destruct (Rle_dec _ _); lra.
Qed.
Lemma slog2_dec_near_g (c : f32) r e : near c r e -> 0 <= r <= 1 -> 0 <= e <= 8 * u ->
  near (SLog2_to_Y N c) (Rmax 0 (sony_slog2_inv (unlegal r))) ((33 * u + 6.4 * e) * (Rmax 0 (sony_slog2_inv (unlegal r)) + 0.0532)).
Proof.
  intros Hc Hr He. pose proof u16 as U. pose proof eta16 as E. destruct (l0 lm) as [F0 V0]. destruct thr_lit as [Ft Vt]. apply Rabs_le_inv in Vt.
  unfold SLog2_to_Y, CV_to_IRE_SLog2. set (x := @fdiv N (@fsub N c (slog2_BLACK N)) (slog2_WV N)). set (y := unlegal r).
  assert (X : near x y (1.17 * e + 2.3 * u)).
  { unfold x. eapply near_le; [eapply near_eq; [apply (near_div lm _ _ (r - 0.0625) 0.85546875 (e + 0.95 * u) 0 1.1 0.85546875)|unfold y, unlegal; lra]|].
    - eapply near_le; [apply (near_sub lm _ _ r 0.0625 e 0 0.9375 Hc lbk)|]; try (rewrite U in *; lra). apply Rabs_le; lra.
    - exact lwv.
    - rewrite Rabs_pos_eq; lra.
    - lra.
    - apply Rabs_le; lra.
    - rewrite U in *; lra.
    - rewrite U in *; lra. }
  clearbody x. assert (Y : -0.074 <= y <= 1.0959) by (unfold y, unlegal; lra). pose proof X as [Fx Vx]. apply Rabs_le_inv in Vx. pose proof (s2inv y) as I.
  rewrite leb_ok by assumption. case Rle_bool_spec; intro L.
  - assert (S : near (@fdiv N (@fmul N (@flit N 219.0%dec) (@fsub N (@fpow N (@flit N 10.0%dec) (@fdiv N (@fsub N (@fsub N x (@flit N 0.616596%dec)) (@flit N 0.03%dec)) (@flit N 0.432699%dec))) (@flit N 0.037584%dec))) (@flit N 155.0%dec)) (spow y) ((32.9 * u + 6.38 * e) * (spow y + 0.05311))).
    { pose proof (slog_pow _ x y _ l10' X ltac:(rewrite U in *; lra) ltac:(rewrite U in *; lra)) as P. unfold spow. set (q := (y - 0.616596 - 0.03) / 0.432699) in *.
      assert (Q : -1.5 <= q <= 1.05) by (unfold q; rewrite U in *; lra). pose proof (ten_pos_le q Q) as R0. set (p := Rpower 10 q) in *.
      assert (G0 : 0 <= e * p <= 8 * u * 11.5) by (split; [apply Rmult_le_pos; lra|apply Rmult_le_compat; lra]).
      eapply near_le; [apply (near_div lm _ _ _ 155 ((31.9 * u + 6.36 * e) * (219 * p)) 0 (219 * p / 155) 155)|].
      - eapply near_le; [apply (near_mul lm _ _ 219 (p - 0.037584) 0 ((30.88 * u + 6.35 * e) * p) 219 p l219)|].
        + eapply near_le; [apply (near_sub lm _ _ _ 0.037584 _ (0.0112 * u) p P)|].
          * flit_near.
          * apply Rabs_le; lra.
          * rewrite U in *; lra.
          * rewrite U in *; lra.
        + rewrite Rabs_pos_eq; lra.
        + apply Rabs_le; lra.
        + rewrite U in *; lra.
        + rewrite U in *; lra.
      - exact l155.
      - rewrite Rabs_pos_eq; lra.
      - lra.
      - apply Rabs_le; lra.
      - rewrite U in *; lra.
      - rewrite U in *; lra. }
    set (z := @fdiv N (@fmul N _ _) _) in *. destruct S as [Fz Vz]. apply Rabs_le_inv in Vz. clearbody z.
    assert (T0 : 0 <= Rmax 0 (sony_slog2_inv y)) by apply Rmax_l. set (T := Rmax 0 (sony_slog2_inv y)) in *. set (S := spow y) in *.
    assert (IS : S <= T + 1e-15 /\ (0 <= S -> T <= S) /\ (S <= 0 -> T = 0)) by (revert I; unfold Rmax; destruct (Rle_dec _ _); intros; lra). destruct IS as (I1 & I2 & I3).
    assert (e * S <= e * (T + 1e-15)) by (apply Rmult_le_compat_l; lra). assert (0 <= e * T) by (apply Rmult_le_pos; lra).
    rewrite ltb_ok by assumption. rewrite V0. case Rlt_bool_spec; intro G; (split; [assumption|]); rewrite ?V0; apply Rabs_le; (destruct (Rle_lt_dec 0 S) as [J|J]; [specialize (I2 J)|specialize (I3 (Rlt_le _ _ J)); rewrite I3 in *]); rewrite U in *; lra.
  - (* below the switch point the result is 0 *)
    assert (S : near (@fdiv N (@fsub N x (@flit N 0.030001222851889303%dec)) (@flit N 3.53881278538813%dec)) ((B2R x - B2R (@flit N 0.030001222851889303%dec)) / 3.53881278538813) u).
    { eapply near_le; [apply (near_div lm _ _ _ 3.53881278538813 (0.12 * u) (1.52 * u) 0.031 3.5388)|].
      - eapply near_le; [apply (near_sub lm _ _ (B2R x) (B2R (@flit N 0.030001222851889303%dec)) 0 0 0.11)|].
        + apply near_self, Fx.
        + apply near_self, Ft.
        + apply Rabs_le. rewrite U in *; lra.
        + lra.
        + rewrite U in *; lra.
      - flit_near.
      - rewrite Rabs_pos_eq; lra.
      - rewrite U; lra.
      - apply Rabs_le. rewrite U in *; lra.
      - rewrite U in *; lra.
      - rewrite U in *; lra. }
    destruct S as [Fz _]. rewrite ltb_ok by assumption. rewrite V0.
    assert (Z : B2R (@fdiv N (@fsub N x (@flit N 0.030001222851889303%dec)) (@flit N 3.53881278538813%dec)) <= 0).
    { assert (M : Rabs (B2R x - B2R (@flit N 0.030001222851889303%dec)) <= 1) by (apply Rabs_le; rewrite U in *; lra).
      pose proof b40 as B40. destruct (sub_ok lm x (@flit N 0.030001222851889303%dec) Fx Ft) as [Fs Vs]; [lra|].
      assert (Ks : -1 <= B2R (@fsub N x (@flit N 0.030001222851889303%dec)) <= 0).
      { rewrite Vs. apply Rabs_le_inv in M. split; [apply rnd_ge_fmt; [apply (fmt_IZR (-1)); cbn; lia|lra]|rewrite <- rnd_0; apply rnd_le; lra]. }
      assert (Kd : near (@flit N 3.53881278538813%dec) 3.53881278538813 (1.52 * u)) by flit_near. destruct Kd as [Fd Vd]. apply Rabs_le_inv in Vd.
      set (s := B2R (@fsub N x (@flit N 0.030001222851889303%dec))) in *. set (d := B2R (@flit N 3.53881278538813%dec)) in *. assert (D : 3 <= d) by (rewrite U in *; lra).
      assert (Sd : -1 <= s / d <= 0). { assert (I0 : 0 < / d <= 1) by (split; [apply Rinv_0_lt_compat; lra|rewrite <- Rinv_1; apply Rinv_le; lra]). unfold Rdiv. nra. }
      destruct (div_ok lm (@fsub N x (@flit N 0.030001222851889303%dec)) (@flit N 3.53881278538813%dec) Fs) as [_ Vq]; fold s d.
      - fold d; lra.
      - apply Rle_trans with 1; [apply Rabs_le; lra|lra].
      - rewrite Vq. rewrite <- rnd_0. apply rnd_le. apply Sd. }
    rewrite Rlt_bool_false by exact Z. split; [exact F0|]. rewrite V0.
    assert (K : spow y <= 1e-15 + 0.3 * (1.17 * e + 2.31 * u)).
    { apply Rle_trans with (spow (thr2 + (1.17 * e + 2.31 * u))).
      - apply spow_le. unfold thr2. rewrite U in *; lra.
      - apply spow_thr_eps. rewrite U in *; lra. }
    assert (T0 : 0 <= Rmax 0 (sony_slog2_inv y)) by apply Rmax_l. set (T := Rmax 0 (sony_slog2_inv y)) in *. assert (0 <= e * T) by (apply Rmult_le_pos; lra).
    assert (T <= 1e-15 + 0.3 * (1.17 * e + 2.31 * u)) by (revert I; unfold Rmax; destruct (Rle_dec _ _); intros; rewrite U in *; lra).
    apply Rabs_le. rewrite U in *; lra.
Qed.
Lemma slog2_dec_near (c : f32) : fin c -> 0 <= B2R c <= 1 ->
  let y := Rmax 0 (sony_slog2_inv (unlegal (B2R c))) in near (SLog2_to_Y N c) y (33 * u * (y + 0.0532)).
Proof. intros F H y. eapply near_le; [apply (slog2_dec_near_g c (B2R c) 0); [apply near_self, F|exact H|]|]; pose proof F32.u_pos; fold y; lra. Qed.
Lemma slog2_rt_near (x : f32) : fin x -> 0 <= B2R x <= 14 -> near (SLog2_to_Y N (Y_to_SLog2 N x)) (B2R x) (82 * u * (B2R x + 0.0532)).
Proof.
  intros F H. pose proof u16 as U. pose proof (slog2_enc_near x F H) as A. set (v := B2R x) in *.
  assert (Y : sony_slog2 v = sony_slog (155 * v / 219)) by (unfold sony_slog2, sony_slog; destruct (Rle_dec 0 v); lra).
  pose proof (sony_slog_range (155 * v / 219) ltac:(lra)) as R0. rewrite <- Y in R0. set (y := sony_slog2 v) in *.
  assert (S : spow y = v). { unfold spow. pose proof (sony_slog_rt (155 * v / 219) ltac:(lra)) as T. unfold sony_slog_inv in T. rewrite <- Y in T. lra. }
  pose proof (s2inv y) as I. rewrite S, Rmax_right in I by lra.
  destruct (slog2_dec_near_g _ _ _ A ltac:(unfold legal; lra) ltac:(rewrite U; lra)) as [Fz Vz]. split; [exact Fz|].
  replace (unlegal (legal y)) with y in Vz by (unfold unlegal, legal; lra). set (T := Rmax 0 (sony_slog2_inv y)) in *. apply Rabs_le_inv in Vz. apply Rabs_le. rewrite U in *; lra.
Qed.

(** ** S-Log3 *)
Lemma exact_lit (d : dec) z : fin (@flit N d) /\ B2R (@flit N d) = z -> near (@flit N d) z 0.
Proof. intros H. apply (near_lit _ z); [exact H|]. rewrite Rminus_diag_eq, Rabs_R0 by reflexivity. lra. Qed.
Lemma l1023 : near (@flit N 1023%dec) 1023 0. Proof. apply exact_lit. f32_val. Qed.
Lemma l420 : near (@flit N 420%dec) 420 0. Proof. apply exact_lit. f32_val. Qed.
Lemma l95 : near (@flit N 95%dec) 95 0. Proof. apply exact_lit. f32_val. Qed.
Lemma l261 : near (@flit N 261.5%dec) 261.5 0. Proof. apply exact_lit. f32_val. Qed.
Lemma l76 : near (@fsub N (@flit N 171.2102946929%dec) (@flit N 95%dec)) 76.2102946929 (32.6 * u). Proof. flit_near. Qed.
Lemma lthr3 : near (@fdiv N (@flit N 171.2102946929%dec) (@flit N 1023%dec)) (171.2102946929 / 1023) (0.011 * u). Proof. flit_near. Qed.
Definition s3hi (c : R) : R := Rpower 10 ((c * 1023 - 420) / 261.5) * 0.19 - 0.01.
Definition s3lo (c : R) : R := (c * 1023 - 95) * 0.01125 / (171.2102946929 - 95).
Lemma ln10_sharp : 2.3025850929 <= ln 10 <= 2.3025850930.
Proof.
  assert (A : - Q2R (Qmake 23025850930 10000000000) <= ln (Q2R (Qmake 1 10))) by (apply (ln_ge_neg _ _ 4 14); [vm_compute; reflexivity|unfold Q2R; cbn; lra]).
  assert (B : ln (Q2R (Qmake 1 10)) <= - Q2R (Qmake 23025850929 10000000000)) by (apply (ln_le_neg _ _ 4 14); [vm_compute; reflexivity|unfold Q2R; cbn; lra]).
  assert (E : ln (Q2R (Qmake 1 10)) = - ln 10) by (rewrite <- ln_Rinv by lra; f_equal; unfold Q2R; cbn; lra). rewrite E in *.
  unfold Q2R in A, B. cbn in A, B. lra.
Qed.
Lemma exp_mono a b : a <= b -> exp a <= exp b.
Proof. intros H. destruct (Req_dec a b) as [->|]; [lra|]. apply Rlt_le, exp_increasing; lra. Qed.
(** both pieces near the switch point. *)
Lemma s3_p0 : 0.11184210 <= Rpower 10 ((171.2102946929 - 420) / 261.5) <= 0.11184211.
Proof.
  pose proof ln10_sharp as T.
  assert (A : Q2R (Qmake 11184210 100000000) <= exp (- Q2R (Qmake 2190667177 1000000000))) by (apply (exp_lo _ _ 4 14); vm_compute; reflexivity).
  assert (B : exp (- Q2R (Qmake 2190667175 1000000000)) <= Q2R (Qmake 11184211 100000000)) by (apply (exp_hi _ _ 4 14); vm_compute; reflexivity).
  unfold Q2R in A, B. cbn in A, B. unfold Rpower. split.
  - eapply Rle_trans; [|eapply Rle_trans; [exact A|apply exp_mono]]; lra.
  - eapply Rle_trans; [|eapply Rle_trans; [|exact B]]; [apply exp_mono with (b := - (2190667175 * / 1000000000))|]; lra.
Qed.
Lemma s3_knee c : Rabs (c - 171.2102946929 / 1023) <= 0.02 * u -> Rabs (s3hi c - s3lo c) <= 0.06 * u.
Proof.
  intros H. pose proof u16 as U. pose proof s3_p0 as P. pose proof ln10_bounds as T. unfold s3hi, s3lo. set (d := c - 171.2102946929 / 1023) in *.
  replace ((c * 1023 - 420) / 261.5) with ((171.2102946929 - 420) / 261.5 + d * 1023 / 261.5) by (unfold d; lra). rewrite Rpower_plus.
  set (p := Rpower 10 ((171.2102946929 - 420) / 261.5)) in *. unfold Rpower. set (t := d * 1023 / 261.5 * ln 10). apply Rabs_le_inv in H.
  assert (Ht : Rabs t <= 0.1808 * u). { unfold t. rewrite Rabs_mult, (Rabs_pos_eq (ln 10)) by lra. apply Rle_trans with (0.07825 * u * 2.31); [|rewrite U; lra]. apply Rmult_le_compat; [apply Rabs_pos|lra| |lra]. apply Rabs_le. rewrite U in *; lra. }
  pose proof (exp_near t ltac:(rewrite U in *; lra)) as X. assert (Y : Rabs (exp t - 1) <= 0.182 * u). { eapply Rle_trans; [exact X|]. pose proof (Rabs_pos t). rewrite U in *. nra. }
  apply Rabs_le_inv in Y. replace (c * 1023 - 95) with (d * 1023 + 76.2102946929) by (unfold d; lra).
  assert (p * (1 - 0.182 * u) <= p * exp t <= p * (1 + 0.182 * u)) by (split; apply Rmult_le_compat_l; lra).
  apply Rabs_le. rewrite U in *; lra.
Qed.
Lemma ten_231 e : e <= 2.31 -> Rpower 10 e <= 1000.
Proof.
  intros H. pose proof (ten_le e 3 ltac:(lra)). replace (Rpower 10 3) with 1000 in H0; [lra|]. replace 3 with (INR 3) by (cbn; lra). rewrite Rpower_pow by lra. cbn. lra.
Qed.
Lemma s3_hi_near (c : f32) : fin c -> 0.16 <= B2R c <= 1 ->
  near (@narrow N (@widen N (@fsub N (@fmul N (@fpow N (@flit N 10%dec) (@fdiv N (@fsub N (@fmul N c (@flit N 1023%dec)) (@flit N 420%dec)) (@flit N 261.5%dec))) (@flit N 0.19%dec)) (@flit N 0.01%dec))))
    (s3hi (B2R c)) (28.3 * u * (s3hi (B2R c) + 0.01)).
Proof.
  intros F H. pose proof u16 as U. pose proof eta16 as E. set (v := B2R c) in *. unfold s3hi. set (q := (v * 1023 - 420) / 261.5).
  assert (Q : -1 <= q <= 2.31) by (unfold q; lra).
  assert (A : near (@fdiv N (@fsub N (@fmul N c (@flit N 1023%dec)) (@flit N 420%dec)) (@flit N 261.5%dec)) q (8.6 * u)).
  { unfold q. eapply near_le; [apply (near_div lm _ _ (v * 1023 - 420) 261.5 (1627 * u) 0 2.31 261.5)|].
    - eapply near_le; [apply (near_sub lm _ _ (v * 1023) 420 (1023.1 * u) 0 603)|].
      + eapply near_le; [apply (near_mul lm _ _ v 1023 0 0 1 1023)|].
        * apply near_self, F.
        * exact l1023.
        * rewrite Rabs_pos_eq; lra.
        * rewrite Rabs_pos_eq; lra.
        * lra.
        * rewrite U in *; lra.
      + exact l420.
      + apply Rabs_le; lra.
      + rewrite U; lra.
      + rewrite U in *; lra.
    - exact l261.
    - rewrite Rabs_pos_eq; lra.
    - lra.
    - apply Rabs_le; lra.
    - rewrite U; lra.
    - rewrite U in *; lra. }
  pose proof (ten_231 q ltac:(lra)) as P1. assert (P0 : 0.1 <= Rpower 10 q). { pose proof (ten_le (- (1)) q ltac:(lra)) as T. rewrite Rpower_Ropp, Rpower_1 in T by lra. lra. }
  pose proof (ten_pow _ _ q _ (Rpower 10 q) l10 A ltac:(lra) ltac:(rewrite U; lra) (Rle_refl _) P1) as B. set (p := Rpower 10 q) in *.
  eapply near_le; [apply (near_narrow lm _ _ (27.2 * u * (p * 0.19)) (p * 0.19))|].
  - apply dnear_widen. eapply near_le; [apply (near_sub lm _ _ (p * 0.19) 0.01 (25.9 * u * (p * 0.19)) (0.004 * u) (p * 0.19))|].
    + eapply near_le; [apply (near_mul lm _ _ p 0.19 _ (0.041 * u) p 0.19 B)|].
      * flit_near.
      * rewrite Rabs_pos_eq; lra.
      * rewrite Rabs_pos_eq; lra.
      * rewrite U; lra.
      * rewrite U in *; lra.
    + flit_near.
    + apply Rabs_le; lra.
    + rewrite U; lra.
    + rewrite U in *; lra.
  - apply Rabs_le; lra.
  - rewrite U; lra.
  - rewrite U in *; lra.
Qed.
Lemma s3_lo_near (c : f32) : fin c -> 0 <= B2R c <= 0.17 ->
  near (@narrow N (@ddiv N (@dmul N (@widen N (@fsub N (@fmul N c (@flit N 1023%dec)) (@flit N 95%dec))) (@dlit N 0.01125%dec)) (@widen N (@fsub N (@flit N 171.2102946929%dec) (@flit N 95%dec)))))
    (s3lo (B2R c)) (0.08 * u).
Proof.
  intros F H. pose proof u16 as U. pose proof eta16 as E. pose proof u64_val as U6. pose proof eta64_eta as E6. set (v := B2R c) in *. unfold s3lo.
  eapply near_le; [apply (near_narrow lm _ _ (0.055 * u) 0.0141)|].
  - eapply dnear_le; [eapply dnear_eq; [apply (dnear_div lm _ _ ((v * 1023 - 95) * 0.01125) 76.2102946929 (3.1 * u) (32.6 * u) 0.0141 76.2102946929)|lra]|].
    + eapply dnear_le; [apply (dnear_mul lm _ _ (v * 1023 - 95) 0.01125 (270 * u) (/ 100000000000000000) 95 0.01125)|].
      * apply dnear_widen. eapply near_le; [apply (near_sub lm _ _ (v * 1023) 95 (174 * u) 0 95)|].
        -- eapply near_le; [apply (near_mul lm _ _ v 1023 0 0 0.17 1023)|].
           ++ apply near_self, F.
           ++ exact l1023.
           ++ rewrite Rabs_pos_eq; lra.
           ++ rewrite Rabs_pos_eq; lra.
           ++ lra.
           ++ rewrite U in *; lra.
        -- exact l95.
        -- apply Rabs_le; lra.
        -- rewrite U; lra.
        -- rewrite U in *; lra.
      * dlit_near.
      * apply Rabs_le; lra.
      * rewrite Rabs_pos_eq; lra.
      * rewrite U; lra.
      * rewrite U6, U in *; lra.
    + apply dnear_widen, l76.
    + rewrite Rabs_pos_eq; lra.
    + rewrite U; lra.
    + apply Rabs_le; lra.
    + rewrite U; lra.
    + rewrite U6, U in *; lra.
  - apply Rabs_le; lra.
  - rewrite U; lra.
  - rewrite U in *; lra.
Qed.
Lemma slog3_dec_near (c : f32) : fin c -> 0 <= B2R c <= 1 -> near (SLog3_to_Y N c) (sony_dec (B2R c)) (32 * u * (Rabs (sony_dec (B2R c)) + 0.01)).
Proof.
  intros F H. pose proof u16 as U. destruct lthr3 as [Ft Vt]. apply Rabs_le_inv in Vt. unfold SLog3_to_Y. rewrite ltb_ok by assumption. unfold sony_dec. fold (s3hi (B2R c)) (s3lo (B2R c)).
  pose proof (s3_hi_near c F) as NH. pose proof (s3_lo_near c F) as NL. set (v := B2R c) in *. set (th := B2R (@fdiv N _ _)) in *.
  assert (KN : Rabs (v - 171.2102946929 / 1023) <= 0.011 * u -> Rabs (s3hi v - s3lo v) <= 0.06 * u /\ 0.0112499 <= s3lo v <= 0.0112501).
  { intros K. split; [apply s3_knee; rewrite U in *; lra|]. apply Rabs_le_inv in K. unfold s3lo. rewrite U in *; lra. }
  case Rlt_bool_spec; intro A; destruct (Rlt_dec (171.2102946929 / 1023) v) as [B|B].
  - specialize (NH ltac:(rewrite U in *; lra)). eapply near_le; [exact NH|]. pose proof (Rle_abs (s3hi v)). pose proof (Rabs_pos (s3hi v)). rewrite U in *; lra.
  - destruct KN as [K1 K2]; [apply Rabs_le; lra|]. destruct (NH ltac:(rewrite U in *; lra)) as [Fz Vz]. split; [exact Fz|].
    apply Rabs_le_inv in Vz, K1. rewrite (Rabs_pos_eq (s3lo v)) by lra. apply Rabs_le. rewrite U in *; lra.
  - destruct KN as [K1 K2]; [apply Rabs_le; lra|]. destruct (NL ltac:(rewrite U in *; lra)) as [Fz Vz]. split; [exact Fz|].
    apply Rabs_le_inv in Vz, K1. pose proof (Rle_abs (s3hi v)). pose proof (Rabs_pos (s3hi v)). apply Rabs_le. rewrite U in *; lra.
  - specialize (NL ltac:(lra)). eapply near_le; [exact NL|]. pose proof (Rabs_pos (s3lo v)). rewrite U in *; lra.
Qed.
Lemma s3e_hi (x : f32) : fin x -> 0.01125 <= B2R x <= 40 ->
  near (@fdiv N (@fadd N (@flit N 420%dec) (@flog10 N (@fmul N (@fdiv N (@fadd N x (@flit N 0.01%dec)) (@flit N 0.19%dec)) (@flit N 261.5%dec)))) (@flit N 1023%dec)) (slog3_enc_code (B2R x)) (0.9 * u).
Proof.
  intros F H. pose proof u16 as U. pose proof eta16 as E. set (v := B2R x) in *. unfold slog3_enc_code. set (r := (v + 0.01) / 0.19 * 261.5).
  assert (A : near (@fmul N (@fdiv N (@fadd N x (@flit N 0.01%dec)) (@flit N 0.19%dec)) (@flit N 261.5%dec)) r (3.5 * u * r)).
  { eapply near_le; [apply (near_mul lm _ _ ((v + 0.01) / 0.19) 261.5 (2.45 * u * ((v + 0.01) / 0.19)) 0 ((v + 0.01) / 0.19) 261.5)|].
    - eapply near_le; [apply (near_div lm _ _ (v + 0.01) 0.19 (1.19 * u * (v + 0.01)) (0.041 * u) ((v + 0.01) / 0.19) 0.19)|].
      + eapply near_le; [apply (near_add lm _ _ v 0.01 0 (0.0038 * u) (v + 0.01))|].
        * apply near_self, F.
        * flit_near.
        * rewrite Rabs_pos_eq; lra.
        * rewrite U; lra.
        * rewrite U in *; lra.
      + flit_near.
      + rewrite Rabs_pos_eq; lra.
      + rewrite U; lra.
      + rewrite Rabs_pos_eq; lra.
      + rewrite U; lra.
      + rewrite U in *; lra.
    - exact l261.
    - rewrite Rabs_pos_eq; lra.
    - rewrite Rabs_pos_eq; lra.
    - rewrite U; lra.
    - unfold r. rewrite U in *; lra. }
  assert (R0 : 1 <= r <= 60000) by (unfold r; lra).
  assert (L : 0 <= lg r <= 5).
  { pose proof ln10_bounds as T. split; [replace 0 with (lg 1) by (unfold lg; rewrite ln_1; lra); apply lg_mono; lra|]. apply Rle_trans with (lg (10 ^ 5)); [apply lg_mono; lra|]. unfold lg. rewrite ln_pow by lra. replace (INR 5) with 5 by (cbn; lra). right. field. lra. }
  change (log10 r) with (lg r). set (l := lg r) in *.
  eapply near_le; [apply (near_div lm _ _ (420 + l) 1023 (448 * u) 0 0.4155 1023)|].
  - eapply near_le; [apply (near_add lm _ _ 420 l 0 (22 * u) 425 l420)|].
    + eapply near_le; [apply (near_log10 lm Acc _ _ _ 5 A)|].
      * lra.
      * rewrite U; lra.
      * change (log10R r) with l. rewrite Rabs_pos_eq; lra.
      * rewrite U in *; lra.
    + rewrite Rabs_pos_eq; lra.
    + rewrite U; lra.
    + rewrite U in *; lra.
  - exact l1023.
  - rewrite Rabs_pos_eq; lra.
  - lra.
  - rewrite Rabs_pos_eq; lra.
  - rewrite U; lra.
  - rewrite U in *; lra.
Qed.
Lemma s3e_lo (x : f32) : fin x -> 0 <= B2R x <= 0.012 ->
  near (@fdiv N (@fadd N (@fdiv N (@fmul N x (@fsub N (@flit N 171.2102946929%dec) (@flit N 95%dec))) (@flit N 0.01125%dec)) (@flit N 95%dec)) (@flit N 1023%dec)) ((B2R x * 76.2102946929 / 0.01125 + 95) / 1023) (0.7 * u).
Proof.
  intros F H. pose proof u16 as U. pose proof eta16 as E. set (v := B2R x) in *.
  eapply near_le; [apply (near_div lm _ _ (v * 76.2102946929 / 0.01125 + 95) 1023 (445 * u) 0 0.173 1023)|].
  - eapply near_le; [apply (near_add lm _ _ (v * 76.2102946929 / 0.01125) 95 (265 * u) 0 176.3)|].
    + eapply near_le; [apply (near_div lm _ _ (v * 76.2102946929) 0.01125 (1.4 * u) (0.0076 * u) 81.3 0.01125)|].
      * eapply near_le; [apply (near_mul lm _ _ v 76.2102946929 0 (32.6 * u) 0.012 76.2102946929)|].
        -- apply near_self, F.
        -- exact l76.
        -- rewrite Rabs_pos_eq; lra.
        -- rewrite Rabs_pos_eq; lra.
        -- rewrite U; lra.
        -- rewrite U in *; lra.
      * flit_near.
      * rewrite Rabs_pos_eq; lra.
      * rewrite U; lra.
      * rewrite Rabs_pos_eq; lra.
      * rewrite U; lra.
      * rewrite U in *; lra.
    + exact l95.
    + rewrite Rabs_pos_eq; lra.
    + rewrite U; lra.
    + rewrite U in *; lra.
  - exact l1023.
  - rewrite Rabs_pos_eq; lra.
  - lra.
  - rewrite Rabs_pos_eq; lra.
  - rewrite U; lra.
  - rewrite U in *; lra.
Qed.
Lemma knee3 : fin (@flit N 0.01125%dec) /\ B2R (@flit N 0.01125%dec) = 3019899 / 268435456. Proof. f32_val. Qed.
Lemma slog3_enc_near (x : f32) : fin x -> 0 <= B2R x <= 40 -> B2R x <> B2R (@flit N 0.01125%dec) ->
  exists e, Y_to_SLog3 RN (Some (B2R x)) = Some e /\ near (Y_to_SLog3 N x) e (0.9 * u).
Proof.
  intros F H K. pose proof F32.u_pos as P. destruct knee3 as [Fk Vk]. rewrite Vk in K. unfold Y_to_SLog3 at 2. rewrite ltb_ok by assumption. rewrite Vk. case Rlt_bool_spec; intro L.
  - exists (slog3_enc_code (B2R x)). split; [apply slog3_enc_hi; lra|]. apply s3e_hi; [exact F|lra].
  - assert (B2R x <= 0.01125).
    { pose proof (gap_lt (-7) (B2R x) (3019899 / 268435456) ltac:(lia) (fmt_B2R x) ltac:(rewrite <- Vk; apply fmt_B2R)) as G.
      change (bpow radix2 (-7)) with (/ 128) in G. change (bpow radix2 (-7 - 23)) with (/ 1073741824) in G. specialize (G ltac:(lra) ltac:(lra)). lra. }
    eexists. split; [apply slog3_enc_lo; lra|]. eapply near_le; [apply s3e_lo; [exact F|lra]|lra].
Qed.
(** at that one float the exact function is on its upper piece, the float one on the lower. *)
Lemma slog3_enc_knee : exists e, Y_to_SLog3 RN (Some (B2R (@flit N 0.01125%dec))) = Some e /\ fin (Y_to_SLog3 N (@flit N 0.01125%dec)) /\ B2R (Y_to_SLog3 N (@flit N 0.01125%dec)) < e - 0.2.
Proof.
  destruct knee3 as [Fk Vk]. pose proof u16 as U. exists (slog3_enc_code (B2R (@flit N 0.01125%dec))). split; [rewrite Vk; apply slog3_enc_hi; lra|].
  unfold Y_to_SLog3. rewrite ltb_ok by assumption. rewrite Rlt_bool_false by lra. destruct (s3e_lo _ Fk ltac:(rewrite Vk; lra)) as [Fz Vz]. split; [exact Fz|].
  apply Rabs_le_inv in Vz. rewrite Vk in *. unfold slog3_enc_code. assert (0 <= log10 ((3019899 / 268435456 + 0.01) / 0.19 * 261.5)); [|rewrite U in *; lra].
  change (log10 ((3019899 / 268435456 + 0.01) / 0.19 * 261.5)) with (lg ((3019899 / 268435456 + 0.01) / 0.19 * 261.5)). pose proof ln10_bounds. replace 0 with (lg 1) by (unfold lg; rewrite ln_1; lra). apply lg_mono; lra.
Qed.
End F.
