(** * [fromCCT] in binary32: the chord of the locus, the direction across it and the offset point. *)
From Coq Require Import ZArith QArith Qreals Reals Lra Lia List Bool Psatz.
From Flocq Require Import Core IEEE754.BinarySingleNaN.
From Verif Require Import Num NumR NumF MVec MTri RTac F32 F64 PHsvF PNearF PSlogF PMat PTri PSqrtF PCct PPoly PCt PBlackF.
Import ListNotations.
Local Open Scope R_scope.
Definition BY4 : list Z := pscale 10000 BY.
Definition BD : list Z := padd [300000000000000000000000000000]%Z (padd (pscale 12 BY4) (pscale (-2) BX)).
Lemma by4_pe T : bb_y T = pe BY4 T / 1e29.
Proof. rewrite bby_pe. unfold BY4. rewrite pe_scale. lra. Qed.
Lemma bd_pe T : uden (bb_x T) (bb_y T) = pe BD T / 1e29.
Proof. unfold uden, BD. rewrite bbx_pe, by4_pe, !pe_add, !pe_scale. cbn [pe]. lra. Qed.
Lemma cct_box T : 1666 <= T <= 10000 -> 0.279 <= bb_x T <= 0.57 /\ 0.29 <= bb_y T <= 0.415 /\ 5.9 <= uden (bb_x T) (bb_y T) <= 7.02.
Proof.
  intros H. rewrite bd_pe, bbx_pe, by4_pe.
  assert (0 < pe (padd BX [- 27900000000000000000000000000]%Z) T) by ppos 12%nat 1666%Z 8334%Z.
  assert (0 < pe (padd [57000000000000000000000000000]%Z (pscale (-1) BX)) T) by ppos 12%nat 1666%Z 8334%Z.
  assert (0 < pe (padd BY4 [- 29000000000000000000000000000]%Z) T) by ppos 14%nat 1666%Z 8334%Z.
  assert (0 < pe (padd [41500000000000000000000000000]%Z (pscale (-1) BY4)) T) by ppos 14%nat 1666%Z 8334%Z.
  assert (0 < pe (padd BD [- 590000000000000000000000000000]%Z) T) by ppos 14%nat 1666%Z 8334%Z.
  assert (0 < pe (padd [702000000000000000000000000000]%Z (pscale (-1) BD)) T) by ppos 14%nat 1666%Z 8334%Z.
  rewrite !pe_add, ?pe_scale in *. cbn [pe] in *. lra.
Qed.
Lemma cct_hot T : 7999 <= T <= 10000 -> uden (bb_x T) (bb_y T) <= 6.08.
Proof.
  intros H. rewrite bd_pe. assert (0 < pe (padd [608000000000000000000000000000]%Z (pscale (-1) BD)) T) by ppos 14%nat 7999%Z 2001%Z.
  rewrite !pe_add, ?pe_scale in *. cbn [pe] in *. lra.
Qed.
(** 1960 coordinates on the approximated locus and the distance between two points one kelvin apart. *)
Definition lu (T : R) : R := u60 (bb_x T) (bb_y T).
Definition lv (T : R) : R := v60 (bb_x T) (bb_y T).
Definition chord (T : R) : R := sqrt ((lu (T - 1) - lu T) ^ 2 + (lv (T - 1) - lv T) ^ 2).
Definition prev (p : list Z) : list Z := psub p (-1) 1.
Lemma pe_prev p T : pe (prev p) T = pe p (T - 1).
Proof. unfold prev. rewrite pe_sub. f_equal. ring. Qed.
Definition CH : list Z := padd
  (pscale 4 (padd (pmul (prev BX) BD) (pscale (-1) (pmul BX (prev BD)))))
  (pscale 6 (padd (pmul (prev BY4) BD) (pscale (-1) (pmul BY4 (prev BD))))).
Lemma chord_poly T : 1667 <= T <= 10000 ->
  (lu (T - 1) - lu T) + (lv (T - 1) - lv T) = pe CH T / 1e58 / (uden (bb_x T) (bb_y T) * uden (bb_x (T - 1)) (bb_y (T - 1))).
Proof.
  intros H. destruct (cct_box T ltac:(lra)) as (_ & _ & D1). destruct (cct_box (T - 1) ltac:(lra)) as (_ & _ & D2).
  unfold CH. rewrite !pe_add, !pe_scale, !pe_add, !pe_scale, !pe_mul, !pe_prev. unfold lu, lv, u60, v60.
  rewrite (bd_pe T) in *. rewrite (bd_pe (T - 1)) in *. rewrite !bbx_pe, !by4_pe. qn. field. lra.
Qed.
Lemma chord_sum T : 1667 <= T <= 10000 -> 5.28e-6 <= (lu (T - 1) - lu T) + (lv (T - 1) - lv T).
Proof.
  intros H. rewrite chord_poly by exact H. destruct (cct_box T ltac:(lra)) as (_ & _ & D1). destruct (cct_box (T - 1) ltac:(lra)) as (_ & _ & D2).
  set (a := uden (bb_x T) (bb_y T)) in *. set (b := uden (bb_x (T - 1)) (bb_y (T - 1))) in *.
  assert (AB : 0 < a * b) by nra. apply Rmult_le_reg_r with (a * b); [exact AB|]. set (q := pe CH T / 1e58). replace (q / (a * b) * (a * b)) with q by (field; nra). unfold q.
  destruct (Rle_dec 8000 T) as [L|L].
  - pose proof (cct_hot T ltac:(lra)) as E1. pose proof (cct_hot (T - 1) ltac:(lra)) as E2. fold a in E1. fold b in E2.
    assert (0 < pe (padd CH [- (1953 * 10 ^ 51)]%Z) T) by ppos 16%nat 8000%Z 2000%Z.
    rewrite pe_add in *. cbn [pe] in *. assert (a * b <= 6.08 * 6.08) by nra. 
    replace (IZR (- (1953 * 10 ^ 51))) with (-1953e51) in * by (qn; lra). lra.
  - assert (0 < pe (padd CH [- (27 * 10 ^ 53)]%Z) T) by ppos 16%nat 1667%Z 6333%Z.
    rewrite pe_add in *. cbn [pe] in *. assert (a * b <= 7.02 * 7.02) by nra.
    replace (IZR (- (27 * 10 ^ 53))) with (-27e53) in * by (qn; lra). lra.
Qed.
Lemma chord_lo T : 1667 <= T <= 10000 -> 3.73e-6 <= chord T.
Proof.
  intros H. pose proof (chord_sum T H) as S. unfold chord. set (a := lu (T - 1) - lu T) in *. set (b := lv (T - 1) - lv T) in *.
  rewrite <- (sqrt_square 3.73e-6) by lra. apply sqrt_le_1_alt. assert (0 <= (a - b) ^ 2) by apply pow2_ge_0. nra.
Qed.

(** sharper bounds of the coordinates. *)
Lemma lu_lv T : 1666 <= T <= 10000 -> 0.187 <= lu T <= 0.341 /\ 0.294 <= lv T <= 0.3605.
Proof.
  intros H. destruct (cct_box T H) as (_ & _ & D). unfold lu, lv, u60, v60. rewrite bd_pe in *. rewrite bbx_pe, by4_pe.
  assert (0 < pe (padd (pscale 4000 BX) (pscale (-187) BD)) T) by ppos 14%nat 1666%Z 8334%Z.
  assert (0 < pe (padd (pscale 341 BD) (pscale (-4000) BX)) T) by ppos 14%nat 1666%Z 8334%Z.
  assert (0 < pe (padd (pscale 6000 BY4) (pscale (-294) BD)) T) by ppos 14%nat 1666%Z 8334%Z.
  assert (0 < pe (padd (pscale 3605 BD) (pscale (-60000) BY4)) T) by ppos 14%nat 1666%Z 8334%Z.
  rewrite !pe_add, !pe_scale in *. set (d := pe BD T) in *. set (x := pe BX T) in *. set (y := pe BY4 T) in *.
  assert (K : forall c p, 0 < d -> (c * d <= p * 1 -> c <= p / 1e29 / (d / 1e29)) /\ (p <= c * d -> p / 1e29 / (d / 1e29) <= c)).
  { intros c p D0. replace (p / 1e29 / (d / 1e29)) with (p / d) by (field; lra). split; intros L.
    - apply Rmult_le_reg_r with d; [exact D0|]. unfold Rdiv. rewrite Rmult_assoc, Rinv_l by lra. lra.
    - apply Rmult_le_reg_r with d; [exact D0|]. unfold Rdiv. rewrite Rmult_assoc, Rinv_l by lra. lra. }
  assert (D0 : 0 < d) by lra.
  replace (4 * (x / 1e29)) with (4 * x / 1e29) by lra. replace (6 * (y / 1e29)) with (6 * y / 1e29) by lra.
  repeat split; apply K; try exact D0; lra.
Qed.
(** two vectors of known difference have nearly the same direction. *)
Lemma unit_diff a b a' b' : 0 < a * a + b * b -> 0 < a' * a' + b' * b' ->
  let l := sqrt (a * a + b * b) in let l' := sqrt (a' * a' + b' * b') in
  (a' / l' - a / l) ^ 2 + (b' / l' - b / l) ^ 2 <= 4 * ((a' - a) ^ 2 + (b' - b) ^ 2) / (l + l') ^ 2.
Proof.
  intros H H' l l'. assert (L : 0 < l) by now apply sqrt_lt_R0. assert (L' : 0 < l') by now apply sqrt_lt_R0.
  assert (E : l * l = a * a + b * b) by (apply sqrt_sqrt; lra). assert (E' : l' * l' = a' * a' + b' * b') by (apply sqrt_sqrt; lra).
  clearbody l l'.
  assert (C : - (l * l') <= a * a' + b * b').
  { assert (S : (a * a' + b * b') ^ 2 <= (l * l') ^ 2).
    { replace ((l * l') ^ 2) with ((l * l) * (l' * l')) by ring. rewrite E, E'. assert (0 <= (a * b' - b * a') ^ 2) by apply pow2_ge_0. nra. }
    assert (0 < l * l') by nra. nra. }
  set (c := a * a' + b * b') in *.
  apply Rmult_le_reg_r with ((l + l') ^ 2 * (l * l')); [apply Rmult_lt_0_compat; nra|].
  replace (4 * ((a' - a) ^ 2 + (b' - b) ^ 2) / (l + l') ^ 2 * ((l + l') ^ 2 * (l * l'))) with (4 * ((a' * a' + b' * b') + (a * a + b * b) - 2 * c) * (l * l')) by (unfold c; field; lra).
  replace (((a' / l' - a / l) ^ 2 + (b' / l' - b / l) ^ 2) * ((l + l') ^ 2 * (l * l')))
    with (((a' * a' + b' * b') / (l' * l') + (a * a + b * b) / (l * l) - 2 * c / (l * l')) * ((l + l') ^ 2 * (l * l'))) by (unfold c; field; lra).
  rewrite <- E, <- E'. replace (((l' * l') / (l' * l') + (l * l) / (l * l) - 2 * c / (l * l')) * ((l + l') ^ 2 * (l * l'))) with (2 * (l * l' - c) * (l + l') ^ 2) by (field; lra).
  assert (0 <= (l * l' + c) * (l - l') ^ 2) by (apply Rmult_le_pos; [lra|apply pow2_ge_0]).
  nra.
Qed.
Lemma unit_close a b a' b' e : 0 < a * a + b * b -> 0 < e -> (a' - a) ^ 2 + (b' - b) ^ 2 <= e ^ 2 -> 2 * e <= sqrt (a * a + b * b) ->
  let l := sqrt (a * a + b * b) in let l' := sqrt (a' * a' + b' * b') in
  l - e <= l' /\ Rabs (a' / l' - a / l) <= 2 * e / (2 * l - e) /\ Rabs (b' / l' - b / l) <= 2 * e / (2 * l - e).
Proof.
  intros H E0 D L l l'. assert (L0 : 0 < l) by now apply sqrt_lt_R0. fold l in L.
  assert (El : l * l = a * a + b * b) by (apply sqrt_sqrt; lra).
  assert (Hl : l - e <= l').
  { apply Rnot_lt_le. intros X. assert (P : 0 <= l') by apply sqrt_pos. assert (E' : l' * l' = a' * a' + b' * b') by (apply sqrt_sqrt; nra).
    assert (C : a * a' + b * b' <= l * l').
    { assert (S : (a * a' + b * b') ^ 2 <= (l * l') ^ 2).
      { replace ((l * l') ^ 2) with ((l * l) * (l' * l')) by ring. rewrite El, E'. assert (0 <= (a * b' - b * a') ^ 2) by apply pow2_ge_0. nra. }
      assert (0 <= l * l') by nra. nra. }
    assert (Q : (l - l') ^ 2 <= e ^ 2) by nra. nra. }
  split; [exact Hl|]. assert (L1 : 0 < l') by lra.
  assert (H' : 0 < a' * a' + b' * b'). { apply Rnot_le_lt. intros X. unfold l' in L1. rewrite sqrt_neg_0 in L1 by exact X. lra. }
  pose proof (unit_diff a b a' b' H H') as U. cbv zeta in U. fold l l' in U.
  assert (B : (a' / l' - a / l) ^ 2 + (b' / l' - b / l) ^ 2 <= (2 * e / (2 * l - e)) ^ 2).
  { eapply Rle_trans; [exact U|]. replace ((2 * e / (2 * l - e)) ^ 2) with (4 * e ^ 2 * / (2 * l - e) ^ 2) by (field; lra). unfold Rdiv.
    pose proof (pow2_ge_0 (a' - a)). pose proof (pow2_ge_0 (b' - b)).
    assert (G : 0 < (2 * l - e) ^ 2) by (apply pow_lt; lra). assert (G2 : (2 * l - e) ^ 2 <= (l + l') ^ 2) by (apply pow_incr; lra).
    apply Rmult_le_compat; [lra|apply Rlt_le, Rinv_0_lt_compat; lra|lra|]. apply Rinv_le; lra. }
  assert (P : 0 <= 2 * e / (2 * l - e)) by (apply Rmult_le_pos; [lra|apply Rlt_le, Rinv_0_lt_compat; lra]).
  assert (K : forall x y z, 0 <= z -> x ^ 2 + y ^ 2 <= z ^ 2 -> Rabs x <= z).
  { intros x y z Z Q. apply Rabs_le. split; apply Rnot_lt_le; intros X; nra. }
  split; [apply K with (b' / l' - b / l)|apply K with (a' / l' - a / l)]; try exact P; lra.
Qed.

(** one kelvin less is exact. *)
Lemma pred_fmt t : fmt t -> 1024 <= t <= 16384 -> fmt (t - 1).
Proof.
  intros F H. destruct (FLT_format_generic radix2 (-149) 24 t F) as [[m e] Ex Em Ee]. cbn [Fnum Fexp] in *. unfold F2R in Ex. cbn [Fnum Fexp] in Ex.
  destruct (Z_le_gt_dec e 0) as [L|G].
  - replace (t - 1) with (IZR (m - 2 ^ (- e)) * bpow radix2 e).
    + apply fmt_F2R; [|exact Ee]. assert (M : (2 ^ (- e) <= m)%Z).
      { apply le_IZR. rewrite (IZR_Zpower radix2) by lia. apply Rmult_le_reg_r with (bpow radix2 e); [apply bpow_gt_0|]. rewrite <- bpow_plus, <- Ex. replace (- e + e)%Z with 0%Z by lia. cbn [bpow]. lra. }
      assert (0 <= 2 ^ (- e))%Z by (apply Z.pow_nonneg; lia). change (radix2 ^ 24)%Z with (2 ^ 24)%Z in Em. clear - Em M H0. change (2 ^ 24)%Z with 16777216%Z in *. lia.
    + rewrite minus_IZR, (IZR_Zpower radix2) by lia. rewrite Rmult_minus_distr_r, <- bpow_plus, <- Ex. replace (- e + e)%Z with 0%Z by lia. reflexivity.
  - assert (Z : t = IZR (m * 2 ^ e)). { rewrite mult_IZR, (IZR_Zpower radix2) by lia. exact Ex. }
    rewrite Z, <- minus_IZR. apply fmt_IZR. rewrite Z in H. destruct H as [A B]. apply le_IZR in A, B. lia.
Qed.

Section F.
Context (lm : libm).
Notation N := (FN lm).
Lemma pred_ok (T : f32) : fin T -> 1667 <= B2R T <= 10000 -> fin (@fsub N T (@flit N 1)) /\ B2R (@fsub N T (@flit N 1)) = B2R T - 1.
Proof.
  intros F H. assert (V : fin (@flit N 1) /\ B2R (@flit N 1) = 1) by f32_val. destruct V as [F1 V1].
  pose proof b40 as B. destruct (sub_ok lm T (@flit N 1) F F1) as [A E].
  - rewrite V1. rewrite Rabs_pos_eq; lra.
  - split; [exact A|]. rewrite E, V1. apply rnd_id, pred_fmt; [apply fmt_B2R|lra].
Qed.
Lemma uv_near (x y : f32) rx ry : near x rx (0.83 * u) -> near y ry (0.91 * u) -> 0.279 <= rx <= 0.57 -> 0.29 <= ry <= 0.415 -> 5.9 <= uden rx ry <= 7.02 ->
  0 <= u60 rx ry <= 0.341 -> 0 <= v60 rx ry <= 0.3605 ->
  near (u_from_xy N x y) (u60 rx ry) (3.02 * u) /\ near (v_from_xy N x y) (v60 rx ry) (3.54 * u).
Proof.
  intros Hx Hy Rx Ry D U1 V1. pose proof u16 as U. pose proof eta_sharp as E.
  assert (K2 : near (@fopp N (@flit N 2)) (- 2) 0) by (apply (near_lit _ (-2)); [f32_val|]; rewrite Rminus_diag_eq, Rabs_R0 by reflexivity; lra).
  assert (K4 : near (@flit N 4) 4 0) by (apply (near_lit _ 4); [f32_val|]; rewrite Rminus_diag_eq, Rabs_R0 by reflexivity; lra).
  assert (K6 : near (@flit N 6) 6 0) by (apply (near_lit _ 6); [f32_val|]; rewrite Rminus_diag_eq, Rabs_R0 by reflexivity; lra).
  assert (K12 : near (@flit N 12) 12 0) by (apply (near_lit _ 12); [f32_val|]; rewrite Rminus_diag_eq, Rabs_R0 by reflexivity; lra).
  assert (K3 : near (@flit N 3) 3 0) by (apply (near_lit _ 3); [f32_val|]; rewrite Rminus_diag_eq, Rabs_R0 by reflexivity; lra).
  assert (A4 : near (@fmul N (@flit N 4) x) (4 * rx) (5.61 * u)).
  { eapply near_le; [apply (near_mul lm _ _ 4 rx 0 (0.83 * u) 4 0.57 K4 Hx); try (rewrite Rabs_pos_eq; lra); rewrite U; lra|rewrite U in *; lra]. }
  assert (A6 : near (@fmul N (@flit N 6) y) (6 * ry) (7.96 * u)).
  { eapply near_le; [apply (near_mul lm _ _ 6 ry 0 (0.91 * u) 6 0.415 K6 Hy); try (rewrite Rabs_pos_eq; lra); rewrite U; lra|rewrite U in *; lra]. }
  assert (A2 : near (@fmul N (@fopp N (@flit N 2)) x) (- 2 * rx) (2.81 * u)).
  { eapply near_le; [apply (near_mul lm _ _ (-2) rx 0 (0.83 * u) 2 0.57 K2 Hx); try (apply Rabs_le; lra); rewrite U; lra|rewrite U in *; lra]. }
  assert (A12 : near (@fmul N (@flit N 12) y) (12 * ry) (15.91 * u)).
  { eapply near_le; [apply (near_mul lm _ _ 12 ry 0 (0.91 * u) 12 0.415 K12 Hy); try (rewrite Rabs_pos_eq; lra); rewrite U; lra|rewrite U in *; lra]. }
  unfold uden in D.
  assert (AS : near (@fadd N (@fmul N (@fopp N (@flit N 2)) x) (@fmul N (@flit N 12) y)) (- 2 * rx + 12 * ry) (22.75 * u)).
  { eapply near_le; [apply (near_add lm _ _ _ _ _ _ 4.02 A2 A12); [rewrite Rabs_pos_eq; lra|rewrite U; lra]|rewrite U in *; lra]. }
  assert (AD : near (@fadd N (@fadd N (@fmul N (@fopp N (@flit N 2)) x) (@fmul N (@flit N 12) y)) (@flit N 3)) (uden rx ry) (29.8 * u)).
  { eapply near_le; [apply (near_add lm _ _ _ _ _ _ 7.02 AS K3); [rewrite Rabs_pos_eq; lra|rewrite U; lra]|rewrite U in *; lra]. }
  fold (uden rx ry) in D. unfold u_from_xy, v_from_xy, u60, v60 in *. split.
  - eapply near_le; [apply (near_div lm _ _ _ _ _ _ 0.341 5.9 A4 AD); [rewrite Rabs_pos_eq; lra|rewrite U; lra|rewrite Rabs_pos_eq; lra|cbv zeta; rewrite U; lra]|rewrite U in *; lra].
  - eapply near_le; [apply (near_div lm _ _ _ _ _ _ 0.3605 5.9 A6 AD); [rewrite Rabs_pos_eq; lra|rewrite U; lra|rewrite Rabs_pos_eq; lra|cbv zeta; rewrite U; lra]|rewrite U in *; lra].
Qed.
Lemma locus_near (T : f32) : fin T -> 1666 <= B2R T <= 10000 ->
  near (u_from_xy N (blackbody_x_approx N T) (blackbody_y_approx N T)) (lu (B2R T)) (3.02 * u) /\
  near (v_from_xy N (blackbody_x_approx N T) (blackbody_y_approx N T)) (lv (B2R T)) (3.54 * u).
Proof.
  intros F H. destruct (cct_box _ H) as (Bx & By & D). destruct (lu_lv _ H) as (U1 & V1). unfold lu, lv in *.
  apply uv_near; try assumption; try lra.
  - apply bbx_near; [exact F|lra|rewrite Rabs_pos_eq; lra].
  - apply bby_near; [exact F|lra|rewrite Rabs_pos_eq; lra].
Qed.
(** the length of a difference, as the code computes it. *)
Lemma len_float (a b : f32) L : fin a -> fin b -> L * L = B2R a * B2R a + B2R b * B2R b -> 3e-6 <= L <= 2 ->
  exists l, terminates_with (fun n => util_sqrtf N n (@fadd N (@fmul N a a) (@fmul N b b))) (Ret l) /\ fin l /\ Rabs (B2R l - L) <= 3.2 * u * L.
Proof.
  intros Fa Fb E H. pose proof u16 as U. pose proof eta_sharp as T. pose proof b40 as B.
  assert (Sa : 0 <= B2R a * B2R a) by nra. assert (Sb : 0 <= B2R b * B2R b) by nra. assert (L4 : 9e-12 <= L * L <= 4) by nra.
  set (p := B2R a * B2R a) in *. set (q := B2R b * B2R b) in *. set (Q := L * L) in *.
  destruct (mul_ok lm a a Fa Fa) as [F1 V1]. { fold p. rewrite Rabs_pos_eq; lra. }
  destruct (mul_ok lm b b Fb Fb) as [F2 V2]. { fold q. rewrite Rabs_pos_eq; lra. }
  fold p in V1. fold q in V2. pose proof (rnd_err_abs p) as R1. pose proof (rnd_err_abs q) as R2. rewrite <- V1 in R1. rewrite <- V2 in R2.
  rewrite (Rabs_pos_eq p) in R1 by lra. rewrite (Rabs_pos_eq q) in R2 by lra.
  set (x := @fmul N a a : f32) in *. set (y := @fmul N b b : f32) in *. apply Rabs_le_inv in R1, R2.
  destruct (add_ok lm x y F1 F2) as [F3 V3]. { apply Rabs_le. rewrite U in *. lra. }
  pose proof (rnd_add_err _ _ (fmt_B2R x) (fmt_B2R y)) as R3. rewrite <- V3 in R3. set (z := @fadd N x y : f32) in *.
  assert (S1 : Rabs (B2R x + B2R y) <= 1.01 * Q). { apply Rabs_le. rewrite U in *. lra. }
  assert (ZQ : Rabs (B2R z - Q) <= 2.02 * u * Q).
  { apply Rabs_le_inv in R3. assert (u * Rabs (B2R x + B2R y) <= u * (Q + u * Q + 2 * eta)). { apply Rmult_le_compat_l; [rewrite U; lra|]. apply Rabs_le. rewrite U in *. lra. }
    apply Rabs_le. rewrite U in *. lra. }
  apply Rabs_le_inv in ZQ. assert (Z0 : 0 <= B2R z) by (rewrite U in *; lra).
  destruct (C12_l lm z F3 Z0) as (l & Tl & Fl & _). exists l. split; [exact Tl|]. split; [exact Fl|].
  pose proof (C13_ulp_l lm z l F3 Z0 Tl) as W. set (s := sqrt (B2R z)) in *. assert (s0 : 0 <= s) by apply sqrt_pos. assert (ss : s * s = B2R z) by (apply sqrt_sqrt; exact Z0).
  assert (SL : Rabs (s - L) <= 1.02 * u * L).
  { apply Rabs_le. unfold Q in *. rewrite U in *. split; apply Rnot_lt_le; intros X; nra. }
  apply Rabs_le_inv in SL.
  assert (UL : ulp radix2 fe s <= s * bpow radix2 (1 - 24)).
  { rewrite <- (Rabs_pos_eq s) at 2 by exact s0. apply ulp_FLT_le. rewrite (Rabs_pos_eq s) by exact s0. apply Rle_trans with (bpow radix2 (-30)); [apply bpow_le; lia|]. change (bpow radix2 (-30)) with (/ 1073741824). rewrite U in *. lra. }
  change (bpow radix2 (1 - 24)) with (/ 8388608) in UL. apply Rabs_def2 in W. apply Rabs_le. rewrite U in *. lra.
Qed.
Lemma off_float (d a l : f32) L : fin d -> fin a -> fin l -> Rabs (B2R d) <= 0.05 -> Rabs (B2R a) <= L -> 3e-6 <= L <= 2 -> Rabs (B2R l - L) <= 3.2 * u * L ->
  near (@fdiv N (@fmul N d a) l) (B2R d * B2R a / L) (0.3 * u).
Proof.
  intros Fd Fa Fl Hd Ha HL Hl. pose proof u16 as U. pose proof eta_sharp as T.
  assert (P : near (@fmul N d a) (B2R d * B2R a) (0.051 * u * L)).
  { eapply near_le; [apply (near_mul lm _ _ (B2R d) (B2R a) 0 0 0.05 L); [apply near_self, Fd|apply near_self, Fa|exact Hd|exact Ha|lra]|]. rewrite U in *. lra. }
  assert (G : (0.051 * u * L + 0.05 * (3.2 * u * L)) / (L - 3.2 * u * L) <= 0.212 * u).
  { apply Rmult_le_reg_r with (L - 3.2 * u * L); [rewrite U; lra|]. unfold Rdiv. rewrite Rmult_assoc, Rinv_l by (rewrite U; lra). rewrite U. nra. }
  eapply near_le; [apply (near_div lm _ _ _ L _ (3.2 * u * L) 0.05 L P)|].
  - split; [exact Fl|exact Hl].
  - rewrite Rabs_pos_eq; lra.
  - rewrite U; lra.
  - unfold Rdiv. rewrite !Rabs_mult, Rabs_inv, (Rabs_pos_eq L) by lra. apply Rmult_le_reg_r with L; [lra|]. rewrite Rmult_assoc, Rinv_l by lra. rewrite Rmult_1_r. apply Rmult_le_compat; try apply Rabs_pos; assumption.
  - cbv zeta. rewrite U in *. lra.
  - set (e := (0.051 * u * L + 0.05 * (3.2 * u * L)) / (L - 3.2 * u * L)) in *. rewrite U in *. lra.
Qed.
Definition eu (T d : R) : R := lu T - d * (lv (T - 1) - lv T) / chord T.
Definition ev (T d : R) : R := lv T + d * (lu (T - 1) - lu T) / chord T.
Lemma cct_uv_near (T d : f32) : fin T -> fin d -> 1667 <= B2R T <= 10000 -> Rabs (B2R d) <= 0.05 ->
  exists us vs : f32, (exists n, forall m, (n <= m)%nat -> CCT_uv N (util_sqrtf N m) T d = Ret (us, vs)) /\ fin us /\ fin vs /\
    0.1369 <= B2R us <= 0.3911 /\ 0.2439 <= B2R vs <= 0.4106 /\
    Rabs (B2R us - eu (B2R T) (B2R d)) <= 10.3 * u * Rabs (B2R d) / chord (B2R T) + 3.8 * u /\
    Rabs (B2R vs - ev (B2R T) (B2R d)) <= 10.3 * u * Rabs (B2R d) / chord (B2R T) + 4.3 * u.
Proof.
  intros FT Fd HT Hd. pose proof u16 as U. set (t := B2R T) in *.
  destruct (locus_near T FT ltac:(fold t; lra)) as [Nu1 Nv1]. destruct (pred_ok T FT HT) as [FT2 VT2]. fold t in VT2.
  destruct (locus_near _ FT2 ltac:(rewrite VT2; lra)) as [Nu2 Nv2]. rewrite VT2 in Nu2, Nv2. fold t in Nu1, Nv1.
  destruct (lu_lv t ltac:(lra)) as [Bu1 Bv1]. destruct (lu_lv (t - 1) ltac:(lra)) as [Bu2 Bv2].
  unfold CCT_uv. cbv zeta.
  set (u1 := u_from_xy N (blackbody_x_approx N T) (blackbody_y_approx N T) : f32) in *. set (v1 := v_from_xy N (blackbody_x_approx N T) (blackbody_y_approx N T) : f32) in *.
  set (T2 := @fsub N T (@flit N 1) : f32) in *.
  set (u2 := u_from_xy N (blackbody_x_approx N T2) (blackbody_y_approx N T2) : f32) in *. set (v2 := v_from_xy N (blackbody_x_approx N T2) (blackbody_y_approx N T2) : f32) in *.
  clearbody u1 v1 u2 v2. clear T2 FT2 VT2.
  assert (Du : near (@fsub N u2 u1) (lu (t - 1) - lu t) (6.2 * u)).
  { eapply near_le; [apply (near_sub lm _ _ _ _ _ _ 0.154 Nu2 Nu1); [apply Rabs_le; lra|rewrite U; lra]|rewrite U; lra]. }
  assert (Dv : near (@fsub N v2 v1) (lv (t - 1) - lv t) (7.15 * u)).
  { eapply near_le; [apply (near_sub lm _ _ _ _ _ _ 0.067 Nv2 Nv1); [apply Rabs_le; lra|rewrite U; lra]|rewrite U; lra]. }
  set (a := @fsub N u2 u1 : f32) in *. set (b := @fsub N v2 v1 : f32) in *.
  set (ra := lu (t - 1) - lu t) in *. set (rb := lv (t - 1) - lv t) in *.
  pose proof (chord_lo t HT) as C. assert (Ec : chord t = sqrt (ra * ra + rb * rb)). { unfold chord. fold ra rb. f_equal. ring. }
  assert (C0 : 0 < ra * ra + rb * rb). { apply Rnot_le_lt. intros X. rewrite Ec, sqrt_neg_0 in C by exact X. lra. }
  destruct Du as [Fa Da], Dv as [Fb Db]. set (A := B2R a) in *. set (Bb := B2R b) in *.
  assert (ND : (A - ra) ^ 2 + (Bb - rb) ^ 2 <= (9.5 * u) ^ 2).
  { apply Rabs_le_inv in Da, Db. assert ((A - ra) ^ 2 <= (6.2 * u) ^ 2) by nra. assert ((Bb - rb) ^ 2 <= (7.15 * u) ^ 2) by nra. rewrite U in *. lra. }
  destruct (unit_close ra rb A Bb (9.5 * u) C0 ltac:(rewrite U; lra) ND ltac:(rewrite <- Ec, U; lra)) as (L1 & Ca & Cb). rewrite <- Ec in *.
  set (c := chord t) in *. set (L := sqrt (A * A + Bb * Bb)) in *.
  assert (K : forall x, 0 <= x -> x * (2 * (9.5 * u) / (2 * c - 9.5 * u)) <= 10.3 * u * x / c).
  { intros x X. assert (2 * (9.5 * u) / (2 * c - 9.5 * u) <= 10.3 * u / c).
    { apply Rmult_le_reg_r with (2 * c - 9.5 * u); [rewrite U; lra|]. unfold Rdiv. rewrite Rmult_assoc, Rinv_l by (rewrite U; lra).
      apply Rmult_le_reg_r with c; [lra|]. replace (10.3 * u * / c * (2 * c - 9.5 * u) * c) with (10.3 * u * (2 * c - 9.5 * u)) by (field; lra). rewrite U. lra. }
    replace (10.3 * u * x / c) with (x * (10.3 * u / c)) by (unfold Rdiv; ring). apply Rmult_le_compat_l; assumption. }
  assert (HL : 3e-6 <= L <= 2).
  { split; [rewrite U in *; lra|]. apply Rabs_le_inv in Da, Db. unfold L. rewrite <- (sqrt_square 2) by lra. apply sqrt_le_1_alt. assert (-1 <= A <= 1) by (unfold ra in *; rewrite U in *; lra). assert (-1 <= Bb <= 1) by (unfold rb in *; rewrite U in *; lra). nra. }
  assert (EL : L * L = A * A + Bb * Bb) by (apply sqrt_sqrt; nra).
  destruct (len_float a b L Fa Fb EL HL) as (l & (n & Tl) & Fl & Vl).
  assert (AL : Rabs A <= L) by (apply Rabs_le; split; nra). assert (BL : Rabs Bb <= L) by (apply Rabs_le; split; nra).
  pose proof (off_float d a l L Fd Fa Fl Hd AL HL Vl) as Oa. pose proof (off_float d b l L Fd Fb Fl Hd BL HL Vl) as Ob. fold A in Oa. fold Bb in Ob.
  assert (M : forall z, Rabs z <= L -> Rabs (B2R d * z / L) <= 0.05).
  { intros z Z. unfold Rdiv. rewrite !Rabs_mult, Rabs_inv, (Rabs_pos_eq L) by lra. apply Rmult_le_reg_r with L; [lra|]. rewrite Rmult_assoc, Rinv_l by lra. rewrite Rmult_1_r. apply Rmult_le_compat; try apply Rabs_pos; assumption. }
  pose proof (M A AL) as MA. pose proof (M Bb BL) as MB. apply Rabs_le_inv in MA, MB.
  pose proof (near_sub lm _ _ _ _ _ _ 0.391 Nu1 Ob ltac:(apply Rabs_le; lra) ltac:(rewrite U; lra)) as [Fus Vus].
  pose proof (near_add lm _ _ _ _ _ _ 0.4105 Nv1 Oa ltac:(apply Rabs_le; lra) ltac:(rewrite U; lra)) as [Fvs Vvs].
  eexists; eexists. split; [exists n; intros m Hm; destruct (Tl m Hm) as [-> _]; cbn [bind]; reflexivity|].
  split; [exact Fus|]. split; [exact Fvs|].
  set (us := B2R (@fsub N u1 (@fdiv N (@fmul N d b) l))) in *. set (vs := B2R (@fadd N v1 (@fdiv N (@fmul N d a) l))) in *.
  pose proof (K (Rabs (B2R d)) (Rabs_pos _)) as Kd.
  assert (Qb : Rabs (B2R d * Bb / L - B2R d * rb / c) <= 10.3 * u * Rabs (B2R d) / c).
  { eapply Rle_trans; [|exact Kd]. replace (B2R d * Bb / L - B2R d * rb / c) with (B2R d * (Bb / L - rb / c)) by (unfold Rdiv; ring). rewrite Rabs_mult. apply Rmult_le_compat_l; [apply Rabs_pos|exact Cb]. }
  assert (Qa : Rabs (B2R d * A / L - B2R d * ra / c) <= 10.3 * u * Rabs (B2R d) / c).
  { eapply Rle_trans; [|exact Kd]. replace (B2R d * A / L - B2R d * ra / c) with (B2R d * (A / L - ra / c)) by (unfold Rdiv; ring). rewrite Rabs_mult. apply Rmult_le_compat_l; [apply Rabs_pos|exact Ca]. }
  unfold eu, ev. fold c ra rb. set (g := 10.3 * u * Rabs (B2R d) / c) in *. clearbody g us vs.
  apply Rabs_le_inv in Vus, Vvs, Qa, Qb. set (pa := B2R d * A / L) in *. set (pb := B2R d * Bb / L) in *. set (ka := B2R d * ra / c) in *. set (kb := B2R d * rb / c) in *. clearbody pa pb ka kb. clear - Vus Vvs Qa Qb MA MB U Bu1 Bv1.
  repeat split; try (apply Rabs_le); rewrite U in *; try lra.
Qed.
(** from 1960 coordinates back to XYZ. *)
Lemma back_near (Y us vs : f32) : fin Y -> 1e-6 <= B2R Y <= 1e6 -> fin us -> fin vs -> 0.1369 <= B2R us <= 0.3911 -> 0.2439 <= B2R vs <= 0.4106 ->
  exists X Z : f32, fromYxy N (V3 Y (x_from_uv N us vs) (y_from_uv N us vs)) = V3 X Y Z /\ fin X /\ fin Z /\
    Rabs (B2R X - 3 * B2R us / (2 * B2R vs) * B2R Y) <= 240 * u * B2R Y /\
    Rabs (B2R Z - (4 - B2R us - 10 * B2R vs) / (2 * B2R vs) * B2R Y) <= 340 * u * B2R Y.
Proof.
  intros FY HY Fu Fv Ru Rv. pose proof u16 as U. pose proof eta_sharp as E. set (w := B2R Y) in *. set (a := B2R us) in *. set (b := B2R vs) in *.
  pose proof (near_self us Fu : near us a 0) as Na. pose proof (near_self vs Fv : near vs b 0) as Nb.
  assert (K2 : near (@flit N 2) 2 0) by (apply (near_lit _ 2); [f32_val|]; rewrite Rminus_diag_eq, Rabs_R0 by reflexivity; lra).
  assert (K3 : near (@flit N 3) 3 0) by (apply (near_lit _ 3); [f32_val|]; rewrite Rminus_diag_eq, Rabs_R0 by reflexivity; lra).
  assert (K4 : near (@flit N 4) 4 0) by (apply (near_lit _ 4); [f32_val|]; rewrite Rminus_diag_eq, Rabs_R0 by reflexivity; lra).
  assert (K8 : near (@flit N 8) 8 0) by (apply (near_lit _ 8); [f32_val|]; rewrite Rminus_diag_eq, Rabs_R0 by reflexivity; lra).
  assert (A3 : near (@fmul N (@flit N 3) us) (3 * a) (1.18 * u)).
  { eapply near_le; [apply (near_mul lm _ _ _ _ _ _ 3 0.3911 K3 Na); try (rewrite Rabs_pos_eq; lra); lra|rewrite U in *; lra]. }
  assert (A2 : near (@fmul N (@flit N 2) us) (2 * a) (0.79 * u)).
  { eapply near_le; [apply (near_mul lm _ _ _ _ _ _ 2 0.3911 K2 Na); try (rewrite Rabs_pos_eq; lra); lra|rewrite U in *; lra]. }
  assert (B2 : near (@fmul N (@flit N 2) vs) (2 * b) (0.83 * u)).
  { eapply near_le; [apply (near_mul lm _ _ _ _ _ _ 2 0.4106 K2 Nb); try (rewrite Rabs_pos_eq; lra); lra|rewrite U in *; lra]. }
  assert (B8 : near (@fmul N (@flit N 8) vs) (8 * b) (3.29 * u)).
  { eapply near_le; [apply (near_mul lm _ _ _ _ _ _ 8 0.4106 K8 Nb); try (rewrite Rabs_pos_eq; lra); lra|rewrite U in *; lra]. }
  assert (D1 : near (@fsub N (@fmul N (@flit N 2) us) (@fmul N (@flit N 8) vs)) (2 * a - 8 * b) (7.11 * u)).
  { eapply near_le; [apply (near_sub lm _ _ _ _ _ _ 3.02 A2 B8); [apply Rabs_le; lra|rewrite U; lra]|rewrite U; lra]. }
  assert (D : near (@fadd N (@fsub N (@fmul N (@flit N 2) us) (@fmul N (@flit N 8) vs)) (@flit N 4)) (2 * a - 8 * b + 4) (9.96 * u)).
  { eapply near_le; [apply (near_add lm _ _ _ _ _ _ 2.84 D1 K4); [apply Rabs_le; lra|rewrite U; lra]|rewrite U; lra]. }
  set (den := 2 * a - 8 * b + 4) in *. assert (Rd : 0.988 <= den <= 2.832) by (unfold den; lra).
  assert (QX : 0 <= 3 * a / den <= 1.19). { split; [apply Rmult_le_pos; [lra|apply Rlt_le, Rinv_0_lt_compat; lra]|]. apply Rmult_le_reg_r with den; [lra|]. unfold Rdiv. rewrite Rmult_assoc, Rinv_l by lra. lra. }
  assert (QY : 0.172 <= 2 * b / den <= 0.832). { split; (apply Rmult_le_reg_r with den; [lra|]); unfold Rdiv; rewrite Rmult_assoc, Rinv_l by lra; unfold den; lra. }
  assert (NX : near (x_from_uv N us vs) (3 * a / den) (14.5 * u)).
  { unfold x_from_uv. eapply near_le; [apply (near_div lm _ _ _ _ _ _ 1.19 0.988 A3 D); [rewrite Rabs_pos_eq; lra|rewrite U; lra|rewrite Rabs_pos_eq; lra|cbv zeta; rewrite U; lra]|rewrite U in *; lra]. }
  assert (NY : near (y_from_uv N us vs) (2 * b / den) (10.2 * u)).
  { unfold y_from_uv. eapply near_le; [apply (near_div lm _ _ _ _ _ _ 0.832 0.988 B2 D); [rewrite Rabs_pos_eq; lra|rewrite U; lra|rewrite Rabs_pos_eq; lra|cbv zeta; rewrite U; lra]|rewrite U in *; lra]. }
  assert (EX : 3 * a / den * w / (2 * b / den) = 3 * a / (2 * b) * w) by (field; unfold den in *; lra).
  assert (EZ : (1 - 3 * a / den - 2 * b / den) * w / (2 * b / den) = (4 - a - 10 * b) / (2 * b) * w) by (unfold den; field; unfold den in *; lra).
  assert (QZ : -0.5 <= 1 - 3 * a / den - 2 * b / den <= 0.65).
  { replace (1 - 3 * a / den - 2 * b / den) with ((4 - a - 10 * b) / den) by (unfold den; field; unfold den in *; lra).
    split; (apply Rmult_le_reg_r with den; [lra|]); unfold Rdiv; rewrite Rmult_assoc, Rinv_l by lra; unfold den; lra. }
  assert (IX : 0 <= 3 * a / (2 * b) <= 2.41). { split; [apply Rmult_le_pos; [lra|apply Rlt_le, Rinv_0_lt_compat; lra]|]. apply Rmult_le_reg_r with (2 * b); [lra|]. unfold Rdiv. rewrite Rmult_assoc, Rinv_l by lra. lra. }
  assert (IZ : -0.61 <= (4 - a - 10 * b) / (2 * b) <= 2.92). { split; (apply Rmult_le_reg_r with (2 * b); [lra|]); unfold Rdiv; rewrite Rmult_assoc, Rinv_l by lra; lra. }
  set (x := x_from_uv N us vs : f32) in *. set (y := y_from_uv N us vs : f32) in *. clearbody x y.
  assert (G : @fltb N (abs_f N y) (@flit N 1e-8%dec) = false). { destruct NY as [Fy Vy]. apply Rabs_le_inv in Vy. apply abs_guard; [exact Fy|]. rewrite U in *. lra. }
  pose proof (near_self Y FY : near Y w 0) as NW.
  assert (RX : near (X_from_Yxy N Y x y) (3 * a / (2 * b) * w) (240 * u * w)).
  { unfold X_from_Yxy. rewrite G. rewrite <- EX. 
    assert (P : near (@fmul N x Y) (3 * a / den * w) (15.7 * u * w)).
    { eapply near_le; [apply (near_mul lm _ _ _ _ _ _ 1.19 w NX NW); [rewrite Rabs_pos_eq; lra|rewrite Rabs_pos_eq; lra|rewrite U; lra]|rewrite U in *; lra]. }
    eapply near_le; [apply (near_div lm _ _ _ _ _ _ (2.41 * w) 0.172 P NY); [rewrite Rabs_pos_eq; lra|rewrite U; lra| |cbv zeta; rewrite U; lra]|rewrite U in *; lra].
    rewrite EX. rewrite Rabs_pos_eq; [apply Rmult_le_compat_r; lra|apply Rmult_le_pos; lra]. }
  assert (RZ : near (Z_from_Yxy N Y x y) ((4 - a - 10 * b) / (2 * b) * w) (340 * u * w)).
  { unfold Z_from_Yxy. rewrite G. rewrite <- EZ. unfold z_from_xy.
    assert (Z1 : near (@fsub N (@fofZ N 1) x) (1 - 3 * a / den) (15.6 * u)).
    { eapply near_le; [apply (near_sub lm _ _ _ _ _ _ 1 (kone lm) NX); [apply Rabs_le; lra|rewrite U; lra]|rewrite U; lra]. }
    assert (Z2 : near (@fsub N (@fsub N (@fofZ N 1) x) y) (1 - 3 * a / den - 2 * b / den) (26.5 * u)).
    { eapply near_le; [apply (near_sub lm _ _ _ _ _ _ 0.65 Z1 NY); [apply Rabs_le; lra|rewrite U; lra]|rewrite U; lra]. }
    assert (P : near (@fmul N (@fsub N (@fsub N (@fofZ N 1) x) y) Y) ((1 - 3 * a / den - 2 * b / den) * w) (27.2 * u * w)).
    { eapply near_le; [apply (near_mul lm _ _ _ _ _ _ 0.65 w Z2 NW); [apply Rabs_le; lra|rewrite Rabs_pos_eq; lra|rewrite U; lra]|rewrite U in *; lra]. }
    eapply near_le; [apply (near_div lm _ _ _ _ _ _ (2.92 * w) 0.172 P NY); [rewrite Rabs_pos_eq; lra|rewrite U; lra| |cbv zeta; rewrite U; lra]|rewrite U in *; lra].
    rewrite EZ, Rabs_mult, (Rabs_pos_eq w) by lra. apply Rmult_le_compat_r; [lra|]. apply Rabs_le; lra. }
  exists (X_from_Yxy N Y x y), (Z_from_Yxy N Y x y). destruct RX as [F1 V1], RZ as [F2 V2].
  split; [reflexivity|]. split; [exact F1|]. split; [exact F2|]. split; [exact V1|exact V2].
Qed.
(** the coordinates of a colour computed from [(a, b)] up to a known error. *)
Lemma coords_back a b w X Z : 1e-6 <= w -> 0.1369 <= a <= 0.3911 -> 0.2439 <= b <= 0.4106 ->
  Rabs (X - 3 * a / (2 * b) * w) <= 240 * u * w -> Rabs (Z - (4 - a - 10 * b) / (2 * b) * w) <= 340 * u * w ->
  Rabs (4 * X / (X + 15 * w + 3 * Z) - a) <= 101 * u /\ Rabs (6 * w / (X + 15 * w + 3 * Z) - b) <= 36 * u.
Proof.
  intros W A B HX HZ. pose proof u16 as U.
  set (p := (X - 3 * a / (2 * b) * w) / w). set (q := (Z - (4 - a - 10 * b) / (2 * b) * w) / w).
  assert (Hp : Rabs p <= 240 * u). { unfold p, Rdiv at 1. rewrite Rabs_mult, Rabs_inv, (Rabs_pos_eq w) by lra. apply Rmult_le_reg_r with w; [lra|]. rewrite Rmult_assoc, Rinv_l by lra. lra. }
  assert (Hq : Rabs q <= 340 * u). { unfold q, Rdiv at 1. rewrite Rabs_mult, Rabs_inv, (Rabs_pos_eq w) by lra. apply Rmult_le_reg_r with w; [lra|]. rewrite Rmult_assoc, Rinv_l by lra. lra. }
  assert (EX : X = (3 * a / (2 * b) + p) * w) by (unfold p; field; lra). assert (EZ : Z = ((4 - a - 10 * b) / (2 * b) + q) * w) by (unfold q; field; lra).
  clearbody p q. rewrite EX, EZ. clear EX EZ HX HZ. apply Rabs_le_inv in Hp, Hq. set (t := p + 3 * q). assert (Ht : - (1260 * u) <= t <= 1260 * u) by (unfold t; lra).
  assert (D : 5.99 <= 6 + b * t <= 6.01) by (rewrite U in *; nra).
  replace (4 * ((3 * a / (2 * b) + p) * w) / ((3 * a / (2 * b) + p) * w + 15 * w + 3 * (((4 - a - 10 * b) / (2 * b) + q) * w)) - a) with (b * (4 * p - a * t) / (6 + b * t)) by (unfold t in *; field; nra).
  replace (6 * w / ((3 * a / (2 * b) + p) * w + 15 * w + 3 * (((4 - a - 10 * b) / (2 * b) + q) * w)) - b) with (- (b * (b * t)) / (6 + b * t)) by (unfold t in *; field; nra).
  assert (K : forall n k, - (k * 5.99) <= n <= k * 5.99 -> Rabs (n / (6 + b * t)) <= k).
  { intros n k [N1 N2]. assert (0 <= k) by lra. apply Rabs_le. split; apply Rmult_le_reg_r with (6 + b * t); try lra; unfold Rdiv; rewrite Rmult_assoc, Rinv_l by lra; nra. }
  assert (S : - (0.3911 * (1260 * u)) <= a * t <= 0.3911 * (1260 * u)) by (rewrite U in *; nra).
  assert (S2 : - (0.4106 * (1260 * u)) <= b * t <= 0.4106 * (1260 * u)) by (rewrite U in *; nra).
  split; apply K.
  - set (g := 4 * p - a * t) in *. assert (- (1453 * u) <= g <= 1453 * u) by (unfold g; rewrite U in *; lra). rewrite U in *. nra.
  - set (g := b * t) in *. rewrite U in *. nra.
Qed.
Lemma chord_ge t : Rabs (lu (t - 1) - lu t) <= chord t /\ Rabs (lv (t - 1) - lv t) <= chord t.
Proof.
  unfold chord. set (a := lu (t - 1) - lu t). set (b := lv (t - 1) - lv t). pose proof (pow2_ge_0 a). pose proof (pow2_ge_0 b).
  split; rewrite <- sqrt_Rsqr_abs; apply sqrt_le_1_alt; unfold Rsqr; nra.
Qed.
Lemma ex_box t d : 1667 <= t <= 10000 -> Rabs d <= 0.05 -> 0.1369 <= eu t d <= 0.3911 /\ 0.2439 <= ev t d <= 0.4106.
Proof.
  intros H D. destruct (lu_lv t ltac:(lra)) as [A B]. pose proof (chord_lo t H) as C. destruct (chord_ge t) as [Ga Gb]. unfold eu, ev.
  assert (M : forall z, Rabs z <= chord t -> Rabs (d * z / chord t) <= 0.05).
  { intros z Z. unfold Rdiv. rewrite !Rabs_mult, Rabs_inv, (Rabs_pos_eq (chord t)) by lra. apply Rmult_le_reg_r with (chord t); [lra|]. rewrite Rmult_assoc, Rinv_l by lra. rewrite Rmult_1_r. apply Rmult_le_compat; try apply Rabs_pos; assumption. }
  pose proof (M _ Ga) as MA. pose proof (M _ Gb) as MB. apply Rabs_le_inv in MA, MB. lra.
Qed.
Lemma exact_run t d w : 1667 <= t <= 10000 -> Rabs d <= 0.05 ->
  fromCCT_sq RN exact_sqrt (Some t) (Some d) (Some w) = Ret (finV (V3 (3 * eu t d / (2 * ev t d) * w) w ((4 - eu t d - 10 * ev t d) / (2 * ev t d) * w))).
Proof.
  intros H D. destruct (ex_box t d H D) as [Bu Bv]. destruct (cct_box t ltac:(lra)) as (_ & _ & D1). destruct (cct_box (t - 1) ltac:(lra)) as (_ & _ & D2).
  pose proof (chord_lo t H) as C. 
  assert (Ec : sqrt ((lu (t - 1) - lu t) * (lu (t - 1) - lu t) + (lv (t - 1) - lv t) * (lv (t - 1) - lv t)) = chord t) by (unfold chord; f_equal; ring).
  assert (Eu : off_u (lu t) (lv t) (lu (t - 1)) (lv (t - 1)) d = eu t d) by (unfold off_u, eu; rewrite Ec; reflexivity).
  assert (Ev : off_v (lu t) (lv t) (lu (t - 1)) (lv (t - 1)) d = ev t d) by (unfold off_v, ev; rewrite Ec; reflexivity).
  pose proof (fromCCT_fin t d ltac:(lra) ltac:(lra)) as F. cbv zeta in F. fold (lu t) (lv t) (lu (t - 1)) (lv (t - 1)) in F. rewrite Eu, Ev in F.
  rewrite F; [|intros X; injection X as X1 X2; unfold chord in C; rewrite X1, X2 in C; replace (0 ^ 2 + 0 ^ 2) with 0 in C by ring; rewrite sqrt_0 in C; lra|unfold xden; lra].
  set (a := eu t d) in *. set (b := ev t d) in *. f_equal. unfold fromYuv. rewrite YuvToYxy_ok by lra.
  assert (0.172 <= 2 * b / (2 * a - 8 * b + 4)). { apply Rmult_le_reg_r with (2 * a - 8 * b + 4); [lra|]. unfold Rdiv. rewrite Rmult_assoc, Rinv_l by lra. lra. }
  rewrite fromYxy_ok by (rewrite Rabs_pos_eq; unfold eps8; lra). f_equal. f_equal; field; lra.
Qed.
Definition co_u (X Y Z : R) : R := 4 * X / (X + 15 * Y + 3 * Z).
Definition co_v (X Y Z : R) : R := 6 * Y / (X + 15 * Y + 3 * Z).
Lemma C143_l (T d Y : f32) : fin T -> fin d -> fin Y -> 1667 <= B2R T <= 10000 -> Rabs (B2R d) <= 0.05 -> 1e-6 <= B2R Y <= 1e6 ->
  exists (X Z : f32) (rX rZ : R), terminates_with (fun n => fromCCT N n T d Y) (Ret (V3 X Y Z)) /\ fin X /\ fin Z /\
    fromCCT_sq RN exact_sqrt (Some (B2R T)) (Some (B2R d)) (Some (B2R Y)) = Ret (finV (V3 rX (B2R Y) rZ)) /\
    Rabs (co_u (B2R X) (B2R Y) (B2R Z) - co_u rX (B2R Y) rZ) <= 10.3 * u * Rabs (B2R d) / chord (B2R T) + 105 * u /\
    Rabs (co_v (B2R X) (B2R Y) (B2R Z) - co_v rX (B2R Y) rZ) <= 10.3 * u * Rabs (B2R d) / chord (B2R T) + 41 * u /\
    3.73e-6 <= chord (B2R T).
Proof.
  intros FT Fd FY HT Hd HY. destruct (cct_uv_near T d FT Fd HT Hd) as (us & vs & (n & R) & Fu & Fv & Bu & Bv & Eu & Ev).
  destruct (back_near Y us vs FY HY Fu Fv Bu Bv) as (X & Z & EX & FX & FZ & VX & VZ).
  exists X, Z. do 2 eexists. split. { exists n. intros m Hm. unfold fromCCT, fromCCT_sq, CCT_x_approx, CCT_y_approx. rewrite (R m Hm). cbn [bind]. split; [exact (f_equal Ret EX)|discriminate]. }
  split; [exact FX|]. split; [exact FZ|]. split; [apply exact_run; assumption|].
  destruct (coords_back _ _ _ _ _ (proj1 HY) Bu Bv VX VZ) as [Cu Cv]. destruct (ex_box _ _ HT Hd) as [Xu Xv]. unfold co_u, co_v.
  set (a := eu (B2R T) (B2R d)) in *. set (b := ev (B2R T) (B2R d)) in *. set (w := B2R Y) in *.
  replace (4 * (3 * a / (2 * b) * w) / (3 * a / (2 * b) * w + 15 * w + 3 * ((4 - a - 10 * b) / (2 * b) * w))) with a by (field; lra).
  replace (6 * w / (3 * a / (2 * b) * w + 15 * w + 3 * ((4 - a - 10 * b) / (2 * b) * w))) with b by (field; lra).
  set (g := 10.3 * u * Rabs (B2R d) / chord (B2R T)) in *. clearbody g. pose proof u16 as U.
  apply Rabs_le_inv in Cu, Cv, Eu, Ev. split; [apply Rabs_le; rewrite U in *; lra|]. split; [apply Rabs_le; rewrite U in *; lra|]. apply chord_lo, HT.
Qed.
End F.
(** ** the loss at 9234 K *)
Lemma uv_bound T x1 x2 D1 D2 ul uh vl vh y1 y2 : x1 <= bb_x T <= x2 -> y1 <= bb_y T <= y2 -> D1 <= - 2 * x2 + 12 * y1 + 3 -> - 2 * x1 + 12 * y2 + 3 <= D2 -> 0 < D1 -> 0 <= ul -> 0 <= vl ->
  ul * D2 <= 4 * x1 -> 4 * x2 <= uh * D1 -> vl * D2 <= 6 * y1 -> 6 * y2 <= vh * D1 -> 0 <= uh -> 0 <= vh -> ul <= lu T <= uh /\ vl <= lv T <= vh.
Proof.
  intros HX HY H1 H2 P U0 V0 A B C D U1 V1. unfold lu, lv, u60, v60. assert (E : D1 <= uden (bb_x T) (bb_y T) <= D2) by (unfold uden; lra).
  set (q := uden (bb_x T) (bb_y T)) in *. repeat split; apply Rmult_le_reg_r with q; try lra; unfold Rdiv; rewrite Rmult_assoc, Rinv_l by lra; nra.
Qed.

Lemma at_9234 : 0.1927422243 <= lu 9234 <= 0.1927422244 /\ 0.2951466346 <= lv 9234 <= 0.2951466347.
Proof.
  apply (uv_bound 9234 0.2856411721398335 0.2856411721398336 5.927941801855 5.927941801856 _ _ _ _ 0.2916020121779556 0.2916020121779557); unfold bb_x, bb_y; lra.
Qed.
Lemma du_9234 : 2.09982e-6 <= lu (9234 - 1) - lu 9234 <= 2.09983e-6 /\ 3.50464e-6 <= lv (9234 - 1) - lv 9234 <= 3.50465e-6.
Proof.
  replace (9234 - 1) with 9233 by lra.
  assert (A : 0.192742224325084 <= lu 9234 <= 0.192742224325085 /\ 0.295146634624516 <= lv 9234 <= 0.295146634624517).
  { apply (uv_bound 9234 0.2856411721398335 0.2856411721398336 5.927941801855799 5.927941801855802 _ _ _ _ 0.2916020121779556 0.2916020121779557); unfold bb_x, bb_y; lra. }
  assert (B : 0.192744324150726 <= lu 9233 <= 0.192744324150728 /\ 0.295150139268422 <= lv 9233 <= 0.295150139268424).
  { apply (uv_bound 9233 0.2856476477260034 0.2856476477260036 5.928011607804861 5.928011607804865 _ _ _ _ 0.2916089086047391 0.2916089086047393); unfold bb_x, bb_y; lra. }
  lra.
Qed.

Lemma Z_9234 d : -0.05 <= d <= -0.0499999 -> (4 - eu 9234 d - 10 * ev 9234 d) / (2 * ev 9234 d) <= 1.9854.
Proof.
  intros H. destruct at_9234 as [A B]. destruct du_9234 as [P Q]. unfold eu, ev.
  set (a := lu (9234 - 1) - lu 9234) in *. set (b := lv (9234 - 1) - lv 9234) in *.
  assert (C : 4.08554e-6 <= chord 9234 <= 4.08558e-6).
  { unfold chord. fold a b. split.
    - rewrite <- (sqrt_square 4.08554e-6) by lra. apply sqrt_le_1_alt. nra.
    - rewrite <- (sqrt_square 4.08558e-6) by lra. apply sqrt_le_1_alt. nra. }
  set (c := chord 9234) in *.
  assert (RA : 0.51395 <= a / c <= 0.51397) by (split; (apply Rmult_le_reg_r with c; [lra|]); unfold Rdiv; rewrite Rmult_assoc, Rinv_l by lra; lra).
  assert (RB : 0.8578 <= b / c <= 0.8579) by (split; (apply Rmult_le_reg_r with c; [lra|]); unfold Rdiv; rewrite Rmult_assoc, Rinv_l by lra; lra).
  replace (d * b / c) with (d * (b / c)) by (unfold Rdiv; ring). replace (d * a / c) with (d * (a / c)) by (unfold Rdiv; ring).
  assert (-0.0256986 <= d * (a / c) <= -0.025697) by nra. assert (-0.0428952 <= d * (b / c) <= -0.04288) by nra.
  apply Rmult_le_reg_r with (2 * (lv 9234 + d * (a / c))); [lra|]. unfold Rdiv at 1. rewrite Rmult_assoc, Rinv_l by lra. lra.
Qed.
Definition T9234 (lm : libm) : f32 := @flit (FN lm) 9234.
Definition dm (lm : libm) : f32 := @fopp (FN lm) (@flit (FN lm) 0.049999997%dec).
Lemma fromCCT_sq_more (N : Num) (sq sq' : F N -> outcome (F N)) T d Y r : (forall z l, sq z = Ret l -> sq' z = Ret l) ->
  fromCCT_sq N sq T d Y = Ret r -> fromCCT_sq N sq' T d Y = Ret r.
Proof.
  intros H. unfold fromCCT_sq, CCT_x_approx, CCT_y_approx, CCT_uv. cbv zeta.
  match goal with |- context [sq ?a] => generalize a end. intros z. specialize (H z). destruct (sq z) as [l| | |]; cbn [bind]; try discriminate.
  rewrite (H l eq_refl). cbn [bind]. exact (fun E => E).
Qed.
Lemma fromCCT_more lm n m T d Y r : (n <= m)%nat -> fromCCT (FN lm) n T d Y = Ret r -> fromCCT (FN lm) m T d Y = Ret r.
Proof.
  intros L. apply fromCCT_sq_more. intros z l Q. unfold util_sqrtf in *. destruct (andb _ _); [|exact Q]. exact (nr_mono (FN lm) n m _ _ _ l Q L).
Qed.
Lemma ret_v2 lm (o : outcome (Vector3 (F (FN lm)))) b m e : match o with Ret r => B2SF (v2 r : f32) | _ => SpecFloat.S754_nan end = SpecFloat.S754_finite b m e ->
  exists r, o = Ret r /\ B2SF (v2 r : f32) = SpecFloat.S754_finite b m e.
Proof. destruct o as [r| | |]; intros H; try discriminate. exists r. split; [reflexivity|exact H]. Qed.
Definition one32 (lm : libm) : f32 := @flit (FN lm) 1.
Lemma C143_loss lm : exists (T d Y X Z : f32) (rX rZ : R), fin T /\ fin d /\ fin Y /\ B2R T = 9234 /\ -0.05 <= B2R d <= -0.0499999 /\ B2R Y = 1 /\
  terminates_with (fun n => fromCCT (FN lm) n T d Y) (Ret (V3 X Y Z)) /\
  fromCCT_sq RN exact_sqrt (Some (B2R T)) (Some (B2R d)) (Some (B2R Y)) = Ret (finV (V3 rX (B2R Y) rZ)) /\ 0.01 < B2R Z - rZ.
Proof.
  assert (VT : fin (T9234 lm) /\ B2R (T9234 lm) = 9234) by f32_val.
  assert (VY : fin (one32 lm) /\ B2R (one32 lm) = 1) by f32_val.
  assert (VD : near (dm lm) (-0.049999997) (0.01 * u)) by (unfold dm; flit_near).
  destruct VT as [FT VT], VY as [FY VY], VD as [FD VD]. apply Rabs_le_inv in VD. pose proof u16 as U. rewrite U in VD.
  assert (HD : -0.05 <= B2R (dm lm) <= -0.0499999) by lra.
  destruct (C143_l lm (T9234 lm) (dm lm) (one32 lm) FT FD FY ltac:(rewrite VT; lra) ltac:(apply Rabs_le; lra) ltac:(rewrite VY; lra)) as (X & Z & _ & _ & Run & FX & FZ & _).
  exists (T9234 lm), (dm lm), (one32 lm), X, Z. do 2 eexists.
  split; [exact FT|]. split; [exact FD|]. split; [exact FY|]. split; [exact VT|]. split; [exact HD|]. split; [exact VY|]. split; [exact Run|].
  split; [apply exact_run; [rewrite VT; lra|apply Rabs_le; lra]|].
  rewrite VT, VY, Rmult_1_r. pose proof (Z_9234 _ HD) as K.
  assert (S : exists r, fromCCT (FN lm) 40 (T9234 lm) (dm lm) (one32 lm) = Ret r /\ B2SF (v2 r : f32) = SpecFloat.S754_finite false 16739114 (-23)).
  { apply ret_v2. vm_compute. reflexivity. }
  destruct S as (r & E & S). destruct Run as (n & Run). destruct (Run (Nat.max n 40) (Nat.le_max_l _ _)) as [R1 _].
  pose proof (fromCCT_more lm 40 _ _ _ _ r (Nat.le_max_r n 40) E) as R2. cbv beta in R1. assert (R3 := eq_trans (eq_sym R2) R1). clear R1 R2 E. injection R3 as R1. rewrite R1 in S. cbn [v2] in S.
  assert (VZ : B2R Z = 16739114 * / 8388608) by (rewrite <- SF2R_B2SF, S; reflexivity). rewrite VZ. lra.
Qed.
Lemma C143_part (lm : libm) (T d Y : f32) : fin T -> fin d -> fin Y -> 1667 <= B2R T <= 10000 -> Rabs (B2R d) <= 0.05 -> 1e-6 <= B2R Y <= 1e6 ->
  exists (X Z : f32) (rX rZ : R), terminates_with (fun n => fromCCT (FN lm) n T d Y) (Ret (V3 X Y Z)) /\ fin X /\ fin Z /\
    fromCCT_sq RN exact_sqrt (Some (B2R T)) (Some (B2R d)) (Some (B2R Y)) = Ret (finV (V3 rX (B2R Y) rZ)) /\
    (let S := B2R X + 15 * B2R Y + 3 * B2R Z in let rS := rX + 15 * B2R Y + 3 * rZ in
     Rabs (4 * B2R X / S - 4 * rX / rS) <= 10.3 * / 2 ^ 24 * Rabs (B2R d) / chord (B2R T) + 105 * / 2 ^ 24 /\
     Rabs (6 * B2R Y / S - 6 * B2R Y / rS) <= 10.3 * / 2 ^ 24 * Rabs (B2R d) / chord (B2R T) + 41 * / 2 ^ 24) /\
    3.73e-6 <= chord (B2R T).
Proof.
  intros FT Fd FY HT Hd HY. destruct (C143_l lm T d Y FT Fd FY HT Hd HY) as (X & Z & rX & rZ & A & B & C & D & E & F & G).
  replace (/ 2 ^ 24) with u by (rewrite u16; f_equal; ring). exists X, Z, rX, rZ. cbv zeta. split; [exact A|]. split; [exact B|]. split; [exact C|]. split; [exact D|]. split; [split; [exact E|exact F]|exact G].
Qed.
Lemma C143_ex lm : fin (@flit (FN lm) 6500) /\ fin (@flit (FN lm) 0.01%dec) /\ fin (@flit (FN lm) 1) /\
  1667 <= B2R (@flit (FN lm) 6500) <= 10000 /\ Rabs (B2R (@flit (FN lm) 0.01%dec)) <= 0.05 /\ 1e-6 <= B2R (@flit (FN lm) 1) <= 1e6.
Proof.
  assert (A : fin (@flit (FN lm) 6500) /\ B2R (@flit (FN lm) 6500) = 6500) by f32_val.
  assert (B : near (@flit (FN lm) 0.01%dec) 0.01 (0.01 * u)) by flit_near. 
  assert (C : fin (@flit (FN lm) 1) /\ B2R (@flit (FN lm) 1) = 1) by f32_val. destruct A as [A1 A2], B as [B1 B2], C as [C1 C2].
  pose proof u16 as U. rewrite U in B2. apply Rabs_le_inv in B2. rewrite A2, C2. repeat split; try assumption; try lra. apply Rabs_le; lra.
Qed.
