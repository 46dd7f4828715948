(** * Colour temperatures. *)
From Coq Require Import ZArith Reals Lra Lia List Bool.
From Flocq Require Import Core.Raux.
From Verif Require Import Num NumR MVec MTri SpecMat RTac PMat PTri.
Local Open Scope R_scope.

(** ** The two polynomials. *)
Definition bb_x (T : R) : R :=
  0.811973208 - 0.00016747 * T + 0.00000000331067 * T ^ 2 + 0.00000000000690001 * T ^ 3
  - 1.39671e-15 * T ^ 4 + 1.11951e-19 * T ^ 5 - 3.31672e-24 * T ^ 6.
Definition bb_y (T : R) : R :=
  0.136977825 + 0.000317653 * T - 0.000000127946 * T ^ 2 + 0.0000000000222415 * T ^ 3
  - 1.81438e-15 * T ^ 4 + 5.67564e-20 * T ^ 5.
Lemma horner6 a0 a1 a2 a3 a4 a5 a6 T :
  a0 + T * (- a1 + T * (a2 + T * (a3 + T * (- a4 + T * (a5 + T * - a6))))) =
  a0 - a1 * T + a2 * T ^ 2 + a3 * T ^ 3 - a4 * T ^ 4 + a5 * T ^ 5 - a6 * T ^ 6.
Proof. ring. Qed.
Lemma horner5 a0 a1 a2 a3 a4 a5 T :
  a0 + T * (a1 + T * (- a2 + T * (a3 + T * (- a4 + T * a5)))) =
  a0 + a1 * T - a2 * T ^ 2 + a3 * T ^ 3 - a4 * T ^ 4 + a5 * T ^ 5.
Proof. ring. Qed.
Lemma bbx_fin T : blackbody_x_approx RN (Some T) = Some (bb_x T).
Proof.
  transitivity (Some (Rdec 0.811973208 + T * (- Rdec 0.00016747 + T * (Rdec 0.00000000331067 +
    T * (Rdec 0.00000000000690001 + T * (- Rdec 1.39671E-15 + T * (Rdec 1.11951E-19 + T * - Rdec 3.31672E-24)))))));
    [reflexivity|].
  rewrite horner6. unfold bb_x.
  replace (Rdec 0.811973208) with (0.811973208) by (qn; lra).
  replace (Rdec 0.00016747) with (0.00016747) by (qn; lra).
  replace (Rdec 0.00000000331067) with (0.00000000331067) by (qn; lra).
  replace (Rdec 0.00000000000690001) with (0.00000000000690001) by (qn; lra).
  replace (Rdec 1.39671E-15) with (1.39671E-15) by (qn; lra).
  replace (Rdec 1.11951E-19) with (1.11951E-19) by (qn; lra).
  replace (Rdec 3.31672E-24) with (3.31672E-24) by (qn; lra).
  reflexivity.
Qed.
Lemma bby_fin T : blackbody_y_approx RN (Some T) = Some (bb_y T).
Proof.
  transitivity (Some (Rdec 0.136977825 + T * (Rdec 0.000317653 + T * (- Rdec 0.000000127946 +
    T * (Rdec 0.0000000000222415 + T * (- Rdec 1.81438E-15 + T * Rdec 5.67564E-20))))));
    [reflexivity|].
  rewrite horner5. unfold bb_y.
  replace (Rdec 0.136977825) with (0.136977825) by (qn; lra).
  replace (Rdec 0.000317653) with (0.000317653) by (qn; lra).
  replace (Rdec 0.000000127946) with (0.000000127946) by (qn; lra).
  replace (Rdec 0.0000000000222415) with (0.0000000000222415) by (qn; lra).
  replace (Rdec 1.81438E-15) with (1.81438E-15) by (qn; lra).
  replace (Rdec 5.67564E-20) with (5.67564E-20) by (qn; lra).
  reflexivity.
Qed.
(** ** CIE 1960 coordinates of a chromaticity. *)
Definition uden (x y : R) : R := - 2 * x + 12 * y + 3.
Definition u60 (x y : R) : R := 4 * x / uden x y.
Definition v60 (x y : R) : R := 6 * y / uden x y.
Definition xden (u v : R) : R := 2 * u - 8 * v + 4.
Definition x60 (u v : R) : R := 3 * u / xden u v.
Definition y60 (u v : R) : R := 2 * v / xden u v.
Lemma ufx x y : uden x y <> 0 -> u_from_xy RN (Some x) (Some y) = Some (u60 x y).
Proof. intros H. unfold u_from_xy. rn. rewrite rdiv_ok by exact H. reflexivity. Qed.
Lemma vfx x y : uden x y <> 0 -> v_from_xy RN (Some x) (Some y) = Some (v60 x y).
Proof. intros H. unfold v_from_xy. rn. rewrite rdiv_ok by exact H. reflexivity. Qed.
Lemma xfu u v : xden u v <> 0 -> x_from_uv RN (Some u) (Some v) = Some (x60 u v).
Proof. intros H. unfold x_from_uv. rn. rewrite rdiv_ok by exact H. reflexivity. Qed.
Lemma yfu u v : xden u v <> 0 -> y_from_uv RN (Some u) (Some v) = Some (y60 u v).
Proof. intros H. unfold y_from_uv. rn. rewrite rdiv_ok by exact H. reflexivity. Qed.
Lemma xden_uv x y : uden x y <> 0 -> xden (u60 x y) (v60 x y) = 12 / uden x y.
Proof. intros H. unfold xden, u60, v60. unfold uden in *. field. exact H. Qed.
Lemma xy_uv x y : uden x y <> 0 -> x60 (u60 x y) (v60 x y) = x /\ y60 (u60 x y) (v60 x y) = y.
Proof.
  intros H. unfold x60, y60. rewrite xden_uv by exact H. unfold u60, v60. split; field; exact H.
Qed.

(** the exact square root, as a (terminating) call. *)
Definition exact_sqrt (x : F RN) : outcome (F RN) := Ret (@fsqrt RN x).

(** The point at 1960 distance [d] from [P1 = (u1,v1)], perpendicular to the
    chord from [P1] to [P2], on the side the code chooses. *)
Definition off_u (u1 v1 u2 v2 d : R) : R :=
  u1 - d * (v2 - v1) / sqrt ((u2 - u1) * (u2 - u1) + (v2 - v1) * (v2 - v1)).
Definition off_v (u1 v1 u2 v2 d : R) : R :=
  v1 + d * (u2 - u1) / sqrt ((u2 - u1) * (u2 - u1) + (v2 - v1) * (v2 - v1)).

Lemma sumsq_pos a b : (a, b) <> (0, 0) -> 0 < a * a + b * b.
Proof.
  intros H. destruct (Req_dec a 0) as [->|A]; [|nra]. destruct (Req_dec b 0) as [->|B]; [|nra].
  exfalso. apply H. reflexivity.
Qed.
Lemma off_dist u1 v1 u2 v2 d : (u2 - u1, v2 - v1) <> (0, 0) ->
  (off_u u1 v1 u2 v2 d - u1) ^ 2 + (off_v u1 v1 u2 v2 d - v1) ^ 2 = d ^ 2 /\
  (off_u u1 v1 u2 v2 d - u1) * (u2 - u1) + (off_v u1 v1 u2 v2 d - v1) * (v2 - v1) = 0.
Proof.
  intros H. pose proof (sumsq_pos _ _ H) as P. unfold off_u, off_v.
  set (a := u2 - u1) in *. set (b := v2 - v1) in *.
  pose proof (sqrt_lt_R0 _ P) as S. pose proof (sqrt_sqrt _ (Rlt_le _ _ P)) as E.
  set (l := sqrt (a * a + b * b)) in *. split.
  - replace ((u1 - d * b / l - u1) ^ 2 + (v1 + d * a / l - v1) ^ 2) with (d ^ 2 * (a * a + b * b) / (l * l)) by (field; lra).
    rewrite E. field. lra.
  - field. lra.
Qed.

Section Cct.
Context (T d : R).
Let x1 := bb_x T. Let y1 := bb_y T. Let x2 := bb_x (T - 1). Let y2 := bb_y (T - 1).
Let u1 := u60 x1 y1. Let v1 := v60 x1 y1. Let u2 := u60 x2 y2. Let v2 := v60 x2 y2.
Context (D1 : uden x1 y1 <> 0) (D2 : uden x2 y2 <> 0) (NE : (u2 - u1, v2 - v1) <> (0, 0)).

Lemma CCT_uv_fin :
  CCT_uv RN exact_sqrt (Some T) (Some d) = Ret (Some (off_u u1 v1 u2 v2 d), Some (off_v u1 v1 u2 v2 d)).
Proof.
  unfold CCT_uv. cbv zeta. 
  replace (@fsub RN (Some T) (@flit RN 1)) with (Some (T - 1) : F RN) by reflexivity.
  rewrite !bbx_fin, !bby_fin. fold x1 y1 x2 y2.
  rewrite !ufx, !vfx by assumption. fold u1 v1 u2 v2.
  unfold exact_sqrt. rn. pose proof (sumsq_pos _ _ NE) as P.
  rewrite rsqrt_ok by lra. rn. pose proof (sqrt_lt_R0 _ P) as S.
  rewrite !rdiv_ok by lra. rn. reflexivity.
Qed.
Lemma fromCCT_fin Y : let u := off_u u1 v1 u2 v2 d in let v := off_v u1 v1 u2 v2 d in
  xden u v <> 0 ->
  fromCCT_sq RN exact_sqrt (Some T) (Some d) (Some Y) = Ret (fromYuv RN (finV (V3 Y u v))).
Proof.
  intros u v X. unfold fromCCT_sq, CCT_x_approx, CCT_y_approx. rewrite !CCT_uv_fin. cbn [bind]. fold u v.
  rewrite xfu, yfu by exact X. unfold fromYuv. rewrite YuvToYxy_ok by exact X. reflexivity.
Qed.
End Cct.

Lemma C20_l (T d Y : R) :
  let u1 := u60 (bb_x T) (bb_y T) in let v1 := v60 (bb_x T) (bb_y T) in
  let u2 := u60 (bb_x (T - 1)) (bb_y (T - 1)) in let v2 := v60 (bb_x (T - 1)) (bb_y (T - 1)) in
  uden (bb_x T) (bb_y T) <> 0 -> uden (bb_x (T - 1)) (bb_y (T - 1)) <> 0 -> (u1, v1) <> (u2, v2) ->
  exists u v, (u - u1) ^ 2 + (v - v1) ^ 2 = d ^ 2 /\ (u - u1) * (u2 - u1) + (v - v1) * (v2 - v1) = 0 /\
    (xden u v <> 0 -> eps8 <= Rabs (y60 u v) -> eps8 <= Rabs (Y / y60 u v) ->
     exists r, fromCCT_sq RN exact_sqrt (Some T) (Some d) (Some Y) = Ret r /\
       toYuv RN r = finV (V3 Y u v)).
Proof.
  intros u1 v1 u2 v2 D1 D2 NE.
  assert (NE' : (u2 - u1, v2 - v1) <> (0, 0)).
  { intros E. injection E. intros A B. apply NE. f_equal; lra. }
  exists (off_u u1 v1 u2 v2 d), (off_v u1 v1 u2 v2 d).
  destruct (off_dist u1 v1 u2 v2 d NE') as [A B]. split; [exact A|]. split; [exact B|].
  intros X H1 H2. eexists. split; [apply fromCCT_fin; assumption|].
  apply C10_l2; assumption.
Qed.
Lemma C20_zero_l (T Y : R) :
  let u1 := u60 (bb_x T) (bb_y T) in let v1 := v60 (bb_x T) (bb_y T) in
  let u2 := u60 (bb_x (T - 1)) (bb_y (T - 1)) in let v2 := v60 (bb_x (T - 1)) (bb_y (T - 1)) in
  uden (bb_x T) (bb_y T) <> 0 -> uden (bb_x (T - 1)) (bb_y (T - 1)) <> 0 -> (u1, v1) <> (u2, v2) ->
  fromCCT_sq RN exact_sqrt (Some T) (Some 0) (Some Y) = Ret (fromCT RN (Some T) (Some Y)).
Proof.
  intros u1 v1 u2 v2 D1 D2 NE.
  assert (NE' : (u2 - u1, v2 - v1) <> (0, 0)).
  { intros E. injection E. intros A B. apply NE. f_equal; lra. }
  assert (Eu : off_u u1 v1 u2 v2 0 = u1) by (unfold off_u, Rdiv; ring).
  assert (Ev : off_v u1 v1 u2 v2 0 = v1) by (unfold off_v, Rdiv; ring).
  assert (X : xden u1 v1 <> 0).
  { unfold u1, v1. rewrite xden_uv by exact D1. apply div_nz; [lra|exact D1]. }
  rewrite fromCCT_fin; fold u1 v1 u2 v2; try assumption; rewrite ?Eu, ?Ev; [|exact X].
  unfold fromYuv. rewrite YuvToYxy_ok by exact X.
  destruct (xy_uv _ _ D1) as [Hx Hy]. unfold x60, y60, xden in Hx, Hy. fold u1 v1 in Hx, Hy.
  rewrite Hx, Hy. unfold fromCT. rewrite bbx_fin, bby_fin. reflexivity.
Qed.

(** ** The Planckian-locus spline (Kim et al. 2002, as on the page the source cites). *)
Definition kim_x (T : R) : R :=
  if Rlt_dec T 4000
  then - 0.2661239e9 / T ^ 3 - 0.2343580e6 / T ^ 2 + 0.8776956e3 / T + 0.179910
  else - 3.0258469e9 / T ^ 3 + 2.1070379e6 / T ^ 2 + 0.2226347e3 / T + 0.240390.
Definition kim_y (T x : R) : R :=
  if Rlt_dec T 2222 then - 1.1063814 * x ^ 3 - 1.34811020 * x ^ 2 + 2.18555832 * x - 0.20219683
  else if Rlt_dec T 4000 then - 0.9549476 * x ^ 3 - 1.37418593 * x ^ 2 + 2.09137015 * x - 0.16748867
  else 3.0817580 * x ^ 3 - 5.87338670 * x ^ 2 + 3.75112997 * x - 0.37001483.

Lemma T_nz T : 0 < T -> T <> 0 /\ T * T <> 0 /\ T * T * T <> 0.
Proof. intros H. assert (0 < T * T) by nra. assert (0 < T * T * T) by nra. lra. Qed.
Lemma planckian_x_fin T : 0 < T -> planckian_x RN (Some T) = Some (kim_x T).
Proof.
  intros H. destruct (T_nz T H) as (A & B & C). unfold planckian_x, kim_x. rn. rewrite !rdiv_ok by assumption. rn.
  destruct (Rlt_dec T 4000) as [L|L].
  - rewrite Rlt_bool_true by exact L. fin_eq. qn. field. exact A.
  - rewrite Rlt_bool_false by lra. fin_eq. qn. field. exact A.
Qed.
Lemma planckian_y_fin T x : T < 2222 \/ 4000 <= T -> planckian_y RN (Some T) (Some x) = Some (kim_y T x).
Proof.
  intros H. unfold planckian_y, kim_y. rn. destruct (Rlt_dec T 2222) as [L|L].
  - rewrite Rlt_bool_true by exact L. fin_eq. qn. field.
  - rewrite Rlt_bool_false by lra. destruct (Rlt_dec T 4000) as [L'|L']; [lra|].
    rewrite Rlt_bool_false by lra. fin_eq. qn. field.
Qed.
(** the piece the code uses between 2222 K and 4000 K. *)
Lemma planckian_y_mid T x : 2222 <= T < 4000 ->
  planckian_y RN (Some T) (Some x) =
  Some (- 1.1063814 * x ^ 3 - 1.34811020 * x ^ 2 + 2.18555832 * x - 0.20219683).
Proof.
  intros H. unfold planckian_y. rn. rewrite Rlt_bool_false, Rlt_bool_true by lra. fin_eq. qn. field.
Qed.
Lemma C21_agree_l (T Y : R) : 0 < T -> T < 2222 \/ 4000 <= T ->
  fromPlanckianLocus RN (Some T) (Some Y) = fromYxy RN (finV (V3 Y (kim_x T) (kim_y T (kim_x T)))).
Proof.
  intros P H. unfold fromPlanckianLocus. rewrite planckian_x_fin by exact P. rewrite planckian_y_fin by exact H. reflexivity.
Qed.
Lemma C21_middle_l (T Y : R) : 2222 <= T < 4000 -> let x := kim_x T in
  fromPlanckianLocus RN (Some T) (Some Y) =
  fromYxy RN (finV (V3 Y x (- 1.1063814 * x ^ 3 - 1.34811020 * x ^ 2 + 2.18555832 * x - 0.20219683))).
Proof.
  intros H x. unfold fromPlanckianLocus. rewrite planckian_x_fin by lra. rewrite planckian_y_mid by exact H. reflexivity.
Qed.
Lemma C21_l : exists T : R, 2222 < T < 4000 /\
  exists y, toYxy RN (fromPlanckianLocus RN (Some T) (Some 1)) = finV (V3 1 (kim_x T) y) /\
    Rabs (y - kim_y T (kim_x T)) > 0.0012.
Proof.
  exists 3000. split; [lra|]. unfold fromPlanckianLocus. cbv zeta.
  rewrite planckian_x_fin by lra. rewrite planckian_y_mid by lra.
  assert (X : kim_x 3000 = 4715053 / 10800000) by (unfold kim_x; destruct (Rlt_dec 3000 4000); lra).
  rewrite X. eexists. split.
  - change (V3 (Some 1) (Some ?a) (Some ?b)) with (finV (V3 1 a b)). apply C08_l2.
    + rewrite Rabs_pos_eq; unfold eps8; lra.
    + match goal with |- _ <= Rabs (1 / ?e) => set (y := e) end.
      assert (0.4 < y < 0.41) by (unfold y; lra).
      rewrite Rabs_pos_eq by (unfold Rdiv; apply Rmult_le_pos; [lra|left; apply Rinv_0_lt_compat; lra]).
      apply Rle_trans with 1; [unfold eps8; lra|]. apply Rmult_le_reg_r with y; [lra|]. unfold Rdiv.
      rewrite Rmult_assoc, Rinv_l by lra. lra.
  - unfold kim_y. destruct (Rlt_dec 3000 2222); [lra|]. destruct (Rlt_dec 3000 4000); [|lra].
    rewrite Rabs_left; lra.
Qed.
