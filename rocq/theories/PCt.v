(** * The two Planckian approximations: monotonicity, agreement, range. *)
From Coq Require Import ZArith Reals Lra Lia List Bool Psatz.
From Flocq Require Import Core.Raux.
From Verif Require Import Num NumR MVec MTri SpecMat RTac PMat PTri PCct PPoly.
Import ListNotations.
Local Open Scope R_scope.

Definition BX : list Z := [81197320800000000000000000000; - 16747000000000000000000000; 331067000000000000000; 690001000000000000; - 139671000000000; 11195100000; - 331672]%Z.
Definition BY : list Z := [1369778250000000000000000; 3176530000000000000000; - 1279460000000000000; 222415000000000; - 18143800000; 567564]%Z.
Lemma bbx_pe T : bb_x T = pe BX T / 1e29.
Proof. unfold bb_x, BX. cbn [pe]. lra. Qed.
Lemma bby_pe T : bb_y T = pe BY T / 1e25.
Proof. unfold bb_y, BY. cbn [pe]. lra. Qed.

(** ** Monotonicity of x. *)
Lemma bbx_dec T1 T2 : 0 <= T1 < T2 -> bb_x T2 < bb_x T1.
Proof.
  intros [H1 H2]. rewrite !bbx_pe. enough (pe (pscale (-1) BX) T1 < pe (pscale (-1) BX) T2).
  { rewrite !pe_scale in H. lra. }
  apply pe_mono; [|exact H2]. intros x Hx. destruct (Rle_dec x 20000) as [L|L].
  - apply (pos_on 12 _ 0 20000); [vm_compute; reflexivity|lia|lra].
  - apply (pos_from _ 20000); [vm_compute; reflexivity|lra].
Qed.
(** the spline: [KX / (10^6 T^3)], and the cubic in it, [KY / (10^26 T^9)]. *)
Definition KXl : list Z := [- 266123900000000; - 234358000000; 877695600; 179910]%Z.
Definition KXh : list Z := [- 3025846900000000; 2107037900000; 222634700; 240390]%Z.
Definition T3p (k : Z) : list Z := [0; 0; 0; k]%Z.
Definition KY (kx : list Z) (c3 c2 c1 c0 : Z) : list Z :=
  let t6 := pmul (T3p 1) (T3p 1) in
  padd (pscale c3 (pmul kx (pmul kx kx))) (padd (pscale (c2 * 1000000) (pmul (T3p 1) (pmul kx kx)))
    (padd (pscale (c1 * 1000000000000) (pmul t6 kx)) (pscale (c0 * 1000000000000000000) (pmul t6 (T3p 1))))).
Definition KYl : list Z := KY KXl (- 110638140) (- 134811020) 218555832 (- 20219683).
Definition KYh : list Z := KY KXh 308175800 (- 587338670) 375112997 (- 37001483).

Lemma KXl_pe T : 0 < T -> - 0.2661239e9 / T ^ 3 - 0.2343580e6 / T ^ 2 + 0.8776956e3 / T + 0.179910 = pe KXl T / (1000000 * T ^ 3).
Proof. intros H. unfold KXl. cbn [pe]. qn. field. lra. Qed.
Lemma KXh_pe T : 0 < T -> - 3.0258469e9 / T ^ 3 + 2.1070379e6 / T ^ 2 + 0.2226347e3 / T + 0.240390 = pe KXh T / (1000000 * T ^ 3).
Proof. intros H. unfold KXh. cbn [pe]. qn. field. lra. Qed.
Lemma T3_pe k T : pe (T3p k) T = IZR k * T ^ 3.
Proof. unfold T3p. cbn [pe]. ring. Qed.
Lemma KY_pe kx c3 c2 c1 c0 T : 0 < T -> let x := pe kx T / (1000000 * T ^ 3) in
  IZR c3 * x ^ 3 + IZR c2 * x ^ 2 + IZR c1 * x + IZR c0 = pe (KY kx c3 c2 c1 c0) T / (1000000000000000000 * T ^ 9).
Proof.
  intros H x. unfold KY. cbv zeta. rewrite !pe_add, !pe_scale, !pe_mul, !T3_pe, !mult_IZR. unfold x. field. lra.
Qed.
Definition loc_x (T : R) : R := if Rlt_dec T 4000 then pe KXl T / (1000000 * T ^ 3) else pe KXh T / (1000000 * T ^ 3).
Definition loc_y (T : R) : R := (if Rlt_dec T 4000 then pe KYl T else pe KYh T) / (100000000000000000000000000 * T ^ 9).
Lemma locus_yxy T Y : 0 < T -> fromPlanckianLocus RN (Some T) (Some Y) = fromYxy RN (finV (V3 Y (loc_x T) (loc_y T))).
Proof.
  intros H. unfold fromPlanckianLocus. cbv zeta. rewrite planckian_x_fin by exact H.
  assert (X : kim_x T = loc_x T).
  { unfold kim_x, loc_x. destruct (Rlt_dec T 4000); [apply KXl_pe|apply KXh_pe]; exact H. }
  rewrite X.
  assert (YY : planckian_y RN (Some T) (Some (loc_x T)) = Some (loc_y T)).
  { destruct (Rlt_dec T 4000) as [L|L].
    - assert (E : planckian_y RN (Some T) (Some (loc_x T)) = Some (- 1.1063814 * (loc_x T) ^ 3 - 1.34811020 * (loc_x T) ^ 2 + 2.18555832 * (loc_x T) - 0.20219683)).
      { destruct (Rlt_dec T 2222); [|apply planckian_y_mid; lra]. rewrite planckian_y_fin by lra. unfold kim_y.
        destruct (Rlt_dec T 2222); [reflexivity|lra]. }
      rewrite E. fin_eq. unfold loc_x, loc_y. destruct (Rlt_dec T 4000); [|lra].
      pose proof (KY_pe KXl (- 110638140) (- 134811020) 218555832 (- 20219683) T H) as K. cbv zeta in K. fold KYl in K.
      replace (pe KYl T / (100000000000000000000000000 * T ^ 9)) with (pe KYl T / (1000000000000000000 * T ^ 9) / 100000000) by (field; lra).
      rewrite <- K. lra.
    - rewrite planckian_y_fin by lra. fin_eq. unfold kim_y, loc_x, loc_y. destruct (Rlt_dec T 2222); [lra|]. destruct (Rlt_dec T 4000); [lra|].
      pose proof (KY_pe KXh 308175800 (- 587338670) 375112997 (- 37001483) T H) as K. cbv zeta in K. fold KYh in K.
      replace (pe KYh T / (100000000000000000000000000 * T ^ 9)) with (pe KYh T / (1000000000000000000 * T ^ 9) / 100000000) by (field; lra).
      rewrite <- K. lra. }
  rewrite YY. reflexivity.
Qed.
(** positivity on an integer interval or half line, as one tactic. *)
Ltac ppos n a w := apply (pos_on n _ a w); [vm_compute; reflexivity|lia|lra].
Ltac pinf a := apply (pos_from _ a); [vm_compute; reflexivity|lra].
Lemma pow3_pos T : 0 < T -> 0 < T ^ 3. Proof. intros. now apply pow_lt. Qed.

(** x of the spline as a polynomial in w = 10000 / T. *)
Definition WXl : list Z := [1799100000; 877695600; - 23435800; - 2661239]%Z.
Definition WXh : list Z := [2403900000; 222634700; 210703790; - 30258469]%Z.
Lemma WXl_pe T : 0 < T -> pe KXl T / (1000000 * T ^ 3) = pe WXl (10000 / T) / 1e10.
Proof. intros H. unfold KXl, WXl. cbn [pe]. qn. field. lra. Qed.
Lemma WXh_pe T : 0 < T -> pe KXh T / (1000000 * T ^ 3) = pe WXh (10000 / T) / 1e10.
Proof. intros H. unfold KXh, WXh. cbn [pe]. qn. field. lra. Qed.
Lemma w_lt a b : 0 < a -> a < b -> 0 < 10000 / b < 10000 / a.
Proof.
  intros A B. split; [apply Rdiv_lt_0_compat; lra|]. apply Rmult_lt_compat_l; [lra|]. apply Rinv_lt_contravar; nra.
Qed.
Lemma w_le a T : 0 < a -> a <= T -> 0 < 10000 / T <= 10000 / a.
Proof.
  intros A B. split; [apply Rdiv_lt_0_compat; lra|]. apply Rmult_le_compat_l; [lra|]. apply Rinv_le_contravar; lra.
Qed.
Lemma locx_dec T1 T2 : 1667 <= T1 < T2 -> loc_x T2 < loc_x T1.
Proof.
  intros [H1 H2]. assert (L : forall a b, 1667 <= a -> a < b -> pe WXl (10000 / b) < pe WXl (10000 / a)).
  { intros a b A B. pose proof (w_lt a b ltac:(lra) B). pose proof (w_le 1667 a ltac:(lra) A). apply pe_mono; [|lra].
    intros x Hx. ppos 8%nat 0%Z 6%Z. }
  assert (Hh : forall a b, 4000 <= a -> a < b -> pe WXh (10000 / b) < pe WXh (10000 / a)).
  { intros a b A B. pose proof (w_lt a b ltac:(lra) B). pose proof (w_le 4000 a ltac:(lra) A). apply pe_mono; [|lra].
    intros x Hx. ppos 8%nat 0%Z 3%Z. }
  unfold loc_x. destruct (Rlt_dec T2 4000) as [A|A]; destruct (Rlt_dec T1 4000) as [B|B]; try lra.
  - rewrite !WXl_pe by lra. specialize (L T1 T2 H1 H2). lra.
  - rewrite WXl_pe, WXh_pe by lra. specialize (L T1 4000 H1 B).
    assert (J : pe WXh (10000 / T2) <= pe WXh (10000 / 4000)).
    { destruct (Req_dec T2 4000) as [->|N]; [lra|]. apply Rlt_le, Hh; lra. }
    assert (K : pe WXh (10000 / 4000) < pe WXl (10000 / 4000)) by (unfold WXl, WXh; cbn [pe]; lra). lra.
  - rewrite !WXh_pe by lra. specialize (Hh T1 T2 ltac:(lra) H2). lra.
Qed.

(** ** Agreement. *)
Definition dX (s k : Z) (kx : list Z) : list Z :=
  padd (T3p k) (pscale s (padd (pmul (T3p 1) BX) (pscale (- 100000000000000000000000) kx))).
Definition T9p (k : Z) : list Z := pmul (T3p 1) (pmul (T3p 1) (T3p k)).
Definition dY (s k : Z) (ky : list Z) : list Z :=
  padd (T9p (10 * k)) (pscale s (padd (pmul (T9p 10) BY) (pscale (- 1) ky))).
Lemma dX_ok s k kx T : 0 < T -> 0 < pe (dX s k kx) T ->
  0 < IZR k / 100000000000000000000000000000 + IZR s * (bb_x T - pe kx T / (1000000 * T ^ 3)).
Proof.
  intros H P. unfold dX in P. rewrite pe_add, pe_scale, pe_add, pe_scale, pe_mul, !T3_pe in P.
  rewrite bbx_pe. pose proof (pow3_pos T H) as T3.
  replace (IZR k / 100000000000000000000000000000 + IZR s * (pe BX T / 1e29 - pe kx T / (1000000 * T ^ 3)))
    with ((IZR k * T ^ 3 + IZR s * (1 * T ^ 3 * pe BX T + -100000000000000000000000 * pe kx T)) / (100000000000000000000000000000 * T ^ 3)) by (qn; field; lra).
  apply Rdiv_lt_0_compat; [exact P|nra].
Qed.
Lemma T9_pe k T : pe (T9p k) T = IZR k * T ^ 9.
Proof. unfold T9p. rewrite !pe_mul, !T3_pe. ring. Qed.
Lemma dY_ok s k ky T : 0 < T -> 0 < pe (dY s k ky) T ->
  0 < IZR k / 10000000000000000000000000 + IZR s * (bb_y T - pe ky T / (100000000000000000000000000 * T ^ 9)).
Proof.
  intros H P. unfold dY in P. rewrite pe_add, pe_scale, pe_add, pe_scale, pe_mul, !T9_pe, mult_IZR in P.
  rewrite bby_pe. pose proof (pow_lt T 9 H) as T9.
  replace (IZR k / 10000000000000000000000000 + IZR s * (pe BY T / 1e25 - pe ky T / (100000000000000000000000000 * T ^ 9)))
    with ((10 * IZR k * T ^ 9 + IZR s * (10 * T ^ 9 * pe BY T + -1 * pe ky T)) / (100000000000000000000000000 * T ^ 9)) by (qn; field; lra).
  apply Rdiv_lt_0_compat; [exact P|nra].
Qed.
(** 1.07e-3 and 4.3e-3 in the two scales. *)
Definition e29 : Z := 107000000000000000000000000.
Definition e25 : Z := 43000000000000000000000.
Lemma agree_ok T : 1667 <= T <= 10000 -> Rabs (bb_x T - loc_x T) <= 0.00107 /\ Rabs (bb_y T - loc_y T) <= 0.0043.
Proof.
  intros H. unfold loc_x, loc_y. destruct (Rlt_dec T 4000) as [L|L].
  - assert (A : 0 < pe (dX 1 e29 KXl) T) by ppos 14%nat 1667%Z 2333%Z. apply dX_ok in A; [|lra].
    assert (B : 0 < pe (dX (-1) e29 KXl) T) by ppos 14%nat 1667%Z 2333%Z. apply dX_ok in B; [|lra].
    assert (C : 0 < pe (dY 1 e25 KYl) T) by ppos 14%nat 1667%Z 2333%Z. apply dY_ok in C; [|lra].
    assert (D : 0 < pe (dY (-1) e25 KYl) T) by ppos 14%nat 1667%Z 2333%Z. apply dY_ok in D; [|lra].
    unfold e29, e25 in *. split; apply Rabs_le; lra.
  - assert (A : 0 < pe (dX 1 e29 KXh) T) by ppos 14%nat 4000%Z 6000%Z. apply dX_ok in A; [|lra].
    assert (B : 0 < pe (dX (-1) e29 KXh) T) by ppos 14%nat 4000%Z 6000%Z. apply dX_ok in B; [|lra].
    assert (C : 0 < pe (dY 1 e25 KYh) T) by ppos 14%nat 4000%Z 6000%Z. apply dY_ok in C; [|lra].
    assert (D : 0 < pe (dY (-1) e25 KYh) T) by ppos 14%nat 4000%Z 6000%Z. apply dY_ok in D; [|lra].
    unfold e29, e25 in *. split; apply Rabs_le; lra.
Qed.

(** ** Ranges. *)
Lemma bby_range T : 0 <= T <= 13000 -> 0.1 <= bb_y T <= 0.9.
Proof.
  intros H. rewrite bby_pe.
  assert (0 < pe (padd BY [- 1000000000000000000000000]%Z) T) by ppos 12%nat 0%Z 13000%Z.
  assert (0 < pe (padd [9000000000000000000000000]%Z (pscale (-1) BY)) T) by ppos 12%nat 0%Z 13000%Z.
  rewrite pe_add in *. rewrite pe_scale in *. cbn [pe] in *. lra.
Qed.
Lemma bb_inside T : 1100 <= T <= 13000 -> 0.003 <= bb_x T /\ 0.2 <= bb_y T /\ bb_x T + bb_y T <= 0.999.
Proof.
  intros H. rewrite bby_pe, bbx_pe.
  assert (0 < pe (padd BX [- 300000000000000000000000000]%Z) T) by ppos 12%nat 1100%Z 11900%Z.
  assert (0 < pe (padd BY [- 2000000000000000000000000]%Z) T) by ppos 12%nat 1100%Z 11900%Z.
  assert (0 < pe (padd [99900000000000000000000000000]%Z (pscale (-1) (padd BX (pscale 10000 BY)))) T) by ppos 12%nat 1100%Z 11900%Z.
  rewrite !pe_add, ?pe_scale, ?pe_add, ?pe_scale in *. cbn [pe] in *. lra.
Qed.
Lemma bb_outside T : 13200 <= T -> bb_x T < 0 /\ 0.5 <= bb_y T.
Proof.
  intros H. rewrite bby_pe, bbx_pe.
  assert (0 < pe (pscale (-1) BX) T) by pinf 13200%Z.
  assert (0 < pe (padd BY [- 5000000000000000000000000]%Z) T) by pinf 13200%Z.
  rewrite ?pe_scale, ?pe_add in *. cbn [pe] in *. lra.
Qed.
Lemma loc_inside T : 1667 <= T -> 0.2 <= loc_x T /\ 0.2 <= loc_y T <= 0.5 /\ loc_x T + loc_y T <= 0.999.
Proof.
  intros H. assert (P3 := pow3_pos T ltac:(lra)). assert (P9 := pow_lt T 9 ltac:(lra)).
  assert (Q : forall a b, 0 < b -> 0 < a - 0.2 * b -> 0.2 <= a / b).
  { intros a b B A. apply Rmult_le_reg_r with b; [exact B|]. unfold Rdiv. rewrite Rmult_assoc, Rinv_l by lra. lra. }
  assert (Q' : forall a b c, 0 < b -> 0 < c * b - a -> a / b <= c).
  { intros a b c B A. apply Rmult_le_reg_r with b; [exact B|]. unfold Rdiv. rewrite Rmult_assoc, Rinv_l by lra. lra. }
  unfold loc_x, loc_y. destruct (Rlt_dec T 4000) as [L|L].
  - assert (A : 0 < pe (padd KXl (T3p (- 200000))) T) by ppos 12%nat 1667%Z 2333%Z. 
    assert (B : 0 < pe (padd KYl (T9p (- 20000000000000000000000000))) T) by ppos 12%nat 1667%Z 2333%Z. 
    assert (C : 0 < pe (padd (T9p 50000000000000000000000000) (pscale (-1) KYl)) T) by ppos 12%nat 1667%Z 2333%Z.
    assert (D : 0 < pe (padd (T9p 99900000000000000000000000) (pscale (-1) (padd KYl (pmul (pscale 100000000000000000000 KXl) (pmul (T3p 1) (T3p 1)))))) T) by ppos 12%nat 1667%Z 2333%Z.
    rewrite ?pe_add, ?pe_scale, ?pe_add, ?pe_mul, ?pe_scale, ?T9_pe, ?T3_pe in *.
    repeat split.
    + apply Q; lra.
    + apply Q; lra.
    + apply Q'; lra.
    + replace (pe KXl T / (1000000 * T ^ 3)) with (100000000000000000000 * pe KXl T * (T ^ 3 * T ^ 3) / (100000000000000000000000000 * T ^ 9)) by (field; lra).
      rewrite <- Rdiv_plus_distr. apply Q'; [lra|]. nra.
  - assert (A : 0 < pe (padd KXh (T3p (- 200000))) T) by pinf 4000%Z.
    assert (B : 0 < pe (padd KYh (T9p (- 20000000000000000000000000))) T) by pinf 4000%Z. 
    assert (C : 0 < pe (padd (T9p 50000000000000000000000000) (pscale (-1) KYh)) T) by pinf 4000%Z.
    assert (D : 0 < pe (padd (T9p 99900000000000000000000000) (pscale (-1) (padd KYh (pmul (pscale 100000000000000000000 KXh) (pmul (T3p 1) (T3p 1)))))) T) by pinf 4000%Z.
    rewrite ?pe_add, ?pe_scale, ?pe_add, ?pe_mul, ?pe_scale, ?T9_pe, ?T3_pe in *.
    repeat split.
    + apply Q; lra.
    + apply Q; lra.
    + apply Q'; lra.
    + replace (pe KXh T / (1000000 * T ^ 3)) with (100000000000000000000 * pe KXh T * (T ^ 3 * T ^ 3) / (100000000000000000000000000 * T ^ 9)) by (field; lra).
      rewrite <- Rdiv_plus_distr. apply Q'; [lra|]. nra.
Qed.

(** ** C107, C108 *)
Lemma fromCT_yxy T Y : fromCT RN (Some T) (Some Y) = fromYxy RN (finV (V3 Y (bb_x T) (bb_y T))).
Proof. unfold fromCT. now rewrite bbx_fin, bby_fin. Qed.
Lemma chrom Y x y : 0.000001 <= Y -> 0.1 <= y <= 0.9 -> toYxy RN (fromYxy RN (finV (V3 Y x y))) = finV (V3 Y x y).
Proof.
  intros HY Hy. assert (E : eps8 = 0.00000001) by (unfold eps8; lra). apply C08_l2; rewrite Rabs_pos_eq, E; try lra.
  - apply Rmult_le_reg_r with y; [lra|]. unfold Rdiv. rewrite Rmult_assoc, Rinv_l; lra.
  - apply Rlt_le, Rdiv_lt_0_compat; lra.
Qed.
Lemma C107_ct_l (T1 T2 Y : R) : 0 <= T1 -> T1 < T2 -> T2 <= 13000 -> 0.000001 <= Y -> exists x1 y1 x2 y2,
  toYxy RN (fromCT RN (Some T1) (Some Y)) = finV (V3 Y x1 y1) /\
  toYxy RN (fromCT RN (Some T2) (Some Y)) = finV (V3 Y x2 y2) /\ x2 < x1.
Proof.
  intros. exists (bb_x T1), (bb_y T1), (bb_x T2), (bb_y T2). rewrite !fromCT_yxy.
  pose proof (bby_range T1 ltac:(lra)). pose proof (bby_range T2 ltac:(lra)).
  repeat split; try (apply chrom; assumption). apply bbx_dec; lra.
Qed.
Lemma C107_locus_l (T1 T2 Y : R) : 1667 <= T1 -> T1 < T2 -> 0.000001 <= Y -> exists x1 y1 x2 y2,
  toYxy RN (fromPlanckianLocus RN (Some T1) (Some Y)) = finV (V3 Y x1 y1) /\
  toYxy RN (fromPlanckianLocus RN (Some T2) (Some Y)) = finV (V3 Y x2 y2) /\ x2 < x1.
Proof.
  intros. exists (loc_x T1), (loc_y T1), (loc_x T2), (loc_y T2). rewrite !locus_yxy by lra.
  pose proof (loc_inside T1 ltac:(lra)) as (? & ? & _). pose proof (loc_inside T2 ltac:(lra)) as (? & ? & _).
  repeat split; try (apply chrom; lra). apply locx_dec; lra.
Qed.
Lemma C107_agree_l (T Y : R) : 1667 <= T <= 10000 -> 0.000001 <= Y -> exists x1 y1 x2 y2,
  toYxy RN (fromCT RN (Some T) (Some Y)) = finV (V3 Y x1 y1) /\
  toYxy RN (fromPlanckianLocus RN (Some T) (Some Y)) = finV (V3 Y x2 y2) /\
  Rabs (x1 - x2) <= 0.00107 /\ Rabs (y1 - y2) <= 0.0043.
Proof.
  intros. exists (bb_x T), (bb_y T), (loc_x T), (loc_y T). rewrite fromCT_yxy, locus_yxy by lra.
  pose proof (bby_range T ltac:(lra)). pose proof (loc_inside T ltac:(lra)) as (? & ? & _).
  split; [apply chrom; lra|]. split; [apply chrom; lra|]. now apply agree_ok.
Qed.
Lemma real_xyz Y x y : 0 < Y -> 0 < x -> 0.1 <= y -> x + y < 1 -> exists X Z,
  fromYxy RN (finV (V3 Y x y)) = finV (V3 X Y Z) /\ 0 < X /\ 0 < Z.
Proof.
  intros. eexists _, _. split; [apply fromYxy_ok; rewrite Rabs_pos_eq; unfold eps8; lra|].
  split; apply Rdiv_lt_0_compat; nra.
Qed.
Lemma C108_ct_l (T Y : R) : 1100 <= T <= 13000 -> 0 < Y -> exists X Z,
  fromCT RN (Some T) (Some Y) = finV (V3 X Y Z) /\ 0 < X /\ 0 < Z.
Proof. intros H HY. rewrite fromCT_yxy. destruct (bb_inside T H) as (? & ? & ?). apply real_xyz; lra. Qed.
Lemma C108_locus_l (T Y : R) : 1667 <= T -> 0 < Y -> exists X Z,
  fromPlanckianLocus RN (Some T) (Some Y) = finV (V3 X Y Z) /\ 0 < X /\ 0 < Z.
Proof. intros H HY. rewrite locus_yxy by lra. destruct (loc_inside T H) as (? & ? & ?). apply real_xyz; lra. Qed.
Lemma C108_l (T Y : R) : 13200 <= T -> 0 < Y -> exists X Z,
  fromCT RN (Some T) (Some Y) = finV (V3 X Y Z) /\ X < 0.
Proof.
  intros H HY. rewrite fromCT_yxy. destruct (bb_outside T H) as (A & B). eexists _, _.
  split; [apply fromYxy_ok; rewrite Rabs_pos_eq; unfold eps8; lra|].
  replace (bb_x T * Y / bb_y T) with (- (- bb_x T * Y / bb_y T)) by (field; lra).
  enough (0 < - bb_x T * Y / bb_y T) by lra. apply Rdiv_lt_0_compat; nra.
Qed.

(** the side conditions of C20 hold at every temperature up to 13000 K. *)
Lemma bbx_range T : 0 <= T -> bb_x T <= 0.82.
Proof.
  intros H. assert (E : bb_x 0 = 0.811973208) by (unfold bb_x; lra). destruct (Req_dec T 0) as [->|N]; [lra|].
  pose proof (bbx_dec 0 T ltac:(lra)). lra.
Qed.
Lemma uden_pos T : 0 <= T <= 13000 -> 0 < uden (bb_x T) (bb_y T).
Proof. intros H. unfold uden. pose proof (bbx_range T ltac:(lra)). pose proof (bby_range T H). lra. Qed.
Lemma C20_all_l (T Y : R) : 1 <= T <= 13000 ->
  fromCCT_sq RN exact_sqrt (Some T) (Some 0) (Some Y) = Ret (fromCT RN (Some T) (Some Y)).
Proof.
  intros H. pose proof (uden_pos T ltac:(lra)). pose proof (uden_pos (T - 1) ltac:(lra)).
  pose proof (bbx_dec (T - 1) T ltac:(lra)) as D.
  apply C20_zero_l; try lra. intros E. injection E. intros E2 E1.
  destruct (xy_uv _ _ (not_eq_sym (Rlt_not_eq _ _ H0))) as [A _].
  destruct (xy_uv _ _ (not_eq_sym (Rlt_not_eq _ _ H1))) as [B _]. rewrite E1, E2 in A. lra.
Qed.
Lemma C108_refuted_l : exists T Y X Z : R, 1667 <= T <= 25000 /\ 0 < Y /\
  fromCT RN (Some T) (Some Y) = finV (V3 X Y Z) /\ X < 0.
Proof.
  destruct (C108_l 15000 1 ltac:(lra) ltac:(lra)) as (X & Z' & E & L). exists 15000, 1, X, Z'. repeat split; try lra; assumption.
Qed.
