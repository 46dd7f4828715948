(** * ST 2084 and HLG when multiplications and additions are fused. *)
From Coq Require Import ZArith Reals Lra Lia List Bool.
From Flocq Require Import Core IEEE754.BinarySingleNaN.
From Verif Require Import Num NumR NumF MVec MTri MOtf MFma RTac F32 RPow RExp PHsvF PLibm PPowF PNearF PNearF2 PRelF POtf POtf2 POtfF POtfF2 POtfF3 PFma PFma7 PFma8 PFma10.
Local Open Scope R_scope.

Section F.
Context (lm : libm) (Acc : accurate lm).
Notation N := (FN lm).
Notation E := (EN lm).
Notation L d := (Val (@flit N d%dec)).
Lemma det_op1 f a x : det lm a x -> det lm (Op1 f a) (f x).
Proof. intros [Pa Ha]. split; [cbn; now rewrite Pa|]. intros z H. inversion H; subst. f_equal; auto. Qed.

(** ** ST 2084, encoding *)
Lemma fma_rel (c l a : f32) p q w v : fin c -> fin l -> fin a -> B2R c = p -> B2R l = q -> B2R a = w -> p * q + w = v -> 0.5 <= v <= 100 -> rel (fma c l a) v (1.1 * u).
Proof.
  intros Fc Fl Fa <- <- <- <- V. pose proof u16 as U. pose proof eta16 as Et. set (v := B2R c * B2R l + B2R a) in *.
  destruct (fma_ok c l a Fc Fl Fa) as [Ff Vf]. { fold v. rewrite Rabs_pos_eq by lra. apply Rle_trans with (bpow radix2 20); [cbn; lra|apply bpow_le; lia]. }
  fold v in Vf. split; [exact Ff|]. split; [lra|]. rewrite Vf. pose proof (rnd_err_abs v) as Er. rewrite (Rabs_pos_eq v) in Er by lra. eapply Rle_trans; [exact Er|]. rewrite U in *. lra.
Qed.
Lemma ev_addr (a c : f32) e l r : det lm e l -> ev lm (Add (Val a) (Mul (Val c) e)) r -> r = @fadd N a (@fmul N c l) \/ r = fma c l a.
Proof.
  intros [_ D] H. inversion H; subst.
  - match goal with H : ev _ (Mul _ _) _ |- _ => inversion H; subst; clear H end. repeat match goal with H : ev _ (Val _) _ |- _ => apply evVal in H; subst end. left. f_equal. f_equal. now apply D.
  - repeat match goal with H : ev _ (Val _) _ |- _ => apply evVal in H; subst end. right. f_equal. now apply D.
Qed.
Definition pqE (e : exp) : exp := Op2 (@fdiv N) (Add (Val (pq_c1 N)) (Mul (Val (pq_c2 N)) e)) (Add (L 1.0) (Mul (Val (pq_c3 N)) e)).
Lemma pqN_fused e (l r : f32) : det lm e l -> fin l -> bpow radix2 (-60) <= B2R l <= 2 -> ev lm (pqE e) r -> rel r (pqN (B2R l)) (5.1 * u).
Proof.
  intros De Fl [L1 L2] Hr. pose proof u16 as U. pose proof (bpow_gt_0 radix2 (-60)) as P.
  destruct (pl_c1 lm) as [Fc1 Vc1], (pl_c2 lm) as [Fc2 Vc2], (pl_c3 lm) as [Fc3 Vc3], (pl_1 lm) as [F1 V1]. set (z := B2R l) in *.
  assert (M : forall c, 1 <= c <= 20 -> mid (c * z)).
  { intros c Hc. split; [apply Rle_trans with (bpow radix2 (-60)); [apply bpow_le; lia|nra]|]. apply Rle_trans with 40; [nra|]. apply (mid_ge 40). lra. }
  assert (A2 : rel (@fmul N (pq_c2 N) l) (c2q * z) (1.001 * u)).
  { eapply rel_le; [apply (rel_mul lm _ l c2q z 0 0)|]; try lra.
    - apply rel_exact; [exact (pl_c2 lm)|unfold c2q; lra].
    - unfold z. apply rel_self; [exact Fl|fold z; lra].
    - apply M. unfold c2q; lra. }
  assert (A3 : rel (@fmul N (pq_c3 N) l) (c3q * z) (1.001 * u)).
  { eapply rel_le; [apply (rel_mul lm _ l c3q z 0 0)|]; try lra.
    - apply rel_exact; [exact (pl_c3 lm)|unfold c3q; lra].
    - unfold z. apply rel_self; [exact Fl|fold z; lra].
    - apply M. unfold c3q; lra. }
  inversion Hr as [| | | | | |f a b p q X1 X2| | | |]; subst.
  apply (ev_addr _ _ e l) in X1; [|exact De]. apply (ev_addr _ _ e l) in X2; [|exact De].
  assert (B2 : rel p (c1q + c2q * z) (2.002 * u)).
  { destruct X1 as [-> | ->].
    - eapply rel_le; [apply (rel_add lm _ _ c1q (c2q * z) (1.001 * u))|].
      + eapply rel_le; [apply rel_exact; [exact (pl_c1 lm)|unfold c1q; lra]|rewrite U; lra].
      + exact A2.
      + apply mid_ge. unfold c1q, c2q. lra.
      + rewrite U; lra.
      + rewrite U; lra.
    - eapply rel_le; [apply (fma_rel _ _ _ _ _ _ _ Fc2 Fl Fc1 Vc2 eq_refl Vc1); [fold z; ring|unfold c1q, c2q; lra]|rewrite U; lra]. }
  assert (B3 : rel q (1 + c3q * z) (2.002 * u)).
  { destruct X2 as [-> | ->].
    - eapply rel_le; [apply (rel_add lm _ _ 1 (c3q * z) (1.001 * u))|].
      + eapply rel_le; [apply rel_exact; [exact (pl_1 lm)|lra]|rewrite U; lra].
      + exact A3.
      + apply mid_ge. unfold c3q. lra.
      + rewrite U; lra.
      + rewrite U; lra.
    - eapply rel_le; [apply (fma_rel _ _ _ _ _ _ _ Fc3 Fl F1 Vc3 eq_refl V1); [fold z; ring|unfold c3q; lra]|rewrite U; lra]. }
  eapply rel_le; [apply (rel_div lm _ _ (c1q + c2q * z) (1 + c3q * z) _ _ B2 B3)|].
  - apply mid_ge. unfold c1q, c2q, c3q. assert (D : 0 < 1 + 18.6875 * z) by lra. split; apply Rmult_le_reg_r with (1 + 18.6875 * z); try lra; unfold Rdiv; rewrite Rmult_assoc, Rinv_l; lra.
  - rewrite U; lra.
  - rewrite U; lra.
  - rewrite U; lra.
Qed.
Lemma pq_E (C : f32) : Y_to_ST2084 E (Val C) =
  if @fleb N C (@flit N 0%dec) then L 0 else if @fleb N (@flit N 100%dec) C then L 1 else
  Op2 (@fpow N) (pqE (Op2 (@fpow N) (Op2 (@fdiv N) (Val C) (Val (pq_C N))) (Val (pq_m1 N)))) (Val (pq_m2 N)).
Proof. reflexivity. Qed.
Lemma pq_fused (C r : f32) : fin C -> bpow radix2 (-50) <= B2R C < 100 -> ev lm (Y_to_ST2084 E (Val C)) r -> rel r (pq_enc (B2R C)) (437 * u).
Proof.
  intros Fc [C1 C2] Hr. pose proof u16 as U. pose proof (bpow_gt_0 radix2 (-50)) as P. set (v := B2R C) in *.
  destruct (l0 lm) as [F0 V0]. destruct (pl_100 lm) as [F1 V1].
  rewrite pq_E in Hr. rewrite !leb_ok in Hr by assumption. rewrite V0, V1 in Hr. fold v in Hr. rewrite !Rle_bool_false in Hr by lra.
  assert (K : 128 * bpow radix2 (-57) = bpow radix2 (-50)) by (change 128 with (bpow radix2 7); rewrite <- bpow_plus; reflexivity).
  assert (K2 : 2 * bpow radix2 (-60) <= bpow radix2 (-57)) by (change 2 with (bpow radix2 1); rewrite <- bpow_plus; apply bpow_le; lia).
  pose proof (bpow_gt_0 radix2 (-60)) as P60.
  assert (Lx : rel (@fdiv N C (pq_C N)) (v / 100) (1.001 * u)).
  { eapply rel_le; [apply (rel_div lm C _ v 100 0 0)|]; try lra.
    - unfold v. apply rel_self; [exact Fc|fold v; lra].
    - apply rel_exact; [exact (pl_C lm)|lra].
    - split; [apply Rle_trans with (bpow radix2 (-57)); [apply bpow_le; lia|lra]|]. apply Rle_trans with 1; [lra|]. apply (mid_ge 1). lra. }
  set (x := v / 100) in *. assert (X : bpow radix2 (-57) <= x < 1) by (unfold x; lra).
  pose proof (Rpower_ge_self x m1q ltac:(lra) ltac:(unfold m1q; lra)) as LG. pose proof (Rpower_le_1 x m1q ltac:(lra) ltac:(lra) ltac:(unfold m1q; lra)) as LL.
  assert (Lm : rel (@fpow N (@fdiv N C (pq_C N)) (pq_m1 N)) (Rpower x m1q) (4.3 * u)).
  { assert (A : Rabs m1q = m1q) by (apply Rabs_pos_eq; unfold m1q; lra).
    eapply rel_le; [apply (rel_pow lm Acc _ _ x m1q (1.001 * u) 0 0 Lx)|]; rewrite ?A; unfold m1q in *; try (rewrite U; lra); try lra.
    - apply (near_lit _ _ _ _ (pl_m1 lm)). unfold m1q. rewrite Rminus_diag_eq, Rabs_R0 by reflexivity. lra.
    - apply mid_pow; [|lra]. pose proof (bpow_lt radix2 (-60) (-57) ltac:(lia)). split; [lra|]. apply Rle_trans with 1; [lra|]. apply (bpow_le radix2 0 60). lia. }
  assert (De : det lm (Op2 (@fpow N) (Op2 (@fdiv N) (Val C) (Val (pq_C N))) (Val (pq_m1 N))) (@fpow N (@fdiv N C (pq_C N)) (pq_m1 N))).
  { apply det_op2; [apply det_op2; apply det_val|apply det_val]. }
  set (lf := @fpow N (@fdiv N C (pq_C N)) (pq_m1 N)) in *. set (l0 := Rpower x m1q) in *. destruct (rel_ex _ _ _ Lm) as (d & D & Ee). apply Rabs_le_inv in D as D'.
  assert (Bl : bpow radix2 (-60) <= B2R lf <= 2) by (rewrite Ee, U in *; split; nra).
  inversion Hr as [| | | | | |f a b nf m X1 X2| | | |]; subst. apply evVal in X2. subst m.
  pose proof (pqN_fused _ lf nf De (proj1 Lm) Bl X1) as Rn.
  pose proof (pqN_damp l0 d ltac:(lra) ltac:(rewrite U in D; lra)) as Da. rewrite <- Ee in Da.
  assert (N0 : c1q <= pqN l0 <= 1).
  { assert (0 < l0) by lra. unfold pqN, c1q, c2q, c3q. split; apply Rmult_le_reg_r with (1 + 18.6875 * l0); try lra; unfold Rdiv; rewrite Rmult_assoc, Rinv_l; lra. }
  assert (Nn : rel nf (pqN l0) (5.4 * u)).
  { destruct Rn as (Fn & Pn & Hn). split; [exact Fn|]. split; [unfold c1q in N0; lra|].
    set (n := pqN l0) in *. set (n' := pqN (B2R lf)) in *. assert (Da' : Rabs (n' - n) <= 0.24 * u * n).
    { eapply Rle_trans; [exact Da|]. apply Rmult_le_compat_r; [unfold c1q in N0; lra|]. lra. }
    apply Rabs_le_inv in Da'. apply Rabs_le_inv in Hn. assert (n' <= 1.01 * n) by (rewrite U in *; unfold c1q in N0; lra).
    assert (u * n' <= u * (1.01 * n)) by (apply Rmult_le_compat_l; lra). apply Rabs_le. assert (0 < u * n) by (apply Rmult_lt_0_compat; unfold c1q in N0; lra). lra. }
  unfold pq_enc. fold x. fold l0.
  assert (A : Rabs m2q = m2q) by (apply Rabs_pos_eq; unfold m2q; lra).
  eapply rel_le; [apply (rel_pow lm Acc _ _ (pqN l0) m2q (5.4 * u) 0 0 Nn)|]; rewrite ?A; unfold m2q in *; try (rewrite U; lra); try lra.
  - apply (near_lit _ _ _ _ (pl_m2 lm)). unfold m2q. rewrite Rminus_diag_eq, Rabs_R0 by reflexivity. lra.
  - assert (G : / 10000000 <= Rpower c1q 78.84375).
    { apply Rle_trans with (Rpower c1q (INR 79)). 2:{ unfold Rpower. assert (ln c1q < 0) by (rewrite <- ln_1; apply ln_increasing; unfold c1q; lra). apply Rlt_le, exp_increasing.
        replace (INR 79) with 79 by (rewrite INR_IZR_INZ; reflexivity). nra. }
      rewrite Rpower_nat by (unfold c1q; lra). unfold c1q. lra. }
    assert (H1 : Rpower c1q 78.84375 <= Rpower (pqN l0) 78.84375) by (apply Rpower_le_l; unfold c1q in *; lra).
    assert (H2 : Rpower (pqN l0) 78.84375 <= 1) by (apply Rpower_le_1; unfold c1q in *; lra).
    split; [|apply Rle_trans with 1; [lra|apply (mid_ge 1); lra]].
    apply Rle_trans with (bpow radix2 (-30)); [apply bpow_le; lia|]. change (bpow radix2 (-30)) with (/ 1073741824). lra.
Qed.
Lemma pq_fstmt (C r : f32) : fin C -> bpow radix2 (-50) <= B2R C -> ev lm (Y_to_ST2084 E (Val C)) r ->
  exists e, Y_to_ST2084 RN (Some (B2R C)) = Some e /\ rel r e (437 * u) /\ e <= 1.
Proof.
  intros Fc Lo Hr. pose proof (bpow_gt_0 radix2 (-50)) as P. destruct (Rlt_le_dec (B2R C) 100) as [H|H].
  - exists (pq_enc (B2R C)). rewrite pq_enc_fin by lra. split; [reflexivity|]. split; [apply pq_fused; [exact Fc|lra|exact Hr]|]. pose proof (pq_enc_range (B2R C) ltac:(lra)). lra.
  - exists 1. rewrite pq_enc_hi by lra. split; [reflexivity|]. split; [|lra]. destruct (l0 lm) as [F0 V0]. destruct (l1 lm) as [F1 V1]. destruct (pl_100 lm) as [F2 V2].
    rewrite pq_E in Hr. rewrite !leb_ok in Hr by assumption. rewrite V0, V2, Rle_bool_false, Rle_bool_true in Hr by lra. apply evVal in Hr. subst r.
    eapply rel_le; [apply rel_exact; [split; eassumption|lra]|]. pose proof F32.u_pos. lra.
Qed.

(** ** HLG *)
Lemma hlg_E (C : f32) : Y_to_HLG E (Val C) =
  if @fltb N C (@flit N 0%dec) then L 0 else if @fltb N C (@flit N 1%dec) then Mul (L 0.5) (Op1 (@fsqrt N) (Val C)) else
  Add (Mul (Val (hlg_a N)) (Op1 (@flog N) (Sub (Val C) (Val (hlg_b N))))) (Val (hlg_c N)).
Proof. reflexivity. Qed.
Lemma hlg_lo_fused (C r : f32) : fin C -> B2R C < 1 -> ev lm (Y_to_HLG E (Val C)) r -> r = Y_to_HLG N C.
Proof.
  intros Fc H Hr. destruct (l1 lm) as [F1 V1]. rewrite hlg_E in Hr. unfold Y_to_HLG.
  assert (B : @fltb N C (@flit N 1%dec) = true) by (rewrite ltb_ok by assumption; apply Rlt_bool_true; lra). rewrite B in *.
  destruct (@fltb N C (@flit N 0%dec)); [exact (evVal lm _ _ Hr)|]. refine (proj2 (det_mul lm _ _ _ _ (det_val lm _) (det_op1 _ _ _ (det_val lm C))) r Hr).
Qed.
Lemma hlg_dec_fused (c r : f32) : ev lm (HLG_to_Y E (Val c)) r -> r = HLG_to_Y N c.
Proof.
  intros Hr. unfold HLG_to_Y in *.
  change (@fltb E (Val c) (@flit E 0%dec)) with (@fltb N c (@flit N 0%dec)) in Hr. change (@fleb E (Val c) (@flit E 0.5%dec)) with (@fleb N c (@flit N 0.5%dec)) in Hr.
  destruct (@fltb N c (@flit N 0%dec)); [exact (evVal lm _ _ Hr)|]. destruct (@fleb N c (@flit N 0.5%dec)).
  - refine (proj2 (det_mul lm _ _ _ _ (det_mul lm _ _ _ _ (det_val lm _) (det_val lm _)) (det_val lm _)) r Hr).
  - assert (D : det lm (Add (Op1 (@fexp N) (Op2 (@fdiv N) (Sub (Val c) (Val (hlg_c N))) (Val (hlg_a N)))) (Val (hlg_b N))) (@fadd N (@fexp N (@fdiv N (@fsub N c (hlg_c N)) (hlg_a N))) (hlg_b N))).
    { apply det_add; [exact Logic.I|exact Logic.I| |apply det_val]. apply det_op1, det_op2; [|apply det_val]. apply det_sub; [exact Logic.I|exact Logic.I|apply det_val|apply det_val]. }
    exact (proj2 D r Hr).
Qed.
Lemma hlg_hi_fused (C r : f32) : fin C -> 1 <= B2R C <= 12 -> ev lm (Y_to_HLG E (Val C)) r -> near r (ha * ln (B2R C - hb) + hc) (4.1 * u).
Proof.
  intros Fc H. set (v := B2R C) in *. pose proof u16 as U. pose proof eta16 as Et. destruct (l0 lm) as [F0 V0]. destruct (l1 lm) as [F1 V1]. 
  rewrite hlg_E. rewrite !ltb_ok by assumption. rewrite V0, V1. fold v. rewrite !Rlt_bool_false by lra.
  pose proof (proj1 ln_12) as L1. pose proof (proj2 ln_12) as L2. pose proof (ln_mono (1 - hb) (v - hb) ltac:(unfold hb; lra) ltac:(lra)). pose proof (ln_mono (v - hb) (12 - hb) ltac:(unfold hb; lra) ltac:(lra)).
  set (l := ln (v - hb)) in *.
  assert (S : near (@fsub N C (hlg_b N)) (v - hb) (1.1 * u * (v - hb))).
  { eapply near_le; [apply (near_sub lm C _ v hb 0 (0.041 * u) (v - hb))|].
    - apply near_self, Fc.
    - apply (near_lit _ _ _ _ (hl_b lm)). unfold hb. apply Rabs_le; lra.
    - rewrite Rabs_pos_eq; unfold hb; lra.
    - unfold hb; rewrite U; lra.
    - unfold hb; rewrite U; lra. }
  assert (Ll : near (@flog N (@fsub N C (hlg_b N))) l (11.1 * u)).
  { eapply near_le; [apply (near_log lm Acc _ _ _ 2.47 S)|].
    - unfold hb; lra.
    - rewrite U; lra.
    - fold l; apply Rabs_le; lra.
    - rewrite U; lra. }
  assert (DL : det lm (Op1 (@flog N) (Sub (Val C) (Val (hlg_b N)))) (@flog N (@fsub N C (hlg_b N)))).
  { apply det_op1, det_sub; [exact Logic.I|exact Logic.I|apply det_val|apply det_val]. }
  revert r. refine (nr_le lm _ _ _ _ (nr_madd lm _ _ _ ha l hc (0.011 * u) (11.1 * u) (0.26 * u) ha 2.47 1.01 _ (nr_det lm _ _ _ _ DL Ll) _ _ _ _ _ _) _).
  - apply nr_val, (near_lit _ _ _ _ (hl_a lm)). unfold ha. apply Rabs_le; lra.
  - apply (near_lit _ _ _ _ (hl_c lm)). unfold hc. apply Rabs_le; lra.
  - unfold ha; rewrite Rabs_pos_eq; lra.
  - apply Rabs_le; lra.
  - apply Rabs_le. unfold ha, hc. lra.
  - unfold ha; rewrite U; lra.
  - unfold ha; rewrite U in *; lra.
  - unfold ha; rewrite U in *; lra.
Qed.
(** The decoder on any value that near the exact code. *)
Lemma hlg_rt_of (v : R) (y : f32) : 1 <= v <= 12 -> near y (ha * ln (v - hb) + hc) (4.1 * u) -> near (HLG_to_Y N y) v (450 * u).
Proof.
  intros H [Fy Hy]. pose proof u16 as U.
  pose proof ln_12 as [L1 L2]. pose proof (ln_mono (1 - hb) (v - hb) ltac:(unfold hb; lra) ltac:(lra)). pose proof (ln_mono (v - hb) (12 - hb) ltac:(unfold hb; lra) ltac:(lra)).
  pose proof hlg_knee as Kn. set (l := ln (v - hb)) in *. apply Rabs_le_inv in Hy as Hy'.
  assert (Bd : 0.5 < ha * l + hc <= 1.0009).
  { assert (ln (1 - hb) <= l) by assumption. unfold ha, hc in *. lra. }
  assert (EL : Rtrigo_def.exp l = v - hb) by (unfold l; apply exp_ln; unfold hb; lra).
  destruct (Rle_lt_dec (B2R y) 0.5) as [Ly|Ly].
  - assert (Ry : rel y 0.5 (4.1 * u / 0.5)). { split; [exact Fy|]. split; [lra|]. replace (4.1 * u / 0.5 * 0.5) with (4.1 * u) by lra. apply Rabs_le. lra. }
    destruct (hlg_dec_lo_rel lm y 0.5 _ Ry Ly) as (Fz & _ & Hz); try (rewrite U; lra); try lra.
    { apply Rle_trans with (bpow radix2 (-1)); [apply bpow_le; lia|cbn; lra]. }
    split; [exact Fz|]. apply Rabs_le_inv in Hz.
    assert (v <= 1 + 250 * u).
    { assert (A : l <= ln (1 - hb) + 24 * u). { unfold ha, hc in *. lra. }
      assert (Le : Rtrigo_def.exp l <= Rtrigo_def.exp (ln (1 - hb) + 24 * u)) by (destruct (Req_dec l (ln (1 - hb) + 24 * u)) as [<-|]; [lra|apply Rlt_le, exp_increasing; lra]).
      rewrite exp_plus, exp_ln in Le by (unfold hb; lra). pose proof (exp_near (24 * u)) as En. rewrite (Rabs_pos_eq (24 * u)) in En by lra. specialize (En ltac:(rewrite U; lra)).
      apply Rabs_le_inv in En. assert ((1 - hb) * Rtrigo_def.exp (24 * u) <= (1 - hb) * (1 + 24 * u * (1 + 2 * (24 * u)))) by (apply Rmult_le_compat_l; unfold hb; lra).
      rewrite EL in Le. unfold hb in *. rewrite U in *. lra. }
    apply Rabs_le. rewrite U in *. lra.
  - destruct (hlg_dec_hi_near lm Acc y Fy ltac:(rewrite U in *; lra)) as [Fz Hz]. split; [exact Fz|].
    set (t := (B2R y - hc) / ha) in *. assert (T : Rabs (t - l) <= 23 * u).
    { replace (t - l) with ((B2R y - (ha * l + hc)) / ha) by (unfold t; field; unfold ha; lra). unfold Rdiv. rewrite Rabs_mult, (Rabs_pos_eq (/ ha)) by (unfold ha; lra).
      unfold ha in *. lra. }
    assert (Ex : Rtrigo_def.exp t = Rtrigo_def.exp l * Rtrigo_def.exp (t - l)) by (rewrite <- exp_plus; f_equal; ring).
    pose proof (exp_near (t - l) ltac:(rewrite U in *; lra)) as En. pose proof (Rabs_pos (t - l)).
    assert (En' : Rabs (Rtrigo_def.exp (t - l) - 1) <= 23.001 * u). { eapply Rle_trans; [exact En|]. rewrite U in *. apply Rle_trans with (23 * / 16777216 * (1 + 2 * (23 * / 16777216))); [apply Rmult_le_compat; lra|lra]. }
    apply Rabs_le_inv in En'. assert (Q : Rabs (Rtrigo_def.exp t + hb - v) <= 272 * u). { rewrite Ex, EL. unfold hb in *. apply Rabs_le. rewrite U in *. nra. }
    apply Rabs_le_inv in Q. apply Rabs_le_inv in Hz. apply Rabs_le. lra.
Qed.
Lemma hlg_fstmt (C y z : f32) : fin C -> bpow radix2 (-100) <= B2R C <= 12 -> ev lm (Y_to_HLG E (Val C)) y -> ev lm (HLG_to_Y E (Val y)) z ->
  exists e, Y_to_HLG RN (Some (B2R C)) = Some e /\ near y e (4.1 * u) /\ near z (B2R C) (450 * u) /\ (B2R C < 1 -> near z (B2R C) (3.01 * u * B2R C)).
Proof.
  intros Fc H Hy Hz. apply hlg_dec_fused in Hz. subst z. destruct (Rlt_le_dec (B2R C) 1) as [Lt|Ge].
  - apply hlg_lo_fused in Hy; [|exact Fc|exact Lt]. subst y. exact (hlg_stmt lm Acc C Fc H).
  - pose proof (hlg_hi_fused C y Fc ltac:(lra) Hy) as Ny. exists (ha * ln (B2R C - hb) + hc). split; [apply hlg_enc_hi; lra|]. split; [exact Ny|]. split; [|lra].
    apply hlg_rt_of; [lra|exact Ny].
Qed.
End F.
Section G.
Context (lm : libm).
Notation N := (FN lm).
Notation E := (EN lm).
Lemma otf_plain (C : f32) : ev lm (Y_to_ST2084 E (Val C)) (Y_to_ST2084 N C) /\ ev lm (Y_to_HLG E (Val C)) (Y_to_HLG N C) /\ ev lm (HLG_to_Y E (Val C)) (HLG_to_Y N C).
Proof.
  split; [|split].
  - apply evp. rewrite pq_E. unfold Y_to_ST2084. destruct (@fleb N C (@flit N 0%dec)); [reflexivity|]. destruct (@fleb N (@flit N 100%dec) C); reflexivity.
  - apply evp. rewrite hlg_E. unfold Y_to_HLG. destruct (@fltb N C (@flit N 0%dec)); [reflexivity|]. destruct (@fltb N C (@flit N 1%dec)); reflexivity.
  - apply evp. unfold HLG_to_Y. change (@fltb E (Val C) (@flit E 0%dec)) with (@fltb N C (@flit N 0%dec)). change (@fleb E (Val C) (@flit E 0.5%dec)) with (@fleb N C (@flit N 0.5%dec)).
    destruct (@fltb N C (@flit N 0%dec)); [reflexivity|]. destruct (@fleb N C (@flit N 0.5%dec)); reflexivity.
Qed.
Lemma case169 : let x := @flit N 4%dec in fin x /\ B2R x = 4 /\ (exists r, ev lm (Y_to_ST2084 E (Val x)) r) /\ exists y z, ev lm (Y_to_HLG E (Val x)) y /\ ev lm (HLG_to_Y E (Val y)) z.
Proof.
  cbv zeta. destruct (hl_4 lm) as [F V]. split; [exact F|]. split; [exact V|]. revert F V. generalize (@flit N 4%dec). intros x _ _.
  split; [eexists; apply otf_plain|]. eexists _, _. split; [apply (otf_plain x)|apply otf_plain].
Qed.
End G.
