(** * Accuracy of the CIE 2000 difference in binary32: assembling the formula. *)
From Coq Require Import ZArith Reals Lra Lia List Bool Psatz.
From Flocq Require Import Core IEEE754.BinarySingleNaN.
From Verif Require Import Num NumR NumF MVec MTri MDelta F32 RTac RPow PHsvF PYxyF PLibm PPowF PNearF PNearF2 PRelF SpecDelta PE00 PE00b PHsvA PE00d PIvF PE00F PE00F2 PE00acc PE00acc2 PE00acc3 PE00acc4 PE00acc5 PE00acc6.
Local Open Scope R_scope.

Section F.
Context (lm : libm) (Acc : accurate lm) (Tr : accurate_trig lm).
Notation N := (FN lm).
Notation l_ := (@flit (FN lm)).
Ltac un := rewrite u16 in *; pose proof eta16 as Et; rewrite u16 in Et.

Lemma slR_le l : 0 <= l <= 100 -> slR l <= 40.
Proof.
  intros H. unfold slR. assert (Q : 0 <= (l - 50) ^ 2 <= 2500) by (split; [apply pow2_ge_0|assert (0 <= l * (100 - l)) by nra; lra]). assert (S : 1 <= sqrt (20 + (l - 50) ^ 2)) by (rewrite <- sqrt_1 at 1; apply sqrt_le_1_alt; lra).
  set (q := (l - 50) ^ 2) in *. clearbody q. set (s := sqrt _) in *. clearbody s. assert (I : 0 < / s <= 1). { split; [apply Rinv_0_lt_compat; lra|]. rewrite <- Rinv_1. apply Rinv_le_contravar; lra. }
  unfold Rdiv. nra.
Qed.
Lemma near_lbar l1 l2 : fin l1 -> fin l2 -> 0 <= B2R l1 <= 100 -> 0 <= B2R l2 <= 100 -> near (@fdiv N (@fadd N l1 l2) (l_ 2%dec)) ((B2R l1 + B2R l2) / 2) (210 * u).
Proof.
  intros F1 F2 H1 H2. assert (S := near_add lm _ _ _ _ _ _ 200 (near_self _ F1) (near_self _ F2) ltac:(apply Rabs_le; lra) ltac:(lra)).
  eapply near_le; [apply (near_half lm _ _ _ 200 S)|]; [apply Rabs_le; lra|un; lra|un; lra].
Qed.
Lemma near_dl l1 l2 : fin l1 -> fin l2 -> 0 <= B2R l1 <= 100 -> 0 <= B2R l2 <= 100 ->
  let r := (B2R l2 - B2R l1) / (1 * slR ((B2R l1 + B2R l2) / 2)) in
  near (@fdiv N (@fsub N l2 l1) (@fmul N (l_ 1%dec) (e00_Sl N (@fdiv N (@fadd N l1 l2) (l_ 2%dec))))) r (110 * u + 1230 * u * Rabs r).
Proof.
  intros F1 F2 H1 H2 r. pose proof (slR_ge ((B2R l1 + B2R l2) / 2)) as G. pose proof (slR_le ((B2R l1 + B2R l2) / 2) ltac:(lra)) as L.
  assert (S := rel_Sl lm _ _ (near_lbar l1 l2 F1 F2 H1 H2) ltac:(lra)).
  assert (S1 := rel_one lm _ _ _ S ltac:(lra) ltac:(un; lra)).
  assert (D := near_sub lm _ _ _ _ _ _ 100 (near_self _ F2) (near_self _ F1) ltac:(apply Rabs_le; lra) ltac:(lra)).
  assert (A : Rabs (B2R l2 - B2R l1) <= 100) by (apply Rabs_le; lra).
  eapply near_le; [apply (near_div_rel lm _ _ _ _ _ _ D S1)|]; [lra|un; lra|lra|un; lra|]. fold r. pose proof (Rabs_pos r). un. lra.
Qed.

Section C.
Context (c1 c2 : f32) (C1 C2 : R) (K1' : rel c1 C1 (26.5 * u)) (K2' : rel c2 C2 (26.5 * u)) (B1 : / 8 <= C1 <= 231) (B2 : / 8 <= C2 <= 231).
Notation cb := (@fdiv N (@fadd N c1 c2) (l_ 2%dec)).
Notation CB := ((C1 + C2) / 2).
Let K1 : rel c1 C1 (27 * u). Proof. eapply rel_le; [exact K1'|un; lra]. Qed.
Let K2 : rel c2 C2 (27 * u). Proof. eapply rel_le; [exact K2'|un; lra]. Qed.
Lemma rel_cb : rel cb CB (29 * u).
Proof. eapply rel_le; [apply (rel_mean lm _ _ _ _ _ K1' K2')|]; [lra|lra|un; lra|un; lra]. Qed.
Lemma near_dC : near (@fsub N c2 c1) (C2 - C1) (12710 * u).
Proof.
  assert (A1 := rel_near _ _ _ K1). assert (A2 := rel_near _ _ _ K2). apply near_le with (e' := 27 * u * 231) in A1; [|un; lra]. apply near_le with (e' := 27 * u * 231) in A2; [|un; lra].
  eapply near_le; [apply (near_sub lm _ _ _ _ _ _ 231 A2 A1)|]; [apply Rabs_le; lra|un; lra|un; lra].
Qed.
Notation fSc := (@fmul N (l_ 1%dec) (@fadd N (l_ 1%dec) (@fmul N (l_ 0.045%dec) cb))).
Lemma rel_wc : rel fSc (1 * (1 + 0.045 * CB)) (36 * u).
Proof.
  assert (S := rel_Sc lm _ _ rel_cb ltac:(lra)). eapply rel_le; [apply (rel_one lm _ _ _ S)|]; [lra|un; lra|un; lra].
Qed.
Lemma near_dc : let r := (C2 - C1) / (1 * (1 + 0.045 * CB)) in near (@fdiv N (@fsub N c2 c1) fSc) r (13000 * u + 40 * u * Rabs r).
Proof.
  intros r. assert (A : Rabs (C2 - C1) <= 231) by (apply Rabs_le; lra).
  eapply near_le; [apply (near_div_rel lm _ _ _ _ _ _ near_dC rel_wc)|]; [lra|un; lra|lra|un; lra|]. fold r. pose proof (Rabs_pos r). un. lra.
Qed.
(** either both chromas are small, or the computed chroma term is zero or not tiny. *)
Lemma dc_gap : CB <= 17 \/ B2R (@fdiv N (@fsub N c2 c1) fSc) = 0 \/ bpow radix2 (-39) <= Rabs (B2R (@fdiv N (@fsub N c2 c1) fSc)).
Proof.
  destruct K1 as (F1 & P1 & E1). destruct K2 as (F2 & P2 & E2). apply Rabs_le_inv in E1. apply Rabs_le_inv in E2.
  assert (X1 : / 16 <= B2R c1 <= 240) by (un; lra). assert (X2 : / 16 <= B2R c2 <= 240) by (un; lra).
  destruct (Rle_or_lt 16 (B2R c1)) as [H|H]; [|destruct (Rle_or_lt 16 (B2R c2)) as [H'|H']].
  3:{ left. un. lra. }
  all: right.
  all: destruct (rel_wc) as (FS & PS & ES); apply Rabs_le_inv in ES; assert (XS : 1 / 2 <= B2R fSc <= 16) by (un; lra).
  all: assert (B240 : 1024 <= bpow radix2 127) by (change 1024 with (bpow radix2 10); apply bpow_le; lia).
  all: destruct (sub_ok lm c2 c1 F2 F1) as [FD VD]; [apply Rle_trans with (2 := B240); apply Rabs_le; lra|].
  all: assert (XD : Rabs (B2R (@fsub N c2 c1)) <= 256) by (rewrite VD; apply rnd_abs_le; [change 256 with (bpow radix2 8); apply fmt_bpow; lia|apply Rabs_le; lra]).
  all: destruct (div_ok lm (@fsub N c2 c1) fSc FD) as [FQ VQ]; [apply Rgt_not_eq; lra| |rewrite VQ].
  1,3: apply Rle_trans with (2 := B240); unfold Rdiv; rewrite Rabs_mult, (Rabs_pos_eq (/ _)) by (left; apply Rinv_0_lt_compat; lra);
    (assert (/ B2R fSc <= 2) by (apply Rmult_le_reg_l with (B2R fSc); [lra|]; rewrite Rinv_r by lra; lra)); assert (0 < / B2R fSc) by (apply Rinv_0_lt_compat; lra); pose proof (Rabs_pos (B2R (@fsub N c2 c1))); nra.
  all: destruct (gap (B2R c1) (B2R c2) (fmt_B2R _) (fmt_B2R _) ltac:(lra) ltac:(lra) ltac:(first [left; lra|right; lra])) as [Z|Z];
        [left; rewrite VD, Z; replace (B2R c2 - B2R c2) with 0 by ring; rewrite rnd_0; unfold Rdiv; rewrite Rmult_0_l; apply rnd_0|right].
  all: rewrite VD, <- round_NE_abs by typeclasses eauto; unfold Rdiv; rewrite Rabs_mult, <- round_NE_abs by typeclasses eauto;
      apply rnd_ge_fmt; [apply fmt_bpow; lia|]; rewrite (Rabs_pos_eq (/ _)) by (left; apply Rinv_0_lt_compat; lra);
      apply Rle_trans with (bpow radix2 (-20) * / 16);
      [change (/ 16) with (bpow radix2 (-4)); rewrite <- bpow_plus; apply bpow_le; lia
      |apply Rmult_le_compat; [apply bpow_ge_0|lra|apply rnd_ge_fmt; [apply fmt_bpow; lia|exact Z]|apply Rinv_le_contravar; lra]].
Qed.

Context (h1 h2 : f32) (H1 H2 : R) (E1 : near h1 H1 (2800 * u)) (E2 : near h2 H2 (2800 * u)) (R1 : 0 <= H1 < 360) (R2 : 0 <= H2 < 360) (Fr : far H1 H2).
Notation fdH := (@fmul N (@fmul N (l_ 2%dec) (@fsqrt N (@fmul N c1 c2))) (@fsin N (@fdiv N (@fmul N (@fpi N) (e00_deltah N h1 h2)) (@fmul N (l_ 180%dec) (l_ 2%dec))))).
Notation fSh := (@fmul N (l_ 1%dec) (@fadd N (l_ 1%dec) (@fmul N (@fmul N (l_ 0.015%dec) cb) (e00_T N (e00_HdBar N h1 h2))))).
Lemma near_dh : let r := 2 * sqrt (C1 * C2) * sind (dhue H1 H2 / 2) / (1 * (1 + 0.015 * CB * TR (hbar H1 H2))) in
  near (@fdiv N fdH fSh) r (45000 * u + 1350 * u * Rabs r) /\ Rabs r <= 462.
Proof.
  intros r. assert (Nh := near_dH lm Tr _ _ _ _ _ _ K1 K2 B1 B2 (near_dhue lm _ _ _ _ E1 E2 R1 R2 Fr) (dhue_range _ _ R1 R2)).
  pose proof (hbar_range H1 H2 R1 R2) as HR. assert (Nb := near_hbar lm _ _ _ _ E1 E2 R1 R2 Fr). assert (Nt := near_T lm Tr _ _ Nb HR). pose proof (TR_range (hbar H1 H2)) as TT.
  set (T := TR (hbar H1 H2)) in *. assert (CT : 0 <= CB * T <= 450) by nra.
  assert (S := rel_Sh lm _ _ _ _ rel_cb ltac:(lra) Nt TT). assert (SW : 1 <= 1 + 0.015 * CB * T <= 1000) by lra.
  assert (S1 := rel_one lm _ _ _ S ltac:(lra) ltac:(un; lra)).
  assert (A : Rabs (2 * sqrt (C1 * C2) * sind (dhue H1 H2 / 2)) <= 462).
  { pose proof (SIN_bound (dhue H1 H2 / 2 * PI / 180)) as SB. fold (sind (dhue H1 H2 / 2)) in SB. pose proof (sqrt_pos (C1 * C2)). assert (sqrt (C1 * C2) <= 231). { rewrite <- (sqrt_square 231) by lra. apply sqrt_le_1_alt. nra. }
    apply Rabs_le. split; nra. }
  split.
  - eapply near_le; [apply (near_div_rel lm _ _ _ _ _ _ Nh S1)|]; [lra|un; lra|lra|un; lra|]. fold r. pose proof (Rabs_pos r). un. lra.
  - unfold r. unfold Rdiv. rewrite Rabs_mult. assert (0 < / (1 * (1 + 0.015 * CB * T)) <= 1). { split; [apply Rinv_0_lt_compat; lra|]. apply Rle_trans with (/ 1); [apply Rinv_le_contravar; lra|lra]. }
    rewrite (Rabs_pos_eq (/ _)) by lra. pose proof (Rabs_pos (2 * sqrt (C1 * C2) * sind (dhue H1 H2 / 2))). nra.
Qed.
Lemma near_R : near (e00_Rt N (e00_HdBar N h1 h2) cb) (rtR (hbar H1 H2) CB) (9600 * u).
Proof.
  apply near_Rt; try assumption; [apply (near_hbar lm); assumption|apply hbar_range; assumption|apply rel_cb|lra].
Qed.
Context (l1 l2 : f32) (G1 : fin l1) (G2 : fin l2) (L1 : 0 <= B2R l1 <= 100) (L2 : 0 <= B2R l2 <= 100).
Notation fdl := (@fdiv N (@fsub N l2 l1) (@fmul N (l_ 1%dec) (e00_Sl N (@fdiv N (@fadd N l1 l2) (l_ 2%dec))))).
Lemma tail_close : 
  let x := (B2R l2 - B2R l1) / (1 * slR ((B2R l1 + B2R l2) / 2)) in
  let y := (C2 - C1) / (1 * (1 + 0.045 * CB)) in
  let z := 2 * sqrt (C1 * C2) * sind (dhue H1 H2 / 2) / (1 * (1 + 0.015 * CB * TR (hbar H1 H2))) in
  let d := sqrt (x ^ 2 + y ^ 2 + z ^ 2 + rtR (hbar H1 H2) CB * y * z) in
  near (@fsqrt N (rad lm fdl (@fdiv N (@fsub N c2 c1) fSc) (@fdiv N fdH fSh) (e00_Rt N (e00_HdBar N h1 h2) cb))) d (0.0036 + 0.0015 * d).
Proof.
  intros x y z d. destruct (near_dl l1 l2 G1 G2 L1 L2) as [FX NX]. fold x in NX. destruct near_dc as [FY NY]. fold y in NY. destruct near_dh as [[FZ NZ] ZB]. fold z in NZ, ZB. destruct near_R as [FR NR].
  assert (RS := rt_sq (hbar H1 H2) CB ltac:(lra)). pose proof dc_gap as GP.
  assert (RM : CB <= 17 -> Rabs (rtR (hbar H1 H2) CB) <= 2 / 3) by (intros; apply rt_small; lra).
  set (X := fdl) in *. set (Y := @fdiv N (@fsub N c2 c1) fSc) in *. set (Z := @fdiv N fdH fSh) in *. set (r := e00_Rt N _ _) in *. set (rr := rtR (hbar H1 H2) CB) in *.
  assert (XB : Rabs x <= 100).
  { unfold x. unfold Rdiv. rewrite Rabs_mult. pose proof (slR_ge ((B2R l1 + B2R l2) / 2)). set (s := slR _) in *. assert (0 < / (1 * s) <= 1). { split; [apply Rinv_0_lt_compat; lra|]. apply Rle_trans with (/ 1); [apply Rinv_le_contravar; lra|lra]. }
    rewrite (Rabs_pos_eq (/ _)) by lra. assert (Rabs (B2R l2 - B2R l1) <= 100) by (apply Rabs_le; lra). pose proof (Rabs_pos (B2R l2 - B2R l1)). nra. }
  assert (YB : Rabs y <= 231).
  { unfold y. unfold Rdiv. rewrite Rabs_mult. set (s := 1 + 0.045 * _). assert (1 <= s) by (unfold s; lra). assert (0 < / (1 * s) <= 1). { split; [apply Rinv_0_lt_compat; lra|]. apply Rle_trans with (/ 1); [apply Rinv_le_contravar; lra|lra]. }
    rewrite (Rabs_pos_eq (/ _)) by lra. assert (Rabs (C2 - C1) <= 231) by (apply Rabs_le; lra). pose proof (Rabs_pos (C2 - C1)). nra. }
  assert (AB : forall a b e, Rabs (a - b) <= e -> Rabs a <= Rabs b + e). { intros a b e H. replace a with (b + (a - b)) by ring. eapply Rle_trans; [apply Rabs_triang|]. lra. }
  assert (XF : Rabs (B2R X) <= 1000) by (apply AB in NX; un; lra). assert (YF : Rabs (B2R Y) <= 1000) by (apply AB in NY; un; lra). assert (ZF : Rabs (B2R Z) <= 1000) by (apply AB in NZ; un; lra).
  assert (rB : Rabs rr <= 1.7321) by (apply Rabs_le; split; nra). assert (RF : Rabs (B2R r) <= 7 / 4) by (apply AB in NR; un; lra).
  assert (B30 : 1000 <= bpow radix2 30) by (apply Rle_trans with (bpow radix2 10); [change (bpow radix2 10) with 1024; lra|apply bpow_le; lia]).
  destruct (rad_val lm X Y Z r FX FY FZ FR) as [FF VV]; [lra|lra|lra|change (bpow radix2 1) with 2; lra|].
  assert (NN : 0 <= radv (B2R X) (B2R Y) (B2R Z) (B2R r)).
  { apply radv_nonneg; [apply fmt_B2R|apply fmt_B2R|exact RF|]. destruct GP as [GP|GP]; [left; specialize (RM GP); apply AB in NR; un; lra|right; exact GP]. }
  destruct (sqrt_ok lm (rad lm X Y Z r) FF ltac:(rewrite VV; exact NN)) as [FQ VQ]. split; [exact FQ|]. rewrite VQ, VV. apply form_close; assumption.
Qed.
End C.

(** ** The two colours *)
Definition lab_plain (p : Vector3 f32) : Prop :=
  (fin (v0 p) /\ fin (v1 p) /\ fin (v2 p)) /\ 0 <= B2R (v0 p) <= 100 /\ Rabs (B2R (v1 p)) <= 128 /\ Rabs (B2R (v2 p)) <= 128 /\
  (B2R (v1 p) = 0 \/ bpow radix2 (-60) <= Rabs (B2R (v1 p))) /\ B2R (v2 p) <> 0 /\ / 64 <= B2R (v1 p) ^ 2 + B2R (v2 p) ^ 2 /\
  (B2R (v1 p) < 0 \/ / 8 <= Rabs (B2R (v2 p))).
Lemma sq128 a : Rabs a <= 128 -> 0 <= a ^ 2 <= 16384.
Proof. intros H. apply Rabs_le_inv in H. split; [apply pow2_ge_0|nra]. Qed.
Lemma sqrt_8 t : / 64 <= t -> t <= 53361 -> / 8 <= sqrt t <= 231.
Proof.
  intros A B. split; [rewrite <- (sqrt_square (/ 8)) by lra|rewrite <- (sqrt_square 231) by lra]; apply sqrt_le_1_alt; lra.
Qed.
Lemma plain_c p : lab_plain p -> let c := sqrt (B2R (v1 p) ^ 2 + B2R (v2 p) ^ 2) in
  rel (@fsqrt N (@fadd N (@fmul N (v1 p) (v1 p)) (@fmul N (v2 p) (v2 p)))) c (2.2 * u) /\ / 8 <= c <= 231.
Proof.
  intros ((F0 & F1 & F2) & _ & A & B & _ & _ & S & _) c. pose proof (sq128 _ A). pose proof (sq128 _ B). split; [|apply sqrt_8; lra].
  eapply rel_le; [apply (chroma lm _ _ _ _ 0)|]; try eassumption; try reflexivity; try lra; [|pose proof u16; un; lra]. rewrite Rmult_0_l. now apply near_self.
Qed.
Lemma near_1G c r : rel c r (4.22 * u) -> / 8 <= r <= 231 -> near (@fadd N (l_ 1%dec) (e00_G N c)) (1 + gR r) (21.7 * u).
Proof.
  intros H R. assert (G := near_G lm Acc _ _ _ H ltac:(lra) ltac:(un; lra)). pose proof (gR_range r ltac:(lra)).
  eapply near_le; [apply (near_add lm _ _ _ _ _ _ 1.5 (near_v _ _ (l1 lm)) G)|]; [apply Rabs_le; lra|un; lra|un; lra].
Qed.
Lemma near_ad a g1 g : fin a -> Rabs (B2R a) <= 128 -> B2R a = 0 \/ bpow radix2 (-60) <= Rabs (B2R a) -> near g1 (1 + g) (21.7 * u) -> 0 <= g <= 1 / 2 ->
  near (@fmul N a g1) ((1 + g) * B2R a) (23.5 * u * Rabs ((1 + g) * B2R a)).
Proof.
  intros F A Z [Fg G] Hg. apply Rabs_le_inv in G as G'. assert (XG : 0.9 <= B2R g1 <= 1.6) by (un; lra).
  assert (PB : Rabs (B2R a * B2R g1) <= 256). { rewrite Rabs_mult, (Rabs_pos_eq (B2R g1)) by lra. pose proof (Rabs_pos (B2R a)). nra. }
  destruct (mul_ok lm a g1 F Fg) as [FM VM]. { apply Rle_trans with (1 := PB). change 256 with (bpow radix2 8). apply bpow_le; lia. }
  split; [exact FM|]. rewrite VM. destruct Z as [Z|Z]; [rewrite Z, Rmult_0_l, Rmult_0_r, rnd_0, Rminus_0_r, Rabs_R0; lra|].
  pose proof (rnd_err_abs (B2R a * B2R g1)) as E. rewrite Rabs_mult, (Rabs_pos_eq (B2R g1)) in E by lra.
  rewrite (Rabs_mult (1 + g)), (Rabs_pos_eq (1 + g)) by lra.
  assert (D : Rabs (B2R a * B2R g1 - (1 + g) * B2R a) <= 21.7 * u * Rabs (B2R a)). { replace (B2R a * B2R g1 - (1 + g) * B2R a) with ((B2R g1 - (1 + g)) * B2R a) by ring. rewrite Rabs_mult. apply Rmult_le_compat_r; [apply Rabs_pos|exact G]. }
  replace (rnd (B2R a * B2R g1) - (1 + g) * B2R a) with ((rnd (B2R a * B2R g1) - B2R a * B2R g1) + (B2R a * B2R g1 - (1 + g) * B2R a)) by ring.
  eapply Rle_trans; [apply Rabs_triang|].
  assert (ET : eta <= / 10 * u * Rabs (B2R a)). { assert (W : eta <= bpow radix2 (-10) * bpow radix2 (-24) * bpow radix2 (-60)) by (rewrite <- !bpow_plus; apply bpow_le; lia). change (bpow radix2 (-24)) with u in W. change (bpow radix2 (-10)) with (/ 1024) in W. pose proof F32.u_pos. assert (u * bpow radix2 (-60) <= u * Rabs (B2R a)) by (apply Rmult_le_compat_l; lra). assert (0 <= u * Rabs (B2R a)) by (apply Rmult_le_pos; [lra|apply Rabs_pos]). lra. }
  pose proof (Rabs_pos (B2R a)) as A0. assert (AG : Rabs (B2R a) * B2R g1 <= Rabs (B2R a) * (1 + g + 0.001)) by (apply Rmult_le_compat_l; [exact A0|un; lra]).
  assert (0 <= g * Rabs (B2R a)) by nra. un. lra.
Qed.
Definition hues_apart (p q : Vector3 f32) : Prop :=
  0 < B2R (v2 p) * B2R (v2 q) \/ 1 <= Rabs (B2R (v1 p) * B2R (v2 q) - B2R (v1 q) * B2R (v2 p)).
Lemma m_l g x : 0 <= g <= 1 / 2 -> 0 <= x ^ 2 <= 16384 -> x ^ 2 <= ((1 + g) * x) ^ 2 <= 36864.
Proof. intros G H. replace (((1 + g) * x) ^ 2) with ((1 + g) ^ 2 * x ^ 2) by ring. assert (1 <= (1 + g) ^ 2 <= 2.25) by nra. split; nra. Qed.
Lemma aa_l g x : 0 <= g <= 1 / 2 -> Rabs x <= 128 -> Rabs ((1 + g) * x) <= 1000.
Proof. intros G H. rewrite Rabs_mult, (Rabs_pos_eq (1 + g)) by lra. pose proof (Rabs_pos x). nra. Qed.
Lemma sg_l g x : 0 <= g <= 1 / 2 -> x < 0 -> (1 + g) * x < 0. Proof. intros; nra. Qed.
Lemma prod_l a b : / 8 <= a <= 231 -> / 8 <= b <= 231 -> a * b <= 54000. Proof. intros; nra. Qed.
Lemma ge_l g a : 0 <= g <= 1 / 2 -> 1 <= a -> 1 <= (1 + g) * a. Proof. intros; nra. Qed.
Lemma E00_close p q : lab_plain p -> lab_plain q -> hues_apart p q ->
  exists d, Delta_E00 RN (finV (tR p)) (finV (tR q)) (Some 1) (Some 1) (Some 1) = Some d /\
    near (Delta_E00 N p q (l_ 1%dec) (l_ 1%dec) (l_ 1%dec)) d (0.0036 + 0.0015 * d).
Proof.
  intros Hp Hq Hh. eexists. split; [apply E00_fin; lra|].
  destruct (plain_c p Hp) as [c1R c1B]. destruct (plain_c q Hq) as [c2R c2B].
  destruct Hp as ((F0 & F1 & F2) & L1 & A1 & B1 & Z1 & N1 & S1 & W1). destruct Hq as ((G0 & G1 & G2) & L2 & A2 & B2 & Z2 & N2 & S2 & W2).
  unfold Delta_E00. cbv zeta. change (vref (p) 0) with (v0 p). change (vref p 1) with (v1 p). change (vref p 2) with (v2 p). change (vref q 0) with (v0 q). change (vref q 1) with (v1 q). change (vref q 2) with (v2 q).
  set (c1 := @fsqrt N (@fadd N (@fmul N (v1 p) (v1 p)) (@fmul N (v2 p) (v2 p)))) in *. set (c2 := @fsqrt N (@fadd N (@fmul N (v1 q) (v1 q)) (@fmul N (v2 q) (v2 q)))) in *.
  unfold core, code_hm, code_dh. cbv zeta. unfold tR. cbn [v0 v1 v2].
  set (rc1 := sqrt (B2R (v1 p) ^ 2 + B2R (v2 p) ^ 2)) in *. set (rc2 := sqrt (B2R (v1 q) ^ 2 + B2R (v2 q) ^ 2)) in *.
  assert (Cb : rel (@fdiv N (@fadd N c1 c2) (l_ 2%dec)) ((rc1 + rc2) / 2) (4.22 * u)) by (eapply rel_le; [apply (rel_mean lm _ _ _ _ _ c1R c2R)|]; [lra|lra|un; lra|un; lra]).
  assert (G := near_1G _ _ Cb ltac:(lra)). pose proof (gR_range ((rc1 + rc2) / 2) ltac:(lra)) as gB.
  set (g1 := @fadd N (l_ 1%dec) (e00_G N _)) in *. set (g := gR _) in *. clearbody g1 g. clear Cb c1R c2R. clearbody c1 c2. clear c1 c2.
  assert (D1 := near_ad _ _ _ F1 A1 Z1 G ltac:(lra)). assert (D2 := near_ad _ _ _ G1 A2 Z2 G ltac:(lra)).
  set (ad1 := @fmul N (v1 p) g1) in *. set (ad2 := @fmul N (v1 q) g1) in *. clearbody ad1 ad2.
  pose proof (sq128 _ A1) as Q1. pose proof (sq128 _ A2) as Q2. pose proof (sq128 _ B1) as Q3. pose proof (sq128 _ B2) as Q4.
  set (x1 := B2R (v1 p)) in *. set (x2 := B2R (v1 q)) in *. set (y1 := B2R (v2 p)) in *. set (y2 := B2R (v2 q)) in *.
  assert (gB' : 0 <= g <= 1 / 2) by lra.
  pose proof (m_l g _ gB' Q1) as M1. pose proof (m_l g _ gB' Q2) as M2. pose proof (aa_l g _ gB' A1) as AA1. pose proof (aa_l g _ gB' A2) as AA2. pose proof (sg_l g x1 gB') as SG1. pose proof (sg_l g x2 gB') as SG2.
  assert (CR : (1 + g) * x1 * y2 - (1 + g) * x2 * y1 = (1 + g) * (x1 * y2 - x2 * y1)) by ring.
  set (X1 := (1 + g) * x1) in *. set (X2 := (1 + g) * x2) in *.
  assert (K1 : rel (@fsqrt N (@fadd N (@fmul N ad1 ad1) (@fmul N (v2 p) (v2 p)))) (sqrt (X1 ^ 2 + y1 ^ 2)) (26.5 * u)).
  { eapply rel_le; [apply (chroma lm _ _ _ _ _ D1 F2)|]; try reflexivity; try lra; [un; lra|un; lra]. }
  assert (K2 : rel (@fsqrt N (@fadd N (@fmul N ad2 ad2) (@fmul N (v2 q) (v2 q)))) (sqrt (X2 ^ 2 + y2 ^ 2)) (26.5 * u)).
  { eapply rel_le; [apply (chroma lm _ _ _ _ _ D2 G2)|]; try reflexivity; try lra; [un; lra|un; lra]. }
  assert (E1 : / 8 <= sqrt (X1 ^ 2 + y1 ^ 2) <= 231) by (apply sqrt_8; lra). assert (E2 : / 8 <= sqrt (X2 ^ 2 + y2 ^ 2) <= 231) by (apply sqrt_8; lra).
  assert (T : forall a b, sqrt (a * a + b * b) = sqrt (a ^ 2 + b ^ 2)) by (intros; f_equal; ring).
  assert (J1 : / 1000 <= Rabs (deg y1 X1)). { apply deg_big; [exact N1|rewrite T; lra|]. destruct W1; [left; auto|right; assumption]. }
  assert (J2 : / 1000 <= Rabs (deg y2 X2)). { apply deg_big; [exact N2|rewrite T; lra|]. destruct W2; [left; auto|right; assumption]. }
  assert (Fr : far (cie_hue X1 y1) (cie_hue X2 y2)).
  { destruct Hh as [Hh|Hh]; [apply far_same; assumption|]. apply far_cross; [rewrite !T; now apply prod_l|]. rewrite CR, Rabs_mult, (Rabs_pos_eq (1 + g)) by lra. now apply ge_l. }
  assert (H1 := near_hue lm Tr _ _ _ _ _ D1 F2 eq_refl N1 ltac:(un; lra) J1). assert (H2 := near_hue lm Tr _ _ _ _ _ D2 G2 eq_refl N2 ltac:(un; lra) J2).
  exact (tail_close _ _ _ _ K1 K2 E1 E2 _ _ _ _ H1 H2 (cie_hue_range _ _) (cie_hue_range _ _) Fr _ _ F0 G0 L1 L2).
Qed.
End F.
