(** * The colour temperature polynomials in binary32 (evaluated in double, rounded once). *)
From Coq Require Import ZArith QArith Qreals Reals Lra Lia List Bool.
From Flocq Require Import Core IEEE754.BinarySingleNaN.
From Verif Require Import Num NumR NumF MVec MTri RTac F32 F64 PHsvF PNearF PSlogF PMat PTri PCct PPoly PCt.
Import ListNotations.
Local Open Scope R_scope.
Lemma eta64_small : eta64 <= 1e-45.
Proof.
  apply Rle_trans with (bpow radix2 (-150)); [apply eta64_eta|]. change (bpow radix2 (-150)) with (/ IZR (2 ^ 150)).
  apply Rle_trans with (/ IZR (10 ^ 45)); [|right; rewrite <- (Rmult_1_l (/ _)); reflexivity].
  apply Rinv_le; [apply IZR_lt; reflexivity|]. apply IZR_le. apply Z.leb_le. vm_compute. reflexivity.
Qed.
Lemma eta_sharp : 0 < eta <= 1e-20 * u.
Proof.
  split; [apply F32.eta_pos|]. unfold eta, u. replace (bpow radix2 (-150)) with (bpow radix2 (-126) * bpow radix2 (-24)) by (rewrite <- bpow_plus; reflexivity).
  apply Rmult_le_compat_r; [apply bpow_ge_0|]. apply Rle_trans with (bpow radix2 (-67)); [apply bpow_le; lia|]. change (bpow radix2 (-67)) with (/ IZR (2 ^ 67)). 
  apply Rle_trans with (/ IZR (10 ^ 20)); [|right; rewrite <- (Rmult_1_l (/ _)); reflexivity].
  apply Rinv_le; [apply IZR_lt; reflexivity|]. apply IZR_le. apply Z.leb_le. vm_compute. reflexivity.
Qed.
Section F.
Context (lm : libm).
Notation N := (FN lm).
(** one step of Horner's scheme. *)
Lemma horner_step (T a c : f64) t r s e f A B : dnear T t 0 -> 0 <= t <= 13000 -> dnear a r e -> dnear c s f -> 0 <= e -> 0 <= f ->
  Rabs r <= A -> Rabs s + 13000 * A <= B -> B <= 1000 -> e <= 1 -> f <= 1 -> 13000 * e <= 1 ->
  dnear (@dadd N c (@dmul N T a)) (s + t * r) (f + 13000 * e + 4 * u64 * (B + f + 13000 * e) + 3 * eta64) /\ Rabs (s + t * r) <= B.
Proof.
  intros HT Ht Ha Hc e0 f0 HA HB B1 e1 f1 e2. pose proof u64_pos as U0. pose proof eta64_pos as E0. pose proof u64_val as U.
  assert (E1 : eta64 <= 1e-45) by apply eta64_small.
  assert (A0 : 0 <= A) by (pose proof (Rabs_pos r); lra). assert (S0 : 0 <= Rabs s) by apply Rabs_pos.
  assert (M : dnear (@dmul N T a) (t * r) (13000 * e + u64 * (13000 * (A + e)) + eta64)).
  { eapply dnear_le; [apply (dnear_mul lm T a t r 0 e 13000 A HT Ha)|]; [rewrite Rabs_pos_eq; lra|exact HA|lra|lra]. }
  assert (G : Rabs (t * r) <= 13000 * A) by (rewrite Rabs_mult, (Rabs_pos_eq t) by lra; apply Rmult_le_compat; auto using Rabs_pos; lra).
  assert (G2 : Rabs (s + t * r) <= B) by (eapply Rle_trans; [apply Rabs_triang|lra]).
  split; [|exact G2]. eapply dnear_le; [apply (dnear_add lm c _ s (t * r) f _ B Hc M G2)|].
  - rewrite U. lra.
  - rewrite U in *. lra.
Qed.

Lemma bbx_c0 : dnear (@dlit N 0.811973208%dec) 0.811973208 9.11e-17. Proof. dlit_near. Qed.
Lemma bbx_c1 : dnear (@dopp N (@dlit N 0.00016747%dec)) (- (0.00016747)) 1.88e-20. Proof. apply dnear_opp. dlit_near. Qed.
Lemma bbx_c2 : dnear (@dlit N 0.00000000331067%dec) 0.00000000331067 3.72e-25. Proof. dlit_near. Qed.
Lemma bbx_c3 : dnear (@dlit N 0.00000000000690001%dec) 0.00000000000690001 7.74e-28. Proof. dlit_near. Qed.
Lemma bbx_c4 : dnear (@dopp N (@dlit N 1.39671E-15%dec)) (- (1.39671e-15)) 1.57e-31. Proof. apply dnear_opp. dlit_near. Qed.
Lemma bbx_c5 : dnear (@dlit N 1.11951E-19%dec) 1.11951e-19 1.26e-35. Proof. dlit_near. Qed.
Lemma bbx_c6 : dnear (@dopp N (@dlit N 3.31672E-24%dec)) (- (3.31672e-24)) 3.72e-40. Proof. apply dnear_opp. dlit_near. Qed.
Lemma bbx_near (T : f32) : fin T -> 0 <= B2R T <= 13000 -> Rabs (bb_x (B2R T)) <= 0.82 -> near (blackbody_x_approx N T) (bb_x (B2R T)) (0.83 * u).
Proof.
  intros F H HB. pose proof u64_val as U. pose proof eta64_small as E1. pose proof eta64_pos as E0.
  assert (W : dnear (@widen N T) (B2R T) 0) by (apply dnear_widen, near_self, F). unfold blackbody_x_approx. set (t := B2R T) in *. set (T6 := @widen N T) in *. clearbody T6.
  assert (K6 : dnear (@dopp N (@dlit N 3.31672E-24%dec)) (- (3.31672e-24)) 3.72e-40 /\ Rabs (- (3.31672e-24)) <= 3.32e-24) by (split; [exact bbx_c6|apply Rabs_le; lra]).
  assert (K5 : dnear (@dadd N (@dlit N 1.11951E-19%dec) (@dmul N T6 (@dopp N (@dlit N 3.31672E-24%dec)))) (1.11951e-19 + t * (- (3.31672e-24))) 8.68e-35 /\ Rabs (1.11951e-19 + t * (- (3.31672e-24))) <= 1.56e-19).
  { destruct K6 as [K K']. destruct (horner_step T6 _ _ t _ _ _ 1.26e-35 3.32e-24 1.56e-19 W H K bbx_c5) as [J J']; try lra; [rewrite Rabs_pos_eq; lra|split; [eapply dnear_le; [exact J|rewrite U; lra]|exact J']]. }
  assert (K4 : dnear (@dadd N (@dopp N (@dlit N 1.39671E-15%dec)) (@dmul N T6 (@dadd N (@dlit N 1.11951E-19%dec) (@dmul N T6 (@dopp N (@dlit N 3.31672E-24%dec)))))) ((- (1.39671e-15)) + t * (1.11951e-19 + t * (- (3.31672e-24)))) 2.81e-30 /\ Rabs ((- (1.39671e-15)) + t * (1.11951e-19 + t * (- (3.31672e-24)))) <= 3.43e-15).
  { destruct K5 as [K K']. destruct (horner_step T6 _ _ t _ _ _ 1.57e-31 1.56e-19 3.43e-15 W H K bbx_c4) as [J J']; try lra; [rewrite Rabs_Ropp, Rabs_pos_eq; lra|split; [eapply dnear_le; [exact J|rewrite U; lra]|exact J']]. }
  assert (K3 : dnear (@dadd N (@dlit N 0.00000000000690001%dec) (@dmul N T6 (@dadd N (@dopp N (@dlit N 1.39671E-15%dec)) (@dmul N T6 (@dadd N (@dlit N 1.11951E-19%dec) (@dmul N T6 (@dopp N (@dlit N 3.31672E-24%dec)))))))) (0.00000000000690001 + t * ((- (1.39671e-15)) + t * (1.11951e-19 + t * (- (3.31672e-24))))) 6.02e-26 /\ Rabs (0.00000000000690001 + t * ((- (1.39671e-15)) + t * (1.11951e-19 + t * (- (3.31672e-24))))) <= 5.15e-11).
  { destruct K4 as [K K']. destruct (horner_step T6 _ _ t _ _ _ 7.74e-28 3.43e-15 5.15e-11 W H K bbx_c3) as [J J']; try lra; [rewrite Rabs_pos_eq; lra|split; [eapply dnear_le; [exact J|rewrite U; lra]|exact J']]. }
  assert (K2 : dnear (@dadd N (@dlit N 0.00000000331067%dec) (@dmul N T6 (@dadd N (@dlit N 0.00000000000690001%dec) (@dmul N T6 (@dadd N (@dopp N (@dlit N 1.39671E-15%dec)) (@dmul N T6 (@dadd N (@dlit N 1.11951E-19%dec) (@dmul N T6 (@dopp N (@dlit N 3.31672E-24%dec)))))))))) (0.00000000331067 + t * (0.00000000000690001 + t * ((- (1.39671e-15)) + t * (1.11951e-19 + t * (- (3.31672e-24)))))) 1.09e-21 /\ Rabs (0.00000000331067 + t * (0.00000000000690001 + t * ((- (1.39671e-15)) + t * (1.11951e-19 + t * (- (3.31672e-24)))))) <= 6.73e-7).
  { destruct K3 as [K K']. destruct (horner_step T6 _ _ t _ _ _ 3.72e-25 5.15e-11 6.73e-7 W H K bbx_c2) as [J J']; try lra; [rewrite Rabs_pos_eq; lra|split; [eapply dnear_le; [exact J|rewrite U; lra]|exact J']]. }
  assert (K1 : dnear (@dadd N (@dopp N (@dlit N 0.00016747%dec)) (@dmul N T6 (@dadd N (@dlit N 0.00000000331067%dec) (@dmul N T6 (@dadd N (@dlit N 0.00000000000690001%dec) (@dmul N T6 (@dadd N (@dopp N (@dlit N 1.39671E-15%dec)) (@dmul N T6 (@dadd N (@dlit N 1.11951E-19%dec) (@dmul N T6 (@dopp N (@dlit N 3.31672E-24%dec)))))))))))) ((- (0.00016747)) + t * (0.00000000331067 + t * (0.00000000000690001 + t * ((- (1.39671e-15)) + t * (1.11951e-19 + t * (- (3.31672e-24))))))) 1.82e-17 /\ Rabs ((- (0.00016747)) + t * (0.00000000331067 + t * (0.00000000000690001 + t * ((- (1.39671e-15)) + t * (1.11951e-19 + t * (- (3.31672e-24))))))) <= 8.92e-3).
  { destruct K2 as [K K']. destruct (horner_step T6 _ _ t _ _ _ 1.88e-20 6.73e-7 8.92e-3 W H K bbx_c1) as [J J']; try lra; [rewrite Rabs_Ropp, Rabs_pos_eq; lra|split; [eapply dnear_le; [exact J|rewrite U; lra]|exact J']]. }
  assert (K0 : dnear (@dadd N (@dlit N 0.811973208%dec) (@dmul N T6 (@dadd N (@dopp N (@dlit N 0.00016747%dec)) (@dmul N T6 (@dadd N (@dlit N 0.00000000331067%dec) (@dmul N T6 (@dadd N (@dlit N 0.00000000000690001%dec) (@dmul N T6 (@dadd N (@dopp N (@dlit N 1.39671E-15%dec)) (@dmul N T6 (@dadd N (@dlit N 1.11951E-19%dec) (@dmul N T6 (@dopp N (@dlit N 3.31672E-24%dec)))))))))))))) (0.811973208 + t * ((- (0.00016747)) + t * (0.00000000331067 + t * (0.00000000000690001 + t * ((- (1.39671e-15)) + t * (1.11951e-19 + t * (- (3.31672e-24)))))))) 2.89e-13 /\ Rabs (0.811973208 + t * ((- (0.00016747)) + t * (0.00000000331067 + t * (0.00000000000690001 + t * ((- (1.39671e-15)) + t * (1.11951e-19 + t * (- (3.31672e-24)))))))) <= 1.17e2).
  { destruct K1 as [K K']. destruct (horner_step T6 _ _ t _ _ _ 9.11e-17 8.92e-3 1.17e2 W H K bbx_c0) as [J J']; try lra; [rewrite Rabs_pos_eq; lra|split; [eapply dnear_le; [exact J|rewrite U; lra]|exact J']]. }
  destruct K0 as [K _]. pose proof u16 as U2. pose proof eta16 as E16.
  assert (R0 : (0.811973208 + t * ((- (0.00016747)) + t * (0.00000000331067 + t * (0.00000000000690001 + t * ((- (1.39671e-15)) + t * (1.11951e-19 + t * (- (3.31672e-24)))))))) = bb_x t) by (unfold bb_x; ring_simplify; lra). rewrite R0 in K.
  eapply near_le; [apply (near_narrow lm _ _ _ 0.82 K HB)|rewrite U2 in *; lra]. lra.
Qed.
Lemma bby_c0 : dnear (@dlit N 0.136977825%dec) 0.136977825 1.54e-17. Proof. dlit_near. Qed.
Lemma bby_c1 : dnear (@dlit N 0.000317653%dec) 0.000317653 3.57e-20. Proof. dlit_near. Qed.
Lemma bby_c2 : dnear (@dopp N (@dlit N 0.000000127946%dec)) (- (0.000000127946)) 1.44e-23. Proof. apply dnear_opp. dlit_near. Qed.
Lemma bby_c3 : dnear (@dlit N 0.0000000000222415%dec) 0.0000000000222415 2.50e-27. Proof. dlit_near. Qed.
Lemma bby_c4 : dnear (@dopp N (@dlit N 1.81438E-15%dec)) (- (1.81438e-15)) 2.04e-31. Proof. apply dnear_opp. dlit_near. Qed.
Lemma bby_c5 : dnear (@dlit N 5.67564E-20%dec) 5.67564e-20 6.37e-36. Proof. dlit_near. Qed.
Lemma bby_near (T : f32) : fin T -> 0 <= B2R T <= 13000 -> Rabs (bb_y (B2R T)) <= 0.9 -> near (blackbody_y_approx N T) (bb_y (B2R T)) (0.91 * u).
Proof.
  intros F H HB. pose proof u64_val as U. pose proof eta64_small as E1. pose proof eta64_pos as E0.
  assert (W : dnear (@widen N T) (B2R T) 0) by (apply dnear_widen, near_self, F). unfold blackbody_y_approx. set (t := B2R T) in *. set (T6 := @widen N T) in *. clearbody T6.
  assert (K5 : dnear (@dlit N 5.67564E-20%dec) 5.67564e-20 6.37e-36 /\ Rabs 5.67564e-20 <= 5.68e-20) by (split; [exact bby_c5|apply Rabs_le; lra]).
  assert (K4 : dnear (@dadd N (@dopp N (@dlit N 1.81438E-15%dec)) (@dmul N T6 (@dlit N 5.67564E-20%dec))) ((- (1.81438e-15)) + t * 5.67564e-20) 1.43e-30 /\ Rabs ((- (1.81438e-15)) + t * 5.67564e-20) <= 2.56e-15).
  { destruct K5 as [K K']. destruct (horner_step T6 _ _ t _ _ _ 2.04e-31 5.68e-20 2.56e-15 W H K bby_c4) as [J J']; try lra; [rewrite Rabs_Ropp, Rabs_pos_eq; lra|split; [eapply dnear_le; [exact J|rewrite U; lra]|exact J']]. }
  assert (K3 : dnear (@dadd N (@dlit N 0.0000000000222415%dec) (@dmul N T6 (@dadd N (@dopp N (@dlit N 1.81438E-15%dec)) (@dmul N T6 (@dlit N 5.67564E-20%dec))))) (0.0000000000222415 + t * ((- (1.81438e-15)) + t * 5.67564e-20)) 4.58e-26 /\ Rabs (0.0000000000222415 + t * ((- (1.81438e-15)) + t * 5.67564e-20)) <= 5.56e-11).
  { destruct K4 as [K K']. destruct (horner_step T6 _ _ t _ _ _ 2.50e-27 2.56e-15 5.56e-11 W H K bby_c3) as [J J']; try lra; [rewrite Rabs_pos_eq; lra|split; [eapply dnear_le; [exact J|rewrite U; lra]|exact J']]. }
  assert (K2 : dnear (@dadd N (@dopp N (@dlit N 0.000000127946%dec)) (@dmul N T6 (@dadd N (@dlit N 0.0000000000222415%dec) (@dmul N T6 (@dadd N (@dopp N (@dlit N 1.81438E-15%dec)) (@dmul N T6 (@dlit N 5.67564E-20%dec))))))) ((- (0.000000127946)) + t * (0.0000000000222415 + t * ((- (1.81438e-15)) + t * 5.67564e-20))) 9.88e-22 /\ Rabs ((- (0.000000127946)) + t * (0.0000000000222415 + t * ((- (1.81438e-15)) + t * 5.67564e-20))) <= 8.51e-7).
  { destruct K3 as [K K']. destruct (horner_step T6 _ _ t _ _ _ 1.44e-23 5.56e-11 8.51e-7 W H K bby_c2) as [J J']; try lra; [rewrite Rabs_Ropp, Rabs_pos_eq; lra|split; [eapply dnear_le; [exact J|rewrite U; lra]|exact J']]. }
  assert (K1 : dnear (@dadd N (@dlit N 0.000317653%dec) (@dmul N T6 (@dadd N (@dopp N (@dlit N 0.000000127946%dec)) (@dmul N T6 (@dadd N (@dlit N 0.0000000000222415%dec) (@dmul N T6 (@dadd N (@dopp N (@dlit N 1.81438E-15%dec)) (@dmul N T6 (@dlit N 5.67564E-20%dec))))))))) (0.000317653 + t * ((- (0.000000127946)) + t * (0.0000000000222415 + t * ((- (1.81438e-15)) + t * 5.67564e-20)))) 1.80e-17 /\ Rabs (0.000317653 + t * ((- (0.000000127946)) + t * (0.0000000000222415 + t * ((- (1.81438e-15)) + t * 5.67564e-20)))) <= 1.14e-2).
  { destruct K2 as [K K']. destruct (horner_step T6 _ _ t _ _ _ 3.57e-20 8.51e-7 1.14e-2 W H K bby_c1) as [J J']; try lra; [rewrite Rabs_pos_eq; lra|split; [eapply dnear_le; [exact J|rewrite U; lra]|exact J']]. }
  assert (K0 : dnear (@dadd N (@dlit N 0.136977825%dec) (@dmul N T6 (@dadd N (@dlit N 0.000317653%dec) (@dmul N T6 (@dadd N (@dopp N (@dlit N 0.000000127946%dec)) (@dmul N T6 (@dadd N (@dlit N 0.0000000000222415%dec) (@dmul N T6 (@dadd N (@dopp N (@dlit N 1.81438E-15%dec)) (@dmul N T6 (@dlit N 5.67564E-20%dec))))))))))) (0.136977825 + t * (0.000317653 + t * ((- (0.000000127946)) + t * (0.0000000000222415 + t * ((- (1.81438e-15)) + t * 5.67564e-20))))) 3.01e-13 /\ Rabs (0.136977825 + t * (0.000317653 + t * ((- (0.000000127946)) + t * (0.0000000000222415 + t * ((- (1.81438e-15)) + t * 5.67564e-20))))) <= 1.49e2).
  { destruct K1 as [K K']. destruct (horner_step T6 _ _ t _ _ _ 1.54e-17 1.14e-2 1.49e2 W H K bby_c0) as [J J']; try lra; [rewrite Rabs_pos_eq; lra|split; [eapply dnear_le; [exact J|rewrite U; lra]|exact J']]. }
  destruct K0 as [K _]. pose proof u16 as U2. pose proof eta16 as E16.
  assert (R0 : (0.136977825 + t * (0.000317653 + t * ((- (0.000000127946)) + t * (0.0000000000222415 + t * ((- (1.81438e-15)) + t * 5.67564e-20))))) = bb_y t) by (unfold bb_y; ring_simplify; lra). rewrite R0 in K.
  eapply near_le; [apply (near_narrow lm _ _ _ 0.9 K HB)|rewrite U2 in *; lra]. lra.
Qed.
Lemma bb_box T : 1100 <= T <= 13000 -> 0 <= bb_x T <= 0.65 /\ 0.29 <= bb_y T <= 0.9 /\ 0 <= 1 - bb_x T - bb_y T <= 0.43.
Proof.
  intros H. pose proof (bb_inside T H) as I. pose proof (bby_range T ltac:(lra)) as R0. rewrite bby_pe, bbx_pe in *.
  assert (0 < pe (padd [65000000000000000000000000000]%Z (pscale (-1) BX)) T) by ppos 12%nat 1100%Z 11900%Z.
  assert (0 < pe (padd BY [- 2900000000000000000000000]%Z) T) by ppos 14%nat 1100%Z 11900%Z.
  assert (0 < pe (padd (padd BX (pscale 10000 BY)) [- 57000000000000000000000000000]%Z) T) by ppos 12%nat 1100%Z 11900%Z.
  rewrite !pe_add, ?pe_scale, ?pe_add, ?pe_scale in *. cbn [pe] in *. lra.
Qed.
Lemma keps : near (@flit N 1e-8%dec) 1e-8 u. Proof. flit_near. Qed.
Lemma kone : near (@fofZ N 1) 1 0. Proof. apply (near_lit _ 1); [f32_val|]. rewrite Rminus_diag_eq, Rabs_R0 by reflexivity. lra. Qed.
Lemma abs_guard (y : f32) : fin y -> 0.01 <= B2R y -> @fltb N (abs_f N y) (@flit N 1e-8%dec) = false.
Proof.
  intros F H. pose proof u16 as U. destruct keps as [Fk Vk]. apply Rabs_le_inv in Vk. destruct (l0 lm) as [F0 V0]. unfold abs_f. rewrite (ltb_ok lm y) by assumption. rewrite V0, Rlt_bool_false by lra.
  rewrite ltb_ok by assumption. apply Rlt_bool_false. rewrite U in *. lra.
Qed.
(** chromaticities of known error, within the bounds of the previous lemma. *)
Lemma from_near (Y x y : f32) rx ry : fin Y -> 1e-6 <= B2R Y <= 1e6 -> near x rx (0.83 * u) -> near y ry (0.91 * u) ->
  0 <= rx <= 0.65 -> 0.29 <= ry <= 0.9 -> 0 <= 1 - rx - ry <= 0.43 ->
  near (X_from_Yxy N Y x y) (rx * B2R Y / ry) (14.8 * u * B2R Y) /\ near (Z_from_Yxy N Y x y) ((1 - rx - ry) * B2R Y / ry) (19 * u * B2R Y).
Proof.
  intros F H Hx Hy Rx Ry Rz. pose proof u16 as U. pose proof eta_sharp as E. pose proof F32.eta_pos as E0. set (w := B2R Y) in *.
  assert (G : @fltb N (abs_f N y) (@flit N 1e-8%dec) = false). { destruct Hy as [Fy Vy]. apply Rabs_le_inv in Vy. apply abs_guard; [exact Fy|]. rewrite U in *. lra. }
  assert (IV : forall k, 0 <= k -> 0 <= k * w / ry <= k * w / 0.29).
  { intros k K. assert (0 <= k * w) by nra. unfold Rdiv. assert (0 < / ry <= / 0.29) by (split; [apply Rinv_0_lt_compat; lra|apply Rinv_le; lra]). nra. }
  unfold X_from_Yxy, Z_from_Yxy. rewrite G. split.
  - pose proof (IV rx ltac:(lra)) as I.
    eapply near_le; [apply (near_div lm _ _ (rx * w) ry (1.49 * u * w) (0.91 * u) (0.65 / 0.29 * w) 0.29)|].
    + eapply near_le; [apply (near_mul lm _ _ rx w (0.83 * u) 0 0.65 w Hx)|].
      * apply near_self, F.
      * rewrite Rabs_pos_eq; lra.
      * rewrite Rabs_pos_eq; lra.
      * rewrite U; lra.
      * rewrite U in *; lra.
    + exact Hy.
    + rewrite Rabs_pos_eq; lra.
    + rewrite U; lra.
    + rewrite Rabs_pos_eq by lra. assert (rx * w <= 0.65 * w) by (apply Rmult_le_compat_r; lra). lra.
    + rewrite U; lra.
    + rewrite U in *; lra.
  - pose proof (IV (1 - rx - ry) ltac:(lra)) as I. unfold z_from_xy.
    eapply near_le; [apply (near_div lm _ _ ((1 - rx - ry) * w) ry (3.63 * u * w) (0.91 * u) (0.43 / 0.29 * w) 0.29)|].
    + eapply near_le; [apply (near_mul lm _ _ (1 - rx - ry) w (3.19 * u) 0 0.43 w)|].
      * eapply near_le; [apply (near_sub lm _ _ (1 - rx) ry (1.84 * u) (0.91 * u) 0.43)|].
        -- eapply near_le; [apply (near_sub lm _ _ 1 rx 0 (0.83 * u) 1 kone Hx)|].
           ++ rewrite Rabs_pos_eq; lra.
           ++ rewrite U; lra.
           ++ rewrite U in *; lra.
        -- exact Hy.
        -- rewrite Rabs_pos_eq; lra.
        -- rewrite U; lra.
        -- rewrite U in *; lra.
      * apply near_self, F.
      * rewrite Rabs_pos_eq; lra.
      * rewrite Rabs_pos_eq; lra.
      * rewrite U; lra.
      * rewrite U in *; lra.
    + exact Hy.
    + rewrite Rabs_pos_eq; lra.
    + rewrite U; lra.
    + rewrite Rabs_pos_eq by lra. assert ((1 - rx - ry) * w <= 0.43 * w) by (apply Rmult_le_compat_r; lra). lra.
    + rewrite U; lra.
    + rewrite U in *; lra.
Qed.
Lemma fromCT_near (T Y : f32) : fin T -> fin Y -> 1100 <= B2R T <= 13000 -> 1e-6 <= B2R Y <= 1e6 ->
  exists X' Z' X Z, fromCT N T Y = V3 X' Y Z' /\ fromCT RN (Some (B2R T)) (Some (B2R Y)) = finV (V3 X (B2R Y) Z) /\
    near X' X (14.8 * u * B2R Y) /\ near Z' Z (19 * u * B2R Y).
Proof.
  intros FT FY HT HY. destruct (bb_box _ HT) as (Bx & By & Bz).
  assert (Nx : near (blackbody_x_approx N T) (bb_x (B2R T)) (0.83 * u)) by (apply bbx_near; [exact FT|lra|rewrite Rabs_pos_eq; lra]).
  assert (Ny : near (blackbody_y_approx N T) (bb_y (B2R T)) (0.91 * u)) by (apply bby_near; [exact FT|lra|rewrite Rabs_pos_eq; lra]).
  destruct (from_near Y _ _ _ _ FY HY Nx Ny Bx By Bz) as [A B]. do 4 eexists. split; [reflexivity|]. split; [|split; [exact A|exact B]].
  rewrite fromCT_yxy, fromYxy_ok by (rewrite Rabs_pos_eq; unfold eps8; lra). reflexivity.
Qed.
End F.
