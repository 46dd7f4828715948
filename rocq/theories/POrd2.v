(** * Transfer functions in binary32: order of values. *)
From Coq Require Import ZArith QArith Qreals Reals Lra Lia List Bool.
From Flocq Require Import Core IEEE754.BinarySingleNaN.
From Verif Require Import Num NumF MVec MTri MOtf F32 F64 RPow RExp PHsvF PLibm PNearF POtf POtf2 POtfF POtfF2 PCodes POrd.
Local Open Scope R_scope.

(** ** Powers of rationals between rationals. *)
Definition pow_lo_b (a e q c : Q) (k n k' n' : nat) : bool := exp_hi_b q a k n && Qle_bool 0 e && exp_lo_b (Qred (e * q)) c k' n'.
Definition pow_hi_b (a e q c : Q) (k n k' n' : nat) : bool := exp_lo_b q a k n && Qle_bool 0 e && exp_hi_b (Qred (e * q)) c k' n'.
Lemma Q2R_0 : Q2R 0 = 0. Proof. unfold Q2R; cbn; lra. Qed.
Lemma pow_lo a e q c k n k' n' : pow_lo_b a e q c k n k' n' = true -> 0 < Q2R a -> Q2R c <= Rpower (Q2R a) (Q2R e).
Proof.
  unfold pow_lo_b. rewrite !andb_true_iff. intros [[A B] C] P. apply ln_ge_neg in A; [|exact P]. apply exp_lo in C. rewrite Q2R_red, Q2R_mult in C.
  apply Qle_bool_iff, Qle_Rle in B. rewrite Q2R_0 in B. apply Rle_trans with (1 := C). unfold Rpower. apply exp_le. nra.
Qed.
Lemma pow_hi a e q c k n k' n' : pow_hi_b a e q c k n k' n' = true -> 0 < Q2R a -> Rpower (Q2R a) (Q2R e) <= Q2R c.
Proof.
  unfold pow_hi_b. rewrite !andb_true_iff. intros [[A B] C] P. apply ln_le_neg in A; [|exact P]. apply exp_hi in C. rewrite Q2R_red, Q2R_mult in C.
  apply Qle_bool_iff, Qle_Rle in B. rewrite Q2R_0 in B. apply Rle_trans with (2 := C). unfold Rpower. apply exp_le. nra.
Qed.
Ltac q2r := unfold Q2R; cbn; lra.

Section F.
Context (lm : libm).
Notation N := (FN lm).
Lemma leF_leB K x x' : leF x x' -> - K <= B2R x -> B2R x' <= K -> leB K x x'. Proof. intros H A B. split; [exact H|lra]. Qed.
(** A result is at least its value at the lower end and at most its value at the upper end. *)
Lemma leB_F K x x' : leB K x x' -> leF x x'. Proof. intros [H _]. exact H. Qed.
Ltac fl := first [exact (proj1 (sl_a lm))|idtac].

(** ** sRGB decoding *)
Definition sd_lo (x : f32) : f32 := @fdiv N x (@flit N 12.92%dec).
Definition sd_arg (x : f32) : f32 := @fdiv N (@fadd N x (@flit N 0.055%dec)) (@flit N 1.055%dec).
Definition sd_hi (x : f32) : f32 := @fpow N (sd_arg x) (@flit N 2.4%dec).
Lemma sRGB_to_Y_clip x : sRGB_to_Y N x = clip2 lm (@flit N 0.04045%dec) sd_lo sd_hi x. Proof. reflexivity. Qed.
Lemma sd_T : fin (@flit N 0.04045%dec) /\ B2R (@flit N 0.04045%dec) = 5429107 / 134217728. Proof. f32_val. Qed.
Lemma sd_lo_T : fin (sd_lo (@flit N 0.04045%dec)) /\ B2R (sd_lo (@flit N 0.04045%dec)) = 13446705 / 4294967296. Proof. unfold sd_lo. f32_val. Qed.
Lemma sd_arg_T : fin (sd_arg (@flit N 0.04045%dec)) /\ B2R (sd_arg (@flit N 0.04045%dec)) = 6071603 / 67108864. Proof. unfold sd_arg. f32_val. Qed.
Lemma sd_arg_1 : fin (sd_arg (@flit N 1%dec)) /\ B2R (sd_arg (@flit N 1%dec)) = 1. Proof. unfold sd_arg. f32_val. Qed.
Lemma sd_lo_le x x' : leB 1 x x' -> leB 3 (sd_lo x) (sd_lo x').
Proof.
  intros H. destruct (sl_b lm) as [_ V]. apply (leB_w (2 * (1 * 1) + 1)); [|lra]. apply lb_div; [lra| |exact H|lra]. rewrite V. rewrite Rinv_1. lra.
Qed.
Lemma sd_arg_le x x' : leB 1 x x' -> leF (sd_arg x) (sd_arg x').
Proof.
  intros H. destruct (sl_c lm) as [_ V]. destruct (sl_d lm) as [Fd Vd]. apply (leB_F (2 * ((2 * (1 + 1) + 1) * 1) + 1)). apply lb_div; [lra|rewrite V, Rinv_1; lra| |lra].
  apply lb_add; [exact H|apply leB_c; [exact Fd|rewrite Vd; apply Rabs_le; lra]|lra].
Qed.
Context (Acc : accurate lm) (Ord : ordered lm).
Lemma pow_4u (x y : f32) a e : fin x /\ B2R x = a -> fin y /\ B2R y = e -> 0 < a <= 1 -> 0 <= e -> / 1000000 <= Rpower a e ->
  fin (@fpow N x y) /\ (1 - 4 * u) * Rpower a e <= B2R (@fpow N x y) <= (1 + 4 * u) * Rpower a e.
Proof.
  intros [Fx Vx] [Fy Vy] A E P. assert (Pp : 0 <= Rpower a e) by (apply Rlt_le, Rpower_pos).
  destruct (acc_pow lm Acc x y Fx Fy) as [F Hp]; [lra| |]; rewrite Vx, Vy, (Rabs_pos_eq (Rpower a e)) in *; try exact Pp.
  - split; [apply Rle_trans with (bpow radix2 (-100)); [apply bpow_le; lia|now apply small_100]|].
    apply Rle_trans with 1; [apply Rpower_le_1; lra|apply (bpow_le radix2 0 127); lia].
  - change (@fpow N x y) with (lm_powf lm x y). split; [exact F|]. apply Rabs_le_inv in Hp. lra.
Qed.
Lemma sd_hi_le x x' : leF x x' -> B2R (@flit N 0.04045%dec) <= B2R x -> B2R x' <= 1 ->
  leB 1 (sd_hi x) (sd_hi x') /\ 13446705 / 4294967296 <= B2R (sd_hi x).
Proof.
  intros H T U. destruct sd_T as [FT VT]. destruct (zero_one lm) as [_ [F1 V1]]. pose proof H as (Fx & Fx' & O). destruct (sl_e lm) as [Fe Ve].
  assert (B1 : leF (sd_arg (@flit N 0.04045%dec)) (sd_arg x)) by (apply sd_arg_le, leF_leB; [repeat split; auto|rewrite VT; lra|lra]).
  assert (B2 : leF (sd_arg x) (sd_arg x')) by (apply sd_arg_le, leF_leB; [exact H|lra|lra]).
  assert (B3 : leF (sd_arg x') (sd_arg (@flit N 1%dec))) by (apply sd_arg_le, leF_leB; [repeat split; auto; rewrite V1; lra|lra|rewrite V1; lra]).
  destruct sd_arg_T as [FA VA]. destruct sd_arg_1 as [FB VB]. destruct B1 as (_ & FX & B1), B3 as (FX' & _ & B3). destruct B2 as (_ & _ & B2). rewrite VA in B1. rewrite VB in B3.
  split.
  - apply lb_pow; [exact Ord|exact Fe|rewrite Ve; lra|repeat split; auto|lra|lra].
  - destruct (lb_pow lm Ord (@flit N 2.4%dec) (sd_arg (@flit N 0.04045%dec)) (sd_arg x) Fe ltac:(rewrite Ve; lra)) as [((F & _ & L) & _) _]; [repeat split; auto; rewrite VA; lra|rewrite VA; lra|lra|].
    apply Rle_trans with (2 := L). clear - Acc FA VA Fe Ve.
    assert (P : Q2R (Qmake 31308065 10000000000) <= Rpower (6071603 / 67108864) (5033165 / 2097152)).
    { replace (6071603 / 67108864) with (Q2R (Qmake 6071603 67108864)) by q2r. replace (5033165 / 2097152) with (Q2R (Qmake 5033165 2097152)) by q2r.
      apply (pow_lo _ _ (Qmake 240269348073 100000000000) _ 4 10 8 10); [vm_compute; reflexivity|q2r]. }
    replace (Q2R (Qmake 31308065 10000000000)) with 0.0031308065 in P by q2r.
    destruct (pow_4u _ _ _ _ (conj FA VA) (conj Fe Ve) ltac:(lra) ltac:(lra) ltac:(lra)) as [_ Hp]. pose proof u16 as U16. rewrite U16 in Hp. lra.
Qed.
Lemma sRGB_dec_le x x' : leF x x' -> leF (sRGB_to_Y N x) (sRGB_to_Y N x').
Proof.
  intros H. rewrite !sRGB_to_Y_clip. destruct sd_T as [FT VT]. destruct sd_lo_T as [FL VL]. destruct (sl_b lm) as [Fb Vb].
  assert (LO : forall z, rng 0 1 z -> B2R z < B2R (@flit N 0.04045%dec) -> 0 <= B2R (sd_lo z) <= 13446705 / 4294967296).
  { intros z [Fz Hz] L. rewrite <- VL. rewrite VT in *. destruct (zero_one lm) as [[F0 V0] _]. split.
    - assert (K : leB 3 (sd_lo (@flit N 0%dec)) (sd_lo z)) by (apply sd_lo_le, leF_leB; [repeat split; auto; rewrite V0; lra|rewrite V0; lra|lra]).
      destruct K as ((_ & _ & K) & _). assert (Z : fin (sd_lo (@flit N 0%dec)) /\ B2R (sd_lo (@flit N 0%dec)) = 0) by (unfold sd_lo; f32_val). lra.
    - assert (K : leB 3 (sd_lo z) (sd_lo (@flit N 0.04045%dec))) by (apply sd_lo_le, leF_leB; [repeat split; auto; rewrite VT; lra|lra|rewrite VT; lra]). apply K. }
  apply (clip2_all lm _ _ _ FT) with (m := 13446705 / 4294967296).
  - intros z z' Z A B. apply (leB_F 3), sd_lo_le, leF_leB; [exact Z|lra|rewrite VT in B; lra].
  - intros z Z B. pose proof (LO z Z B). split; [|lra]. destruct Z as [Fz Hz]. apply (sd_lo_le z z). apply leF_leB; [now apply le_refl|lra|lra].
  - intros z z' Z A B C. apply (leB_F 1). now apply sd_hi_le.
  - intros z [Fz Hz] A. destruct (sd_hi_le z z (le_refl z Fz) A) as [((F & _) & _ & L) L']; [lra|]. split; [exact F|lra].
  - exact H.
  - intros z Z B. now apply LO.
  - intros z [Fz Hz] B. apply (sd_hi_le z z (le_refl z Fz) B). lra.
Qed.

(** ** sRGB encoding *)
Definition se_lo (x : f32) : f32 := @fmul N x (@flit N 12.92%dec).
Definition se_f (p : f32) : f32 := @fsub N (@fmul N (@flit N 1.055%dec) p) (@flit N 0.055%dec).
Definition se_hi (x : f32) : f32 := se_f (@fpow N x (@fdiv N (@flit N 1.0%dec) (@flit N 2.4%dec))).
Lemma Y_to_sRGB_clip x : Y_to_sRGB N x = clip2 lm (@flit N 0.0031308%dec) se_lo se_hi x. Proof. reflexivity. Qed.
Lemma se_lo_le x x' : leB 1 x x' -> leF (se_lo x) (se_lo x').
Proof.
  intros H. destruct (sl_b lm) as [F V]. apply (leB_F (2 * (13 * 1) + 1)). apply lb_mul_r; [exact F|rewrite V; lra|exact H|lra].
Qed.
Lemma se_f_le x x' : leB 1 x x' -> leF (se_f x) (se_f x').
Proof.
  intros H. destruct (sl_c lm) as [Fc V]. destruct (sl_d lm) as [Fd Vd]. apply (leB_F (2 * ((2 * (2 * 1) + 1) + 1) + 1)). apply lb_sub; [|apply leB_c; [exact Fd|rewrite Vd; apply Rabs_le; lra]|lra].
  apply lb_mul; [exact Fc|rewrite V; lra|exact H|lra].
Qed.
Lemma se_e : fin (@fdiv N (@flit N 1.0%dec) (@flit N 2.4%dec)) /\ B2R (@fdiv N (@flit N 1.0%dec) (@flit N 2.4%dec)) = 13981013 / 33554432. Proof. f32_val. Qed.
Lemma pow_T_lo : Q2R (Qmake 9047385 100000000) <= Rpower (3361671 / 1073741824) (13981013 / 33554432).
Proof.
  replace (3361671 / 1073741824) with (Q2R (Qmake 3361671 1073741824)) by q2r. replace (13981013 / 33554432) with (Q2R (Qmake 13981013 33554432)) by q2r.
  apply (pow_lo _ _ (Qmake 57664666872 10000000000) _ 8 10 4 10); [vm_compute; reflexivity|q2r].
Qed.
Lemma pow_T_hi : Rpower (3361671 / 1073741824) (13981013 / 33554432) <= Q2R (Qmake 90473853 1000000000).
Proof.
  replace (3361671 / 1073741824) with (Q2R (Qmake 3361671 1073741824)) by q2r. replace (13981013 / 33554432) with (Q2R (Qmake 13981013 33554432)) by q2r.
  apply (pow_hi _ _ (Qmake 57664666870 10000000000) _ 8 10 4 10); [vm_compute; reflexivity|q2r].
Qed.
Lemma se_pow_T : fin (@fpow N (@flit N 0.0031308%dec) (@fdiv N (@flit N 1.0%dec) (@flit N 2.4%dec))) /\
  0.090473825 <= B2R (@fpow N (@flit N 0.0031308%dec) (@fdiv N (@flit N 1.0%dec) (@flit N 2.4%dec))) <= 6071599 / 67108864.
Proof.
  pose proof pow_T_lo as L. pose proof pow_T_hi as H. replace (Q2R (Qmake 9047385 100000000)) with 0.09047385 in L by q2r. replace (Q2R (Qmake 90473853 1000000000)) with 0.090473853 in H by q2r.
  destruct (pow_4u _ _ _ _ (sl_a lm) se_e ltac:(lra) ltac:(lra) ltac:(lra)) as [F B]. split; [exact F|]. pose proof u16 as U16. rewrite U16 in B. split; lra.
Qed.
Lemma se_hi_le x x' : leF x x' -> B2R (@flit N 0.0031308%dec) <= B2R x -> B2R x' <= 1 -> leF (se_hi x) (se_hi x') /\ 0 <= B2R (se_hi x) /\ B2R (se_hi x') <= 1.
Proof.
  intros H T U. destruct (sl_a lm) as [FT VT]. destruct (zero_one lm) as [_ [F1 V1]]. pose proof H as (Fx & Fx' & O). destruct se_e as [Fe Ve]. destruct se_pow_T as [Fp Bp].
  destruct (lb_pow lm Ord _ x x' Fe ltac:(rewrite Ve; lra) H ltac:(rewrite VT in T; lra) U) as [P1 P0].
  destruct (lb_pow lm Ord _ (@flit N 0.0031308%dec) x Fe ltac:(rewrite Ve; lra)) as [P2 _]; [repeat split; auto|rewrite VT; lra|lra|].
  unfold se_hi. set (p := @fpow N x (@fdiv N (@flit N 1.0%dec) (@flit N 2.4%dec)) : f32) in *. set (p' := @fpow N x' (@fdiv N (@flit N 1.0%dec) (@flit N 2.4%dec)) : f32) in *.
  set (p0 := @fpow N (@flit N 0.0031308%dec) (@fdiv N (@flit N 1.0%dec) (@flit N 2.4%dec)) : f32) in *. clearbody p p' p0.
  split; [now apply se_f_le|]. split.
  - assert (K : fin (@flit N 0.09%dec) /\ B2R (@flit N 0.09%dec) = 12079596 / 134217728) by f32_val. destruct K as [Fk Vk]. destruct P2 as ((_ & F2 & O2) & _ & U2).
    assert (K : leF (se_f (@flit N 0.09%dec)) (se_f p)) by (apply se_f_le, leF_leB; [repeat split; auto; rewrite Vk; lra|rewrite Vk; lra|exact U2]). destruct K as (_ & _ & K).
    assert (Z : fin (se_f (@flit N 0.09%dec)) /\ B2R (se_f (@flit N 0.09%dec)) = 2680999 / 67108864) by (unfold se_f; f32_val). lra.
  - destruct P1 as ((F1' & F1'' & O1) & L1 & U1). assert (K : leF (se_f p') (se_f (@flit N 1%dec))) by (apply se_f_le, leF_leB; [repeat split; auto; rewrite V1; lra|lra|rewrite V1; lra]). destruct K as (_ & _ & K).
    assert (Z : fin (se_f (@flit N 1%dec)) /\ B2R (se_f (@flit N 1%dec)) = 16777215 / 16777216) by (unfold se_f; f32_val). lra.
Qed.
Lemma se_lo_r z : rng 0 1 z -> B2R z < B2R (@flit N 0.0031308%dec) -> fin (se_lo z) /\ 0 <= B2R (se_lo z) <= 10858197 / 268435456.
Proof.
  intros [Fz Hz] B. destruct (sl_a lm) as [FT VT]. destruct (zero_one lm) as [[F0 V0] _].
  assert (K : leF (se_lo (@flit N 0%dec)) (se_lo z)) by (apply se_lo_le, leF_leB; [repeat split; auto; rewrite V0; lra|rewrite V0; lra|lra]).
  assert (K' : leF (se_lo z) (se_lo (@flit N 0.0031308%dec))) by (apply se_lo_le, leF_leB; [repeat split; auto; lra|lra|rewrite VT; lra]).
  assert (Z : fin (se_lo (@flit N 0%dec)) /\ B2R (se_lo (@flit N 0%dec)) = 0) by (unfold se_lo; f32_val).
  assert (Z' : fin (se_lo (@flit N 0.0031308%dec)) /\ B2R (se_lo (@flit N 0.0031308%dec)) = 10858197 / 268435456) by (unfold se_lo; f32_val).
  destruct K as (_ & F & K), K' as (_ & _ & K'). split; [exact F|lra].
Qed.
Lemma sRGB_enc_side x x' : leF x x' -> (B2R x' < B2R (@flit N 0.0031308%dec) \/ B2R (@flit N 0.0031308%dec) <= B2R x) -> leF (Y_to_sRGB N x) (Y_to_sRGB N x').
Proof.
  intros H S. rewrite !Y_to_sRGB_clip. destruct (sl_a lm) as [FT VT].
  apply (clip2_side lm _ _ _ FT); [| | | |exact H|exact S].
  - intros z z' Z A B. apply se_lo_le, leF_leB; [exact Z|lra|rewrite VT in B; lra].
  - intros z Z B. destruct (se_lo_r z Z B) as [F L]. split; [exact F|lra].
  - intros z z' Z A B C. now apply se_hi_le.
  - intros z [Fz Hz] A. destruct (se_hi_le z z (le_refl z Fz) A) as [(F & _) L]; [lra|]. split; [exact F|lra].
Qed.
Lemma se_hi_T x : fin x -> B2R (@flit N 0.0031308%dec) <= B2R x <= 1 -> 0.04044988 <= B2R (se_hi x).
Proof.
  intros Fx H. destruct (sl_a lm) as [FT VT]. destruct se_e as [Fe Ve]. destruct se_pow_T as [Fp Bp].
  destruct (lb_pow lm Ord _ (@flit N 0.0031308%dec) x Fe ltac:(rewrite Ve; lra)) as [P2 _]; [repeat split; auto; lra|rewrite VT; lra|lra|].
  unfold se_hi. set (p := @fpow N x (@fdiv N (@flit N 1.0%dec) (@flit N 2.4%dec)) : f32) in *.
  set (p0 := @fpow N (@flit N 0.0031308%dec) (@fdiv N (@flit N 1.0%dec) (@flit N 2.4%dec)) : f32) in *. clearbody p p0.
  assert (K : fin (@flit N 0.09047382%dec) /\ B2R (@flit N 0.09047382%dec) = 12143191 / 134217728) by f32_val. destruct K as [Fk Vk]. destruct P2 as ((_ & F2 & O2) & _ & U2).
  assert (K : leF (se_f (@flit N 0.09047382%dec)) (se_f p)) by (apply se_f_le, leF_leB; [repeat split; auto; rewrite Vk; lra|rewrite Vk; lra|exact U2]). destruct K as (_ & _ & K).
  assert (Z : fin (se_f (@flit N 0.09047382%dec)) /\ B2R (se_f (@flit N 0.09047382%dec)) = 5429091 / 134217728) by (unfold se_f; f32_val). lra.
Qed.
Lemma sRGB_enc_slack x x' : leF x x' -> fin (Y_to_sRGB N x) /\ fin (Y_to_sRGB N x') /\ B2R (Y_to_sRGB N x) <= B2R (Y_to_sRGB N x') + / 10000000.
Proof.
  intros H. rewrite !Y_to_sRGB_clip. destruct (sl_a lm) as [FT VT].
  apply (clip2_slack lm _ _ _ FT) with (m := 10858197 / 268435456); [| | | |lra|exact H| |].
  - intros z z' Z A B. apply se_lo_le, leF_leB; [exact Z|lra|rewrite VT in B; lra].
  - intros z Z B. destruct (se_lo_r z Z B) as [F L]. split; [exact F|lra].
  - intros z z' Z A B C. now apply se_hi_le.
  - intros z [Fz Hz] A. destruct (se_hi_le z z (le_refl z Fz) A) as [(F & _) L]; [lra|]. split; [exact F|lra].
  - intros z Z B. now apply se_lo_r.
  - intros z [Fz Hz] B. pose proof (se_hi_T z Fz ltac:(lra)). lra.
Qed.
(** At the switch it drops. *)
Definition se_x : f32 := @flit N 0.0031307998%dec.
Lemma se_x_v : fin se_x /\ B2R se_x = 13446683 / 4294967296. Proof. unfold se_x. f32_val. Qed.
Lemma Y_to_sRGB_lo x : fin x -> 0 <= B2R x < 3361671 / 1073741824 -> Y_to_sRGB N x = se_lo x.
Proof.
  intros Fx Hx. destruct (sl_a lm) as [FT VT]. destruct (zero_one lm) as [[F0 V0] [F1 V1]]. rewrite Y_to_sRGB_clip. unfold clip2. rewrite !ltb_ok by assumption. rewrite V0, V1, VT.
  rewrite Rlt_bool_false, Rlt_bool_false, Rlt_bool_true by lra. reflexivity.
Qed.
Lemma Y_to_sRGB_hi x : fin x -> 3361671 / 1073741824 <= B2R x <= 1 -> Y_to_sRGB N x = se_hi x.
Proof.
  intros Fx Hx. destruct (sl_a lm) as [FT VT]. destruct (zero_one lm) as [[F0 V0] [F1 V1]]. rewrite Y_to_sRGB_clip. unfold clip2. rewrite !ltb_ok by assumption. rewrite V0, V1, VT.
  rewrite Rlt_bool_false, Rlt_bool_false, Rlt_bool_false by lra. reflexivity.
Qed.
Lemma sRGB_enc_drop : B2R se_x < B2R (@flit N 0.0031308%dec) /\ fin (Y_to_sRGB N se_x) /\ fin (Y_to_sRGB N (@flit N 0.0031308%dec)) /\
  B2R (Y_to_sRGB N (@flit N 0.0031308%dec)) < B2R (Y_to_sRGB N se_x).
Proof.
  destruct se_x_v as [Fx Vx]. destruct (sl_a lm) as [FT VT]. rewrite Vx, VT. split; [lra|].
  rewrite Y_to_sRGB_lo, Y_to_sRGB_hi by (try assumption; lra). assert (L : fin (se_lo se_x) /\ B2R (se_lo se_x) = 10858197 / 268435456) by (unfold se_lo, se_x; f32_val). destruct L as [FL VL].
  split; [exact FL|]. destruct se_pow_T as [Fp Bp]. assert (K : fin (@flit N 0.0904738754%dec) /\ B2R (@flit N 0.0904738754%dec) = 6071599 / 67108864) by f32_val. destruct K as [Fk Vk].
  assert (K : leF (se_hi (@flit N 0.0031308%dec)) (se_f (@flit N 0.0904738754%dec))). { apply se_f_le, leF_leB; [repeat split; auto; rewrite Vk; apply Bp|lra|rewrite Vk; lra]. }
  destruct K as (F & _ & K). split; [exact F|]. assert (Z : fin (se_f (@flit N 0.0904738754%dec)) /\ B2R (se_f (@flit N 0.0904738754%dec)) = 2714549 / 67108864) by (unfold se_f; f32_val). lra.
Qed.

(** ** BT.709 encoding *)
Definition be_lo (x : f32) : f32 := @fmul N x (@flit N 4.50%dec).
Definition be_f (p : f32) : f32 := @fsub N (@fmul N (@flit N 1.099%dec) p) (@flit N 0.099%dec).
Definition be_hi (x : f32) : f32 := be_f (@fpow N x (@flit N 0.45%dec)).
Lemma Y_to_BT709_clip x : Y_to_BT709 N x = clip2 lm (@flit N 0.018%dec) be_lo be_hi x. Proof. reflexivity. Qed.
Lemma be_lo_le x x' : leB 1 x x' -> leF (be_lo x) (be_lo x').
Proof. intros H. destruct (bl_b lm) as [F V]. apply (leB_F (2 * (13 * 1) + 1)). apply lb_mul_r; [exact F|rewrite V; lra|exact H|lra]. Qed.
Lemma be_f_le x x' : leB 1 x x' -> leF (be_f x) (be_f x').
Proof.
  intros H. destruct (bl_c lm) as [Fc V]. destruct (bl_d lm) as [Fd Vd]. apply (leB_F (2 * ((2 * (2 * 1) + 1) + 1) + 1)). apply lb_sub; [|apply leB_c; [exact Fd|rewrite Vd; apply Rabs_le; lra]|lra].
  apply lb_mul; [exact Fc|rewrite V; lra|exact H|lra].
Qed.
Lemma be_pow_T : fin (@fpow N (@flit N 0.018%dec) (@flit N 0.45%dec)) /\ 0.164 <= B2R (@fpow N (@flit N 0.018%dec) (@flit N 0.45%dec)).
Proof.
  assert (L : Q2R (Qmake 16401 100000) <= Rpower (2415919 / 134217728) (7549747 / 16777216)).
  { replace (2415919 / 134217728) with (Q2R (Qmake 2415919 134217728)) by q2r. replace (7549747 / 16777216) with (Q2R (Qmake 7549747 16777216)) by q2r.
    apply (pow_lo _ _ (Qmake 40173836 10000000) _ 8 10 4 10); [vm_compute; reflexivity|q2r]. }
  replace (Q2R (Qmake 16401 100000)) with 0.16401 in L by q2r.
  destruct (pow_4u _ _ _ _ (bl_a lm) (bl_e lm) ltac:(lra) ltac:(lra) ltac:(lra)) as [F B]. split; [exact F|]. pose proof u16 as U16. rewrite U16 in B. lra.
Qed.
Lemma be_hi_le x x' : leF x x' -> B2R (@flit N 0.018%dec) <= B2R x -> B2R x' <= 1 -> leF (be_hi x) (be_hi x') /\ 0.0811 <= B2R (be_hi x) /\ B2R (be_hi x') <= 1.
Proof.
  intros H T U. destruct (bl_a lm) as [FT VT]. destruct (zero_one lm) as [_ [F1 V1]]. pose proof H as (Fx & Fx' & O). destruct (bl_e lm) as [Fe Ve]. destruct be_pow_T as [Fp Bp].
  destruct (lb_pow lm Ord _ x x' Fe ltac:(rewrite Ve; lra) H ltac:(rewrite VT in T; lra) U) as [P1 P0].
  destruct (lb_pow lm Ord _ (@flit N 0.018%dec) x Fe ltac:(rewrite Ve; lra)) as [P2 _]; [repeat split; auto|rewrite VT; lra|lra|].
  unfold be_hi. set (p := @fpow N x (@flit N 0.45%dec) : f32) in *. set (p' := @fpow N x' (@flit N 0.45%dec) : f32) in *.
  set (p0 := @fpow N (@flit N 0.018%dec) (@flit N 0.45%dec) : f32) in *. clearbody p p' p0.
  split; [now apply be_f_le|]. split.
  - assert (K : fin (@flit N 0.1639999%dec) /\ B2R (@flit N 0.1639999%dec) = 11005847 / 67108864) by f32_val. destruct K as [Fk Vk]. destruct P2 as ((_ & F2 & O2) & _ & U2).
    assert (K : leF (be_f (@flit N 0.1639999%dec)) (be_f p)) by (apply be_f_le, leF_leB; [repeat split; auto; rewrite Vk; lra|rewrite Vk; lra|exact U2]). destruct K as (_ & _ & K).
    assert (Z : fin (be_f (@flit N 0.1639999%dec)) /\ B2R (be_f (@flit N 0.1639999%dec)) = 10903297 / 134217728) by (unfold be_f; f32_val). lra.
  - destruct P1 as ((F1' & F1'' & O1) & L1 & U1). assert (K : leF (be_f p') (be_f (@flit N 1%dec))) by (apply be_f_le, leF_leB; [repeat split; auto; rewrite V1; lra|lra|rewrite V1; lra]). destruct K as (_ & _ & K).
    assert (Z : fin (be_f (@flit N 1%dec)) /\ B2R (be_f (@flit N 1%dec)) = 1) by (unfold be_f; f32_val). lra.
Qed.
Lemma BT709_enc_le x x' : leF x x' -> leF (Y_to_BT709 N x) (Y_to_BT709 N x').
Proof.
  intros H. rewrite !Y_to_BT709_clip. destruct (bl_a lm) as [FT VT]. destruct (zero_one lm) as [[F0 V0] _].
  assert (LO : forall z, rng 0 1 z -> B2R z < B2R (@flit N 0.018%dec) -> fin (be_lo z) /\ 0 <= B2R (be_lo z) <= 0.08101).
  { intros z [Fz Hz] B.
    assert (K : leF (be_lo (@flit N 0%dec)) (be_lo z)) by (apply be_lo_le, leF_leB; [repeat split; auto; rewrite V0; lra|rewrite V0; lra|lra]).
    assert (K' : leF (be_lo z) (be_lo (@flit N 0.018%dec))) by (apply be_lo_le, leF_leB; [repeat split; auto; lra|lra|rewrite VT; lra]).
    assert (Z : fin (be_lo (@flit N 0%dec)) /\ B2R (be_lo (@flit N 0%dec)) = 0) by (unfold be_lo; f32_val).
    assert (Z' : fin (be_lo (@flit N 0.018%dec)) /\ B2R (be_lo (@flit N 0.018%dec)) = 2717909 / 33554432) by (unfold be_lo; f32_val).
    destruct K as (_ & F & K), K' as (_ & _ & K'). split; [exact F|lra]. }
  apply (clip2_all lm _ _ _ FT) with (m := 0.0811); [| | | |exact H| |].
  - intros z z' Z A B. apply be_lo_le, leF_leB; [exact Z|lra|rewrite VT in B; lra].
  - intros z Z B. destruct (LO z Z B) as [F L]. split; [exact F|lra].
  - intros z z' Z A B C. now apply be_hi_le.
  - intros z [Fz Hz] A. destruct (be_hi_le z z (le_refl z Fz) A) as [(F & _) L]; [lra|]. split; [exact F|lra].
  - intros z Z B. destruct (LO z Z B) as [F L]. lra.
  - intros z [Fz Hz] A. apply (be_hi_le z z (le_refl z Fz) A). lra.
Qed.

(** ** BT.709 decoding *)
Definition bd_lo (x : f32) : f32 := @fdiv N x (@flit N 4.50%dec).
Definition bd_arg (x : f32) : f32 := @fdiv N (@fadd N x (@flit N 0.099%dec)) (@flit N 1.099%dec).
Definition bd_hi (x : f32) : f32 := @fpow N (bd_arg x) (@fdiv N (@flit N 1%dec) (@flit N 0.45%dec)).
Lemma BT709_to_Y_clip x : BT709_to_Y N x = clip2 lm (@flit N 0.081%dec) bd_lo bd_hi x. Proof. reflexivity. Qed.
Lemma bd_arg_T : fin (bd_arg (@flit N 0.081%dec)) /\ B2R (bd_arg (@flit N 0.081%dec)) = 10991443 / 67108864. Proof. unfold bd_arg. f32_val. Qed.
Lemma bd_arg_1 : fin (bd_arg (@flit N 1%dec)) /\ B2R (bd_arg (@flit N 1%dec)) = 1. Proof. unfold bd_arg. f32_val. Qed.
Lemma bd_lo_le x x' : leB 1 x x' -> leF (bd_lo x) (bd_lo x').
Proof. intros H. destruct (bl_b lm) as [_ V]. apply (leB_F (2 * (1 * 1) + 1)). apply lb_div; [lra| |exact H|lra]. rewrite V. rewrite Rinv_1. lra. Qed.
Lemma bd_arg_le x x' : leB 1 x x' -> leF (bd_arg x) (bd_arg x').
Proof.
  intros H. destruct (bl_c lm) as [_ V]. destruct (bl_d lm) as [Fd Vd]. apply (leB_F (2 * ((2 * (1 + 1) + 1) * 1) + 1)). apply lb_div; [lra|rewrite V, Rinv_1; lra| |lra].
  apply lb_add; [exact H|apply leB_c; [exact Fd|rewrite Vd; apply Rabs_le; lra]|lra].
Qed.
Lemma bd_hi_le x x' : leF x x' -> B2R (@flit N 0.081%dec) <= B2R x -> B2R x' <= 1 -> leB 1 (bd_hi x) (bd_hi x') /\ 0 <= B2R (bd_hi x).
Proof.
  intros H T U. destruct (bl_g lm) as [FT VT]. destruct (zero_one lm) as [_ [F1 V1]]. pose proof H as (Fx & Fx' & O). destruct (bl_f lm) as [Fe Ve].
  assert (B1 : leF (bd_arg (@flit N 0.081%dec)) (bd_arg x)) by (apply bd_arg_le, leF_leB; [repeat split; auto|rewrite VT; lra|lra]).
  assert (B2 : leF (bd_arg x) (bd_arg x')) by (apply bd_arg_le, leF_leB; [exact H|lra|lra]).
  assert (B3 : leF (bd_arg x') (bd_arg (@flit N 1%dec))) by (apply bd_arg_le, leF_leB; [repeat split; auto; rewrite V1; lra|lra|rewrite V1; lra]).
  destruct bd_arg_T as [FA VA]. destruct bd_arg_1 as [FB VB]. destruct B1 as (_ & FX & B1), B3 as (FX' & _ & B3). destruct B2 as (_ & _ & B2). rewrite VA in B1. rewrite VB in B3.
  apply lb_pow; [exact Ord|exact Fe|rewrite Ve; lra|repeat split; auto|lra|lra].
Qed.
Lemma bd_lo_r z : rng 0 1 z -> B2R z < B2R (@flit N 0.081%dec) -> fin (bd_lo z) /\ 0 <= B2R (bd_lo z) <= 2415919 / 134217728.
Proof.
  intros [Fz Hz] B. destruct (bl_g lm) as [FT VT]. destruct (zero_one lm) as [[F0 V0] _].
  assert (K : leF (bd_lo (@flit N 0%dec)) (bd_lo z)) by (apply bd_lo_le, leF_leB; [repeat split; auto; rewrite V0; lra|rewrite V0; lra|lra]).
  assert (K' : leF (bd_lo z) (bd_lo (@flit N 0.081%dec))) by (apply bd_lo_le, leF_leB; [repeat split; auto; lra|lra|rewrite VT; lra]).
  assert (Z : fin (bd_lo (@flit N 0%dec)) /\ B2R (bd_lo (@flit N 0%dec)) = 0) by (unfold bd_lo; f32_val).
  assert (Z' : fin (bd_lo (@flit N 0.081%dec)) /\ B2R (bd_lo (@flit N 0.081%dec)) = 2415919 / 134217728) by (unfold bd_lo; f32_val).
  destruct K as (_ & F & K), K' as (_ & _ & K'). split; [exact F|lra].
Qed.
Lemma BT709_dec_side x x' : leF x x' -> (B2R x' < B2R (@flit N 0.081%dec) \/ B2R (@flit N 0.081%dec) <= B2R x) -> leF (BT709_to_Y N x) (BT709_to_Y N x').
Proof.
  intros H S. rewrite !BT709_to_Y_clip. destruct (bl_g lm) as [FT VT].
  apply (clip2_side lm _ _ _ FT); [| | | |exact H|exact S].
  - intros z z' Z A B. apply bd_lo_le, leF_leB; [exact Z|lra|rewrite VT in B; lra].
  - intros z Z B. destruct (bd_lo_r z Z B) as [F L]. split; [exact F|lra].
  - intros z z' Z A B C. apply (leB_F 1). now apply bd_hi_le.
  - intros z [Fz Hz] A. destruct (bd_hi_le z z (le_refl z Fz) A) as [((F & _) & _ & L) L']; [lra|]. split; [exact F|lra].
Qed.
Lemma bd_hi_T x : fin x -> B2R (@flit N 0.081%dec) <= B2R x <= 1 -> 0.017945 <= B2R (bd_hi x).
Proof.
  intros Fx H. destruct (bl_g lm) as [FT VT]. destruct (bl_f lm) as [Fe Ve]. destruct (bd_hi_le (@flit N 0.081%dec) x) as [[(_ & _ & K) _] _]; [repeat split; auto; lra|lra|lra|].
  apply Rle_trans with (2 := K). destruct bd_arg_T as [FA VA].
  assert (L : Q2R (Qmake 17945015 1000000000) <= Rpower (10991443 / 67108864) (2330169 / 1048576)).
  { replace (10991443 / 67108864) with (Q2R (Qmake 10991443 67108864)) by q2r. replace (2330169 / 1048576) with (Q2R (Qmake 2330169 1048576)) by q2r.
    apply (pow_lo _ _ (Qmake 1809199076 1000000000) _ 4 10 8 10); [vm_compute; reflexivity|q2r]. }
  replace (Q2R (Qmake 17945015 1000000000)) with 0.017945015 in L by q2r.
  destruct (pow_4u _ _ _ _ (conj FA VA) (conj Fe Ve) ltac:(lra) ltac:(lra) ltac:(lra)) as [_ Hp]. pose proof u16 as U16. rewrite U16 in Hp. unfold bd_hi. lra.
Qed.
Lemma BT709_dec_slack x x' : leF x x' -> fin (BT709_to_Y N x) /\ fin (BT709_to_Y N x') /\ B2R (BT709_to_Y N x) <= B2R (BT709_to_Y N x') + 0.000055.
Proof.
  intros H. rewrite !BT709_to_Y_clip. destruct (bl_g lm) as [FT VT].
  apply (clip2_slack lm _ _ _ FT) with (m := 2415919 / 134217728); [| | | |lra|exact H| |].
  - intros z z' Z A B. apply bd_lo_le, leF_leB; [exact Z|lra|rewrite VT in B; lra].
  - intros z Z B. destruct (bd_lo_r z Z B) as [F L]. split; [exact F|lra].
  - intros z z' Z A B C. apply (leB_F 1). now apply bd_hi_le.
  - intros z [Fz Hz] A. destruct (bd_hi_le z z (le_refl z Fz) A) as [((F & _) & _ & L) L']; [lra|]. split; [exact F|lra].
  - intros z Z B. now apply bd_lo_r.
  - intros z [Fz Hz] B. pose proof (bd_hi_T z Fz ltac:(lra)). lra.
Qed.
Lemma BT709_to_Y_lo x : fin x -> 0 <= B2R x < 2717909 / 33554432 -> BT709_to_Y N x = bd_lo x.
Proof.
  intros Fx Hx. destruct (bl_g lm) as [FT VT]. destruct (zero_one lm) as [[F0 V0] [F1 V1]]. rewrite BT709_to_Y_clip. unfold clip2. rewrite !ltb_ok by assumption. rewrite V0, V1, VT.
  rewrite Rlt_bool_false, Rlt_bool_false, Rlt_bool_true by lra. reflexivity.
Qed.
Lemma BT709_to_Y_hi x : fin x -> 2717909 / 33554432 <= B2R x <= 1 -> BT709_to_Y N x = bd_hi x.
Proof.
  intros Fx Hx. destruct (bl_g lm) as [FT VT]. destruct (zero_one lm) as [[F0 V0] [F1 V1]]. rewrite BT709_to_Y_clip. unfold clip2. rewrite !ltb_ok by assumption. rewrite V0, V1, VT.
  rewrite Rlt_bool_false, Rlt_bool_false, Rlt_bool_false by lra. reflexivity.
Qed.
(** Code 332 of 4095 decodes to less than code 331. *)
Lemma BT709_dec_codes : fin (BT709_to_Y N (code lm 331 4095)) /\ fin (BT709_to_Y N (code lm 332 4095)) /\
  B2R (BT709_to_Y N (code lm 332 4095)) < B2R (BT709_to_Y N (code lm 331 4095)).
Proof.
  assert (C1 : fin (code lm 331 4095) /\ B2R (code lm 331 4095) = 10848857 / 134217728) by (unfold code; f32_val). assert (C2 : fin (code lm 332 4095) /\ B2R (code lm 332 4095) = 10881633 / 134217728) by (unfold code; f32_val).
  destruct C1 as [F1 V1], C2 as [F2 V2]. rewrite BT709_to_Y_lo, BT709_to_Y_hi by (try assumption; lra).
  assert (L : fin (bd_lo (code lm 331 4095)) /\ B2R (bd_lo (code lm 331 4095)) = 2410857 / 134217728) by (unfold bd_lo, code; f32_val). destruct L as [FL VL]. split; [exact FL|]. rewrite VL.
  assert (A : fin (bd_arg (code lm 332 4095)) /\ B2R (bd_arg (code lm 332 4095)) = 10995991 / 67108864) by (unfold bd_arg, code; f32_val).
  assert (Lo : Q2R (Qmake 1 1000) <= Rpower (10995991 / 67108864) (2330169 / 1048576)).
  { replace (10995991 / 67108864) with (Q2R (Qmake 10995991 67108864)) by q2r. replace (2330169 / 1048576) with (Q2R (Qmake 2330169 1048576)) by q2r.
    apply (pow_lo _ _ (Qmake 19 10) _ 4 10 8 10); [vm_compute; reflexivity|q2r]. }
  assert (Hi : Rpower (10995991 / 67108864) (2330169 / 1048576) <= Q2R (Qmake 1796180 100000000)).
  { replace (10995991 / 67108864) with (Q2R (Qmake 10995991 67108864)) by q2r. replace (2330169 / 1048576) with (Q2R (Qmake 2330169 1048576)) by q2r.
    apply (pow_hi _ _ (Qmake 18087852 10000000) _ 4 10 8 10); [vm_compute; reflexivity|q2r]. }
  replace (Q2R (Qmake 1 1000)) with 0.001 in Lo by q2r. replace (Q2R (Qmake 1796180 100000000)) with 0.0179618 in Hi by q2r.
  destruct (pow_4u _ _ _ _ A (bl_f lm) ltac:(lra) ltac:(lra) ltac:(lra)) as [F B]. split; [exact F|]. pose proof u16 as U16. rewrite U16 in B. unfold bd_hi. lra.
Qed.

(** ** Gamma *)
Lemma degamma_le x x' g : leF x x' -> 0 <= B2R x -> B2R x' <= 1 -> fin g -> 0 < B2R g -> leF (degamma N x g) (degamma N x' g).
Proof. intros H A B Fg G. apply (leB_F 1). now apply lb_pow. Qed.
Lemma gamma_le x x' g : leF x x' -> 0 <= B2R x -> B2R x' <= 1 -> fin g -> / 1000000 <= B2R g <= 1000000 -> leF (gamma N x g) (gamma N x' g).
Proof.
  intros H A B Fg G. apply (leB_F 1). destruct (zero_one lm) as [_ [F1 V1]]. assert (Q : / 1000000 <= 1 / B2R g <= 1000000).
  { unfold Rdiv. rewrite Rmult_1_l. split; [apply Rinv_le; lra|]. rewrite <- (Rinv_inv 1000000). apply Rinv_le; lra. }
  destruct (div_ok lm (@flit N 1%dec) g F1) as [F V]; [lra|rewrite V1, Rabs_pos_eq by lra; pose proof b127; lra|]. rewrite V1 in V.
  apply lb_pow; try assumption. rewrite V. apply Rlt_le_trans with (bpow radix2 (-100)); [apply bpow_gt_0|]. apply rnd_ge_fmt; [apply fmt_bpow; lia|]. now apply small_100.
Qed.

(** ** PQ decoding *)
Definition pd_np (x : f32) : f32 := @fpow N x (@fdiv N (@flit N 1.0%dec) (pq_m2 N)).
Definition pd_num (p : f32) : f32 := let L := @fsub N p (pq_c1 N) in if @fltb N L (@flit N 0.0%dec) then @flit N 0.0%dec else L.
Definition pd_den (p : f32) : f32 := @fsub N (pq_c2 N) (@fmul N (pq_c3 N) p).
Lemma ST2084_to_Y_eq x : ST2084_to_Y N x = @fmul N (@fpow N (@fdiv N (pd_num (pd_np x)) (pd_den (pd_np x))) (@fdiv N (@flit N 1.0%dec) (pq_m1 N))) (pq_C N). Proof. reflexivity. Qed.
Lemma pd_num_le x x' : leB 1 x x' -> 0 <= B2R (pd_num x) /\ leB 5 (pd_num x) (pd_num x').
Proof.
  intros H. destruct (pl_c1 lm) as [Fc Vc]. unfold c1q in Vc. assert (K : leB (2 * (1 + 1) + 1) (@fsub N x (pq_c1 N)) (@fsub N x' (pq_c1 N))) by (apply lb_sub; [exact H|apply leB_c; [exact Fc|rewrite Vc; apply Rabs_le; lra]|lra]).
  unfold pd_num. cbv zeta. set (a := @fsub N x (pq_c1 N) : f32) in *. set (b := @fsub N x' (pq_c1 N) : f32) in *. clearbody a b. destruct K as ((Fa & Fb & O) & L & U).
  assert (Z : fin (@flit N 0.0%dec) /\ B2R (@flit N 0.0%dec) = 0) by f32_val. destruct Z as [F0 V0]. rewrite !ltb_ok by assumption. rewrite V0.
  destruct (Rlt_bool_spec (B2R a) 0), (Rlt_bool_spec (B2R b) 0); try lra; (split; [lra|]); (apply leF_leB; [repeat split; auto; lra|lra|lra]).
Qed.
Lemma pd_den_le x x' : leB 1 x x' -> leF (pd_den x') (pd_den x).
Proof.
  intros H. destruct (pl_c2 lm) as [F2 V2]. destruct (pl_c3 lm) as [F3 V3]. unfold c2q, c3q in *. apply (leB_F (2 * (19 + (2 * (19 * 1) + 1)) + 1)).
  apply lb_sub; [apply leB_c; [exact F2|rewrite V2; apply Rabs_le; lra]|apply lb_mul; [exact F3|rewrite V3; lra|exact H|lra]|lra].
Qed.
Lemma ST2084_dec_le x x' : leF x x' -> 0 <= B2R x -> B2R x' <= 1 -> leF (ST2084_to_Y N x) (ST2084_to_Y N x').
Proof.
  intros H A B. rewrite !ST2084_to_Y_eq. assert (E2 : fin (@fdiv N (@flit N 1.0%dec) (pq_m2 N)) /\ B2R (@fdiv N (@flit N 1.0%dec) (pq_m2 N)) = 3404651 / 268435456) by (unfold pq_m2; f32_val).
  assert (E1 : fin (@fdiv N (@flit N 1.0%dec) (pq_m1 N)) /\ B2R (@fdiv N (@flit N 1.0%dec) (pq_m1 N)) = 13164651 / 2097152) by (unfold pq_m1; f32_val). destruct E2 as [F2 V2], E1 as [F1 V1].
  destruct (lb_pow lm Ord _ x x' F2 ltac:(rewrite V2; lra) H A B) as [P P0]. fold (pd_np x) (pd_np x') in P, P0. set (p := pd_np x) in *. set (p' := pd_np x') in *. clearbody p p'.
  destruct (zero_one lm) as [_ [Fo Vo]].
  assert (T : leB 1 p' (@flit N 1%dec)). { destruct P as ((Fp & Fp' & O) & L & U). apply leF_leB; [repeat split; auto; rewrite Vo; lra|lra|rewrite Vo; lra]. }
  destruct (pd_num_le _ _ P) as [N0 NL]. destruct (pd_num_le _ _ T) as [N1 NT]. pose proof (pd_den_le _ _ P) as DL. pose proof (pd_den_le _ _ T) as DT.
  assert (D1 : fin (pd_den (@flit N 1%dec)) /\ B2R (pd_den (@flit N 1%dec)) = 0.1640625) by (unfold pd_den, pq_c2, pq_c3; f32_val). destruct D1 as [FD VD].
  assert (Q : leB (2 * (5 * 8) + 1) (@fdiv N (pd_num p) (pd_den p)) (@fdiv N (pd_num p') (pd_den p'))).
  { apply lb_div2; try assumption; try lra. destruct DT as (_ & _ & DT). lra. }
  assert (Q' : leB (2 * (5 * 8) + 1) (@fdiv N (pd_num p') (pd_den p')) (@fdiv N (pd_num (@flit N 1%dec)) (pd_den (@flit N 1%dec)))).
  { apply lb_div2; try assumption; try lra. }
  assert (Q1 : fin (@fdiv N (pd_num (@flit N 1%dec)) (pd_den (@flit N 1%dec))) /\ B2R (@fdiv N (pd_num (@flit N 1%dec)) (pd_den (@flit N 1%dec))) = 1) by (unfold pd_num, pd_den, pq_c1, pq_c2, pq_c3; f32_val).
  assert (Qz : 0 <= B2R (@fdiv N (pd_num p) (pd_den p))).
  { destruct NL as ((Fn & _) & _ & Un). destruct DL as (_ & Fd & Dd). destruct DT as (_ & _ & Dd'). assert (I : 0 < / B2R (pd_den p) <= 8). { split; [apply Rinv_0_lt_compat; lra|]. rewrite <- (Rinv_inv 8). apply Rinv_le; lra. }
    assert (Bn : B2R (pd_num p) <= 5) by (destruct NT as ((_ & _ & X) & _ & Y); destruct (pd_num_le _ _ P) as [_ ((_ & _ & X') & _)]; lra).
    destruct (div_ok lm (pd_num p) (pd_den p) Fn) as [_ V]; [lra|rewrite Rabs_pos_eq by (unfold Rdiv; nra); pose proof b127; unfold Rdiv; nra|]. rewrite V. apply rnd_ge_fmt; [apply generic_format_0|]. unfold Rdiv. nra. }
  set (q := @fdiv N (pd_num p) (pd_den p) : f32) in *. set (q' := @fdiv N (pd_num p') (pd_den p') : f32) in *. set (q1 := @fdiv N (pd_num (@flit N 1%dec)) (pd_den (@flit N 1%dec)) : f32) in *. clearbody q q' q1.
  destruct Q1 as [_ Vq]. destruct Q' as ((_ & _ & Q') & _). destruct (lb_pow lm Ord _ q q' F1 ltac:(rewrite V1; lra) (leB_F _ _ _ Q) Qz ltac:(lra)) as [R R0].
  destruct (pl_C lm) as [FC VC]. apply (leB_F (2 * (100 * 1) + 1)). apply lb_mul_r; [exact FC|rewrite VC; lra|exact R|lra].
Qed.
End F.
