(** * When [toHSV] returns, in binary32. *)
From Coq Require Import ZArith Reals Lra Lia List Bool.
From Flocq Require Import Core IEEE754.BinarySingleNaN.
From Verif Require Import Num NumF MVec MTri F32 PMod360 PMatF PHsv PHsvF PIvF PNan PLibm.
Local Open Scope R_scope.

Section Lm.
Variable lm : libm.
Local Notation N := (FN lm).
Local Notation nan := (B754_nan : f32).
Definition calm (x : f32) : Prop := x = nan \/ (fin x /\ Rabs (B2R x) <= bpow radix2 33).
Lemma b33 : bpow radix2 33 = 8589934592. Proof. reflexivity. Qed.
Lemma calm_mod x : calm x -> exists y, terminates_with (fun n => mod360 N n x) (Ret y).
Proof.
  intros [->|[F H]]; [exists nan; exact (mod360_terminates N 1 nan nan eq_refl)|].
  destruct (mod360_F_ex lm x F H) as (n & y & E & _). exists y. exact (mod360_terminates N n _ _ E).
Qed.
Lemma raw_calm t : calm (hsv_hue_raw N t) -> exists r, terminates_with (fun n => toHSV N n t) (Ret r).
Proof.
  intros H. destruct (calm_mod _ H) as (y & n & T). eexists. exists n. intros m Hm. split; [|discriminate]. unfold toHSV. cbv zeta.
  destruct (T m Hm) as [-> _]. cbn [bind]. reflexivity.
Qed.

(** ** Finite channels. *)
Lemma calm_fin x : fin x -> Rabs (B2R x) <= 64 -> calm x.
Proof. intros F H. right. split; [exact F|]. rewrite b33. lra. Qed.
Lemma calm_add x c : fin x -> Rabs (B2R x) <= 64 -> fin c -> 0 <= B2R c <= 240 -> calm (@fadd N x c).
Proof.
  intros Fx Hx Fc Hc. apply Rabs_le_inv in Hx. pose proof b127_big.
  destruct (add_ok lm x c Fx Fc) as [F V]; [apply Rabs_le; lra|]. right. split; [exact F|]. rewrite V.
  apply rnd_abs_le; [apply fmt_bpow; lia|]. rewrite b33. apply Rabs_le. lra.
Qed.
Lemma raw_fin t : allV fin t -> max3 (tR t) - min3 (tR t) <= bpow radix2 120 -> calm (hsv_hue_raw N t).
Proof.
  destruct t as [t0 t1 t2]. intros Ft HD. pose proof b127_big as BB. pose proof u16 as U.
  destruct (max3_F lm (V3 t0 t1 t2) Ft) as [FM VM]. destruct (min3_F lm (V3 t0 t1 t2) Ft) as [Fm Vm]. cbn [v0 v1 v2] in FM, VM, Fm, Vm.
  unfold hsv_hue_raw. cbv zeta. cbn [vref v0 v1 v2].
  pose proof (max3_ge (tR (V3 t0 t1 t2))) as (A0 & A1 & A2). pose proof (min3_le (tR (V3 t0 t1 t2))) as (B0 & B1 & B2).
  destruct Ft as (F0 & F1 & F2). cbn [v0 v1 v2] in F0, F1, F2.
  set (v := maxi N (maxi N t0 t1) t2) in *. set (mi := mini N (mini N t0 t1) t2) in *.
  set (M := max3 (tR (V3 t0 t1 t2))) in *. set (m := min3 (tR (V3 t0 t1 t2))) in *. unfold tR in *. cbn [v0 v1 v2] in *. clearbody M m v mi.
  assert (B127 : bpow radix2 127 = 128 * bpow radix2 120) by (change 127%Z with (7 + 120)%Z; rewrite (bpow_plus radix2 7 120); reflexivity).
  destruct (sub_ok lm v mi FM Fm) as [Fd Vd]; [rewrite VM, Vm; apply Rabs_le; lra|]. rewrite VM, Vm in Vd.
  pose proof (rnd_add_err (B2R v) (- B2R mi) (fmt_B2R v) (fmt_opp _ (fmt_B2R mi))) as ED. rewrite VM, Vm in ED.
  change (M + - m) with (M - m) in ED. rewrite (Rabs_pos_eq (M - m)) in ED by lra.
  destruct (PHsvF.l0 lm) as [FZ VZ]. rewrite !eqb_ok by assumption. rewrite VM, Vm.
  destruct (Req_EM_T M m) as [E|E].
  { rewrite (Req_bool_true M m) by exact E. apply calm_fin; [exact FZ|]. rewrite VZ, Rabs_R0. lra. }
  rewrite (Req_bool_false M m) by exact E. assert (D : 0 < M - m <= bpow radix2 120) by lra.
  destruct (Req_bool M (B2R t0)); [|destruct (Req_bool M (B2R t1))].
  - destruct (hue_quot lm t1 t2 _ (M - m) F1 F2 Fd D Vd ED) as (Fx & Hx & _); [apply Rabs_le; lra|]. exact (calm_fin _ Fx Hx).
  - destruct (hue_quot lm t2 t0 _ (M - m) F2 F0 Fd D Vd ED) as (Fx & Hx & _); [apply Rabs_le; lra|]. destruct (l120 lm) as [FL VL]. apply calm_add; auto. rewrite VL. lra.
  - destruct (hue_quot lm t0 t1 _ (M - m) F0 F1 Fd D Vd ED) as (Fx & Hx & _); [apply Rabs_le; lra|]. destruct (l240 lm) as [FL VL]. apply calm_add; auto. rewrite VL. lra.
Qed.

(** ** A channel that is not finite. *)
Lemma div_inf x : @fdiv N x (B754_infinity false) = nan \/ (fin (@fdiv N x (B754_infinity false)) /\ B2R (@fdiv N x (B754_infinity false)) = 0).
Proof. destruct x as [s|s| |s m e H]; [right|left|left|right]; try reflexivity; split; reflexivity. Qed.
Lemma calm_inf x : calm (@fdiv N x (B754_infinity false)).
Proof. destruct (div_inf x) as [H|[F H]]; [left; exact H|]. apply calm_fin; [exact F|]. rewrite H, Rabs_R0. lra. Qed.
Lemma calm_infadd x c : fin c -> 0 <= B2R c <= 240 -> calm (@fadd N (@fdiv N x (B754_infinity false)) c).
Proof.
  intros F H. destruct (div_inf x) as [E|[Fx E]]; [rewrite E; left; apply addl|]. apply calm_add; auto. rewrite E, Rabs_R0. lra.
Qed.
Lemma calm_nan : calm nan. Proof. left. reflexivity. Qed.
Lemma calm_0 : calm (@flit N 0%dec).
Proof. destruct (PHsvF.l0 lm) as [FZ VZ]. apply calm_fin; [exact FZ|]. rewrite VZ, Rabs_R0. lra. Qed.
Lemma raw_nan t : is_nan3 t -> calm (hsv_hue_raw N t).
Proof.
  destruct t as [a b c]. unfold is_nan3. cbn [v0 v1 v2]. intros H. unfold hsv_hue_raw. cbv zeta. cbn [vref v0 v1 v2].
  destruct H as [H|[H|H]]; subst.
  - set (M := maxi N (maxi N nan b) c). set (m := mini N (mini N nan b) c). destruct (@feqb N M m); [exact calm_0|]. rewrite eqr. cbv iota.
    destruct (@feqb N M b); rewrite ?subl, ?subr, ?mulr, ?divl, ?addl; exact calm_nan.
  - assert (E : maxi N (maxi N a nan) c = c) by (unfold maxi; rewrite ?ltl; cbv iota; rewrite ?ltr; reflexivity).
    assert (E' : mini N (mini N a nan) c = c) by (unfold mini; rewrite ?ltr; cbv iota; rewrite ?ltl; reflexivity). rewrite E, E'.
    destruct (@feqb N c c); [exact calm_0|]. destruct (@feqb N c a); rewrite ?eqr; cbv iota; rewrite ?subl, ?subr, ?mulr, ?divl, ?addl; exact calm_nan.
  - assert (E : maxi N (maxi N a b) nan = nan) by (unfold maxi at 1; rewrite ?ltl, ?ltr; reflexivity).
    assert (E' : mini N (mini N a b) nan = nan) by (unfold mini at 1; rewrite ?ltl, ?ltr; reflexivity). rewrite E, E', !eql. cbv iota. rewrite subl, divr, addl. exact calm_nan.
Qed.
Lemma maxi_inf a b : a <> nan -> b <> nan -> a = B754_infinity false \/ b = B754_infinity false -> maxi N a b = B754_infinity false.
Proof.
  intros A B [H|H]; subst; unfold maxi; [destruct b as [s|s| |s m e H]|destruct a as [s|s| |s m e H]]; try congruence; try destruct s; reflexivity.
Qed.
Lemma mini_inf a b : a <> nan -> b <> nan -> a = B754_infinity true \/ b = B754_infinity true -> mini N a b = B754_infinity true.
Proof.
  intros A B [H|H]; subst; unfold mini; [destruct b as [s|s| |s m e H]|destruct a as [s|s| |s m e H]]; try congruence; try destruct s; reflexivity.
Qed.
Lemma maxi_nn a b : a <> nan -> b <> nan -> maxi N a b <> nan.
Proof. unfold maxi. destruct (@fltb N b a); auto. Qed.
Lemma mini_nn a b : a <> nan -> b <> nan -> mini N a b <> nan.
Proof. unfold mini. destruct (@fltb N a b); auto. Qed.
Lemma sub_inf a b : a <> nan -> b <> nan -> @feqb N a b = false -> a = B754_infinity false \/ b = B754_infinity true -> @fsub N a b = B754_infinity false.
Proof.
  intros A B K [H|H]; subst; [destruct b as [s|s| |s m e H]|destruct a as [s|s| |s m e H]]; try congruence; try destruct s; try reflexivity; discriminate K.
Qed.
Lemma raw_inf a b c s : a <> nan -> b <> nan -> c <> nan -> a = B754_infinity s \/ b = B754_infinity s \/ c = B754_infinity s -> calm (hsv_hue_raw N (V3 a b c)).
Proof.
  intros A B C H. unfold hsv_hue_raw. cbv zeta. cbn [vref v0 v1 v2].
  pose proof (maxi_nn a b A B) as X1. pose proof (maxi_nn _ c X1 C) as X2. pose proof (mini_nn a b A B) as Y1. pose proof (mini_nn _ c Y1 C) as Y2.
  assert (E : maxi N (maxi N a b) c = B754_infinity false \/ mini N (mini N a b) c = B754_infinity true).
  { destruct s; [right|left].
    - apply mini_inf; auto. destruct H as [H|[H|H]]; [left|left|right; exact H]; apply mini_inf; auto.
    - apply maxi_inf; auto. destruct H as [H|[H|H]]; [left|left|right; exact H]; apply maxi_inf; auto. }
  set (M := maxi N (maxi N a b) c) in *. set (m := mini N (mini N a b) c) in *. clearbody M m.
  destruct (@feqb N M m) eqn:K; [exact calm_0|]. rewrite (sub_inf M m X2 Y2 K E). destruct (l120 lm) as [FL VL], (l240 lm) as [FL' VL'].
  destruct (@feqb N M a); [apply calm_inf|]. destruct (@feqb N M b); apply calm_infadd; auto; lra.
Qed.
Lemma toHSV_nonfin t : ~ allV fin t -> exists r, terminates_with (fun n => toHSV N n t) (Ret r).
Proof.
  intros H. apply raw_calm. destruct t as [a b c].
  assert (D : forall x : f32, fin x \/ x = nan \/ exists s, x = B754_infinity s).
  { intros x. destruct x as [s|s| |s m e K]; [left; reflexivity|right; right; exists s; reflexivity|right; left; reflexivity|left; reflexivity]. }
  assert (Dn : forall x : f32, x = nan \/ x <> nan). { intros x. destruct x; [right|right|left|right]; congruence. }
  destruct (Dn a) as [Ea|Ea]; [apply raw_nan; left; exact Ea|]. destruct (Dn b) as [Eb|Eb]; [apply raw_nan; right; left; exact Eb|]. destruct (Dn c) as [Ec|Ec]; [apply raw_nan; right; right; exact Ec|].
  destruct (D a) as [Fa|[Fa|[s Fa]]]; [|contradiction|apply (raw_inf a b c s); auto].
  destruct (D b) as [Fb|[Fb|[s Fb]]]; [|contradiction|apply (raw_inf a b c s); auto].
  destruct (D c) as [Fc|[Fc|[s Fc]]]; [|contradiction|apply (raw_inf a b c s); auto].
  exfalso. apply H. split; [exact Fa|]. split; assumption.
Qed.
Lemma toHSV_fin t : allV fin t -> max3 (tR t) - min3 (tR t) <= bpow radix2 120 -> exists r, terminates_with (fun n => toHSV N n t) (Ret r).
Proof. intros F H. apply raw_calm, raw_fin; assumption. Qed.

(** ** Very bright colours. *)
Lemma mul60_over (x : f32) : fin x -> bpow radix2 123 <= B2R x -> @fmul N (@flit N 60%dec) x = B754_infinity false.
Proof.
  intros F H. destruct (PHsvF.l60 lm) as [F60 V60]. pose proof (Bmult_correct 24 128 _ _ mode_NE (@flit N 60%dec) x) as C.
  change (SpecFloat.fexp 24 128) with fe in C. cbn [round_mode] in C. change (Bmult mode_NE) with (@fmul N) in C. rewrite V60 in C. fold (rnd (60 * B2R x)) in C.
  rewrite Rlt_bool_false in C.
  - destruct x as [s|s| |s m e K]; try discriminate F; [cbn in H; pose proof (bpow_gt_0 radix2 123); lra|].
    destruct s; [exfalso; pose proof (bpow_gt_0 radix2 123); cbn [B2R] in H; pose proof (F2R_lt_0 radix2 (Float radix2 (SpecFloat.cond_Zopp true (Zpos m)) e) eq_refl); lra|].
    set (q := @fmul N _ _) in *. assert (S60 : Bsign (@flit N 60%dec) = false) by (vm_compute; reflexivity). rewrite S60 in C. cbn [Bsign xorb] in C.
    destruct q as [s|s| |s m' e' K']; try discriminate C. injection C as ->. reflexivity.
  - apply Rle_trans with (rnd (60 * B2R x)); [|apply Rle_abs]. apply rnd_ge_fmt.
    + apply fmt_bpow. lia.
    + replace (bpow radix2 128) with (32 * bpow radix2 123) by (change 128%Z with (5 + 123)%Z; rewrite (bpow_plus radix2 5 123); reflexivity). pose proof (bpow_gt_0 radix2 123). lra.
Qed.
Lemma toHSV_hang (r g b : f32) : fin r -> fin g -> fin b -> 0 <= B2R b -> B2R g <= B2R r -> bpow radix2 123 <= B2R g - B2R b -> never_terminates (fun n => toHSV N n (V3 r g b)).
Proof.
  intros Fr Fg Fb Hb Hr Hg n. pose proof (bpow_gt_0 radix2 123) as P.
  destruct (max3_F lm (V3 r g b) (conj Fr (conj Fg Fb))) as [FM VM]. destruct (min3_F lm (V3 r g b) (conj Fr (conj Fg Fb))) as [Fm Vm]. cbn [v0 v1 v2] in FM, VM, Fm, Vm.
  assert (EM : max3 (tR (V3 r g b)) = B2R r). { unfold max3, tR. cbn [v0 v1 v2]. rewrite (Rmax_left (B2R r)) by lra. apply Rmax_left. lra. }
  assert (Em : min3 (tR (V3 r g b)) = B2R b). { unfold min3, tR. cbn [v0 v1 v2]. rewrite (Rmin_right (B2R r)) by lra. apply Rmin_right. lra. }
  rewrite EM in VM. rewrite Em in Vm.
  assert (X : hsv_hue_raw N (V3 r g b) = B754_infinity false).
  { unfold hsv_hue_raw. cbv zeta. cbn [vref v0 v1 v2]. set (M := maxi N (maxi N r g) b) in *. set (m := mini N (mini N r g) b) in *. clearbody M m.
    rewrite !eqb_ok by assumption. rewrite VM, Vm. rewrite Req_bool_false by lra. rewrite Req_bool_true by reflexivity.
    assert (B : forall x : f32, fin x -> Rabs (B2R x) < bpow radix2 128) by (intros; apply (abs_B2R_lt_emax 24 128)).
    pose proof (B r Fr) as Br. pose proof (B g Fg) as Bg. apply Rabs_lt_inv in Br, Bg.
    assert (G : fin (@fsub N g b) /\ bpow radix2 123 <= B2R (@fsub N g b)).
    { destruct (sub_gen lm g b Fg Fb) as [F V].
      - eapply Rle_lt_trans; [|apply (B g Fg)]. apply rnd_abs_le; [rewrite (Rabs_pos_eq (B2R g)) by lra; apply fmt_B2R|]. rewrite (Rabs_pos_eq (B2R g)) by lra. apply Rabs_le. lra.
      - split; [exact F|]. rewrite V. apply rnd_ge_fmt; [apply fmt_bpow; lia|exact Hg]. }
    rewrite (mul60_over _ (proj1 G) (proj2 G)).
    assert (D : fin (@fsub N M m) /\ bpow radix2 123 <= B2R (@fsub N M m)).
    { destruct (sub_gen lm M m FM Fm) as [F V].
      - rewrite VM, Vm. eapply Rle_lt_trans; [|apply (B r Fr)]. apply rnd_abs_le; [rewrite (Rabs_pos_eq (B2R r)) by lra; apply fmt_B2R|]. rewrite (Rabs_pos_eq (B2R r)) by lra. apply Rabs_le. lra.
      - split; [exact F|]. rewrite V, VM, Vm. apply rnd_ge_fmt; [apply fmt_bpow; lia|lra]. }
    destruct D as [FD HD]. set (d := @fsub N M m) in *. clearbody d.
    destruct d as [s|s| |s k e K]; try discriminate FD.
    - exfalso. cbn [B2R] in HD. lra.
    - destruct s; [exfalso; cbn [B2R] in HD; pose proof (F2R_lt_0 radix2 (Float radix2 (SpecFloat.cond_Zopp true (Zpos k)) e) eq_refl); lra|reflexivity]. }
  unfold toHSV. cbv zeta. rewrite X, (mod360_F_inf lm false n). reflexivity.
Qed.
(** ** The arctangent variant. *)
Definition bounded_atan2 : Prop := forall y x : f32, lm_atan2f lm y x = nan \/ (fin (lm_atan2f lm y x) /\ Rabs (B2R (lm_atan2f lm y x)) <= 4).
Lemma atan_all t : bounded_atan2 -> exists r, terminates_with (fun n => toHSV_atan N n t) (Ret r).
Proof.
  intros B. assert (C : forall y x : f32, calm (@fmul N (@fdiv N (@flit N 180%dec) (@fpi N)) (@fatan2 N y x))).
  { intros y x. change (@fatan2 N y x) with (lm_atan2f lm y x). destruct (B y x) as [E|[F H]]; [rewrite E, mulr; exact calm_nan|].
    set (z := lm_atan2f lm y x) in *. clearbody z. assert (K : iv (@fdiv N (@flit N 180%dec) (@fpi N)) 57 58) by litv. destruct K as [Fk Hk].
    set (k := @fdiv N _ _) in *. clearbody k. pose proof b127_big.
    assert (P : Rabs (B2R k * B2R z) <= 232). { rewrite Rabs_mult, (Rabs_pos_eq (B2R k)) by lra. pose proof (Rabs_pos (B2R z)). nra. }
    destruct (mul_ok lm k z Fk F) as [Fm Vm]; [lra|]. right. split; [exact Fm|]. rewrite Vm. apply rnd_abs_le; [apply fmt_bpow; lia|]. rewrite b33. lra. }
  destruct (calm_mod _ (C (@fmul N (@fsqrt N (@flit N 3%dec)) (@fsub N t.[1] t.[2])) (@fsub N (@fsub N (@fmul N (@flit N 2%dec) t.[0]) t.[1]) t.[2]))) as (y & n & T).
  eexists. exists n. intros m Hm. split; [|discriminate]. unfold toHSV_atan. cbv zeta. destruct (T m Hm) as [E _]. rewrite E. cbn [bind]. reflexivity.
Qed.
End Lm.
Lemma hang_case : exists lm, bounded_atan2 lm /\ accurate lm /\ let r := lit 24 128 p24 p24e 3e38%dec in let g := lit 24 128 p24 p24e 1e38%dec in let b := lit 24 128 p24 p24e 1%dec in
  fin r /\ fin g /\ fin b /\ 0 <= B2R b /\ B2R g <= B2R r /\ bpow radix2 123 <= B2R g - B2R b.
Proof.
  destruct accurate_exists as [a A]. exists (mkLibm (lm_powf a) (lm_expf a) (lm_logf a) (lm_log10f a) (lm_sinf a) (lm_cosf a) (fun _ _ => lit 24 128 p24 p24e 1%dec) (lm_fmodf a) (lm_cbrtf a) (lm_pow a) (lm_exp a)).
  assert (C : iv (lit 24 128 p24 p24e 1%dec) 1 1) by litv. assert (R : iv (lit 24 128 p24 p24e 3e38%dec) 2.9e38 3.1e38) by litv. assert (G : iv (lit 24 128 p24 p24e 1e38%dec) 0.9e38 1.1e38) by litv.
  destruct C as [FC HC], R as [FR HR], G as [FG HG].
  assert (B : bpow radix2 123 = 10633823966279326983230456482242756608) by reflexivity.
  split; [intros y x; right; split; [exact FC|]; cbn [lm_atan2f]; apply Rabs_le; lra|]. split; [destruct A; constructor; assumption|]. cbv zeta. repeat split; try assumption; lra.
Qed.
