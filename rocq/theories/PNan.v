(** * What happens to a NaN. *)
From Coq Require Import ZArith Reals Lra Lia List Bool.
From Flocq Require Import Core IEEE754.BinarySingleNaN.
From Verif Require Import Num NumF MVec MTri MOtf MDelta MSpectrum F32 PMod360 PSpecF PIvF PLibm PMatF PHsvF.
Import ListNotations.

Definition is_nan3 (t : Vector3 f32) : Prop := v0 t = B754_nan \/ v1 t = B754_nan \/ v2 t = B754_nan.
Definition nan3 : Vector3 f32 := V3 B754_nan B754_nan B754_nan.
Definition nan9 : Matrix3 f32 := M3 B754_nan B754_nan B754_nan B754_nan B754_nan B754_nan B754_nan B754_nan B754_nan.
Definition is_nan9 (m : Matrix3 f32) : Prop := exists i, (0 <= i < 9)%Z /\ M_index m i = Ret B754_nan.
(** What C says of the library functions at a NaN (C17 F.10: a NaN argument gives a NaN result,
    except for pow(1, y) and pow(x, 0)). *)
Record nan_libm (lm : libm) : Prop := {
  nan_powl : forall y, ~ (fin y /\ B2R y = 0%R) -> lm_powf lm B754_nan y = B754_nan;
  nan_powr : forall x, ~ (fin x /\ B2R x = 1%R) -> lm_powf lm x B754_nan = B754_nan;
  nan_exp : lm_expf lm B754_nan = B754_nan;
  nan_log : lm_logf lm B754_nan = B754_nan;
  nan_log10 : lm_log10f lm B754_nan = B754_nan;
  nan_cbrt : lm_cbrtf lm B754_nan = B754_nan;
  nan_atan2l : forall x, lm_atan2f lm B754_nan x = B754_nan;
  nan_atan2r : forall x, lm_atan2f lm x B754_nan = B754_nan }.

Lemma rnd_absE x : rnd (Rabs x) = Rabs (rnd x).
Proof.
  unfold Rabs at 1. destruct (Rcase_abs x) as [H|H]; [rewrite rnd_opp, Rabs_left1; [reflexivity|apply rnd_le_fmt; [apply fmt_0|lra]]|rewrite Rabs_pos_eq; [reflexivity|apply rnd_ge_fmt; [apply fmt_0|lra]]].
Qed.
Section Lm.
Variable lm : libm.
Local Notation N := (FN lm).
Local Notation nan := (B754_nan : f32).
Local Ltac t x := destruct x; reflexivity.
Lemma addl x : @fadd N nan x = nan. Proof. t x. Qed.
Lemma addr x : @fadd N x nan = nan. Proof. t x. Qed.
Lemma subl x : @fsub N nan x = nan. Proof. t x. Qed.
Lemma subr x : @fsub N x nan = nan. Proof. t x. Qed.
Lemma mull x : @fmul N nan x = nan. Proof. t x. Qed.
Lemma mulr x : @fmul N x nan = nan. Proof. t x. Qed.
Lemma divl x : @fdiv N nan x = nan. Proof. t x. Qed.
Lemma divr x : @fdiv N x nan = nan. Proof. t x. Qed.
Lemma oppn : @fopp N nan = nan. Proof. reflexivity. Qed.
Lemma sqrtn : @fsqrt N nan = nan. Proof. reflexivity. Qed.
Lemma ltl x : @fltb N nan x = false. Proof. t x. Qed.
Lemma ltr x : @fltb N x nan = false. Proof. t x. Qed.
Lemma lel x : @fleb N nan x = false. Proof. t x. Qed.
Lemma ler x : @fleb N x nan = false. Proof. t x. Qed.
Lemma eql x : @feqb N nan x = false. Proof. t x. Qed.
Lemma eqr x : @feqb N x nan = false. Proof. t x. Qed.
Lemma wid : @widen N nan = (B754_nan : f64). Proof. reflexivity. Qed.
Lemma nar : @narrow N (B754_nan : f64) = nan. Proof. reflexivity. Qed.
Lemma daddl x : @dadd N (B754_nan : f64) x = B754_nan. Proof. t x. Qed.
Lemma dmull x : @dmul N (B754_nan : f64) x = B754_nan. Proof. t x. Qed.
Lemma ddivl x : @ddiv N (B754_nan : f64) x = B754_nan. Proof. t x. Qed.
Hint Rewrite addl addr subl subr mull mulr divl divr oppn sqrtn ltl ltr lel ler eql eqr wid nar daddl dmull ddivl : nan.
Local Ltac nn := repeat (progress (autorewrite with nan; cbv iota)).

(** ** Matrices. *)
Lemma apply_nan m t : is_nan3 t -> M_apply N m t = nan3.
Proof.
  destruct t as [a b c]. intros [H|[H|H]]; cbn [v0 v1 v2] in H; subst; unfold M_apply; cbn [vref v0 v1 v2]; nn; reflexivity.
Qed.
Lemma det_nan m : is_nan9 m -> M_det N m = nan.
Proof.
  intros (i & Hi & H). destruct m as [a b c d e f g h k]. unfold M_det.
  cbn [mref I Z.add Z.sub Z.mul Z.opp Pos.mul Pos.add Pos.sub Pos.succ Z.pos_sub Z.succ_double Z.pred_double Z.double Pos.pred_double m0 m1 m2 m3 m4 m5 m6 m7 m8].
  assert (D : (i = 0 \/ i = 1 \/ i = 2 \/ i = 3 \/ i = 4 \/ i = 5 \/ i = 6 \/ i = 7 \/ i = 8)%Z) by lia.
  repeat (destruct D as [D|D]; [subst i; cbn [M_index m0 m1 m2 m3 m4 m5 m6 m7 m8] in H; injection H as H; subst; nn; reflexivity|]).
  subst i; cbn [M_index m0 m1 m2 m3 m4 m5 m6 m7 m8] in H; injection H as H; subst; nn; reflexivity.
Qed.
Lemma invert_nan m : is_nan9 m -> M_invert N m = nan9.
Proof. intros H. unfold M_invert. rewrite (det_nan m H). unfold M_scale. nn. reflexivity. Qed.
Lemma mulM_nan a b : is_nan9 a \/ is_nan9 b -> is_nan9 (M_mul N a b).
Proof.
  destruct a as [a0 a1 a2 a3 a4 a5 a6 a7 a8], b as [b0 b1 b2 b3 b4 b5 b6 b7 b8]. unfold M_mul.
  cbn [mref M Z.add Z.sub Z.mul Z.opp Pos.mul Pos.add Pos.sub Pos.succ Z.pos_sub Z.succ_double Z.pred_double Z.double Pos.pred_double m0 m1 m2 m3 m4 m5 m6 m7 m8].
  intros [(i & Hi & H)|(i & Hi & H)].
  - assert (D : (i = 0 \/ i = 1 \/ i = 2 \/ i = 3 \/ i = 4 \/ i = 5 \/ i = 6 \/ i = 7 \/ i = 8)%Z) by lia.
    exists (3 * (i / 3))%Z.
    repeat (destruct D as [D|D]; [subst i; cbn [M_index m0 m1 m2 m3 m4 m5 m6 m7 m8] in H; injection H as H; subst; split; [cbn; lia|]; cbn -[fadd fmul]; nn; reflexivity|]).
    subst i; cbn [M_index m0 m1 m2 m3 m4 m5 m6 m7 m8] in H; injection H as H; subst; split; [cbn; lia|]; cbn -[fadd fmul]; nn; reflexivity.
  - assert (D : (i = 0 \/ i = 1 \/ i = 2 \/ i = 3 \/ i = 4 \/ i = 5 \/ i = 6 \/ i = 7 \/ i = 8)%Z) by lia.
    exists (Z.modulo i 3)%Z.
    repeat (destruct D as [D|D]; [subst i; cbn [M_index m0 m1 m2 m3 m4 m5 m6 m7 m8] in H; injection H as H; subst; split; [cbn; lia|]; cbn -[fadd fmul]; nn; reflexivity|]).
    subst i; cbn [M_index m0 m1 m2 m3 m4 m5 m6 m7 m8] in H; injection H as H; subst; split; [cbn; lia|]; cbn -[fadd fmul]; nn; reflexivity.
Qed.
Lemma mulM_all m x : M_mul N m (M_diag N nan3) = nan9 /\ M_mul N nan9 x = nan9.
Proof.
  destruct m as [a0 a1 a2 a3 a4 a5 a6 a7 a8]. unfold M_mul, M_diag, nan3, nan9.
  cbn [mref vref v0 v1 v2 M Z.add Z.sub Z.mul Z.opp Pos.mul Pos.add Pos.sub Pos.succ Z.pos_sub Z.succ_double Z.pred_double Z.double Pos.pred_double m0 m1 m2 m3 m4 m5 m6 m7 m8].
  nn. split; reflexivity.
Qed.
Lemma bradford_nan ws wd : is_nan3 ws \/ is_nan3 wd -> Bradford N ws wd = nan9.
Proof.
  intros H. unfold Bradford. cbv zeta. unfold G_fromXYZ_t. set (a := M_apply N _ ws). set (b := M_apply N _ wd). set (l := g_toXYZ _). set (r := g_fromXYZ _).
  assert (E : V3 (b.[0] / a.[0])%num (b.[1] / a.[1])%num (b.[2] / a.[2])%num = nan3).
  { destruct H as [H|H]; [unfold a|unfold b]; rewrite (apply_nan _ _ H); unfold nan3; cbn [vref v0 v1 v2]; nn; reflexivity. }
  rewrite E. rewrite (proj1 (mulM_all l r)). apply (mulM_all l r).
Qed.

(** ** Conversions. *)
Lemma absn : abs_f N nan = nan. Proof. unfold abs_f. nn. reflexivity. Qed.
Hint Rewrite absn : nan.
Lemma toYxy_nan t : is_nan3 t -> is_nan3 (toYxy N t).
Proof.
  destruct t as [a b c]. unfold toYxy, toYxy3, x_from_XYZ, y_from_XYZ, Y_from_XYZ, is_nan3. cbn [vref v0 v1 v2].
  intros [H|[H|H]]; subst; nn; auto.
Qed.
Lemma toYxy_nan2 t : is_nan3 t -> v1 (toYxy N t) = nan /\ v2 (toYxy N t) = nan.
Proof.
  destruct t as [a b c]. unfold toYxy, toYxy3, x_from_XYZ, y_from_XYZ, Y_from_XYZ, abs_f, is_nan3. cbn [vref v0 v1 v2].
  intros [H|[H|H]]; subst; nn; auto.
Qed.
Lemma fromYxy_nan t : is_nan3 t -> (v1 t = B754_nan -> @fltb N (abs_f N (v2 t)) (flit 1e-8) = false) -> is_nan3 (fromYxy N t).
Proof.
  destruct t as [a b c]. unfold fromYxy, fromYxy3, X_from_Yxy, Z_from_Yxy, Y_from_Yxy, is_nan3. cbn [vref v0 v1 v2].
  intros [H|[H|H]] K; subst; nn; auto. rewrite K by reflexivity. nn. auto.
Qed.
Lemma fromYuv_nan t : is_nan3 t -> is_nan3 (fromYuv N t).
Proof.
  intros H. unfold fromYuv. assert (E : v0 (YuvToYxy N t) = nan \/ v2 (YuvToYxy N t) = nan).
  { destruct t as [a b c]. unfold YuvToYxy, x_from_uv, y_from_uv. unfold is_nan3 in H. cbn [vref v0 v1 v2] in *. destruct H as [H|[H|H]]; subst; nn; auto. }
  destruct (YuvToYxy N t) as [a b c]. unfold fromYxy, fromYxy3, X_from_Yxy, Z_from_Yxy, Y_from_Yxy, is_nan3. cbn [vref v0 v1 v2] in *.
  destruct E; subst; nn; auto.
Qed.
Lemma toYuv_nan t : is_nan3 t -> is_nan3 (toYuv N t).
Proof.
  intros H. apply toYxy_nan in H. unfold toYuv. destruct (toYxy N t) as [a b c]. unfold YxyToYuv, u_from_xy, v_from_xy, is_nan3 in *. cbn [vref v0 v1 v2] in *.
  destruct H as [H|[H|H]]; subst; nn; auto.
Qed.
Lemma toYuv_nan2 t : is_nan3 t -> v1 (toYuv N t) = nan /\ v2 (toYuv N t) = nan.
Proof.
  intros H. apply toYxy_nan2 in H. unfold toYuv. destruct (toYxy N t) as [a b c]. unfold YxyToYuv, u_from_xy, v_from_xy. cbn [vref v0 v1 v2] in *.
  destruct H; subst; nn; auto.
Qed.
Lemma chroma_nan t : is_nan3 t -> v1 (toYxy N t) = nan /\ v2 (toYxy N t) = nan /\ v1 (toYuv N t) = nan /\ v2 (toYuv N t) = nan.
Proof. intros H. destruct (toYxy_nan2 t H), (toYuv_nan2 t H). auto. Qed.
Lemma curven : CIELAB_curve N nan = nan. Proof. unfold CIELAB_curve. cbv zeta. nn. reflexivity. Qed.
Lemma decurven : CIELAB_decurve N nan = nan. Proof. unfold CIELAB_decurve. cbv zeta. nn. reflexivity. Qed.
Hint Rewrite curven decurven : nan.
Lemma toLab_nan t w : is_nan3 t -> is_nan3 (toCIELAB N t w).
Proof.
  destruct t as [a b c]. unfold toCIELAB, is_nan3. cbn [vref v0 v1 v2]. intros [H|[H|H]]; subst; nn; auto.
Qed.
Lemma fromLab_nan t w : is_nan3 t -> is_nan3 (fromCIELAB N t w).
Proof.
  destruct t as [a b c]. unfold fromCIELAB, is_nan3. cbn [vref v0 v1 v2]. intros [H|[H|H]]; subst; nn; auto.
Qed.
Lemma mod360_range n r y : mod360 N n r = Ret y -> y = nan \/ (fin y /\ (0 <= B2R y <= 360)%R).
Proof.
  revert r. induction n as [|n IH]; intros r; [discriminate|]. cbn [mod360].
  destruct (@fltb N r (flit 0%dec)) eqn:E; [apply IH|]. destruct (@fltb N (flit 360%dec) r) eqn:E2; [apply IH|].
  intros K. injection K as <-. destruct (v360 lm) as [F3 W3], (v0f lm) as [F0 W0].
  destruct (is_finite r) eqn:Fr.
  - right. split; [exact Fr|]. rewrite ltb_ok in E, E2 by assumption. rewrite W0 in E. rewrite W3 in E2.
    destruct (Rlt_bool_spec (B2R r) 0); [discriminate|]. destruct (Rlt_bool_spec 360 (B2R r)); [discriminate|]. lra.
  - destruct r as [s|s| |s m e H]; try discriminate; [|left; reflexivity]. destruct s; [discriminate E|discriminate E2].
Qed.
Lemma fromHSV_nan n t r : is_nan3 t -> fromHSV N n t = Ret r -> is_nan3 r.
Proof.
  destruct t as [h s v]. unfold fromHSV, is_nan3. cbn [vref v0 v1 v2]. intros H.
  destruct (mod360 N n h) as [h'| | |] eqn:E; cbn [bind]; try discriminate.
  pose proof (mod360_range _ _ _ E) as [R|[Fh R]]; [subst h'; nn; discriminate|].
  assert (Hn : s = nan \/ v = nan). { destruct H as [H|H]; [|tauto]. subst h. destruct n as [|n]; [discriminate|]. rewrite mod360_F_nan in E. injection E as <-. discriminate Fh. }
  destruct (l60 lm) as [F60 V60]. pose proof b127_big as BB.
  destruct (div_ok lm h' (@flit N 60%dec) Fh) as [Fq Vq]; [rewrite V60; lra|rewrite V60; apply Rabs_le; lra|]. rewrite V60 in Vq.
  assert (Hq : (0 <= B2R (@fdiv N h' (@flit N 60%dec)) <= 6)%R).
  { rewrite Vq. split; [apply rnd_ge_fmt; [apply fmt_0|lra]|apply rnd_le_fmt; [apply (fmt_IZR 6); cbn; lia|lra]]. }
  set (q := @fdiv N h' _) in *. clearbody q. change (@ftoint N) with f32_toint.
  rewrite (toint_some q Fq) by (change (IZR (- 2 ^ 31)) with (-2147483648)%R; change (IZR (2 ^ 31 - 1)) with 2147483647%R; lra).
  cbn [of_option bind]. assert (Hk : (0 <= Ztrunc (B2R q) <= 6)%Z).
  { split; [rewrite <- (Ztrunc_IZR 0)|rewrite <- (Ztrunc_IZR 6)]; apply Ztrunc_le; lra. }
  set (k := Ztrunc (B2R q)) in *. clearbody k.
  pose proof (Z.rem_bound_pos k 6 ltac:(lia) ltac:(lia)) as Hi. set (i := Z.rem k 6) in *. clearbody i.
  assert (D : (i = 0 \/ i = 1 \/ i = 2 \/ i = 3 \/ i = 4 \/ i = 5)%Z) by lia.
  destruct Hn; subst; nn; destruct D as [->|[->|[->|[->|[->| ->]]]]]; cbn [Z.eqb Pos.eqb]; intros Er; injection Er as <-; cbn [v0 v1 v2]; auto.
Qed.

(** ** Differences. *)
Lemma UV_nan a b : v1 a = nan \/ v2 a = nan \/ v1 b = nan \/ v2 b = nan -> Delta_UV N a b = nan.
Proof. destruct a as [a0 a1 a2], b as [b0 b1 b2]. unfold Delta_UV. cbn [vref v0 v1 v2]. intros [H|[H|[H|H]]]; subst; nn; reflexivity. Qed.
Lemma E76_nan a b : is_nan3 a \/ is_nan3 b -> Delta_E76 N a b = nan.
Proof. destruct a as [a0 a1 a2], b as [b0 b1 b2]. unfold Delta_E76, is_nan3. cbn [vref v0 v1 v2]. intros [[H|[H|H]]|[H|[H|H]]]; subst; nn; reflexivity. Qed.
Lemma E00_nan a b kl kc kh : is_nan3 a \/ is_nan3 b -> Delta_E00 N a b kl kc kh = nan.
Proof. 
  destruct a as [a0 a1 a2], b as [b0 b1 b2]. unfold Delta_E00, is_nan3. cbn [vref v0 v1 v2].
  generalize (e00_Rt N) (e00_T N) (e00_Sl N) (e00_HdBar N) (e00_deltah N) (e00_hue N) (e00_G N). intros f0 f1 f2 f3 f4 f5 f6.
  intros [[H|[H|H]]|[H|[H|H]]]; subst; cbv zeta; nn; reflexivity. Qed.

(** ** Spectra. *)
Lemma sum_nan (s : list f32) n i : (i <= n)%nat -> sref N s i = nan -> sumHelper N s n = nan.
Proof.
  intros Hi H. induction n as [|n IH]; cbn [sumHelper].
  - assert (i = 0)%nat by lia. subst. exact H.
  - destruct (Nat.eq_dec i (S n)) as [->|K]; [rewrite H; nn; reflexivity|]. rewrite IH by lia. nn. reflexivity.
Qed.
Lemma dot_nan (s x : list f32) n i : (i <= n)%nat -> sref N s i = nan \/ sref N x i = nan -> dotHelper N s x n = nan.
Proof.
  intros Hi H. induction n as [|n IH]; cbn [dotHelper].
  - assert (i = 0)%nat by lia. subst. destruct H as [H|H]; rewrite H; nn; reflexivity.
  - destruct (Nat.eq_dec i (S n)) as [->|K]; [destruct H as [H|H]; rewrite H; nn; reflexivity|]. rewrite IH by lia. nn. reflexivity.
Qed.
Lemma dot3_nan (s x y : list f32) n i : (i <= n)%nat -> sref N s i = nan \/ sref N x i = nan \/ sref N y i = nan -> dotHelper3 N s x y n = nan.
Proof.
  intros Hi H. induction n as [|n IH]; cbn [dotHelper3].
  - assert (i = 0)%nat by lia. subst. destruct H as [H|[H|H]]; rewrite H; nn; reflexivity.
  - destruct (Nat.eq_dec i (S n)) as [->|K]; [destruct H as [H|[H|H]]; rewrite H; nn; reflexivity|]. rewrite IH by lia. nn. reflexivity.
Qed.
Lemma fromSpectrum_nan o (s : list f32) i : (i < 400)%nat -> nth_error s i = Some nan -> fromSpectrum N o s = nan3.
Proof.
  intros Hi H. apply nth_error_nth with (d := @fnan N) in H. change (sref N s i = nan) in H. unfold fromSpectrum, SpectrumIntegrate, S_dot, T_mul. cbn [vref v0 v1 v2].
  rewrite !(dot_nan s _ 399 i) by (lia || auto). nn. reflexivity.
Qed.
Lemma fromRef_nan o (s l : list f32) i : (i < 400)%nat -> nth_error s i = Some nan \/ nth_error l i = Some nan -> fromReflectanceAndLight N o s l = nan3.
Proof.
  intros Hi H. assert (K : sref N s i = nan \/ sref N l i = nan) by (destruct H as [H|H]; apply nth_error_nth with (d := @fnan N) in H; [left|right]; exact H).
  unfold fromReflectanceAndLight, SpectrumIntegrate3, S_dot3, T_mul. cbn [vref v0 v1 v2].
  rewrite !(dot3_nan s _ _ 399 i) by (lia || tauto). nn. reflexivity.
Qed.

(** ** Where it disappears. *)
Lemma toHSV_green (r b : f32) : fin r -> fin b -> exists h s : f32, terminates_with (fun n => toHSV N n (V3 r nan b)) (Ret (V3 h s b)) /\ fin h /\ fin s /\ B2R h = 0%R /\ B2R s = 0%R.
Proof.
  intros Fr Fb. destruct (v0f lm) as [F0 W0]. assert (E : forall x y, maxi N (maxi N x nan) y = y) by (intros; unfold maxi; nn; reflexivity).
  assert (E' : forall x y, mini N (mini N x nan) y = y) by (intros; unfold mini; nn; reflexivity).
  assert (Eb : @feqb N b b = true). { rewrite eqb_ok by assumption. apply Req_bool_true. reflexivity. }
  assert (Hs : let d := @fsub N b b in let s := if @feqb N b (flit 0%dec) then flit 0%dec else @fdiv N d b in fin s /\ B2R s = 0%R).
  { cbv zeta. rewrite eqb_ok by assumption. rewrite W0. destruct (Req_bool_spec (B2R b) 0) as [Z|Z]; [split; assumption|].
    destruct (sub_ok lm b b Fb Fb) as [Fd Vd]; [rewrite Rminus_diag_eq, Rabs_R0 by reflexivity; apply bpow_ge_0|].
    rewrite Rminus_diag_eq, rnd_0 in Vd by reflexivity.
    destruct (div_ok lm (@fsub N b b) b Fd Z) as [Fq Vq]; rewrite Vd in *; unfold Rdiv in *; rewrite Rmult_0_l in *; [rewrite Rabs_R0; apply bpow_ge_0|]. rewrite rnd_0 in Vq. split; assumption. }
  exists (@flit N 0%dec), (if @feqb N b (@flit N 0%dec) then @flit N 0%dec else @fdiv N (@fsub N b b) b). split; [|split; [exact F0|split; [exact (proj1 Hs)|split; [exact W0|exact (proj2 Hs)]]]].
  exists 1%nat. intros n Hn. destruct n as [|n]; [lia|]. split; [|discriminate]. unfold toHSV, hsv_hue_raw. cbv zeta. cbn [vref v0 v1 v2]. rewrite E, E', Eb.
  rewrite (mod360_F_in lm n (@flit N 0%dec) F0) by (rewrite W0; lra). reflexivity.
Qed.
Lemma slog2_nan : SLog2_to_Y N nan = @flit N 0%dec.
Proof. unfold SLog2_to_Y, CV_to_IRE_SLog2. cbv zeta. nn. reflexivity. Qed.
Lemma fromYxy_lost Y : fromYxy N (V3 Y nan (@flit N 0%dec)) = V3 (@flit N 0%dec) Y (@flit N 0%dec).
Proof. reflexivity. Qed.

(** ** With the library functions. *)
Definition nzb (x : f32) : bool := match B2SF x with SpecFloat.S754_zero _ => false | _ => true end.
Lemma nz_ok x : nzb x = true -> ~ (fin x /\ B2R x = 0%R).
Proof.
  destruct x as [s|s| |s m e H]; cbn; intros K [F E]; try discriminate.
  apply (eq_0_F2R radix2) in E. destruct s; discriminate.
Qed.
Hypothesis L : nan_libm lm.
Lemma pown y : nzb y = true -> @fpow N nan y = nan.
Proof. intros H. apply (nan_powl _ L), nz_ok, H. Qed.
Lemma pow10n : @fpow N (@flit N 10%dec) nan = nan.
Proof.
  apply (nan_powr _ L). assert (K : iv (@flit N 10%dec) 10 10) by litv. destruct K as [_ K]. intros [_ E]. rewrite E in K. lra.
Qed.
Lemma expn : @fexp N nan = nan. Proof. apply L. Qed.
Lemma logn : @flog N nan = nan. Proof. apply L. Qed.
Lemma log10n : @flog10 N nan = nan. Proof. apply L. Qed.
Lemma cbrtn : @fcbrt N nan = nan. Proof. apply L. Qed.
Lemma atl x : @fatan2 N nan x = nan. Proof. apply L. Qed.
Lemma atr x : @fatan2 N x nan = nan. Proof. apply L. Qed.
Hint Rewrite pow10n expn logn log10n cbrtn atl atr : nan.
Local Ltac pw := rewrite pown by (vm_compute; reflexivity).
Lemma c_st1 : ST2084_to_Y N nan = nan. Proof. unfold ST2084_to_Y. cbv zeta. pw. nn. pw. nn. reflexivity. Qed.
Lemma c_st2 : Y_to_ST2084 N nan = nan. Proof. unfold Y_to_ST2084. cbv zeta. nn. pw. nn. pw. reflexivity. Qed.
Lemma c_s1 : Y_to_sRGB N nan = nan. Proof. unfold Y_to_sRGB. nn. pw. nn. reflexivity. Qed.
Lemma c_s2 : sRGB_to_Y N nan = nan. Proof. unfold sRGB_to_Y. nn. pw. nn. reflexivity. Qed.
Lemma c_b1 : Y_to_BT709 N nan = nan. Proof. unfold Y_to_BT709. nn. pw. nn. reflexivity. Qed.
Lemma c_b2 : BT709_to_Y N nan = nan. Proof. unfold BT709_to_Y. nn. pw. nn. reflexivity. Qed.
Lemma c_h1 : Y_to_HLG N nan = nan. Proof. unfold Y_to_HLG. nn. reflexivity. Qed.
Lemma c_h2 : HLG_to_Y N nan = nan. Proof. unfold HLG_to_Y. nn. reflexivity. Qed.
Lemma c_l1 : Y_to_SLog N nan = nan. Proof. unfold Y_to_SLog. cbv zeta. nn. reflexivity. Qed.
Lemma c_l2 : SLog_to_Y N nan = nan. Proof. unfold SLog_to_Y. nn. reflexivity. Qed.
Lemma c_l31 : Y_to_SLog3 N nan = nan. Proof. unfold Y_to_SLog3. cbv zeta. nn. reflexivity. Qed.
Lemma c_l32 : SLog3_to_Y N nan = nan. Proof. unfold SLog3_to_Y. nn. reflexivity. Qed.
Lemma c_l21 : Y_to_SLog2 N nan = nan. Proof. unfold Y_to_SLog2, IRE_to_CV_SLog2. cbv zeta. nn. reflexivity. Qed.
Lemma recip_nz g : (forall s, g <> B754_infinity s) -> ~ (fin (@fdiv N (@flit N 1%dec) g) /\ B2R (@fdiv N (@flit N 1%dec) g) = 0%R).
Proof.
  intros H [F E]. destruct (is_finite g) eqn:Fg; [|destruct g as [s|s| |s m e B]; try discriminate; apply (H s); reflexivity].
  destruct (Req_dec (B2R g) 0) as [Z|Z].
  { destruct g as [s|s| |s m e B]; try discriminate. apply (eq_0_F2R radix2) in Z; destruct s; discriminate Z. }
  destruct (PHsvF.l1 lm) as [F1 W1]. pose proof (Bdiv_correct 24 128 _ _ mode_NE (@flit N 1%dec) g Z) as C. change (SpecFloat.fexp 24 128) with fe in C. cbn [round_mode] in C.
  change (Bdiv mode_NE) with (@fdiv N) in C. rewrite W1 in C. fold (rnd (1 / B2R g)) in C. destruct (Rlt_bool _ _) in C.
  - destruct C as [C _]. rewrite E in C. pose proof (abs_B2R_lt_emax 24 128 g) as K.
    assert (K2 : (bpow radix2 (-128) <= Rabs (1 / B2R g))%R).
    { unfold Rdiv. rewrite Rmult_1_l, Rabs_inv by exact Z. change (-128)%Z with (- (128))%Z. rewrite bpow_opp. apply Rinv_le; [apply Rabs_pos_lt, Z|lra]. }
    pose proof (rnd_ge_fmt _ _ (fmt_bpow (-128) ltac:(lia)) K2) as K3. rewrite rnd_absE, <- C, Rabs_R0 in K3. pose proof (bpow_gt_0 radix2 (-128)). lra.
  - unfold fin in F. destruct (@fdiv N (@flit N 1%dec) g); try discriminate C; discriminate F.
Qed.
Lemma c_g1 g : (forall s, g <> B754_infinity s) -> gamma N nan g = nan.
Proof. intros H. apply (nan_powl _ L), recip_nz, H. Qed.
Lemma c_g2 g : ~ (fin g /\ B2R g = 0%R) -> degamma N nan g = nan.
Proof. intros H. apply (nan_powl _ L), H. Qed.
Definition keeps (f : Vector3 f32 -> Vector3 f32) : Prop :=
  forall t, (v0 t = B754_nan -> v0 (f t) = B754_nan) /\ (v1 t = B754_nan -> v1 (f t) = B754_nan) /\ (v2 t = B754_nan -> v2 (f t) = B754_nan).
Lemma toScreen_nan ty g : (ty = GAMMA -> forall s, g <> B754_infinity s) -> keeps (fun t => toScreen N ty t g).
Proof.
  intros H [a b c]. destruct ty; cbn [toScreen vref v0 v1 v2]; repeat split; intros ->;
  auto using c_st2, c_s1, c_b1, c_h1, c_l1, c_l21, c_l31, c_g1.
Qed.
Lemma toScene_nan ty g : ty <> SLOG2 -> (ty = GAMMA -> ~ (fin g /\ B2R g = 0%R)) -> keeps (fun t => toScene N ty t g).
Proof.
  intros K H [a b c]. destruct ty; cbn [toScene vref v0 v1 v2]; try contradiction; repeat split; intros ->;
  auto using c_st1, c_s2, c_b2, c_h2, c_l2, c_l32, c_g2.
Qed.
Lemma oklab_nan t : is_nan3 t -> XYZ_to_OKLAB N t = nan3 /\ OKLAB_to_XYZ N t = nan3.
Proof.
  intros H. unfold XYZ_to_OKLAB, OKLAB_to_XYZ, T_apply. cbv zeta. rewrite !(apply_nan _ t H). unfold nan3. cbn [vref v0 v1 v2]. nn.
  split; apply apply_nan; left; reflexivity.
Qed.
Lemma ictcp_nan t : is_nan3 t -> XYZ_to_ICtCp N t = nan3 /\ ICtCp_to_XYZ N t = nan3.
Proof.
  intros H. split.
  - unfold XYZ_to_ICtCp, G_fromXYZ_t. cbv zeta. rewrite (apply_nan _ t H). unfold nan3. cbn [vref v0 v1 v2]. rewrite c_st2. nn. reflexivity.
  - unfold ICtCp_to_XYZ, G_toXYZ_t. cbv zeta. apply apply_nan. destruct t as [a b c]. left. cbn [vref v0 v1 v2]. unfold is_nan3 in H. cbn [v0 v1 v2] in H.
    destruct H as [H|[H|H]]; subst; nn; apply c_st1.
Qed.
Lemma dICtCp_nan a b : is_nan3 a \/ is_nan3 b -> Delta_ICtCp N a b = nan.
Proof.
  intros H. unfold Delta_ICtCp. cbv zeta. destruct H as [H|H]; rewrite (proj1 (ictcp_nan _ H)); unfold nan3; cbn [vref v0 v1 v2]; nn; reflexivity.
Qed.
Lemma hsvat_nan t : is_nan3 t -> exists s v, terminates_with (fun n => toHSV_atan N n t) (Ret (V3 nan s v)).
Proof.
  intros H. destruct t as [a b c]. unfold is_nan3 in H. cbn [v0 v1 v2] in H. eexists. eexists. exists 1%nat. intros n Hn. destruct n as [|n]; [lia|]. split; [|discriminate]. unfold toHSV_atan. cbv zeta. cbn [vref v0 v1 v2].
  assert (E : @fmul N (@fdiv N (@flit N 180%dec) (@fpi N)) (@fatan2 N (@fmul N (@fsqrt N (@flit N 3%dec)) (@fsub N b c)) (@fsub N (@fsub N (@fmul N (@flit N 2%dec) a) b) c)) = nan).
  { destruct H as [H|[H|H]]; subst; nn; reflexivity. }
  rewrite E, mod360_F_nan. cbn [bind]. reflexivity.
Qed.
End Lm.

Section Hsv.
Variable lm : libm.
Local Notation N := (FN lm).
Local Notation nan := (B754_nan : f32).
Local Ltac nn := repeat (progress (rewrite ?addl, ?addr, ?subl, ?subr, ?mull, ?mulr, ?divl, ?divr, ?ltl, ?ltr, ?eql, ?eqr; cbv iota)).
Lemma toHSV_blue n r g t : toHSV N n (V3 r g nan) = Ret t -> v2 t = nan.
Proof.
  unfold toHSV. cbv zeta. cbn [vref v0 v1 v2]. destruct (mod360 N n _) as [h| | |]; cbn [bind]; try discriminate.
  intros K. injection K as <-. unfold maxi. cbn [v2]. nn. reflexivity.
Qed.
Lemma toHSV_red g b : fin g -> fin b -> B2R g <> B2R b -> exists s v, terminates_with (fun n => toHSV N n (V3 nan g b)) (Ret (V3 nan s v)).
Proof.
  intros Fg Fb H. assert (R : hsv_hue_raw N (V3 nan g b) = nan).
  { unfold hsv_hue_raw. cbv zeta. cbn [vref v0 v1 v2]. 
    assert (M1 : maxi N (maxi N nan g) b = maxi N g b) by (unfold maxi at 2; nn; reflexivity).
    assert (M2 : mini N (mini N nan g) b = mini N g b) by (unfold mini at 2; nn; reflexivity). rewrite M1, M2.
    assert (Ne : @feqb N (maxi N g b) (mini N g b) = false).
    { unfold maxi, mini. rewrite !ltb_ok by assumption.
      destruct (Rlt_bool_spec (B2R b) (B2R g)), (Rlt_bool_spec (B2R g) (B2R b)); try lra; rewrite eqb_ok by assumption; apply Req_bool_false; lra. }
    rewrite Ne. nn. destruct (@feqb N (maxi N g b) g); nn; reflexivity. }
  eexists. eexists. exists 1%nat. intros n Hn. destruct n as [|n]; [lia|]. split; [|discriminate]. unfold toHSV. cbv zeta. rewrite R, mod360_F_nan. cbn [bind]. reflexivity.
Qed.
End Hsv.

(** A library that is accurate and respects NaN. *)
Definition patch (a : libm) : libm :=
  let f1 (f : f32 -> f32) (x : f32) := if is_nan x then B754_nan else f x in
  let f2 (f : f32 -> f32 -> f32) (x y : f32) := if is_nan x || is_nan y then B754_nan else f x y in
  mkLibm (f2 (lm_powf a)) (f1 (lm_expf a)) (f1 (lm_logf a)) (f1 (lm_log10f a)) (lm_sinf a) (lm_cosf a) (f2 (lm_atan2f a)) (lm_fmodf a) (f1 (lm_cbrtf a)) (lm_pow a) (lm_exp a).
Lemma fin_nn (x : f32) : fin x -> is_nan x = false. Proof. destruct x; easy. Qed.
Lemma nan_exists : exists lm, accurate lm /\ nan_libm lm.
Proof.
  destruct accurate_exists as [a [A0 A1 A2 A3 A4 A5 A6]]. exists (patch a). split.
  - constructor; cbn [patch lm_powf lm_expf lm_logf lm_log10f]; intros; rewrite !fin_nn by assumption; cbn [orb]; auto.
  - constructor; cbn [patch lm_powf lm_expf lm_logf lm_log10f lm_cbrtf lm_atan2f is_nan orb]; intros; rewrite ?orb_true_r; reflexivity.
Qed.
Lemma nan_case : (exists lm, accurate lm /\ nan_libm lm) /\ is_nan3 (V3 (lit 24 128 p24 p24e 0.5%dec) B754_nan (lit 24 128 p24 p24e 0.25%dec)) /\
  is_nan9 (M3 (lit 24 128 p24 p24e 1%dec) (lit 24 128 p24 p24e 2%dec) (lit 24 128 p24 p24e 3%dec) (lit 24 128 p24 p24e 4%dec) (lit 24 128 p24 p24e 5%dec) B754_nan
    (lit 24 128 p24 p24e 7%dec) (lit 24 128 p24 p24e 8%dec) (lit 24 128 p24 p24e 10%dec)).
Proof. split; [exact nan_exists|]. split; [right; left; reflexivity|]. exists 5%Z. split; [lia|reflexivity]. Qed.
Lemma slog2_black lm (g : f32) : toScene (FN lm) SLOG2 nan3 g = V3 (@flit (FN lm) 0%dec) (@flit (FN lm) 0%dec) (@flit (FN lm) 0%dec).
Proof. unfold toScene, nan3. cbn [vref v0 v1 v2]. rewrite slog2_nan. reflexivity. Qed.
Lemma abs_same lm (y : f32) : @fltb (FN lm) (abs_f (FN lm) y) (@flit (FN lm) 1e-8%dec) = @fltb (FN lm) (@ffabs (FN lm) y) (@flit (FN lm) 1e-8%dec).
Proof. destruct y as [s|s| |s m e H]; try destruct s; reflexivity. Qed.
Lemma fromYxy_keeps lm t : is_nan3 t -> (v1 t = B754_nan -> @fltb (FN lm) (@ffabs (FN lm) (v2 t)) (@flit (FN lm) 1e-8%dec) = false) -> is_nan3 (fromYxy (FN lm) t).
Proof. intros H K. apply fromYxy_nan; [exact H|]. intros E. rewrite abs_same. exact (K E). Qed.
Lemma hsv_nan_case : fin (lit 24 128 p24 p24e 1%dec) /\ fin (lit 24 128 p24 p24e 0.25%dec) /\ B2R (lit 24 128 p24 p24e 1%dec) <> B2R (lit 24 128 p24 p24e 0.25%dec).
Proof.
  assert (A : iv (lit 24 128 p24 p24e 1%dec) 1 1) by litv. assert (B : iv (lit 24 128 p24 p24e 0.25%dec) 0.25 0.25) by litv.
  destruct A as [A1 A2], B as [B1 B2]. split; [exact A1|]. split; [exact B1|lra].
Qed.
