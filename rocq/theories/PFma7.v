(** * HSV with fused multiply-add. *)
From Coq Require Import ZArith Reals Lra Lia List Bool.
From Flocq Require Import Core IEEE754.BinarySingleNaN.
From Verif Require Import Num NumR NumF MVec MTri MFma SpecMat F32 RTac PMat PMod360 PHsv PMatF PSpecF PHsvF PFma PFma4.
Local Open Scope R_scope.

(** The value a channel gets, [c]: the product is fused with the subtraction. *)
Definition fvb (c : bool) (s y v : R) : R := rnd (v * rnd (1 - if c then s * y else rnd (s * y))).
Lemma fvb_0 c s v : fmt v -> fvb c s 0 v = v.
Proof. intros H. unfold fvb. rewrite Rmult_0_r, rnd_0. replace (if c then 0 else 0) with 0 by (destruct c; reflexivity). rewrite Rminus_0_r, (rnd_id 1 fmt_1), Rmult_1_r. now apply rnd_id. Qed.
Lemma fvb_1 c s v : fmt s -> fvb c s 1 v = fv s 1 v.
Proof. intros H. unfold fvb, fv. rewrite Rmult_1_r, (rnd_id s H). now destruct c. Qed.
Lemma fvb_mono c s y y' v : 0 <= s -> 0 <= v -> y <= y' -> fvb c s y' v <= fvb c s y v.
Proof.
  intros Hs Hv Hy. destruct c; [|exact (fv_mono s y y' v Hs Hv Hy)]. unfold fvb. apply rnd_le, Rmult_le_compat_l; [exact Hv|]. apply rnd_le.
  assert (s * y <= s * y'); [|lra]. apply Rmult_le_compat_l; assumption.
Qed.
Lemma fvb_err c s y v : 0 <= s <= 1 -> 0 <= y <= 1 -> 0 <= v -> Rabs (fvb c s y v - v * (1 - s * y)) <= 3.01 * u * v + eta.
Proof.
  intros Hs Hy Hv. destruct c; [|exact (fv_err s y v Hs Hy Hv)]. pose proof u16 as U. pose proof eta16 as E. unfold fvb.
  assert (Hz : 0 <= s * y <= 1) by nra. set (z := s * y) in *. clearbody z.
  pose proof (rnd_err_abs (1 - z)) as E2. pose proof (rnd_01 (1 - z) ltac:(lra)) as H2. set (z2 := rnd (1 - z)) in *. clearbody z2.
  pose proof (rnd_err_abs (v * z2)) as E3. set (z3 := rnd _) in *. clearbody z3.
  rewrite (Rabs_pos_eq (1 - z)) in E2 by lra. rewrite (Rabs_pos_eq (v * z2)) in E3 by nra.
  assert (A1 : Rabs (z2 - (1 - z)) <= 1.001 * u). { assert (u * (1 - z) <= u) by nra. lra. }
  replace (z3 - v * (1 - z)) with ((z3 - v * z2) + v * (z2 - (1 - z))) by ring. eapply Rle_trans; [apply Rabs_triang|].
  rewrite Rabs_mult, (Rabs_pos_eq v Hv). assert (v * z2 <= v) by nra. assert (u * (v * z2) <= u * v) by nra.
  assert (v * Rabs (z2 - (1 - z)) <= v * (1.001 * u)) by nra. assert (0 <= u * v) by nra. lra.
Qed.

Section F.
Context (lm : libm).
Notation N := (FN lm).
Notation E := (EN lm).
(** [e] has the value [x] whatever is fused. *)
Definition det (e : exp) (x : f32) : Prop := plain lm e = x /\ forall y, ev lm e y -> y = x.
Lemma det_val x : det (Val x) x.
Proof. split; [reflexivity|]. intros y H. now inversion H. Qed.
Lemma det_mul a b x y : det a x -> det b y -> det (Mul a b) (@fmul N x y).
Proof. intros [Pa Ha] [Pb Hb]. split; [cbn; now rewrite Pa, Pb|]. intros z H. inversion H; subst. f_equal; auto. Qed.
Lemma det_op2 f a b x y : det a x -> det b y -> det (Op2 f a b) (f x y).
Proof. intros [Pa Ha] [Pb Hb]. split; [cbn; now rewrite Pa, Pb|]. intros z H. inversion H; subst. f_equal; auto. Qed.
Definition nomul (e : exp) : Prop := match e with Mul _ _ => False | _ => True end.
Lemma det_add a b x y : nomul a -> nomul b -> det a x -> det b y -> det (Add a b) (@fadd N x y).
Proof. intros Na Nb [Pa Ha] [Pb Hb]. split; [cbn; now rewrite Pa, Pb|]. intros z H. inversion H; subst; [f_equal; auto|contradiction|contradiction]. Qed.
Lemma det_sub a b x y : nomul a -> nomul b -> det a x -> det b y -> det (Sub a b) (@fsub N x y).
Proof. intros Na Nb [Pa Ha] [Pb Hb]. split; [cbn; now rewrite Pa, Pb|]. intros z H. inversion H; subst; [f_equal; auto|contradiction|contradiction]. Qed.
(** The normalisation of the hue. *)
Definition detn (e : exp) (x : f32) : Prop := nomul e /\ det e x.
Lemma mod360_det n : forall e x, detn e x -> match mod360 N n x with
  | Ret y => exists e', mod360 E n e = Ret e' /\ detn e' y | Timeout => mod360 E n e = Timeout | _ => False end.
Proof.
  induction n as [|n IH]; intros e x [Ne De]; [reflexivity|]. cbn [mod360].
  pose proof (proj1 De) as P. change (@fltb E e (@flit E 0%dec)) with (@fltb N (plain lm e) (@flit N 0%dec)). change (@fltb E (@flit E 360%dec) e) with (@fltb N (@flit N 360%dec) (plain lm e)). rewrite P.
  destruct (@fltb N x (@flit N 0%dec)).
  - apply IH. split; [exact Logic.I|]. apply (det_add _ (Val (@flit N 360%dec))); [exact Ne|exact Logic.I|exact De|apply det_val].
  - destruct (@fltb N (@flit N 360%dec) x).
    + apply IH. split; [exact Logic.I|]. apply (det_sub _ (Val (@flit N 360%dec))); [exact Ne|exact Logic.I|exact De|apply det_val].
    + exists e. split; [reflexivity|]. split; assumption.
Qed.
Lemma mix_E (es ey ev' : exp) (s y v x : f32) : det es s -> det ey y -> det ev' v -> fin s -> fin y -> fin v -> 0 <= B2R s <= 1 -> 0 <= B2R y <= 1 -> 0 <= B2R v ->
  ev lm (Mul ev' (Sub (Val (@flit N 1%dec)) (Mul es ey))) x -> fin x /\ exists c, B2R x = fvb c (B2R s) (B2R y) (B2R v).
Proof.
  intros Ds Dy Dv Fs Fy Fv Hs Hy Hv H. inversion H; subst. match goal with X : ev lm ev' _ |- _ => apply (proj2 Dv) in X; subst end.
  match goal with X : ev lm (Sub _ _) _ |- _ => inversion X; clear X; subst end.
  - match goal with X : ev lm (Mul _ _) _ |- _ => apply (proj2 (det_mul _ _ _ _ Ds Dy)) in X; subst end.
    match goal with X : ev lm (Val _) _ |- _ => inversion X; clear X; subst end.
    destruct (mix_ok lm s y v Fs Fy Fv Hs Hy Hv) as [F V]. split; [exact F|]. exists false. exact V.
  - repeat match goal with X : ev lm es _ |- _ => apply (proj2 Ds) in X; subst | X : ev lm ey _ |- _ => apply (proj2 Dy) in X; subst | X : ev lm (Val _) _ |- _ => inversion X; clear X; subst end.
    destruct (l1 lm) as [F1 V1]. pose proof b127_big as BB. assert (Hz : 0 <= B2R s * B2R y <= 1) by nra.
    assert (Fo : fin (@fopp N s)) by (unfold fin; cbn; now rewrite is_finite_Bopp).
    assert (Vo : B2R (@fopp N s) = - B2R s) by (cbn; apply B2R_Bopp).
    destruct (fma_ok (@fopp N s) y (@flit N 1%dec) Fo Fy F1) as [Fb Vb]; [rewrite Vo, V1; apply Rabs_le; lra|]. rewrite Vo, V1 in Vb. replace (- B2R s * B2R y + 1) with (1 - B2R s * B2R y) in Vb by ring.
    pose proof (rnd_01 (1 - B2R s * B2R y) ltac:(lra)) as H2. rewrite <- Vb in H2. set (w := fma _ _ _) in *. assert (Hw : 0 <= B2R v * B2R w <= B2R v) by nra.
    destruct (mul_gen lm v w Fv Fb) as [Fc Vc].
    { eapply Rle_lt_trans; [|apply (b128_max v)]. rewrite (Rabs_pos_eq (B2R v)) by exact Hv. apply rnd_abs_le; [apply fmt_B2R|apply Rabs_le; lra]. }
    split; [exact Fc|]. exists true. rewrite Vc, Vb. reflexivity.
Qed.
Definition chan (s v y : R) (x : f32) : Prop := fin x /\ exists c, B2R x = fvb c s y v.
Lemma fromHSV_E n (eh es ev' : exp) (h s v : f32) : detn eh h -> detn es s -> det ev' v -> fin h -> fin s -> fin v -> 0 <= B2R h <= 360 -> 0 <= B2R s <= 1 -> 0 <= B2R v ->
  exists e, fromHSV E (S n) (V3 (eh : F E) es ev') = Ret e /\ forall t, evV lm e t -> exists y : Vector3 R,
    (chan (B2R s) (B2R v) (v0 y) (v0 t) /\ chan (B2R s) (B2R v) (v1 y) (v1 t) /\ chan (B2R s) (B2R v) (v2 y) (v2 t)) /\
    allV (fun y => 0 <= y <= 1) y /\ (v0 y = 0 \/ v1 y = 0 \/ v2 y = 0) /\ (v0 y = 1 \/ v1 y = 1 \/ v2 y = 1) /\
    exists q, Rabs (q - B2R h / 60) <= 6.0001 * u /\
     Rabs (v0 y - gR q) <= 2 * u /\ Rabs (v1 y - gG q) <= 2 * u /\ Rabs (v2 y - gB q) <= 2 * u.
Proof.
  intros [Nh Dh] [Ns Ds] Dv Fh Fs Fv Hh Hs Hv. pose proof u16 as U. pose proof eta16 as Eta. pose proof b127_big as BB. destruct (l60 lm) as [F60 V60]. destruct (l1 lm) as [F1 V1].
  pose proof (mod360_det (S n) eh h (conj Nh Dh)) as MD. rewrite (mod360_F_in lm n h Fh Hh) in MD. destruct MD as (eh' & EM & Nh' & Dh').
  unfold fromHSV. cbn [vref v0 v1 v2]. rewrite EM. cbn [bind]. clear EM Dh Nh eh.
  change (@ftoint E (@fdiv E eh' (@flit E 60%dec))) with (@ftoint N (@fdiv N (plain lm eh') (@flit N 60%dec))). rewrite (proj1 Dh').
  assert (Dq : det (Op2 (@fdiv N) eh' (Val (@flit N 60%dec))) (@fdiv N h (@flit N 60%dec))) by (apply det_op2; [exact Dh'|apply det_val]).
  change (@fdiv E eh' (@flit E 60%dec)) with (Op2 (@fdiv N) eh' (Val (@flit N 60%dec))). set (eq := Op2 _ eh' _) in *. assert (Nq : nomul eq) by exact Logic.I. clearbody eq.
  destruct (div_ok lm h (@flit N 60%dec) Fh) as [Fq Vq]; [rewrite V60; lra|rewrite V60; apply Rabs_le; lra|]. rewrite V60 in Vq.
  pose proof (rnd_err_abs (B2R h / 60)) as Eq. rewrite <- Vq in Eq. rewrite (Rabs_pos_eq (B2R h / 60)) in Eq by lra.
  assert (Hq : 0 <= B2R (@fdiv N h (@flit N 60%dec)) <= 6).
  { rewrite Vq. split; [apply rnd_ge_fmt; [apply fmt_0|lra]|apply rnd_le_fmt; [apply (fmt_IZR 6); cbn; lia|lra]]. }
  set (q := @fdiv N h _) in *. clearbody q. change (@ftoint N) with f32_toint.
  rewrite (toint_some q Fq) by (change (IZR (- 2 ^ 31)) with (-2147483648); change (IZR (2 ^ 31 - 1)) with 2147483647; lra).
  cbn [of_option bind].
  assert (Hk : (0 <= Ztrunc (B2R q) <= 6)%Z).
  { split; [rewrite <- (Ztrunc_IZR 0)|rewrite <- (Ztrunc_IZR 6)]; apply Ztrunc_le; lra. }
  assert (Hk' : IZR (Ztrunc (B2R q)) <= B2R q < IZR (Ztrunc (B2R q)) + 1).
  { rewrite Ztrunc_floor by lra. split; [apply Zfloor_lb|apply Zfloor_ub]. }
  set (k := Ztrunc (B2R q)) in *. clearbody k.
  destruct (ofZ_ok lm k ltac:(lia)) as [Fk Vk].
  destruct (sub_ok lm q (@fofZ N k) Fq Fk) as [Fr Vr]; [rewrite Vk; apply Rabs_le; lra|]. rewrite Vk in Vr.
  assert (Er : Rabs (B2R (@fsub N q (@fofZ N k)) - (B2R q - IZR k)) <= u).
  { rewrite Vr. eapply Rle_trans; [apply rnd_add_err; [apply fmt_B2R|apply fmt_opp, fmt_IZR; lia]|]. rewrite Rabs_pos_eq by lra. nra. }
  assert (Dr : det (Sub eq (Val (@fofZ N k))) (@fsub N q (@fofZ N k))) by (apply det_sub; [exact Nq|exact Logic.I|exact Dq|apply det_val]).
  change (@fsub E eq (@fofZ E k)) with (Sub eq (Val (@fofZ N k))). set (er := Sub eq _) in *. assert (Nr : nomul er) by exact Logic.I. clearbody er.
  pose proof (rnd_01 (B2R q - IZR k) ltac:(lra)) as Hr. rewrite <- Vr in Hr. set (r := @fsub N q _) in *. clearbody r.
  destruct (sub_ok lm _ _ F1 Fr) as [Fr' Vr']; [apply Rabs_le; lra|]. rewrite V1 in Vr'.
  pose proof (rnd_01 (1 - B2R r) ltac:(lra)) as Hr'. pose proof (rnd_add_err 1 (- B2R r) fmt_1 (fmt_opp _ (fmt_B2R r))) as Er'. change (1 + - B2R r) with (1 - B2R r) in Er'. rewrite <- Vr' in Hr', Er'.
  rewrite (Rabs_pos_eq (1 - B2R r)) in Er' by lra.
  assert (Er2 : Rabs (B2R (@fsub N (@flit N 1%dec) r) - (1 - (B2R q - IZR k))) <= 2 * u).
  { replace (B2R (@fsub N (@flit N 1%dec) r) - (1 - (B2R q - IZR k))) with ((B2R (@fsub N (@flit N 1%dec) r) - (1 - B2R r)) + - (B2R r - (B2R q - IZR k))) by ring.
    eapply Rle_trans; [apply Rabs_triang|]. rewrite Rabs_Ropp. assert (u * (1 - B2R r) <= u) by nra. lra. }
  assert (Dr' : det (Sub (Val (@flit N 1%dec)) er) (@fsub N (@flit N 1%dec) r)) by (apply det_sub; [exact Logic.I|exact Nr|apply det_val|exact Dr]).
  cbv zeta. change (@flit E 1%dec) with (Val (@flit N 1%dec)). change (@fsub E) with Sub. change (@fmul E) with Mul.
  assert (CM : forall x, ev lm (Mul ev' (Sub (Val (@flit N 1%dec)) es)) x -> chan (B2R s) (B2R v) 1 x).
  { intros x H. assert (D1 : det (Sub (Val (@flit N 1%dec)) es) (@fsub N (@flit N 1%dec) s)) by (apply det_sub; [exact Logic.I|exact Ns|apply det_val|exact Ds]).
    rewrite (proj2 (det_mul _ _ _ _ Dv D1) x H). destruct (mix1_ok lm s v Fs Fv Hs Hv) as [Fm Vm]. split; [exact Fm|]. exists false. exact Vm. }
  assert (CN : forall x, ev lm (Mul ev' (Sub (Val (@flit N 1%dec)) (Mul es er))) x -> chan (B2R s) (B2R v) (B2R r) x).
  { intros x H. exact (mix_E es er ev' s r v x Ds Dr Dv Fs Fr Fv Hs Hr Hv H). }
  assert (CP : forall x, ev lm (Mul ev' (Sub (Val (@flit N 1%dec)) (Mul es (Sub (Val (@flit N 1%dec)) er)))) x -> chan (B2R s) (B2R v) (B2R (@fsub N (@flit N 1%dec) r)) x).
  { intros x H. exact (mix_E es _ ev' s _ v x Ds Dr' Dv Fs Fr' Fv Hs Hr' Hv H). }
  assert (CV : forall x, ev lm ev' x -> chan (B2R s) (B2R v) 0 x).
  { intros x H. rewrite (proj2 Dv x H). split; [exact Fv|]. exists false. symmetry. apply fvb_0, fmt_B2R. }
  set (em := Mul ev' (Sub (Val (@flit N 1%dec)) es)) in *. set (en := Mul ev' (Sub (Val (@flit N 1%dec)) (Mul es er))) in *. set (ep := Mul ev' (Sub (Val (@flit N 1%dec)) (Mul es (Sub (Val (@flit N 1%dec)) er)))) in *.
  clearbody em en ep. set (r' := @fsub N _ r) in *. clearbody r'.
  assert (G : forall (e : Vector3 exp) (y : Vector3 R),
    (forall x, ev lm (v0 e) x -> chan (B2R s) (B2R v) (v0 y) x) -> (forall x, ev lm (v1 e) x -> chan (B2R s) (B2R v) (v1 y) x) -> (forall x, ev lm (v2 e) x -> chan (B2R s) (B2R v) (v2 y) x) ->
    allV (fun y => 0 <= y <= 1) y -> (v0 y = 0 \/ v1 y = 0 \/ v2 y = 0) -> (v0 y = 1 \/ v1 y = 1 \/ v2 y = 1) ->
    (Rabs (v0 y - gR (B2R q)) <= 2 * u /\ Rabs (v1 y - gG (B2R q)) <= 2 * u /\ Rabs (v2 y - gB (B2R q)) <= 2 * u) ->
    exists e', Ret e = Ret e' /\ forall t, evV lm e' t -> exists y : Vector3 R,
    (chan (B2R s) (B2R v) (v0 y) (v0 t) /\ chan (B2R s) (B2R v) (v1 y) (v1 t) /\ chan (B2R s) (B2R v) (v2 y) (v2 t)) /\
    allV (fun y => 0 <= y <= 1) y /\ (v0 y = 0 \/ v1 y = 0 \/ v2 y = 0) /\ (v0 y = 1 \/ v1 y = 1 \/ v2 y = 1) /\
    exists q, Rabs (q - B2R h / 60) <= 6.0001 * u /\
     Rabs (v0 y - gR q) <= 2 * u /\ Rabs (v1 y - gG q) <= 2 * u /\ Rabs (v2 y - gB q) <= 2 * u).
  { intros e y A0 A1 A2 C D O G. exists e. split; [reflexivity|]. intros t (T0 & T1 & T2). exists y. split; [auto|]. repeat (split; [assumption|]). exists (B2R q). split; [|exact G].
    assert (u * (B2R h / 60) <= u * 6) by nra. lra. }
  assert (Z0 : Rabs 0 <= 2 * u) by (rewrite Rabs_R0; lra).
  assert (Z1 : forall x, x = 0 -> Rabs x <= 2 * u) by (intros x ->; exact Z0).
  clear Vr' Vr.
  assert (C : (k = 0 \/ k = 1 \/ k = 2 \/ k = 3 \/ k = 4 \/ k = 5 \/ k = 6)%Z) by lia.
  repeat destruct C as [-> | C]; try subst k; cbn [Z.rem Z.quotrem N.pos_div_eucl Z.eqb Pos.eqb].
  - apply (G (V3 ev' ep em) (V3 0 (B2R r') 1)); unfold allV; cbn [v0 v1 v2]; auto; [repeat split; auto; lra|]. repeat split.
    + apply Z1. replace (gR (B2R q)) with 0; [ring|]. symmetry. gsolve.
    + replace (gG (B2R q)) with (1 - (B2R q - 0)); [exact Er2|]. symmetry. gsolve.
    + apply Z1. replace (gB (B2R q)) with 1; [ring|]. symmetry. gsolve.
  - apply (G (V3 en ev' em) (V3 (B2R r) 0 1)); unfold allV; cbn [v0 v1 v2]; auto; [repeat split; auto; lra|]. repeat split.
    + replace (gR (B2R q)) with (B2R q - 1); [lra|]. symmetry. gsolve.
    + apply Z1. replace (gG (B2R q)) with 0; [ring|]. symmetry. gsolve.
    + apply Z1. replace (gB (B2R q)) with 1; [ring|]. symmetry. gsolve.
  - apply (G (V3 em ev' ep) (V3 1 0 (B2R r'))); unfold allV; cbn [v0 v1 v2]; auto; [repeat split; auto; lra|]. repeat split.
    + apply Z1. replace (gR (B2R q)) with 1; [ring|]. symmetry. gsolve.
    + apply Z1. replace (gG (B2R q)) with 0; [ring|]. symmetry. gsolve.
    + replace (gB (B2R q)) with (1 - (B2R q - 2)); [exact Er2|]. symmetry. gsolve.
  - apply (G (V3 em en ev') (V3 1 (B2R r) 0)); unfold allV; cbn [v0 v1 v2]; auto; [repeat split; auto; lra|]. repeat split.
    + apply Z1. replace (gR (B2R q)) with 1; [ring|]. symmetry. gsolve.
    + replace (gG (B2R q)) with (B2R q - 3); [lra|]. symmetry. gsolve.
    + apply Z1. replace (gB (B2R q)) with 0; [ring|]. symmetry. gsolve.
  - apply (G (V3 ep em ev') (V3 (B2R r') 1 0)); unfold allV; cbn [v0 v1 v2]; auto; [repeat split; auto; lra|]. repeat split.
    + replace (gR (B2R q)) with (1 - (B2R q - 4)); [exact Er2|]. symmetry. gsolve.
    + apply Z1. replace (gG (B2R q)) with 1; [ring|]. symmetry. gsolve.
    + apply Z1. replace (gB (B2R q)) with 0; [ring|]. symmetry. gsolve.
  - apply (G (V3 ev' em en) (V3 0 1 (B2R r))); unfold allV; cbn [v0 v1 v2]; auto; [repeat split; auto; lra|]. repeat split.
    + apply Z1. replace (gR (B2R q)) with 0; [ring|]. symmetry. gsolve.
    + apply Z1. replace (gG (B2R q)) with 1; [ring|]. symmetry. gsolve.
    + replace (gB (B2R q)) with (B2R q - 5); [lra|]. symmetry. gsolve.
  - apply (G (V3 ev' ep em) (V3 0 (B2R r') 1)); unfold allV; cbn [v0 v1 v2]; auto; [repeat split; auto; lra|]. repeat split.
    + apply Z1. replace (gR (B2R q)) with 0; [ring|]. symmetry. gsolve.
    + replace (gG (B2R q)) with (1 - (B2R q - 6)); [exact Er2|]. symmetry. gsolve.
    + apply Z1. replace (gB (B2R q)) with 1; [ring|]. symmetry. gsolve.
Qed.

(** Nothing in [toHSV] can be fused. *)
Lemma maxi_in a b : maxi E (Val a) (Val b) = Val (maxi N a b).
Proof. unfold maxi. change (@fltb E (Val b) (Val a)) with (@fltb N b a). now destruct (@fltb N b a). Qed.
Lemma mini_in a b : mini E (Val a) (Val b) = Val (mini N a b).
Proof. unfold mini. change (@fltb E (Val a) (Val b)) with (@fltb N a b). now destruct (@fltb N a b). Qed.
Lemma hue_det (t : Vector3 f32) : detn (hsv_hue_raw E (inV lm t)) (hsv_hue_raw N t).
Proof.
  destruct t as [a b c]. unfold hsv_hue_raw, inV. cbn [vref v0 v1 v2]. rewrite !maxi_in, !mini_in.
  set (M := maxi N (maxi N a b) c). set (m := mini N (mini N a b) c). cbv zeta. change (@feqb E (Val M) (Val m)) with (@feqb N M m). change (@feqb E (Val M) (Val a)) with (@feqb N M a). change (@feqb E (Val M) (Val b)) with (@feqb N M b).
  assert (S : forall x y, det (Sub (Val x) (Val y)) (@fsub N x y)) by (intros x y; apply det_sub; [exact Logic.I|exact Logic.I|apply det_val|apply det_val]).
  assert (H : forall x y, detn (Op2 (@fdiv N) (Mul (Val (@flit N 60%dec)) (Sub (Val x) (Val y))) (Sub (Val M) (Val m))) (@fdiv N (@fmul N (@flit N 60%dec) (@fsub N x y)) (@fsub N M m))).
  { intros x y. split; [exact Logic.I|]. apply det_op2; [apply det_mul; [apply det_val|apply S]|apply S]. }
  assert (K : forall e x k, detn e x -> detn (Add e (Val k)) (@fadd N x k)) by (intros e x k [A B]; split; [exact Logic.I|]; apply det_add; [exact A|exact Logic.I|exact B|apply det_val]).
  destruct (@feqb N M m); [split; [exact Logic.I|apply det_val]|]. destruct (@feqb N M a); [apply H|]. destruct (@feqb N M b); apply K, H.
Qed.
Lemma toHSV_det n (t r : Vector3 f32) : toHSV N n t = Ret r -> exists eh es, toHSV E n (inV lm t) = Ret (V3 (eh : F E) es (Val (v2 r))) /\ detn eh (v0 r) /\ detn es (v1 r).
Proof.
  intros H. pose proof (mod360_det n _ _ (hue_det t)) as MD. unfold toHSV in *. destruct (mod360 N n (hsv_hue_raw N t)) as [h| | |]; try discriminate. destruct MD as (eh & EM & Dh). rewrite EM. cbn [bind] in *.
  apply (f_equal (fun o => match o with Ret x => x | _ => r end)) in H. cbv beta iota in H. rewrite <- H. clear H. destruct t as [a b c]. unfold inV. cbn [vref v0 v1 v2]. rewrite !maxi_in, !mini_in. set (M := maxi N (maxi N a b) c). set (m := mini N (mini N a b) c).
  eexists. eexists. split; [reflexivity|]. split; [exact Dh|]. change (@feqb E (Val M) (@flit E 0%dec)) with (@feqb N M (@flit N 0%dec)).
  destruct (@feqb N M (@flit N 0%dec)); [split; [exact Logic.I|apply det_val]|]. split; [exact Logic.I|]. apply det_op2; [|apply det_val].
  apply det_sub; [exact Logic.I|exact Logic.I|apply det_val|apply det_val].
Qed.
Lemma toHSV_fused n (t r : Vector3 f32) : toHSV N n t = Ret r -> exists e, toHSV E n (inV lm t) = Ret e /\ forall r', evV lm e r' <-> r' = r.
Proof.
  intros H. destruct (toHSV_det n t r H) as (eh & es & Ee & [_ Dh] & [_ Ds]). eexists. split; [exact Ee|]. intros r'. split.
  - intros (A & B & C). apply (proj2 Dh) in A. apply (proj2 Ds) in B. apply (proj2 (det_val _)) in C. destruct r as [p1 p2 p3], r' as [q1 q2 q3]. cbn [v0 v1 v2] in *. now subst.
  - intros ->. split; [|split]; cbn [v0 v1 v2].
    + rewrite <- (proj1 Dh). apply plain_ev.
    + rewrite <- (proj1 Ds). apply plain_ev.
    + apply ev_val.
Qed.
Lemma from_range_fused (h s v : f32) : fin h -> fin s -> fin v -> Rabs (B2R h) <= bpow radix2 33 -> 0 <= B2R s <= 1 -> 0 <= B2R v ->
  exists e, terminates_with (fun n => fromHSV E n (inV lm (V3 h s v))) (Ret e) /\ forall t, evV lm e t -> allV fin t /\
    allV (fun x => 0 <= B2R x <= B2R v) t /\ (B2R (v0 t) = B2R v \/ B2R (v1 t) = B2R v \/ B2R (v2 t) = B2R v) /\
    exists m, (m = B2R (v0 t) \/ m = B2R (v1 t) \/ m = B2R (v2 t)) /\ allV (fun x => m <= B2R x) t /\
      Rabs (m - B2R v * (1 - B2R s)) <= 3.01 * u * B2R v + eta.
Proof.
  intros Fh Fs Fv Hh Hs Hv. destruct (mod360_F_ex lm h Fh Hh) as (n & y & Ey & Fy & Hy).
  assert (DV : forall x, detn (Val x) x) by (intros x; split; [exact Logic.I|apply det_val]).
  pose proof (mod360_det n _ _ (DV h)) as MD. rewrite Ey in MD. destruct MD as (eh & Em & Dh).
  destruct (fromHSV_E 0 eh (Val s) (Val v) y s v Dh (DV s) (det_val v) Fy Fs Fv Hy Hs Hv) as (e & Ee & K).
  exists e. split.
  { exists (S (S n)). intros m L. split; [|discriminate]. unfold fromHSV, inV in Ee |- *. cbn [vref v0 v1 v2] in Ee |- *.
    rewrite (mod360_mono E n m _ _ Em) by lia. pose proof (mod360_det 1 _ _ Dh) as M1. rewrite (mod360_F_in lm 0 y Fy Hy) in M1. destruct M1 as (e1 & E1 & D1). 
    assert (Ex : e1 = eh).
    { revert E1. cbn [mod360]. change (@fltb E eh (@flit E 0%dec)) with (@fltb N (plain lm eh) (@flit N 0%dec)). change (@fltb E (@flit E 360%dec) eh) with (@fltb N (@flit N 360%dec) (plain lm eh)).
      destruct (@fltb N (plain lm eh) (@flit N 0%dec)); [discriminate|]. destruct (@fltb N (@flit N 360%dec) (plain lm eh)); [discriminate|]. intros Q; now injection Q. }
    rewrite E1, Ex in Ee. exact Ee. }
  intros t T. destruct (K t T) as (w & ((F0 & c0 & V0) & (F1 & c1 & V1) & (F2 & c2 & V2)) & (W0 & W1 & W2) & Z & O & _).
  assert (FM : forall c y, 0 <= y <= 1 -> fv (B2R s) 1 (B2R v) <= fvb c (B2R s) y (B2R v) <= B2R v).
  { intros c z Hz. split; [rewrite <- (fvb_1 c) by apply fmt_B2R; apply fvb_mono; lra|]. rewrite <- (fvb_0 c (B2R s) (B2R v)) at 2 by apply fmt_B2R. apply fvb_mono; lra. }
  assert (P0 : 0 <= fv (B2R s) 1 (B2R v)).
  { rewrite fv_1 by apply fmt_B2R. apply rnd_ge_fmt; [apply fmt_0|]. pose proof (rnd_01 (1 - B2R s) ltac:(lra)). nra. }
  pose proof (FM c0 _ W0) as M0. pose proof (FM c1 _ W1) as M1. pose proof (FM c2 _ W2) as M2. rewrite <- V0 in M0. rewrite <- V1 in M1. rewrite <- V2 in M2.
  pose proof (fv_err (B2R s) 1 (B2R v) Hs ltac:(lra) Hv) as Fe. rewrite Rmult_1_r in Fe.
  assert (Z' : forall c, fvb c (B2R s) 0 (B2R v) = B2R v) by (intros c; apply fvb_0, fmt_B2R).
  assert (O' : forall c, fvb c (B2R s) 1 (B2R v) = fv (B2R s) 1 (B2R v)) by (intros c; apply fvb_1, fmt_B2R).
  split; [repeat split; assumption|]. split; [|split].
  - assert (0 <= B2R (v0 t) <= B2R v) by lra. assert (0 <= B2R (v1 t) <= B2R v) by lra. assert (0 <= B2R (v2 t) <= B2R v) by lra. split; [|split]; assumption.
  - destruct Z as [Z|[Z|Z]]; rewrite Z in *; [left; now rewrite V0|right; left; now rewrite V1|right; right; now rewrite V2].
  - exists (fv (B2R s) 1 (B2R v)). split; [destruct O as [O|[O|O]]; rewrite O in *; [left; now rewrite V0|right; left; now rewrite V1|right; right; now rewrite V2]|].
    split; [split; [apply M0|split; [apply M1|apply M2]]|exact Fe].
Qed.
Lemma hsv_rt_fused (t : Vector3 f32) : allV fin t -> allV (fun x => 0 <= B2R x <= bpow radix2 120) t ->
  exists e, terminates_with (fun n => let! h := toHSV E n (inV lm t) in fromHSV E n h) (Ret e) /\ forall t', evV lm e t' -> allV fin t' /\
    let M := Rmax (Rmax (B2R (v0 t)) (B2R (v1 t))) (B2R (v2 t)) in
    Rabs (B2R (v0 t') - B2R (v0 t)) <= 24 * u * M + eta /\
    Rabs (B2R (v1 t') - B2R (v1 t)) <= 24 * u * M + eta /\
    Rabs (B2R (v2 t') - B2R (v2 t)) <= 24 * u * M + eta.
Proof.
  intros Ft Ht. pose proof u16 as U. pose proof eta16 as Eta.
  destruct (toHSV_F lm t Ft Ht) as (h & s & v & EE & Fh & Fs & Fv & Hh & Hs & Vv & Hv & Bs & q & Hq & Bq).
  assert (H0 : 0 <= B2R v) by (destruct Ht as (K0 & K1 & K2); destruct Hv as [Hv|[Hv|Hv]]; rewrite Hv; [apply K0|apply K1|apply K2]).
  destruct (toHSV_det 2 t _ (EE 0%nat)) as (eh & es & Eh & Dh & Ds). cbn [v0 v1 v2] in Eh, Dh, Ds.
  destruct (fromHSV_E 0 eh es (Val v) h s v Dh Ds (det_val v) Fh Fs Fv Hh Hs H0) as (e & Ee & K).
  exists e. split.
  { exists 2%nat. intros n L. split; [|discriminate].
    assert (M1 : toHSV E n (inV lm t) = Ret (V3 (eh : F E) es (Val v))).
    { unfold toHSV in Eh |- *. destruct (mod360 E 2 (hsv_hue_raw E (inV lm t))) as [x| | |] eqn:X; try discriminate. rewrite (mod360_mono E 2 n _ _ X L). exact Eh. }
    rewrite M1. cbn [bind]. unfold fromHSV in Ee |- *. cbn [vref v0 v1 v2] in Ee |- *. destruct (mod360 E 1 eh) as [x| | |] eqn:X; try discriminate. rewrite (mod360_mono E 1 n _ _ X) by lia. exact Ee. }
  intros t' T. destruct (K t' T) as (w & ((F0 & c0 & V0) & (F1 & c1 & V1) & (F2 & c2 & V2)) & (W0 & W1 & W2) & _ & _ & q' & Bq' & G0 & G1 & G2).
  split; [repeat split; assumption|].
  change (Rmax (Rmax (B2R (v0 t)) (B2R (v1 t))) (B2R (v2 t))) with (max3 (tR t)). cbv zeta.
  destruct (hex_exact (tR t) q Hq) as (X0 & X1 & X2). change (v0 (tR t)) with (B2R (v0 t)) in X0. change (v1 (tR t)) with (B2R (v1 t)) in X1. change (v2 (tR t)) with (B2R (v2 t)) in X2.
  rewrite <- Vv in *. set (M := B2R v) in *. set (D := M - min3 (tR t)) in *.
  assert (Hqq : Rabs (q' - q) <= 16.04 * u).
  { replace (q' - q) with ((q' - B2R h / 60) + (B2R h - 60 * q) / 60) by field. eapply Rle_trans; [apply Rabs_triang|].
    unfold Rdiv at 2. rewrite Rabs_mult, (Rabs_pos_eq (/ 60)) by lra. lra. }
  assert (HD : 0 <= D <= M).
  { pose proof (min3_in (tR t)) as Cm. pose proof (min3_le (tR t)) as Lm. pose proof (max3_ge (tR t)) as Lx. unfold tR in Cm, Lm, Lx. cbn [v0 v1 v2] in Cm, Lm, Lx.
    change (V3 (B2R (v0 t)) (B2R (v1 t)) (B2R (v2 t))) with (tR t) in *. rewrite <- Vv in Lx. unfold D. destruct Ht as (K0 & K1 & K2). assert (0 <= B2R (v0 t)) by apply K0. assert (0 <= B2R (v1 t)) by apply K1. assert (0 <= B2R (v2 t)) by apply K2. clear K0 K1 K2. destruct Cm as [?|[?|?]]; lra. }
  assert (KK : forall c x y z (g : R -> R), x = fvb c (B2R s) y M -> 0 <= y <= 1 -> Rabs (y - g q') <= 2 * u -> (forall a b, Rabs (g a - g b) <= Rabs (a - b)) -> z = M - D * g q ->
     0 <= g q <= 1 -> Rabs (x - z) <= 24 * u * M + eta).
  { intros c x y z g Ex Hy Hg Lip Ez Rg. pose proof (fvb_err c (B2R s) y M Hs Hy H0) as FE. rewrite <- Ex in FE.
    replace (x - z) with ((x - M * (1 - B2R s * y)) + ((D - M * B2R s) * g q + M * B2R s * ((g q - g q') + (g q' - y)))) by (rewrite Ez; ring).
    eapply Rle_trans; [apply Rabs_triang|].
    assert (T1 : Rabs ((D - M * B2R s) * g q) <= 2.01 * u * M).
    { rewrite Rabs_mult, (Rabs_pos_eq (g q)) by lra. rewrite Rabs_minus_sym in Bs. assert (0 <= Rabs (D - M * B2R s)) by apply Rabs_pos. nra. }
    assert (T2 : Rabs ((g q - g q') + (g q' - y)) <= 18.04 * u).
    { eapply Rle_trans; [apply Rabs_triang|]. rewrite (Rabs_minus_sym (g q')). pose proof (Lip q q') as L. rewrite (Rabs_minus_sym q q') in L. lra. }
    assert (T3 : Rabs (M * B2R s * ((g q - g q') + (g q' - y))) <= 18.04 * u * M).
    { rewrite Rabs_mult, (Rabs_pos_eq (M * B2R s)) by nra. assert (0 <= M * B2R s <= M) by nra.
      apply Rle_trans with (M * (18.04 * u)); [|lra]. apply Rmult_le_compat; auto using Rabs_pos; lra. }
    pose proof (Rabs_triang ((D - M * B2R s) * g q) (M * B2R s * ((g q - g q') + (g q' - y)))). assert (0 <= u * M) by nra. lra. }
  split; [|split].
  - apply (KK c0 _ (v0 w) _ gR); auto using gR_lip. apply clamp_range.
  - apply (KK c1 _ (v1 w) _ gG); auto using gG_lip. apply clamp_range.
  - apply (KK c2 _ (v2 w) _ gB); auto using gB_lip. apply clamp_range.
Qed.

(** The unfused result is one of the values. *)
Lemma from_plain n (t r : Vector3 f32) : fromHSV N n t = Ret r -> exists e, fromHSV E n (inV lm t) = Ret e /\ evV lm e r.
Proof.
  intros H. destruct t as [h s v]. pose proof (mod360_det n (Val h) h (conj Logic.I (det_val h))) as MD. unfold fromHSV, inV in *. cbn [vref v0 v1 v2] in *.
  destruct (mod360 N n h) as [x| | |]; try discriminate. destruct MD as (eh & EM & _ & Px & _). rewrite EM. cbn [bind] in *. subst x.
  change (@ftoint E (@fdiv E eh (@flit E 60%dec))) with (@ftoint N (@fdiv N (plain lm eh) (@flit N 60%dec))).
  destruct (@ftoint N (@fdiv N (plain lm eh) (@flit N 60%dec))) as [d|]; [|discriminate]. cbn [of_option bind] in *. eexists. split; [reflexivity|].
  apply (f_equal (fun o => match o with Ret x => x | _ => r end)) in H. cbv beta iota in H. rewrite <- H. clear H.
  destruct (Z.rem d 6 =? 0)%Z; [exact (plainV_ev lm _)|]. destruct (Z.rem d 6 =? 1)%Z; [exact (plainV_ev lm _)|]. destruct (Z.rem d 6 =? 2)%Z; [exact (plainV_ev lm _)|].
  destruct (Z.rem d 6 =? 3)%Z; [exact (plainV_ev lm _)|]. destruct (Z.rem d 6 =? 4)%Z; [exact (plainV_ev lm _)|]. destruct (Z.rem d 6 =? 5)%Z; exact (plainV_ev lm _).
Qed.
Definition hA : Vector3 f32 := V3 (@fofZ N 110) (@fdiv N (@fofZ N 7) (@fofZ N 10)) (@fofZ N 1).
Definition rA : f32 := @fsub N (@fdiv N (v0 hA) (@flit N 60%dec)) (@fofZ N 1).
Definition nA (c : bool) : f32 :=
  @fmul N (v2 hA) (if c then fma (@fopp N (v1 hA)) rA (@flit N 1%dec) else @fsub N (@flit N 1%dec) (@fmul N (v1 hA) rA)).
Definition oA (c : bool) : Vector3 f32 := V3 (nA c) (v2 hA) (@fmul N (v2 hA) (@fsub N (@flit N 1%dec) (v1 hA))).
Lemma hA_ev c : exists e, fromHSV E 1 (inV lm hA) = Ret e /\ evV lm e (oA c).
Proof.
  assert (A : @fltb N (v0 hA) (@flit N 0%dec) = false) by (vm_compute; reflexivity). assert (B : @fltb N (@flit N 360%dec) (v0 hA) = false) by (vm_compute; reflexivity).
  assert (C : @ftoint N (@fdiv N (v0 hA) (@flit N 60%dec)) = Some 1%Z) by (vm_compute; reflexivity).
  unfold fromHSV, inV. cbn [vref v0 v1 v2 mod360]. change (@fltb E (Val (v0 hA)) (@flit E 0%dec)) with (@fltb N (v0 hA) (@flit N 0%dec)). change (@fltb E (@flit E 360%dec) (Val (v0 hA))) with (@fltb N (@flit N 360%dec) (v0 hA)).
  rewrite A, B. cbn [bind]. change (@ftoint E (@fdiv E (Val (v0 hA)) (@flit E 60%dec))) with (@ftoint N (@fdiv N (v0 hA) (@flit N 60%dec))). rewrite C. cbn [of_option bind Z.rem Z.quotrem N.pos_div_eucl Z.eqb Pos.eqb].
  eexists. split; [reflexivity|]. unfold oA, nA, rA. generalize (v0 hA) (v1 hA) (v2 hA). intros h s v. split; [|split].
  - destruct c; apply ev_mul; try apply ev_val; [apply ev_fnma|apply ev_sub; [|apply ev_mul]]; repeat constructor.
  - apply ev_val.
  - repeat constructor.
Qed.
Lemma hsv_matters : exists t e r r', fromHSV E 1 (inV lm t) = Ret e /\ evV lm e r /\ evV lm e r' /\ B2R (v0 r) <> B2R (v0 r').
Proof.
  destruct (hA_ev true) as (e & Ee & Et). destruct (hA_ev false) as (e' & Ee' & Ef). rewrite Ee in Ee'. apply (f_equal (fun o => match o with Ret x => x | _ => e end)) in Ee'. cbv beta iota in Ee'. subst e'.
  exists hA, e, (oA true), (oA false). split; [exact Ee|]. split; [exact Et|]. split; [exact Ef|].
  assert (F1 : fin (nA true)) by (vm_compute; reflexivity). assert (F2 : fin (nA false)) by (vm_compute; reflexivity). assert (G : @feqb N (nA true) (nA false) = false) by (vm_compute; reflexivity).
  change (B2R (nA true) <> B2R (nA false)). revert F1 F2 G. generalize (nA true) (nA false). clear. intros p q F1 F2 G X.
  rewrite (eqb_ok lm p q F1 F2) in G. rewrite X, Req_bool_true in G by reflexivity. discriminate.
Qed.
Lemma hA_case : fin (v0 hA) /\ fin (v1 hA) /\ fin (v2 hA) /\ B2R (v0 hA) = 110 /\ B2R (v2 hA) = 1 /\ Rabs (B2R (v0 hA)) <= bpow radix2 33 /\ 0 <= B2R (v1 hA) <= 1 /\ 0 <= B2R (v2 hA).
Proof.
  destruct (ofZ_ok lm 110 ltac:(lia)) as [F0 V0]. destruct (ofZ_ok lm 1 ltac:(lia)) as [F2 V2]. destruct (ofZ_ok lm 7 ltac:(lia)) as [Fa Va]. destruct (ofZ_ok lm 10 ltac:(lia)) as [Fb Vb]. pose proof b127_big.
  destruct (div_ok lm (@fofZ N 7) (@fofZ N 10) Fa) as [F1 V1]; [rewrite Vb; lra|rewrite Va, Vb; apply Rabs_le; lra|]. rewrite Va, Vb in V1.
  assert (L : 110 <= bpow radix2 33) by (change (bpow radix2 33) with 8589934592; lra).
  unfold hA. cbn [v0 v1 v2]. rewrite V0, V1, V2. repeat split; try assumption; try lra; try (apply Rabs_le; lra); apply rnd_01; lra.
Qed.
End F.
