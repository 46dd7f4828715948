(** * Symmetries of HSV. *)
From Coq Require Import ZArith Reals Lra Lia List Bool.
From Flocq Require Import Core BinarySingleNaN.
From Verif Require Import Num NumR NumF MVec MTri RTac PHsv F32 PMatF PHsvF.
Local Open Scope R_scope.

Definition grey (t : Vector3 R) : Prop := v0 t = v1 t /\ v1 t = v2 t.
Lemma grey_iff t : max3 t = min3 t <-> grey t.
Proof.
  pose proof (max3_ge t). pose proof (min3_le t). pose proof (max3_in t). pose proof (min3_in t). unfold grey. split; intros; lra.
Qed.
Lemma max3_rot a b c : max3 (V3 c a b) = max3 (V3 a b c).
Proof. unfold max3; cbn [v0 v1 v2]. unfold Rmax. repeat destruct (Rle_dec _ _); lra. Qed.
Lemma min3_rot a b c : min3 (V3 c a b) = min3 (V3 a b c).
Proof. unfold min3; cbn [v0 v1 v2]. unfold Rmin. repeat destruct (Rle_dec _ _); lra. Qed.
Lemma max3_swap a b c : max3 (V3 a c b) = max3 (V3 a b c).
Proof. unfold max3; cbn [v0 v1 v2]. unfold Rmax. repeat destruct (Rle_dec _ _); lra. Qed.
Lemma min3_swap a b c : min3 (V3 a c b) = min3 (V3 a b c).
Proof. unfold min3; cbn [v0 v1 v2]. unfold Rmin. repeat destruct (Rle_dec _ _); lra. Qed.

Ltac hue_cases a b c Q :=
  pose proof (max3_ge (V3 a b c)) as (A0 & A1 & A2); pose proof (min3_le (V3 a b c)) as (B0 & B1 & B2);
  pose proof (max3_in (V3 a b c)) as C; pose proof (min3_in (V3 a b c)) as C'; cbn [v0 v1 v2] in *;
  set (M := max3 (V3 a b c)) in *; set (m := min3 (V3 a b c)) in *;
  assert (D : 0 < M - m) by (assert (M <> m) by (intro; apply Q; lra); lra);
  assert (I : (M - m) * / (M - m) = 1) by (apply Rinv_r; lra); assert (IP : 0 < / (M - m)) by (apply Rinv_0_lt_compat; lra).

Lemma hue_rot a b c : ~ (a = b /\ b = c) ->
  hue (V3 c a b) = if Rlt_dec (hue (V3 a b c)) 240 then hue (V3 a b c) + 120 else hue (V3 a b c) - 240.
Proof.
  intros Q. unfold hue, hue60. cbv zeta. rewrite max3_rot, min3_rot. hue_cases a b c Q.
  clearbody M m. unfold Rdiv. set (i := / (M - m)) in *. clearbody i.
  destruct (Req_EM_T M m) as [E|E]; [lra|].
  destruct (Req_EM_T M a) as [Ea|Ea]; destruct (Req_EM_T M b) as [Eb|Eb]; destruct (Req_EM_T M c) as [Ec|Ec]; try lra;
  repeat match goal with |- context [Rlt_dec ?x ?y] => destruct (Rlt_dec x y) end; try nra.
Qed.
Lemma hue_swap a b c : ~ (a = b /\ b = c) -> hue (V3 a c b) = if Req_EM_T (hue (V3 a b c)) 0 then 0 else 360 - hue (V3 a b c).
Proof.
  intros Q. unfold hue, hue60. cbv zeta. rewrite max3_swap, min3_swap. hue_cases a b c Q.
  clearbody M m. unfold Rdiv. set (i := / (M - m)) in *. clearbody i.
  destruct (Req_EM_T M m) as [E|E]; [lra|].
  destruct (Req_EM_T M a) as [Ea|Ea]; destruct (Req_EM_T M b) as [Eb|Eb]; destruct (Req_EM_T M c) as [Ec|Ec]; try lra;
  repeat match goal with |- context [Rlt_dec ?x ?y] => destruct (Rlt_dec x y) end;
  repeat match goal with |- context [Req_EM_T ?x ?y] => destruct (Req_EM_T x y) end; try nra.
Qed.
(** exposure and white added to every channel. *)
Lemma max3_aff k c t : 0 < k -> max3 (V3 (k * v0 t + c) (k * v1 t + c) (k * v2 t + c)) = k * max3 t + c.
Proof. intros K. unfold max3; cbn [v0 v1 v2]. unfold Rmax. repeat destruct (Rle_dec _ _); nra. Qed.
Lemma min3_aff k c t : 0 < k -> min3 (V3 (k * v0 t + c) (k * v1 t + c) (k * v2 t + c)) = k * min3 t + c.
Proof. intros K. unfold min3; cbn [v0 v1 v2]. unfold Rmin. repeat destruct (Rle_dec _ _); nra. Qed.
Lemma hue60_aff k c t : 0 < k -> hue60 (V3 (k * v0 t + c) (k * v1 t + c) (k * v2 t + c)) = hue60 t.
Proof.
  intros K. unfold hue60. cbv zeta. rewrite max3_aff, min3_aff by exact K. cbn [v0 v1 v2].
  assert (E : forall (x y p q : R), (if Req_EM_T (k * x + c) (k * y + c) then p else q) = if Req_EM_T x y then p else q).
  { intros x y p q. destruct (Req_EM_T (k * x + c) (k * y + c)) as [A|A]; destruct (Req_EM_T x y) as [B|B]; try reflexivity.
    - exfalso. apply B. apply Rmult_eq_reg_l with k; lra.
    - exfalso. apply A. now rewrite B. }
  rewrite !E. destruct (Req_EM_T (max3 t) (min3 t)) as [|D]; [reflexivity|].
  assert (Q : forall x y, (k * x + c - (k * y + c)) / (k * max3 t + c - (k * min3 t + c)) = (x - y) / (max3 t - min3 t)).
  { intros x y. replace (k * x + c - (k * y + c)) with (k * (x - y)) by ring. replace (k * max3 t + c - (k * min3 t + c)) with (k * (max3 t - min3 t)) by ring. field. lra. }
  now rewrite !Q.
Qed.
Lemma hue_aff k c t : 0 < k -> hue (V3 (k * v0 t + c) (k * v1 t + c) (k * v2 t + c)) = hue t.
Proof. intros K. unfold hue. now rewrite hue60_aff. Qed.
Lemma hue_range t : 0 <= hue t < 360.
Proof. pose proof (hue60_range t). unfold hue. destruct (Rlt_dec (hue60 t) 0); lra. Qed.
Lemma hsv_term t : terminates_with (fun n => toHSV RN n (finV t)) (Ret (finV (V3 (hue t) (sat t) (max3 t)))).
Proof. exists 2%nat. intros [|[|n]] L; try lia. split; [apply toHSV_fin|discriminate]. Qed.

Lemma sym_rot r g b : ~ (r = g /\ g = b) -> exists h s v h', 0 <= h < 360 /\
  terminates_with (fun n => toHSV RN n (finV (V3 r g b))) (Ret (finV (V3 h s v))) /\
  terminates_with (fun n => toHSV RN n (finV (V3 b r g))) (Ret (finV (V3 h' s v))) /\
  (h < 240 -> h' = h + 120) /\ (240 <= h -> h' = h - 240).
Proof.
  intros Q. pose proof (hue_rot r g b Q) as E. pose proof (hsv_term (V3 b r g)) as T. unfold sat in T. rewrite max3_rot, min3_rot in T. fold (sat (V3 r g b)) in T.
  do 4 eexists. split; [|split; [apply hsv_term|split; [exact T|]]]; [apply hue_range|]. rewrite E. destruct (Rlt_dec _ _); split; intros; lra.
Qed.
Lemma sym_swap r g b : ~ (r = g /\ g = b) -> exists h s v h', 0 <= h < 360 /\
  terminates_with (fun n => toHSV RN n (finV (V3 r g b))) (Ret (finV (V3 h s v))) /\
  terminates_with (fun n => toHSV RN n (finV (V3 r b g))) (Ret (finV (V3 h' s v))) /\
  (h = 0 -> h' = 0) /\ (h <> 0 -> h' = 360 - h).
Proof.
  intros Q. pose proof (hue_swap r g b Q) as E. pose proof (hsv_term (V3 r b g)) as T. unfold sat in T. rewrite max3_swap, min3_swap in T. fold (sat (V3 r g b)) in T.
  do 4 eexists. split; [|split; [apply hsv_term|split; [exact T|]]]; [apply hue_range|]. rewrite E. destruct (Req_EM_T _ _); split; intros; lra.
Qed.
Lemma sym_exposure k t : 0 < k -> exists h s v,
  terminates_with (fun n => toHSV RN n (finV t)) (Ret (finV (V3 h s v))) /\
  terminates_with (fun n => toHSV RN n (finV (V3 (k * v0 t) (k * v1 t) (k * v2 t)))) (Ret (finV (V3 h s (k * v)))).
Proof.
  intros K. pose proof (hue_aff k 0 t K) as H. pose proof (max3_aff k 0 t K) as M. pose proof (min3_aff k 0 t K) as m. rewrite !Rplus_0_r in H. rewrite !Rplus_0_r in M. rewrite !Rplus_0_r in m.
  do 3 eexists. split; [apply hsv_term|]. pose proof (hsv_term (V3 (k * v0 t) (k * v1 t) (k * v2 t))) as T. rewrite H, M in T.
  replace (sat (V3 (k * v0 t) (k * v1 t) (k * v2 t))) with (sat t) in T; [exact T|].
  unfold sat. rewrite M, m. destruct (Req_EM_T (max3 t) 0) as [A|A]; destruct (Req_EM_T (k * max3 t) 0) as [B|B]; try reflexivity.
  - exfalso. apply B. rewrite A. ring.
  - exfalso. apply Rmult_integral in B. lra.
  - field. lra.
Qed.
Lemma sym_white c t : exists h s v s',
  terminates_with (fun n => toHSV RN n (finV t)) (Ret (finV (V3 h s v))) /\
  terminates_with (fun n => toHSV RN n (finV (V3 (v0 t + c) (v1 t + c) (v2 t + c)))) (Ret (finV (V3 h s' (v + c)))) /\ (v <> 0 -> v + c <> 0 -> s' * (v + c) = s * v).
Proof.
  pose proof (hue_aff 1 c t ltac:(lra)) as H. pose proof (max3_aff 1 c t ltac:(lra)) as M. pose proof (min3_aff 1 c t ltac:(lra)) as m. rewrite !Rmult_1_l in H. rewrite !Rmult_1_l in M. rewrite !Rmult_1_l in m.
  do 4 eexists. split; [apply hsv_term|]. pose proof (hsv_term (V3 (v0 t + c) (v1 t + c) (v2 t + c))) as T. rewrite H, M in T. split; [exact T|].
  intros A B. unfold sat. rewrite M, m. destruct (Req_EM_T (max3 t) 0); [lra|]. destruct (Req_EM_T (max3 t + c) 0); [lra|]. field. lra.
Qed.

(** ** binary32. *)
Section F.
Context (lm : libm).
Notation N := (FN lm).
Lemma toHSV_shape n (t : Vector3 f32) h s v : toHSV N n t = Ret (V3 h s v) ->
  v = maxi N (maxi N (v0 t) (v1 t)) (v2 t) /\ s = (if @feqb N v (@flit N 0%dec) then @flit N 0%dec else @fdiv N (@fsub N v (mini N (mini N (v0 t) (v1 t)) (v2 t))) v).
Proof.
  unfold toHSV. cbv zeta. destruct (mod360 N n (hsv_hue_raw N t)) as [x| | |]; try discriminate. cbn [bind]. intros E.
  apply (f_equal (fun o => match o with Ret r => r | _ => V3 h s v end)) in E. pose proof (f_equal (@v1 f32) E) as E1. pose proof (f_equal (@v2 f32) E) as E2.
  clear E. destruct t as [a b c]. cbn [v0 v1 v2 vref] in *. split; [symmetry; exact E2|]. rewrite <- E2. symmetry. exact E1.
Qed.
Lemma sat_zero n (t : Vector3 f32) h s v : toHSV N n t = Ret (V3 h s v) -> fin v -> B2R v = 0 -> B2R s = 0.
Proof.
  intros E F V. destruct (toHSV_shape n t h s v E) as [_ ->]. destruct (l0 lm) as [F0 V0]. rewrite eqb_ok by assumption. rewrite V, V0, Req_bool_true by reflexivity. exact V0.
Qed.
Lemma hsv_accurate (t : Vector3 f32) : allV fin t -> allV (fun x => 0 <= B2R x <= bpow radix2 120) t ->
  exists (h s v : f32) (hr sr vr : R), terminates_with (fun n => toHSV N n t) (Ret (V3 h s v)) /\ allV fin (V3 h s v) /\
    terminates_with (fun n => toHSV RN n (finV (V3 (B2R (v0 t)) (B2R (v1 t)) (B2R (v2 t))))) (Ret (finV (V3 hr sr vr))) /\
    B2R v = vr /\ Rabs (B2R s - sr) <= 2.01 * u /\ (Rabs (B2R h - hr) <= 602 * u \/ (Rabs (B2R h - hr + 360) <= 602 * u)).
Proof.
  intros F H. destruct (toHSV_F lm t F H) as (h & s & v & E & Fh & Fs & Fv & Rh & Rs & V & _ & S & q & Q & Hq).
  exists h, s, v, (hue (tR t)), (sat (tR t)), (max3 (tR t)). split; [|split; [|split; [exact (hsv_term (tR t))|split; [exact V|split]]]].
  - exists 2%nat. intros [|[|n]] L; try lia. split; [apply E|discriminate].
  - repeat split; assumption.
  - unfold sat. rewrite <- V in *. destruct (Req_EM_T (B2R v) 0) as [Z|Z].
    + rewrite (sat_zero _ _ _ _ _ (E 0%nat) Fv Z), Rminus_0_r, Rabs_R0. pose proof F32.u_pos. lra.
    + assert (P : 0 < B2R v).
      { assert (P0 : 0 <= B2R v); [|destruct P0 as [P0|P0]; [exact P0|congruence]]. pose proof (max3_in (tR t)) as C. rewrite <- V in C. destruct H as (H0 & H1 & H2). unfold tR in C. cbn [v0 v1 v2] in C, H0, H1, H2. destruct C as [-> |[-> | ->]]; [apply H0|apply H1|apply H2]. }
      apply Rmult_le_reg_l with (B2R v); [exact P|]. rewrite <- (Rabs_pos_eq (B2R v)) at 1 by lra. rewrite <- Rabs_mult, Rmult_minus_distr_l.
      replace (B2R v * ((B2R v - min3 (tR t)) / B2R v)) with (B2R v - min3 (tR t)) by (field; lra). lra.
  - unfold hue. destruct (Rlt_dec (hue60 (tR t)) 0) as [L|L].
    + destruct Q as [-> |[_ ->]]; [right|left].
      * replace (B2R h - (60 * hue60 (tR t) + 360) + 360) with (B2R h - 60 * hue60 (tR t)) by ring. exact Hq.
      * replace (B2R h - (60 * hue60 (tR t) + 360)) with (B2R h - 60 * (hue60 (tR t) + 6)) by ring. exact Hq.
    + destruct Q as [-> |[Q _]]; [left; exact Hq|lra].
Qed.
(** permuting the channels keeps value and saturation, exactly. *)
Lemma sub_fin (x y : f32) : fin x -> fin y -> 0 <= B2R y <= B2R x -> fin (@fsub N x y) /\ B2R (@fsub N x y) = rnd (B2R x - B2R y).
Proof.
  intros Fx Fy L. pose proof (Bminus_correct 24 128 _ _ mode_NE x y Fx Fy) as C. change (SpecFloat.fexp 24 128) with fe in C. cbn [round_mode] in C.
  rewrite Rlt_bool_true in C. { destruct C as (A & B & _). split; [exact B|exact A]. }
  change (round radix2 fe ZnearestE (B2R x - B2R y)) with (rnd (B2R x - B2R y)).
  assert (0 <= rnd (B2R x - B2R y) <= B2R x) by (split; [apply rnd_ge_fmt; [apply fmt_0|lra]|apply rnd_le_fmt; [apply fmt_B2R|lra]]).
  rewrite Rabs_pos_eq by lra. pose proof (b128_max x) as B. rewrite Rabs_pos_eq in B by lra. lra.
Qed.
Lemma sat_eq (v v' m m' : f32) : fin v -> fin v' -> fin m -> fin m' -> B2R v = B2R v' -> B2R m = B2R m' -> 0 <= B2R m <= B2R v ->
  B2R (if @feqb N v (@flit N 0%dec) then @flit N 0%dec else @fdiv N (@fsub N v m) v) = B2R (if @feqb N v' (@flit N 0%dec) then @flit N 0%dec else @fdiv N (@fsub N v' m') v').
Proof.
  intros Fv Fv' Fm Fm' V M L. destruct (l0 lm) as [F0 V0]. rewrite !eqb_ok by assumption. rewrite <- V, V0. case Req_bool_spec; intros Z; [reflexivity|].
  assert (Bv : B2R v <= bpow radix2 128) by (pose proof (b128_max v) as B; rewrite Rabs_pos_eq in B; lra).
  assert (K : forall x y : f32, fin x -> fin y -> 0 <= B2R y <= B2R x -> B2R x <> 0 -> B2R (@fdiv N (@fsub N x y) x) = rnd (rnd (B2R x - B2R y) / B2R x)).
  { intros x y Fx Fy Lx Nx. assert (R1 : 0 <= rnd (B2R x - B2R y) <= B2R x).
    { split; [apply rnd_ge_fmt; [apply fmt_0|lra]|apply rnd_le_fmt; [apply fmt_B2R|lra]]. }
    destruct (sub_fin x y Fx Fy) as [Fd Vd]; [exact Lx|]. destruct (div_ok lm (@fsub N x y) x Fd Nx) as [_ E]; [|now rewrite E, Vd].
    rewrite Vd. apply Rle_trans with 1; [|change 1 with (bpow radix2 0); apply bpow_le; lia]. rewrite Rabs_pos_eq.
    - apply Rmult_le_reg_r with (B2R x); [lra|]. unfold Rdiv. rewrite Rmult_assoc, Rinv_l by lra. lra.
    - apply Rmult_le_pos; [lra|]. left. apply Rinv_0_lt_compat. lra. }
  rewrite !K by (auto; lra). now rewrite <- V, <- M.
Qed.
Lemma hsv_permute (a b c a' b' c' : f32) : allV fin (V3 a b c) -> allV (fun x => 0 <= B2R x <= bpow radix2 120) (V3 a b c) ->
  (V3 a' b' c' = V3 b c a \/ V3 a' b' c' = V3 c a b \/ V3 a' b' c' = V3 a c b \/ V3 a' b' c' = V3 c b a \/ V3 a' b' c' = V3 b a c) ->
  exists h s v h' s' v' : f32, terminates_with (fun n => toHSV N n (V3 a b c)) (Ret (V3 h s v)) /\ allV fin (V3 h s v) /\
    terminates_with (fun n => toHSV N n (V3 a' b' c')) (Ret (V3 h' s' v')) /\ allV fin (V3 h' s' v') /\ B2R s' = B2R s /\ B2R v' = B2R v.
Proof.
  intros F H P.
  assert (F' : allV fin (V3 a' b' c')) by (destruct F as (F0 & F1 & F2); cbn [v0 v1 v2] in *; destruct P as [P|[P|[P|[P|P]]]]; injection P as -> -> ->; repeat split; assumption).
  assert (H' : allV (fun x : f32 => 0 <= B2R x <= bpow radix2 120) (V3 a' b' c')) by (destruct H as (H0 & H1 & H2); cbn [v0 v1 v2] in *; destruct P as [P|[P|[P|[P|P]]]]; injection P as -> -> ->; repeat split; cbn [v0 v1 v2]; lra).
  destruct (toHSV_F lm _ F H) as (h & s & v & E & Fh & Fs & Fv & _ & _ & V & _). destruct (toHSV_F lm _ F' H') as (h' & s' & v' & E' & Fh' & Fs' & Fv' & _ & _ & V' & _).
  assert (MM : max3 (tR (V3 a' b' c')) = max3 (tR (V3 a b c)) /\ min3 (tR (V3 a' b' c')) = min3 (tR (V3 a b c))).
  { unfold tR. cbn [v0 v1 v2]. destruct P as [P|[P|[P|[P|P]]]]; injection P as -> -> ->.
    - split; [rewrite <- max3_rot, <- max3_rot; reflexivity|rewrite <- min3_rot, <- min3_rot; reflexivity].
    - split; [apply max3_rot|apply min3_rot].
    - split; [apply max3_swap|apply min3_swap].
    - split; [rewrite max3_swap; apply max3_rot|rewrite min3_swap; apply min3_rot].
    - split; [rewrite max3_swap; symmetry; apply max3_rot|rewrite min3_swap; symmetry; apply min3_rot]. }
  destruct MM as [M1 M2]. exists h, s, v, h', s', v'.
  split; [exists 2%nat; intros [|[|n]] L; try lia; split; [apply E|discriminate]|]. split; [repeat split; assumption|].
  split; [exists 2%nat; intros [|[|n]] L; try lia; split; [apply E'|discriminate]|]. split; [repeat split; assumption|]. split; [|congruence].
  destruct (toHSV_shape _ _ _ _ _ (E 0%nat)) as [_ ->]. destruct (toHSV_shape _ _ _ _ _ (E' 0%nat)) as [_ ->].
  destruct (min3_F lm _ F) as [Fm Vm]. destruct (min3_F lm _ F') as [Fm' Vm']. apply sat_eq; auto; try congruence.
  rewrite Vm', V', M1, M2. pose proof (min3_in (tR (V3 a b c))) as C. pose proof (min3_le (tR (V3 a b c))) as D. pose proof (max3_ge (tR (V3 a b c))) as G.
  destruct H as (H0 & H1 & H2). unfold tR in *. cbn [v0 v1 v2] in *. destruct C as [C|[C|C]]; lra.
Qed.
End F.
Lemma hsv_accurate16 (lm : libm) (t : Vector3 f32) : allV fin t -> allV (fun x => 0 <= B2R x <= bpow radix2 120) t ->
  exists (h s v : f32) (hr sr vr : R), terminates_with (fun n => toHSV (FN lm) n t) (Ret (V3 h s v)) /\ allV fin (V3 h s v) /\
    terminates_with (fun n => toHSV RN n (finV (V3 (B2R (v0 t)) (B2R (v1 t)) (B2R (v2 t))))) (Ret (finV (V3 hr sr vr))) /\
    B2R v = vr /\ Rabs (B2R s - sr) <= 2.01 * / 16777216 /\
    (Rabs (B2R h - hr) <= 602 * / 16777216 \/ Rabs (B2R h - hr + 360) <= 602 * / 16777216).
Proof. rewrite <- u16. exact (hsv_accurate lm t). Qed.
Lemma hsv_sym_ex : toHSV RN 3 (finV (V3 1 0.5 0)) = Ret (finV (V3 30 1 1)) /\ toHSV RN 3 (finV (V3 0 1 0.5)) = Ret (finV (V3 150 1 1)).
Proof.
  assert (M : max3 (V3 1 0.5 0) = 1 /\ min3 (V3 1 0.5 0) = 0) by (unfold max3, min3, Rmax, Rmin; cbn [v0 v1 v2]; repeat destruct (Rle_dec _ _); lra). destruct M as [M m].
  assert (H : hue (V3 1 0.5 0) = 30).
  { unfold hue, hue60. rewrite M, m. cbn [v0 v1 v2]. destruct (Req_EM_T 1 0); [lra|]. destruct (Req_EM_T 1 1); [|lra]. destruct (Rlt_dec _ 0); lra. }
  rewrite !toHSV_fin. rewrite (hue_rot 1 0.5 0 ltac:(lra)), H. unfold sat. rewrite (max3_rot 1 0.5 0), (min3_rot 1 0.5 0), M, m. destruct (Req_EM_T 1 0); [lra|]. destruct (Rlt_dec 30 240); [|lra].
  split; do 3 f_equal; lra.
Qed.
Lemma hsv_acc_ex (lm : libm) : let t := V3 (@flit (FN lm) 0.1%dec) (@flit (FN lm) 0.2%dec) (@flit (FN lm) 0.7%dec) in
  allV fin t /\ allV (fun x : f32 => 0 <= B2R x <= bpow radix2 120) t.
Proof.
  assert (K : forall x : f32, fin x -> 0 <= B2R x <= 1 -> 0 <= B2R x <= bpow radix2 120). { intros x _ H. pose proof (bpow_le radix2 0 120 ltac:(lia)) as B. change (bpow radix2 0) with 1 in B. lra. }
  assert (A : fin (@flit (FN lm) 0.1%dec) /\ B2R (@flit (FN lm) 0.1%dec) = 13421773 / 134217728) by f32_val.
  assert (B : fin (@flit (FN lm) 0.2%dec) /\ B2R (@flit (FN lm) 0.2%dec) = 13421773 / 67108864) by f32_val.
  assert (C : fin (@flit (FN lm) 0.7%dec) /\ B2R (@flit (FN lm) 0.7%dec) = 11744051 / 16777216) by f32_val.
  destruct A as [A A'], B as [B B'], C as [C C']. cbv zeta. repeat split; cbn [v0 v1 v2]; try assumption; apply K; try assumption; lra.
Qed.
