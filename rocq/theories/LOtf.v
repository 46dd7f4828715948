(** * Transfer functions: the statements of C28-C36 assembled. *)
From Coq Require Import ZArith Reals Lra Lia List.
From Flocq Require Import Core.Raux.
From Verif Require Import Num NumR MVec MTri MOtf SpecMat RTac PMat RPow POtf POtf2.
Local Open Scope R_scope.

Definition comps (P : R -> Prop) (t : Vector3 R) : Prop := P (v0 t) /\ P (v1 t) /\ P (v2 t).
(** non-decreasing (and defined) on a set of arguments. *)
Definition increasing_on (P : R -> Prop) (f : F RN -> F RN) : Prop :=
  forall v w, P v -> P w -> v <= w -> exists a b, f (Some v) = Some a /\ f (Some w) = Some b /\ a <= b.

(** a pair of scalar functions that round-trips on a set does so on triples. *)
Lemma lift_rt (f h : F RN -> F RN) (P : R -> Prop) :
  (forall v, P v -> exists c, f (Some v) = Some c /\ h (Some c) = Some v) ->
  forall t, comps P t ->
  let c := V3 (f (Some (v0 t))) (f (Some (v1 t))) (f (Some (v2 t))) in V3 (h (v0 c)) (h (v1 c)) (h (v2 c)) = finV t.
Proof.
  intros H t (A & B & C). cbv zeta. cbn [v0 v1 v2].
  destruct (H _ A) as (a & -> & ->). destruct (H _ B) as (b & -> & ->). destruct (H _ C) as (c & -> & ->). reflexivity.
Qed.
Lemma C28_l (t : Vector3 R) (g g' : F RN) : comps (fun x => 0 <= x <= 1) t ->
  toScene RN BT709 (toScreen RN BT709 (finV t) g) g' = finV t.
Proof.
  apply (lift_rt (Y_to_BT709 RN) (BT709_to_Y RN)). intros v H. exists (bt_enc v). rewrite bt_enc_fin, bt_dec_fin, bt_rt by exact H. auto.
Qed.
Lemma lift_range (f : F RN -> F RN) (P : R -> Prop) : (forall v, exists c, f (Some v) = Some c /\ P c) ->
  forall t, exists c, V3 (f (Some (v0 t))) (f (Some (v1 t))) (f (Some (v2 t))) = finV c /\ comps P c.
Proof.
  intros H t. destruct (H (v0 t)) as (a & -> & A). destruct (H (v1 t)) as (b & -> & B). destruct (H (v2 t)) as (c & -> & C).
  exists (V3 a b c). split; [reflexivity|]. repeat split; assumption.
Qed.
Lemma C28_range_l (t : Vector3 R) (g : F RN) : exists c s,
  toScreen RN BT709 (finV t) g = finV c /\ comps (fun x => 0 <= x <= 1) c /\
  toScene RN BT709 (finV t) g = finV s /\ comps (fun x => 0 <= x <= 1) s.
Proof.
  destruct (lift_range (Y_to_BT709 RN) (fun x => 0 <= x <= 1)) with (t := t) as (c & C1 & C2).
  { intros v. exists (bt_enc v). split; [apply bt_enc_fin|apply bt_enc_range]. }
  destruct (lift_range (BT709_to_Y RN) (fun x => 0 <= x <= 1)) with (t := t) as (s & S1 & S2).
  { intros v. exists (bt_dec v). split; [apply bt_dec_fin|apply bt_dec_range]. }
  exists c, s. repeat (split; [assumption|]). assumption.
Qed.
Lemma C28_mono_l : increasing_on (fun _ => True) (Y_to_BT709 RN).
Proof. intros v w _ _ H. exists (bt_enc v), (bt_enc w). rewrite !bt_enc_fin. split; [reflexivity|]. split; [reflexivity|]. apply bt_enc_mono, H. Qed.
Lemma C29_l :
  (exists c, 0 <= c <= 1 /\
     toScreen RN BT709 (toScene RN BT709 (finV (V3 c c c)) None) None <> finV (V3 c c c)) /\
  (exists c d, 0 <= c < d /\ d <= 1 /\ exists y z, BT709_to_Y RN (Some c) = Some y /\
     BT709_to_Y RN (Some d) = Some z /\ z < y).
Proof.
  split.
  - exists 0.081. split; [lra|]. unfold toScreen, toScene, finV. cbn [vref v0 v1 v2]. rewrite bt_dec_fin. rewrite bt_enc_fin.
    intros E. injection E. intros K _ _. revert K. apply bt_rt2_bad. rewrite bt_enc_hi by lra. pose proof bt_knee. lra.
  - exists 0.0809, 0.081. split; [lra|]. split; [lra|]. do 2 eexists. split; [apply bt_dec_fin|]. split; [apply bt_dec_fin|].
    pose proof bt_dec_081. rewrite (bt_dec_lo 0.0809) by lra. lra.
Qed.
Lemma C29_partial_l (c : R) : 0 <= c <= 1 ->
  exists v c', BT709_to_Y RN (Some c) = Some v /\ Y_to_BT709 RN (Some v) = Some c' /\
    (c < 0.081 \/ 0.08125 <= c -> c' = c) /\ Rabs (c' - c) <= 0.0006.
Proof.
  intros H. do 2 eexists. split; [apply bt_dec_fin|]. split; [apply bt_enc_fin|]. split; [|apply bt_rt2_err, H].
  intros K. apply bt_rt2; [exact H|]. pose proof bt_knee_hi. destruct K; [left|right]; lra.
Qed.
Lemma C30_range_l (t : Vector3 R) (g : F RN) : exists c s,
  toScreen RN SRGB (finV t) g = finV c /\ comps (fun x => 0 <= x <= 1) c /\
  toScene RN SRGB (finV t) g = finV s /\ comps (fun x => 0 <= x <= 1) s.
Proof.
  destruct (lift_range (Y_to_sRGB RN) (fun x => 0 <= x <= 1)) with (t := t) as (c & C1 & C2).
  { intros v. exists (s_enc v). split; [apply s_enc_fin|apply s_enc_range]. }
  destruct (lift_range (sRGB_to_Y RN) (fun x => 0 <= x <= 1)) with (t := t) as (s & S1 & S2).
  { intros v. exists (s_dec v). split; [apply s_dec_fin|apply s_dec_range]. }
  exists c, s. repeat (split; [assumption|]). assumption.
Qed.
Lemma C30_mono_l : increasing_on (fun _ => True) (sRGB_to_Y RN).
Proof. intros v w _ _ H. exists (s_dec v), (s_dec w). rewrite !s_dec_fin. split; [reflexivity|]. split; [reflexivity|]. apply s_dec_mono, H. Qed.
Lemma C30_rt_l (v : R) : 0 <= v <= 1 ->
  exists c v', Y_to_sRGB RN (Some v) = Some c /\ sRGB_to_Y RN (Some c) = Some v' /\
    (v < 0.0031308 \/ 0.0031309 <= v -> v' = v) /\ Rabs (v' - v) <= 2e-7.
Proof.
  intros H. do 2 eexists. split; [apply s_enc_fin|]. split; [apply s_dec_fin|]. split; [apply s_rt, H|apply s_rt_err, H].
Qed.
Lemma C30_rt2_l (c : R) : 0 <= c <= 1 -> (c < 0.040449936 \/ 0.04045 <= c) ->
  exists v, sRGB_to_Y RN (Some c) = Some v /\ Y_to_sRGB RN (Some v) = Some c.
Proof. intros H K. eexists. split; [apply s_dec_fin|]. rewrite s_enc_fin, s_rt2 by assumption. reflexivity. Qed.
Lemma C31_l :
  (exists v, 0 <= v <= 1 /\ toScene RN SRGB (toScreen RN SRGB (finV (V3 v v v)) None) None <> finV (V3 v v v)) /\
  (exists v w, 0 <= v < w /\ w <= 1 /\ exists y z, Y_to_sRGB RN (Some v) = Some y /\
     Y_to_sRGB RN (Some w) = Some z /\ z < y).
Proof.
  split.
  - exists 0.0031308. split; [lra|]. unfold toScreen, toScene, finV. cbn [vref v0 v1 v2]. rewrite s_enc_fin, s_dec_fin.
    intros E. injection E. intros K _ _. revert K. apply s_rt_bad.
  - exists 0.00313079999, 0.0031308. split; [lra|]. split; [lra|]. do 2 eexists. split; [apply s_enc_fin|]. split; [apply s_enc_fin|]. apply s_enc_bad.
Qed.
Lemma C31_partial_l :
  increasing_on (fun v => v < 0.0031308) (Y_to_sRGB RN) /\
  increasing_on (fun v => 0.0031308 <= v) (Y_to_sRGB RN) /\
  (forall (t : Vector3 R) g g', comps (fun v => 0 <= v < 0.0031308 \/ 0.0031309 <= v <= 1) t ->
    toScene RN SRGB (toScreen RN SRGB (finV t) g) g' = finV t).
Proof.
  split; [|split].
  - intros v w A B H. exists (s_enc v), (s_enc w). rewrite !s_enc_fin. split; [reflexivity|]. split; [reflexivity|]. apply s_enc_mono; auto.
  - intros v w A B H. exists (s_enc v), (s_enc w). rewrite !s_enc_fin. split; [reflexivity|]. split; [reflexivity|]. apply s_enc_mono; auto.
  - intros t g g'. apply (lift_rt (Y_to_sRGB RN) (sRGB_to_Y RN)). intros v H. exists (s_enc v).
    rewrite s_enc_fin, s_dec_fin, s_rt; [auto|lra|]. destruct H; [left|right]; lra.
Qed.
Lemma C32_l (t : Vector3 R) (g g' : F RN) : comps (fun x => 0 <= x <= 100) t ->
  toScene RN ST2084 (toScreen RN ST2084 (finV t) g) g' = finV t.
Proof. apply (lift_rt (Y_to_ST2084 RN) (ST2084_to_Y RN)). apply pq_rt. Qed.
Lemma C32_dec_l (t : Vector3 R) (g g' : F RN) :
  comps (fun c => Rpower 0.8359375 78.84375 < c <= 1) t ->
  toScreen RN ST2084 (toScene RN ST2084 (finV t) g) g' = finV t.
Proof. apply (lift_rt (ST2084_to_Y RN) (Y_to_ST2084 RN)). intros c H. destruct (pq_rt2 c H) as (v & _ & A & B). exists v. auto. Qed.
Lemma C32_mono_l : increasing_on (fun _ => True) (Y_to_ST2084 RN) /\
  forall v, exists c, Y_to_ST2084 RN (Some v) = Some c /\ 0 <= c <= 1.
Proof.
  split.
  - intros v w _ _ H. destruct (pq_mono v w H) as (a & b & A & B & C). exists a, b. repeat split; auto; lra.
  - intros v. destruct (pq_mono v v (Rle_refl v)) as (a & b & A & B & C). exists a. split; [exact A|]. lra.
Qed.
Lemma C32_ex : comps (fun x => 0 <= x <= 100) (V3 0 12.5 100) /\
  comps (fun c => Rpower 0.8359375 78.84375 < c <= 1) (V3 0.5 0.9 1).
Proof.
  unfold comps; cbn [v0 v1 v2]. assert (Rpower 0.8359375 78.84375 < 0.5); [|lra].
  apply Rle_lt_trans with (Rpower 0.8359375 (INR 10)).
  - apply Rnot_lt_le. unfold Rpower. intros K. apply exp_lt_inv in K.
    assert (ln 0.8359375 < 0) by (rewrite <- ln_1; apply ln_increasing; lra). cbn [INR] in K. nra.
  - rewrite Rpower_pow by lra. lra.
Qed.
Lemma C33_l (t : Vector3 R) (g g' : F RN) : comps (fun x => 0 <= x) t ->
  toScene RN HLG (toScreen RN HLG (finV t) g) g' = finV t.
Proof. apply (lift_rt (Y_to_HLG RN) (HLG_to_Y RN)). intros v H. destruct (hlg_rt v H) as (c & A & _ & B). exists c. auto. Qed.
Lemma C33_mono_l : increasing_on (fun _ => True) (Y_to_HLG RN).
Proof. intros v w _ _ H. destruct (hlg_mono v w H) as (a & b & A & B & C). exists a, b. repeat split; auto; lra. Qed.
Lemma C34_slog_l (t : Vector3 R) (g g' : F RN) : comps (fun x => 0 <= x <= 10) t ->
  toScene RN SLOG (toScreen RN SLOG (finV t) g) g' = finV t.
Proof.
  apply (lift_rt (Y_to_SLog RN) (SLog_to_Y RN)). intros v H. exists (slog v). split; [apply slog_enc, H|apply slog_dec; lra].
Qed.
Lemma C34_mono_l (v w : R) : 0 <= v -> v < w ->
  (exists a b, Y_to_SLog2 RN (Some v) = Some a /\ Y_to_SLog2 RN (Some w) = Some b /\ a < b) /\
  (w <= 10 -> exists a b, Y_to_SLog RN (Some v) = Some a /\ Y_to_SLog RN (Some w) = Some b /\ a < b).
Proof.
  intros H K. split; [apply slog2_mono; assumption|]. intros L. rewrite !slog_enc by lra.
  do 2 eexists. split; [reflexivity|]. split; [reflexivity|]. apply slog_lt; lra.
Qed.
Lemma C35_l :
  (exists c, Y_to_SLog3 RN (Some 0.18) = Some c /\ c > 420 / 1023) /\
  (exists c v', Y_to_SLog3 RN (Some 0.18) = Some c /\ SLog3_to_Y RN (Some c) = Some v' /\ v' > 0.18).
Proof. split; [apply slog3_grey|apply slog3_rt_bad]. Qed.
Lemma C35_partial_l (v : R) :
  (v <= 0.01125 -> exists c, Y_to_SLog3 RN (Some v) = Some c /\ SLog3_to_Y RN (Some c) = Some v) /\
  SLog3_to_Y RN (Some v) = Some (sony_dec v).
Proof. split; [apply slog3_rt_lo|apply slog3_dec]. Qed.
Lemma C35_ex : sony_dec (420 / 1023) = 0.18.
Proof.
  unfold sony_dec. destruct (Rlt_dec _ _) as [L|L]; [|lra].
  replace ((420 / 1023 * 1023 - 420) / 261.5) with 0 by lra. unfold Rpower. rewrite Rmult_0_l, exp_0. lra.
Qed.
Lemma C36_l (t : Vector3 R) (g : R) : comps (fun x => 0 <= x) t -> 0 < g ->
  toScene RN GAMMA (toScreen RN GAMMA (finV t) (Some g)) (Some g) = finV t.
Proof.
  intros H G. revert t H. apply (lift_rt (fun v => gamma RN v (Some g)) (fun v => degamma RN v (Some g))).
  intros v H. destruct (gamma_rt v g H G) as (c & A & _ & B). exists c. auto.
Qed.
Lemma C36_linear_l (N : Num) (t : Vector3 (F N)) (g : F N) : toScreen N LINEAR t g = t /\ toScene N LINEAR t g = t.
Proof. split; reflexivity. Qed.
Lemma C36_channels_l (N : Num) (ty : TYPE) (g : F N) : exists f h : F N -> F N,
  forall a b c, toScreen N ty (V3 a b c) g = V3 (f a) (f b) (f c) /\
                toScene N ty (V3 a b c) g = V3 (h a) (h b) (h c).
Proof.
  destruct ty; unfold toScreen, toScene; cbn [vref v0 v1 v2].
  - exists (fun x => x), (fun x => x). auto.
  - exists (fun x => gamma N x g), (fun x => degamma N x g). auto.
  - exists (Y_to_sRGB N), (sRGB_to_Y N). auto.
  - exists (Y_to_BT709 N), (BT709_to_Y N). auto.
  - exists (Y_to_ST2084 N), (ST2084_to_Y N). auto.
  - exists (Y_to_SLog N), (SLog_to_Y N). auto.
  - exists (Y_to_SLog2 N), (SLog2_to_Y N). auto.
  - exists (Y_to_SLog3 N), (SLog3_to_Y N). auto.
  - exists (Y_to_HLG N), (HLG_to_Y N). auto.
Qed.
