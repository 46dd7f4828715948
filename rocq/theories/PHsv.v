(** * HSV. *)
From Coq Require Import ZArith Reals Lra Lia List Bool.
From Flocq Require Import Core.Raux Core.Generic_fmt Core.Defs.
From Verif Require Import Num NumR NumF MVec MTri SpecMat RTac PMat PMod360.
Local Open Scope R_scope.

Lemma maxi_fin a b : maxi RN (Some a) (Some b) = Some (Rmax a b).
Proof.
  unfold maxi. rn. unfold Rmax. destruct (Rle_dec a b); case Rlt_bool_spec; intros; auto; f_equal; lra.
Qed.
Lemma mini_fin a b : mini RN (Some a) (Some b) = Some (Rmin a b).
Proof.
  unfold mini. rn. unfold Rmin. destruct (Rle_dec a b); case Rlt_bool_spec; intros; auto; f_equal; lra.
Qed.
Definition max3 (t : Vector3 R) : R := Rmax (Rmax (v0 t) (v1 t)) (v2 t).
Definition min3 (t : Vector3 R) : R := Rmin (Rmin (v0 t) (v1 t)) (v2 t).
Lemma max3_fin t : maxi RN (maxi RN (finV t).[0] (finV t).[1]) (finV t).[2] = Some (max3 t).
Proof. destruct t as [a b c]; cbn [finV vref v0 v1 v2]. rewrite !maxi_fin. reflexivity. Qed.
Lemma min3_fin t : mini RN (mini RN (finV t).[0] (finV t).[1]) (finV t).[2] = Some (min3 t).
Proof. destruct t as [a b c]; cbn [finV vref v0 v1 v2]. rewrite !mini_fin. reflexivity. Qed.
Lemma max3_ge t : v0 t <= max3 t /\ v1 t <= max3 t /\ v2 t <= max3 t.
Proof.
  unfold max3. pose proof (Rmax_l (v0 t) (v1 t)). pose proof (Rmax_r (v0 t) (v1 t)).
  pose proof (Rmax_l (Rmax (v0 t) (v1 t)) (v2 t)). pose proof (Rmax_r (Rmax (v0 t) (v1 t)) (v2 t)). lra.
Qed.
Lemma min3_le t : min3 t <= v0 t /\ min3 t <= v1 t /\ min3 t <= v2 t.
Proof.
  unfold min3. pose proof (Rmin_l (v0 t) (v1 t)). pose proof (Rmin_r (v0 t) (v1 t)).
  pose proof (Rmin_l (Rmin (v0 t) (v1 t)) (v2 t)). pose proof (Rmin_r (Rmin (v0 t) (v1 t)) (v2 t)). lra.
Qed.
Lemma max3_in t : max3 t = v0 t \/ max3 t = v1 t \/ max3 t = v2 t.
Proof. unfold max3, Rmax. destruct (Rle_dec (v0 t) (v1 t)); destruct (Rle_dec _ (v2 t)); auto. Qed.
Lemma min3_in t : min3 t = v0 t \/ min3 t = v1 t \/ min3 t = v2 t.
Proof. unfold min3, Rmin. destruct (Rle_dec (v0 t) (v1 t)); destruct (Rle_dec _ (v2 t)); auto. Qed.

(** ** Specification of hue: the hexagon formula. *)
Definition hue60 (t : Vector3 R) : R :=
  let d := max3 t - min3 t in
  if Req_EM_T (max3 t) (min3 t) then 0
  else if Req_EM_T (max3 t) (v0 t) then (v1 t - v2 t) / d
  else if Req_EM_T (max3 t) (v1 t) then (v2 t - v0 t) / d + 2
  else (v0 t - v1 t) / d + 4.
Lemma hue_raw_fin t : hsv_hue_raw RN (finV t) = Some (60 * hue60 t).
Proof.
  unfold hsv_hue_raw, hue60. cbv zeta. rewrite max3_fin, min3_fin. destruct t as [r g b]. rn.
  destruct (Req_EM_T (max3 (V3 r g b)) (min3 (V3 r g b))) as [E|E].
  { rewrite Req_bool_true by exact E. f_equal. ring. }
  rewrite (Req_bool_false (max3 _) (min3 _)) by exact E.
  assert (D : max3 (V3 r g b) - min3 (V3 r g b) <> 0) by lra.
  destruct (Req_EM_T (max3 (V3 r g b)) r) as [E0|E0].
  { rewrite Req_bool_true by exact E0. rewrite rdiv_ok by exact D. f_equal. field. exact D. }
  rewrite (Req_bool_false _ r) by exact E0.
  destruct (Req_EM_T (max3 (V3 r g b)) g) as [E1|E1].
  { rewrite Req_bool_true by exact E1. rewrite rdiv_ok by exact D. rn. f_equal. field. exact D. }
  rewrite (Req_bool_false _ g) by exact E1. rewrite rdiv_ok by exact D. rn. f_equal. field. exact D.
Qed.

Lemma div_bounds x d : 0 < d -> - d <= x <= d -> -1 <= x / d <= 1.
Proof.
  intros D H. split; apply Rmult_le_reg_r with d; auto; unfold Rdiv; rewrite Rmult_assoc, Rinv_l by lra; lra.
Qed.
Lemma div_neg x d : 0 < d -> x < 0 -> x / d < 0.
Proof. intros D H. unfold Rdiv. assert (0 < / d) by (apply Rinv_0_lt_compat, D). nra. Qed.
Lemma div_nonneg x d : 0 < d -> 0 <= x -> 0 <= x / d.
Proof. intros D H. unfold Rdiv. assert (0 < / d) by (apply Rinv_0_lt_compat, D). nra. Qed.
Lemma div_lt1 x d : 0 < d -> x < d -> x / d < 1.
Proof. intros D H. apply Rmult_lt_reg_r with d; auto; unfold Rdiv; rewrite Rmult_assoc, Rinv_l by lra; lra. Qed.
Lemma div_gtm1 x d : 0 < d -> - d < x -> -1 < x / d.
Proof. intros D H. apply Rmult_lt_reg_r with d; auto; unfold Rdiv; rewrite Rmult_assoc, Rinv_l by lra; lra. Qed.

Lemma hue60_range t : -1 <= hue60 t < 5.
Proof.
  pose proof (max3_ge t) as (A0 & A1 & A2). pose proof (min3_le t) as (B0 & B1 & B2).
  pose proof (max3_in t) as C.
  unfold hue60. cbv zeta. destruct (Req_EM_T (max3 t) (min3 t)) as [E|E]; [lra|].
  assert (D : 0 < max3 t - min3 t) by lra.
  destruct (Req_EM_T (max3 t) (v0 t)) as [E0|E0].
  { pose proof (div_bounds (v1 t - v2 t) _ D ltac:(lra)). lra. }
  destruct (Req_EM_T (max3 t) (v1 t)) as [E1|E1].
  { pose proof (div_bounds (v2 t - v0 t) _ D ltac:(lra)). lra. }
  pose proof (div_bounds (v0 t - v1 t) _ D ltac:(lra)).
  pose proof (div_lt1 (v0 t - v1 t) _ D ltac:(lra)). lra.
Qed.
Definition hue (t : Vector3 R) : R := if Rlt_dec (hue60 t) 0 then 60 * hue60 t + 360 else 60 * hue60 t.
Lemma mod360_hue n t : mod360 RN (S (S n)) (hsv_hue_raw RN (finV t)) = Ret (Some (hue t)).
Proof.
  rewrite hue_raw_fin. pose proof (hue60_range t). unfold hue. destruct (Rlt_dec (hue60 t) 0) as [L|L].
  - rewrite mod360_R_neg by lra. rewrite mod360_R_id by lra. reflexivity.
  - rewrite mod360_R_id by lra. reflexivity.
Qed.
Definition sat (t : Vector3 R) : R := if Req_EM_T (max3 t) 0 then 0 else (max3 t - min3 t) / max3 t.
Lemma toHSV_fin n t : toHSV RN (S (S n)) (finV t) = Ret (finV (V3 (hue t) (sat t) (max3 t))).
Proof.
  unfold toHSV. cbv zeta. rewrite max3_fin, min3_fin, mod360_hue. cbn [bind]. f_equal. unfold finV, sat. rn.
  destruct (Req_EM_T (max3 t) 0) as [E|E].
  - rewrite Req_bool_true by exact E. reflexivity.
  - rewrite Req_bool_false by exact E. rewrite rdiv_ok by exact E. reflexivity.
Qed.

(** ** [fromHSV] in each sector. *)
Definition hsv_sector (k : Z) (s v r : R) : Vector3 R :=
  let m := v * (1 - s) in
  let n := v * (1 - s * r) in
  let p := v * (1 - s * (1 - r)) in
  match k with
  | 0%Z => V3 v p m | 1%Z => V3 n v m | 2%Z => V3 m v p
  | 3%Z => V3 m n v | 4%Z => V3 p m v | 5%Z => V3 v m n
  | _ => V3 v p m
  end.
Lemma toint_ok x k : IZR k <= x < IZR k + 1 -> (0 <= k <= 2 ^ 31 - 1)%Z -> rx_toint (Some x) = Some k.
Proof.
  intros H K. unfold rx_toint. rewrite Ztrunc_floor.
  - rewrite (Zfloor_imp k) by (rewrite plus_IZR; exact H).
    replace ((- 2 ^ 31 <=? k)%Z) with true by (symmetry; apply Z.leb_le; lia).
    replace ((k <=? 2 ^ 31 - 1)%Z) with true by (symmetry; apply Z.leb_le; lia). reflexivity.
  - apply Rle_trans with (IZR k); [apply IZR_le; lia|lra].
Qed.
Lemma fromHSV_sector n h s v k :
  0 <= h <= 360 -> (0 <= k <= 6)%Z -> IZR k <= h / 60 < IZR k + 1 ->
  fromHSV RN (S n) (finV (V3 h s v)) = Ret (finV (hsv_sector k s v (h / 60 - IZR k))).
Proof.
  intros Hh Hk Hd. unfold fromHSV. rn. rewrite mod360_R_id by lra. rn. rewrite rdiv_ok by lra.
  rewrite (toint_ok _ k) by (auto; lia). rn.
  assert (C : (k = 0 \/ k = 1 \/ k = 2 \/ k = 3 \/ k = 4 \/ k = 5 \/ k = 6)%Z) by lia.
  repeat destruct C as [-> | C]; try subst k; reflexivity.
Qed.

(** ** Round trip. *)
Lemma hsv_round_trip n t : max3 t <> 0 \/ t = V3 0 0 0 ->
  fromHSV RN (S n) (finV (V3 (hue t) (sat t) (max3 t))) = Ret (finV t).
Proof.
  intros [Hm| ->].
  2: { assert (M0 : max3 (V3 0 0 0) = 0) by (pose proof (max3_in (V3 0 0 0)) as Q; cbn [v0 v1 v2] in Q; lra).
       assert (m0 : min3 (V3 0 0 0) = 0) by (pose proof (min3_in (V3 0 0 0)) as Q; cbn [v0 v1 v2] in Q; lra).
       assert (H0 : hue (V3 0 0 0) = 0).
       { unfold hue, hue60. rewrite M0, m0. destruct (Req_EM_T 0 0); [|lra]. destruct (Rlt_dec 0 0); lra. }
       rewrite H0, M0. rewrite (fromHSV_sector n 0 _ _ 0) by (lra || lia).
       unfold hsv_sector, finV. rn. fin_eq; ring. }
  pose proof (max3_ge t) as (A0 & A1 & A2). pose proof (min3_le t) as (B0 & B1 & B2).
  pose proof (max3_in t) as C. pose proof (min3_in t) as C'.
  assert (S : sat t = (max3 t - min3 t) / max3 t) by (unfold sat; destruct (Req_EM_T _ _); [contradiction|reflexivity]).
  rewrite S. clear S.
  set (M := max3 t) in *. set (m := min3 t) in *.
  assert (EM : forall r, M * (1 - (M - m) / M * r) = M - (M - m) * r) by (intros; field; exact Hm).
  assert (EM0 : M * (1 - (M - m) / M) = m) by (field; exact Hm).
  destruct t as [r g b]. cbn [v0 v1 v2] in *.
  unfold hue, hue60. cbv zeta. fold M m. cbn [v0 v1 v2].
  destruct (Req_EM_T M m) as [E|E].
  { destruct (Rlt_dec 0 0); [lra|]. rewrite (fromHSV_sector n _ _ _ 0) by (lra || lia).
    unfold hsv_sector, finV. rewrite EM0, EM. replace (M - m) with 0 by lra. rn. fin_eq; lra. }
  assert (D : 0 < M - m) by lra.
  assert (K : forall x, (M - m) * (x / (M - m)) = x) by (intros; field; lra).
  destruct (Req_EM_T M r) as [E0|E0].
  { pose proof (div_bounds (g - b) _ D ltac:(lra)) as Q. specialize (K (g - b)). 
    destruct (Rlt_le_dec (g - b) 0) as [L|L].
    - pose proof (div_neg _ _ D L). destruct (Rlt_dec ((g - b) / (M - m)) 0); [|lra].
      rewrite (fromHSV_sector n _ _ _ 5) by (lra || lia). unfold hsv_sector, finV. rewrite EM0, EM. rn. fin_eq; lra.
    - pose proof (div_nonneg _ _ D L). destruct (Rlt_dec ((g - b) / (M - m)) 0); [lra|].
      destruct (Rlt_le_dec ((g - b) / (M - m)) 1) as [Q1|Q1].
      + rewrite (fromHSV_sector n _ _ _ 0) by (lra || lia). unfold hsv_sector, finV. rewrite EM0, EM. rn. fin_eq; lra.
      + rewrite (fromHSV_sector n _ _ _ 1) by (lra || lia).
        assert (Q2 : (g - b) / (M - m) = 1) by lra. rewrite Q2 in K |- *.
        unfold hsv_sector, finV. rewrite EM0, EM. rn. fin_eq; lra. }
  destruct (Req_EM_T M g) as [E1|E1].
  { pose proof (div_bounds (b - r) _ D ltac:(lra)) as Q. specialize (K (b - r)).
    pose proof (div_gtm1 (b - r) _ D ltac:(lra)).
    destruct (Rlt_dec ((b - r) / (M - m) + 2) 0); [lra|].
    destruct (Rlt_le_dec (b - r) 0) as [L|L].
    - pose proof (div_neg _ _ D L). 
      rewrite (fromHSV_sector n _ _ _ 1) by (lra || lia). unfold hsv_sector, finV. rewrite EM0, EM. rn. fin_eq; lra.
    - pose proof (div_nonneg _ _ D L).
      destruct (Rlt_le_dec ((b - r) / (M - m)) 1) as [Q1|Q1].
      + rewrite (fromHSV_sector n _ _ _ 2) by (lra || lia). unfold hsv_sector, finV. rewrite EM0, EM. rn. fin_eq; lra.
      + rewrite (fromHSV_sector n _ _ _ 3) by (lra || lia).
        assert (Q2 : (b - r) / (M - m) = 1) by lra. rewrite Q2 in K |- *.
        unfold hsv_sector, finV. rewrite EM0, EM. rn. fin_eq; lra. }
  assert (E2 : M = b) by (destruct C as [?|[?|?]]; lra).
  pose proof (div_bounds (r - g) _ D ltac:(lra)) as Q. specialize (K (r - g)).
  pose proof (div_gtm1 (r - g) _ D ltac:(lra)). pose proof (div_lt1 (r - g) _ D ltac:(lra)).
  destruct (Rlt_dec ((r - g) / (M - m) + 4) 0); [lra|].
  destruct (Rlt_le_dec (r - g) 0) as [L|L].
  - pose proof (div_neg _ _ D L).
    rewrite (fromHSV_sector n _ _ _ 3) by (lra || lia). unfold hsv_sector, finV. rewrite EM0, EM. rn. fin_eq; lra.
  - pose proof (div_nonneg _ _ D L).
    rewrite (fromHSV_sector n _ _ _ 4) by (lra || lia). unfold hsv_sector, finV. rewrite EM0, EM. rn. fin_eq; lra.
Qed.
Lemma C18_l (t : Vector3 R) : max3 t <> 0 \/ t = V3 0 0 0 ->
  terminates_with (fun n => let! h := toHSV RN n (finV t) in fromHSV RN n h) (Ret (finV t)).
Proof.
  intros H. exists 2%nat. intros n L. destruct n as [|[|n]]; try lia.
  rewrite toHSV_fin. cbn [bind]. rewrite hsv_round_trip by exact H. split; [reflexivity|discriminate].
Qed.

(** ** Ranges. *)
Lemma C19_to_l (t : Vector3 R) : 0 <= v0 t -> 0 <= v1 t -> 0 <= v2 t ->
  exists h s, 0 <= h < 360 /\ 0 <= s <= 1 /\
    (max3 t <> 0 -> s = 1 - min3 t / max3 t) /\
    terminates_with (fun n => toHSV RN n (finV t)) (Ret (finV (V3 h s (max3 t)))).
Proof.
  intros H0 H1 H2. exists (hue t), (sat t).
  pose proof (max3_ge t) as (A0 & A1 & A2). pose proof (min3_in t) as C'. pose proof (hue60_range t) as HR.
  pose proof (min3_le t) as (B0 & B1 & B2).
  split; [unfold hue; destruct (Rlt_dec _ _); lra|].
  split; [|split].
  - unfold sat. destruct (Req_EM_T (max3 t) 0) as [E|E]; [lra|].
    assert (P : 0 < max3 t) by (destruct C' as [?|[?|?]]; lra).
    assert (P2 : 0 <= min3 t) by (destruct C' as [?|[?|?]]; lra).
    split; [apply div_nonneg; lra|]. apply Rmult_le_reg_r with (max3 t); auto.
    unfold Rdiv; rewrite Rmult_assoc, Rinv_l by lra; lra.
  - intros E. unfold sat. destruct (Req_EM_T (max3 t) 0) as [E'|E']; [contradiction|]. field. exact E.
  - exists 2%nat. intros n L. destruct n as [|[|n]]; try lia. rewrite toHSV_fin. split; [reflexivity|discriminate].
Qed.
Lemma sector_ex h : 0 <= h <= 360 -> exists k, (0 <= k <= 6)%Z /\ IZR k <= h / 60 < IZR k + 1.
Proof.
  intros H.
  destruct (Rlt_le_dec h 60); [exists 0%Z; split; [lia|lra]|].
  destruct (Rlt_le_dec h 120); [exists 1%Z; split; [lia|lra]|].
  destruct (Rlt_le_dec h 180); [exists 2%Z; split; [lia|lra]|].
  destruct (Rlt_le_dec h 240); [exists 3%Z; split; [lia|lra]|].
  destruct (Rlt_le_dec h 300); [exists 4%Z; split; [lia|lra]|].
  destruct (Rlt_le_dec h 360); [exists 5%Z; split; [lia|lra]|].
  exists 6%Z; split; [lia|lra].
Qed.
Lemma fromHSV_mod n m h y s v : mod360 RN m (Some h) = Ret (Some y) -> 0 <= y <= 360 -> (m <= n)%nat -> (1 <= n)%nat ->
  fromHSV RN n (finV (V3 h s v)) = fromHSV RN n (finV (V3 y s v)).
Proof.
  intros H Y L L1. unfold fromHSV. cbn [finV vref v0 v1 v2].
  rewrite (mod360_mono RN m n _ _ H L). destruct n as [|n]; [lia|].
  rewrite (mod360_R_id n y Y). reflexivity.
Qed.
Lemma max3_eq a b c m : a <= m -> b <= m -> c <= m -> (a = m \/ b = m \/ c = m) -> max3 (V3 a b c) = m.
Proof. intros A B C D. pose proof (max3_in (V3 a b c)). pose proof (max3_ge (V3 a b c)). cbn [v0 v1 v2] in *. lra. Qed.
Lemma C19_from_l (h s v : R) : 0 <= s <= 1 -> 0 <= v ->
  exists t : Vector3 R, 0 <= v0 t /\ 0 <= v1 t /\ 0 <= v2 t /\ max3 t = v /\ min3 t = v * (1 - s) /\
    terminates_with (fun n => fromHSV RN n (finV (V3 h s v))) (Ret (finV t)).
Proof.
  intros Hs Hv. destruct (mod360_R_ex h) as (m & y & j & A & Y & _).
  destruct (sector_ex y Y) as (k & Hk & Hd).
  set (r := y / 60 - IZR k). assert (Hr : 0 <= r < 1) by (unfold r; lra).
  assert (T : terminates_with (fun n => fromHSV RN n (finV (V3 h s v))) (Ret (finV (hsv_sector k s v r)))).
  { exists (S m). intros n L. split; [|discriminate]. rewrite (fromHSV_mod n m h y) by (auto; lia).
    destruct n as [|n]; [lia|]. apply fromHSV_sector; assumption. }
  exists (hsv_sector k s v r). split; [|split; [|split; [|split; [|split; [|exact T]]]]]; clear T.
  all: assert (P1 : 0 <= v * (1 - s) <= v) by nra.
  all: assert (Q1 : 0 <= s * r <= s) by nra.
  all: assert (P2 : v * (1 - s) <= v * (1 - s * r) <= v) by nra.
  all: assert (Q2 : 0 <= s * (1 - r) <= s) by nra.
  all: assert (P3 : v * (1 - s) <= v * (1 - s * (1 - r)) <= v) by nra.
  all: assert (C : (k = 0 \/ k = 1 \/ k = 2 \/ k = 3 \/ k = 4 \/ k = 5 \/ k = 6)%Z) by lia.
  1-3: repeat destruct C as [-> | C]; try subst k; cbn [hsv_sector v0 v1 v2]; lra.
  - repeat destruct C as [-> | C]; try subst k; cbn [hsv_sector]; apply max3_eq; lra.
  - assert (X : forall a b c, a >= v * (1-s) -> b >= v * (1-s) -> c >= v * (1-s) ->
       (a = v * (1-s) \/ b = v * (1-s) \/ c = v * (1-s)) -> min3 (V3 a b c) = v * (1-s)).
    { intros a b c Ha Hb Hc D. pose proof (min3_in (V3 a b c)). pose proof (min3_le (V3 a b c)). cbn [v0 v1 v2] in *. lra. }
    repeat destruct C as [-> | C]; try subst k; cbn [hsv_sector]; apply X; lra.
Qed.
