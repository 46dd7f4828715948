(** * HSV is the hexcone model. *)
From Coq Require Import ZArith Reals Lra Lia.
From Flocq Require Import Core.Raux.
From Verif Require Import Num NumR MVec MTri SpecMat RTac PMat PMod360 PHsv SpecHsv.
Local Open Scope R_scope.

Lemma wrap6_eq x k m : x = k + 6 * IZR m -> 0 <= k < 6 -> wrap6 x = k.
Proof.
  intros -> H. unfold wrap6. rewrite (Zfloor_imp m). { lra. }
  rewrite plus_IZR. lra.
Qed.
Lemma wrap6_shift x m : wrap6 (x + 6 * IZR m) = wrap6 x.
Proof.
  unfold wrap6. replace ((x + 6 * IZR m) / 6) with (x / 6 + IZR m) by lra.
  replace (Zfloor (x / 6 + IZR m)) with (Zfloor (x / 6) + m)%Z. { rewrite plus_IZR. lra. }
  symmetry. apply Zfloor_imp. pose proof (Zfloor_lb (x / 6)). pose proof (Zfloor_ub (x / 6)). rewrite !plus_IZR. lra.
Qed.
Lemma hexcone_shift h s v m : hexcone (h + 360 * IZR m) s v = hexcone h s v.
Proof.
  unfold hexcone. cbv zeta. f_equal.
  - replace (5 + (h + 360 * IZR m) / 60) with (5 + h / 60 + 6 * IZR m) by lra. rewrite wrap6_shift. reflexivity.
  - replace (3 + (h + 360 * IZR m) / 60) with (3 + h / 60 + 6 * IZR m) by lra. rewrite wrap6_shift. reflexivity.
  - replace (1 + (h + 360 * IZR m) / 60) with (1 + h / 60 + 6 * IZR m) by lra. rewrite wrap6_shift. reflexivity.
Qed.
Lemma tooth_up k : 0 <= k <= 1 -> tooth k = k.
Proof. intros H. unfold tooth, Rmax, Rmin. repeat destruct (Rle_dec _ _); lra. Qed.
Lemma tooth_top k : 1 <= k <= 3 -> tooth k = 1.
Proof. intros H. unfold tooth, Rmax, Rmin. repeat destruct (Rle_dec _ _); lra. Qed.
Lemma tooth_down k : 3 <= k <= 4 -> tooth k = 4 - k.
Proof. intros H. unfold tooth, Rmax, Rmin. repeat destruct (Rle_dec _ _); lra. Qed.
Lemma tooth_off k : 4 <= k -> tooth k = 0.
Proof. intros H. unfold tooth, Rmax, Rmin. repeat destruct (Rle_dec _ _); lra. Qed.
Lemma sector_hex k s v r : (0 <= k <= 6)%Z -> 0 <= r < 1 -> hsv_sector k s v r = hexcone (60 * (IZR k + r)) s v.
Proof.
  intros K R. assert (C : (k = 0 \/ k = 1 \/ k = 2 \/ k = 3 \/ k = 4 \/ k = 5 \/ k = 6)%Z) by lia.
  unfold hexcone. cbv zeta.
  repeat destruct C as [-> | C]; try subst k; cbn [hsv_sector]; f_equal;
  match goal with |- context [wrap6 ?x] =>
    first [rewrite (wrap6_eq x x 0) by lra|rewrite (wrap6_eq x (x - 6) 1) by lra|rewrite (wrap6_eq x (x - 12) 2) by lra] end;
  first [rewrite tooth_up by lra|rewrite tooth_top by lra|rewrite tooth_down by lra|rewrite tooth_off by lra]; lra.
Qed.
Lemma fromHSV_hex h s v : terminates_with (fun n => fromHSV RN n (finV (V3 h s v))) (Ret (finV (hexcone h s v))).
Proof.
  destruct (mod360_R_ex h) as (m & y & j & A & Y & E). destruct (sector_ex y Y) as (k & Hk & Hd).
  exists (S m). intros n L. split; [|discriminate]. rewrite (fromHSV_mod n m h y) by (auto; lia).
  destruct n as [|n]; [lia|]. rewrite (fromHSV_sector n y s v k) by assumption.
  rewrite sector_hex by (auto; lra). rewrite E, hexcone_shift. do 3 f_equal. lra.
Qed.
Lemma hue_range t : 0 <= hue t < 360.
Proof. pose proof (hue60_range t). unfold hue. destruct (Rlt_dec _ _); lra. Qed.
Lemma terminates_unique {A} (f : nat -> outcome A) r r' : terminates_with f r -> terminates_with f r' -> r = r'.
Proof.
  intros (n & H) (m & H'). destruct (H (max n m)) as [E _]; [lia|]. destruct (H' (max n m)) as [E' _]; [lia|]. congruence.
Qed.
Lemma finV_inj a b : finV a = finV b -> a = b.
Proof. destruct a, b. unfold finV. cbn. intros H. injection H. intros. subst. reflexivity. Qed.
Lemma toHSV_hex t : exists h s, 0 <= h < 360 /\
  terminates_with (fun n => toHSV RN n (finV t)) (Ret (finV (V3 h s (max3 t)))) /\
  (max3 t <> 0 -> t = hexcone h s (max3 t) /\ s * max3 t = max3 t - min3 t) /\ (max3 t = min3 t -> h = 0) /\ (max3 t = 0 -> s = 0).
Proof.
  exists (hue t), (sat t). split; [apply hue_range|]. split.
  { exists 2%nat. intros n L. destruct n as [|[|n]]; try lia. rewrite toHSV_fin. split; [reflexivity|discriminate]. }
  split; [|split].
  - intros N. split.
    + apply finV_inj. assert (X : Ret (finV t) = Ret (finV (hexcone (hue t) (sat t) (max3 t)))).
      { apply (terminates_unique (fun n => fromHSV RN n (finV (V3 (hue t) (sat t) (max3 t))))); [|apply fromHSV_hex].
        exists 1%nat. intros n L. destruct n as [|n]; [lia|]. rewrite hsv_round_trip by (left; exact N). split; [reflexivity|discriminate]. }
      exact (f_equal (fun o => match o with Ret x => x | _ => finV t end) X).
    + unfold sat. destruct (Req_EM_T _ _); [contradiction|]. field. exact N.
  - intros E. unfold hue, hue60. cbv zeta. destruct (Req_EM_T _ _); [|contradiction]. destruct (Rlt_dec _ _); lra.
  - intros E. unfold sat. destruct (Req_EM_T _ _); [reflexivity|contradiction].
Qed.
Lemma min3_eq a b c m : m <= a -> m <= b -> m <= c -> (a = m \/ b = m \/ c = m) -> min3 (V3 a b c) = m.
Proof. intros A B C D. pose proof (min3_in (V3 a b c)). pose proof (min3_le (V3 a b c)). cbn [v0 v1 v2] in *. lra. Qed.
Lemma sector_back k s v r : (0 <= k <= 5)%Z -> 0 <= r < 1 -> 0 < s -> 0 < v ->
  let t := hsv_sector k s v r in max3 t = v /\ sat t = s /\ hue t = 60 * (IZR k + r).
Proof.
  intros K R S V t. assert (VS : 0 < v * s) by (apply Rmult_lt_0_compat; lra).
  assert (A : 0 <= v * s * r). { apply Rmult_le_pos; lra. }
  assert (B : v * s * r < v * s). { rewrite <- (Rmult_1_r (v * s)) at 2. apply Rmult_lt_compat_l; lra. }
  assert (NV : v <> 0) by lra. assert (ND : v - v * (1 - s) <> 0) by lra.
  assert (M : max3 t = v /\ min3 t = v * (1 - s)).
  { unfold t. assert (C : (k = 0 \/ k = 1 \/ k = 2 \/ k = 3 \/ k = 4 \/ k = 5)%Z) by lia.
    repeat destruct C as [-> | C]; try subst k; cbn [hsv_sector]; (split; [apply max3_eq|apply min3_eq]); lra. }
  destruct M as [M1 M2]. split; [exact M1|split].
  - unfold sat. rewrite M1, M2. destruct (Req_EM_T _ _); [lra|]. field. exact NV.
  - assert (D : hue60 t = IZR k + r \/ (hue60 t = IZR k + r - 6 /\ k = 5%Z)).
    { unfold hue60. cbv zeta. rewrite M1, M2. destruct (Req_EM_T v (v * (1 - s))) as [E|_]; [lra|].
      assert (F1 : forall x, x = v * s * r -> x / (v - v * (1 - s)) = r). { intros x ->. field. lra. }
      assert (F2 : forall x, x = v * s * r - v * s -> x / (v - v * (1 - s)) = r - 1). { intros x ->. field. lra. }
      assert (Z0 : v * s * r = 0 -> r = 0). { intros Q. apply Rmult_integral in Q. destruct Q; lra. }
      unfold t. assert (C : (k = 0 \/ k = 1 \/ k = 2 \/ k = 3 \/ k = 4 \/ k = 5)%Z) by lia.
      repeat destruct C as [-> | C]; try subst k; cbn [hsv_sector v0 v1 v2].
      - destruct (Req_EM_T _ _); [|lra]. left. rewrite F1 by lra. lra.
      - left. destruct (Req_EM_T _ _) as [E|E].
        + assert (r = 0) by (apply Z0; lra). subst r. replace (v - v * (1 - s)) with (v * s) by lra. unfold Rdiv. rewrite Rinv_r by lra. lra.
        + destruct (Req_EM_T _ _); [|lra]. rewrite F2 by lra. lra.
      - left. destruct (Req_EM_T _ _); [lra|]. destruct (Req_EM_T _ _); [|lra]. rewrite F1 by lra. lra.
      - left. destruct (Req_EM_T _ _); [lra|]. destruct (Req_EM_T _ _) as [E|E].
        + assert (r = 0) by (apply Z0; lra). subst r. replace (v - v * (1 - s)) with (v * s) by lra. unfold Rdiv. rewrite Rinv_r by lra. lra.
        + rewrite F2 by lra. lra.
      - left. destruct (Req_EM_T _ _); [lra|]. destruct (Req_EM_T _ _); [lra|]. rewrite F1 by lra. lra.
      - right. destruct (Req_EM_T _ _); [|lra]. rewrite F2 by lra. split; [lra|reflexivity]. }
    unfold hue. destruct D as [D|[D ->]].
    + rewrite D. assert (0 <= IZR k) by (apply IZR_le; lia). destruct (Rlt_dec _ _); lra.
    + rewrite D. destruct (Rlt_dec _ _); lra.
Qed.
Lemma hsv_back h s v : 0 <= h < 360 -> 0 < s -> 0 < v ->
  terminates_with (fun n => let! t := fromHSV RN n (finV (V3 h s v)) in toHSV RN n t) (Ret (finV (V3 h s v))).
Proof.
  intros H S V. destruct (sector_ex h) as (k & Hk & Hd); [lra|].
  assert (K5 : (0 <= k <= 5)%Z). { split; [lia|]. assert (k < 6)%Z; [|lia]. apply lt_IZR. lra. }
  exists 2%nat. intros n L. destruct n as [|[|n]]; try lia. split; [|discriminate].
  rewrite (fromHSV_sector (Datatypes.S n) h s v k) by (auto; lra || lia). cbn [bind]. rewrite toHSV_fin.
  destruct (sector_back k s v (h / 60 - IZR k)) as (A & B & C); try assumption; try lra.
  rewrite A, B, C. do 3 f_equal. lra.
Qed.
Lemma hexcone_ex : hexcone 30 1 1 = V3 1 0.5 0 /\ hexcone (-90) 0.5 0.8 = V3 0.6 0.4 0.8.
Proof.
  unfold hexcone. cbv zeta. split.
  - rewrite (wrap6_eq _ 5.5 0), (wrap6_eq _ 3.5 0), (wrap6_eq _ 1.5 0) by lra. rewrite tooth_off, tooth_down, tooth_top by lra. f_equal; lra.
  - rewrite (wrap6_eq _ 3.5 0), (wrap6_eq _ 1.5 0), (wrap6_eq _ 5.5 (-1)) by lra. rewrite tooth_down, tooth_top, tooth_off by lra. f_equal; lra.
Qed.
