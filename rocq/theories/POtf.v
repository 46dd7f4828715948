(** * Transfer functions over the reals. *)
From Coq Require Import ZArith QArith Qreals Reals Lra Lia List Bool.
From Flocq Require Import Core.Raux.
From Verif Require Import Num NumR MVec MTri MOtf SpecMat RTac PMat RPow RExp.
Local Open Scope R_scope.

Ltac qlra := qn; lra.
(** decide the comparisons of a goal. *)
Ltac rb := repeat match goal with
  | |- context [Rlt_bool ?a ?b] => first [rewrite (Rlt_bool_true a b) by qlra | rewrite (Rlt_bool_false a b) by qlra]
  | |- context [Rle_bool ?a ?b] => first [rewrite (Rle_bool_true a b) by qlra | rewrite (Rle_bool_false a b) by qlra]
  | |- context [Req_bool ?a ?b] => first [rewrite (Req_bool_true a b) by qlra | rewrite (Req_bool_false a b) by qlra]
  end.
(** compare [x^(p/q)] with a number by raising both to the [q]. *)
Lemma Rpower_frac x (p q : nat) : 0 < x -> (0 < q)%nat -> Rpower x (INR p / INR q) ^ q = x ^ p.
Proof.
  intros H Q. rewrite <- Rpower_pow by apply Rpower_pos. rewrite Rpower_mult.
  replace (INR p / INR q * INR q) with (INR p) by (field; apply not_0_INR; lia). apply Rpower_pow, H.
Qed.
Lemma pow_lt_inv a b n : 0 <= b -> a ^ n < b ^ n -> a < b.
Proof.
  intros B H. apply Rnot_le_lt. intros L. assert (b ^ n <= a ^ n) by (apply pow_incr; lra). lra.
Qed.
Lemma Rpower_frac_lt x c (p q : nat) e : e = INR p / INR q -> 0 < x -> 0 <= c -> (0 < q)%nat -> x ^ p < c ^ q -> Rpower x e < c.
Proof. intros -> H C Q K. apply (pow_lt_inv _ _ q C). rewrite Rpower_frac by assumption. exact K. Qed.
Lemma Rpower_frac_gt x c (p q : nat) e : e = INR p / INR q -> 0 < x -> (0 < q)%nat -> c ^ q < x ^ p -> c < Rpower x e.
Proof. intros -> H Q K. apply (pow_lt_inv _ _ q); [left; apply Rpower_pos|]. rewrite Rpower_frac by assumption. exact K. Qed.
Lemma Rpower_back x a b : 0 < x -> a * b = 1 -> Rpower (Rpower x a) b = x.
Proof. intros H E. rewrite Rpower_mult, E. apply Rpower_1, H. Qed.

(** ** BT.709 *)
Definition bt_enc (v : R) : R :=
  if Rlt_bool v 0 then 0 else if Rlt_bool 1 v then 1
  else if Rlt_bool v (Rdec 0.018) then v * Rdec 4.50 else Rdec 1.099 * Rpower v (Rdec 0.45) - Rdec 0.099.
Definition bt_dec (c : R) : R :=
  if Rlt_bool c 0 then 0 else if Rlt_bool 1 c then 1
  else if Rlt_bool c (Rdec 0.081) then c / Rdec 4.50
  else Rpower ((c + Rdec 0.099) / Rdec 1.099) (1 / Rdec 0.45).
Lemma bt_enc_fin v : Y_to_BT709 RN (Some v) = Some (bt_enc v).
Proof.
  unfold Y_to_BT709, bt_enc. rl. change (Rdec 0) with 0. change (Rdec 1) with 1.
  case Rlt_bool_spec; intro A; [reflexivity|]. case Rlt_bool_spec; intro B; [reflexivity|].
  case Rlt_bool_spec; intro C; [reflexivity|]. rewrite rpow_pos by (revert C; qlra). reflexivity.
Qed.
Lemma bt_dec_fin v : BT709_to_Y RN (Some v) = Some (bt_dec v).
Proof.
  unfold BT709_to_Y, bt_dec. rl. change (Rdec 0) with 0. change (Rdec 1) with 1.
  case Rlt_bool_spec; intro A; [reflexivity|]. case Rlt_bool_spec; intro B; [reflexivity|].
  case Rlt_bool_spec; intro C; [rewrite rdiv_ok by qlra; reflexivity|].
  rewrite !rdiv_ok by qlra. rl. rewrite rpow_pos by (revert C; qlra). reflexivity.
Qed.
Lemma bt_enc_lo v : 0 <= v < 0.018 -> bt_enc v = 4.5 * v.
Proof. intros H. unfold bt_enc. rb. qlra. Qed.
Lemma bt_enc_hi v : 0.018 <= v <= 1 -> bt_enc v = 1.099 * Rpower v 0.45 - 0.099.
Proof.
  intros H. unfold bt_enc. rb. replace (Rdec 0.45) with 0.45 by qlra. qlra.
Qed.
Lemma bt_dec_lo c : 0 <= c < 0.081 -> bt_dec c = c / 4.5.
Proof. intros H. unfold bt_dec. rb. qlra. Qed.
Lemma bt_dec_hi c : 0.081 <= c <= 1 -> bt_dec c = Rpower ((c + 0.099) / 1.099) (1 / 0.45).
Proof.
  intros H. unfold bt_dec. rb. f_equal; qlra.
Qed.
Lemma bt_out v : (v < 0 -> bt_enc v = 0 /\ bt_dec v = 0) /\ (1 < v -> bt_enc v = 1 /\ bt_dec v = 1).
Proof. split; intros H; unfold bt_enc, bt_dec; rb; split; reflexivity. Qed.
Lemma bt_knee : 0.18 / 1.099 < Rpower 0.018 0.45.
Proof. apply (Rpower_frac_gt _ _ 9 20); [cbn; lra|lra|lia|]. lra. Qed.
Lemma bt_pow v : 0.018 <= v <= 1 -> 0.18 / 1.099 < Rpower v 0.45 <= 1.
Proof.
  intros H. pose proof bt_knee. pose proof (Rpower_le_l 0.018 v 0.45). pose proof (Rpower_le_1 v 0.45). lra.
Qed.
Lemma bt_rt v : 0 <= v <= 1 -> bt_dec (bt_enc v) = v.
Proof.
  intros H. destruct (Rlt_le_dec v 0.018) as [L|L].
  - rewrite bt_enc_lo, bt_dec_lo by lra. lra.
  - rewrite bt_enc_hi by lra. pose proof (bt_pow v ltac:(lra)). rewrite bt_dec_hi by lra.
    replace ((1.099 * Rpower v 0.45 - 0.099 + 0.099) / 1.099) with (Rpower v 0.45) by lra.
    apply Rpower_back; lra.
Qed.
Lemma bt_enc_range v : 0 <= bt_enc v <= 1.
Proof.
  destruct (bt_out v) as [A B].
  destruct (Rlt_le_dec v 0) as [L|L]; [rewrite (proj1 (A L)); lra|].
  destruct (Rlt_le_dec 1 v) as [L'|L']; [rewrite (proj1 (B L')); lra|].
  destruct (Rlt_le_dec v 0.018); [rewrite bt_enc_lo; lra|]. rewrite bt_enc_hi by lra. pose proof (bt_pow v). lra.
Qed.
Lemma bt_dec_pow c : 0.081 <= c <= 1 -> 0 < Rpower ((c + 0.099) / 1.099) (1 / 0.45) <= 1.
Proof. intros H. split; [apply Rpower_pos|]. apply Rpower_le_1; lra. Qed.
Lemma bt_dec_range v : 0 <= bt_dec v <= 1.
Proof.
  destruct (bt_out v) as [A B].
  destruct (Rlt_le_dec v 0) as [L|L]; [rewrite (proj2 (A L)); lra|].
  destruct (Rlt_le_dec 1 v) as [L'|L']; [rewrite (proj2 (B L')); lra|].
  destruct (Rlt_le_dec v 0.081); [rewrite bt_dec_lo; lra|]. rewrite bt_dec_hi by lra. pose proof (bt_dec_pow v). lra.
Qed.
Lemma bt_enc_mono v w : v <= w -> bt_enc v <= bt_enc w.
Proof.
  intros H. pose proof (bt_enc_range v). pose proof (bt_enc_range w).
  destruct (Rlt_le_dec v 0) as [L|L]; [rewrite (proj1 (proj1 (bt_out v) L)); lra|].
  destruct (Rlt_le_dec 1 w) as [L'|L']; [rewrite (proj1 (proj2 (bt_out w) L')); lra|].
  destruct (Rlt_le_dec v 0.018), (Rlt_le_dec w 0.018).
  - rewrite !bt_enc_lo; lra.
  - rewrite bt_enc_lo, bt_enc_hi by lra. pose proof (bt_pow w). lra.
  - lra.
  - rewrite !bt_enc_hi by lra. pose proof (Rpower_le_l v w 0.45). lra.
Qed.
(** the decoded switch point falls short of 0.018. *)
Lemma bt_dec_081 : bt_dec 0.081 < 0.017977.
Proof.
  rewrite bt_dec_hi by lra. apply (Rpower_frac_lt _ _ 20 9); [cbn; lra|lra|lra|lia|]. lra.
Qed.
Lemma bt_rt2 c : 0 <= c <= 1 -> (c < 0.081 \/ bt_enc 0.018 <= c) -> bt_enc (bt_dec c) = c.
Proof.
  intros H K. rewrite bt_enc_hi in K by lra. destruct (Rlt_le_dec c 0.081) as [L|L].
  - rewrite bt_dec_lo, bt_enc_lo by lra. lra.
  - destruct K as [K|K]; [lra|]. rewrite bt_dec_hi by lra.
    assert (G : 0.018 <= Rpower ((c + 0.099) / 1.099) (1 / 0.45)).
    { rewrite <- (Rpower_back 0.018 0.45 (1 / 0.45)) at 1 by lra. apply Rpower_le_l; [apply Rpower_pos| |]; lra. }
    pose proof (bt_dec_pow c). rewrite bt_enc_hi by lra. rewrite Rpower_back by lra. lra.
Qed.
Lemma bt_knee_hi : bt_enc 0.018 < 0.08125.
Proof.
  rewrite bt_enc_hi by lra. assert (Rpower 0.018 0.45 < 0.18025 / 1.099); [|lra].
  apply (Rpower_frac_lt _ _ 9 20); [cbn; lra|lra|lra|lia|]. lra.
Qed.
Lemma bt_rt2_bad c : 0.081 <= c < bt_enc 0.018 -> bt_enc (bt_dec c) <> c.
Proof.
  intros H. pose proof bt_knee_hi. rewrite bt_dec_hi by lra. rewrite bt_enc_hi in H by lra.
  assert (G : Rpower ((c + 0.099) / 1.099) (1 / 0.45) < 0.018).
  { rewrite <- (Rpower_back 0.018 0.45 (1 / 0.45)) at 1 by lra. apply Rpower_lt_l; lra. }
  pose proof (Rpower_pos ((c + 0.099) / 1.099) (1 / 0.45)). rewrite bt_enc_lo by lra. lra.
Qed.
(** and how far it is off. *)
Lemma bt_rt2_err c : 0 <= c <= 1 -> Rabs (bt_enc (bt_dec c) - c) <= 0.0006.
Proof.
  intros H. destruct (Rlt_le_dec c 0.081) as [L|L]; [rewrite bt_rt2 by auto; replace (c - c) with 0 by ring; rewrite Rabs_R0; lra|].
  destruct (Rlt_le_dec c (bt_enc 0.018)) as [G|G]; [|rewrite bt_rt2 by auto; replace (c - c) with 0 by ring; rewrite Rabs_R0; lra].
  pose proof bt_knee_hi. rewrite bt_dec_hi by lra.
  assert (A : 0.01794 < Rpower ((c + 0.099) / 1.099) (1 / 0.45)).
  { apply Rlt_le_trans with (Rpower (0.18 / 1.099) (1 / 0.45)).
    - apply (Rpower_frac_gt _ _ 20 9); [cbn; lra|lra|lia|]. lra.
    - apply Rpower_le_l; lra. }
  assert (B : Rpower ((c + 0.099) / 1.099) (1 / 0.45) < 0.018).
  { rewrite <- (Rpower_back 0.018 0.45 (1 / 0.45)) at 1 by lra. rewrite bt_enc_hi in G by lra. apply Rpower_lt_l; lra. }
  rewrite bt_enc_lo by lra. apply Rabs_le. lra.
Qed.

(** ** sRGB *)
Definition s_enc (v : R) : R :=
  if Rlt_bool v 0 then 0 else if Rlt_bool 1 v then 1
  else if Rlt_bool v (Rdec 0.0031308) then v * Rdec 12.92
  else Rdec 1.055 * Rpower v (Rdec 1.0 / Rdec 2.4) - Rdec 0.055.
Definition s_dec (c : R) : R :=
  if Rlt_bool c 0 then 0 else if Rlt_bool 1 c then 1
  else if Rlt_bool c (Rdec 0.04045) then c / Rdec 12.92
  else Rpower ((c + Rdec 0.055) / Rdec 1.055) (Rdec 2.4).
Lemma s_enc_fin v : Y_to_sRGB RN (Some v) = Some (s_enc v).
Proof.
  unfold Y_to_sRGB, s_enc. rl. change (Rdec 0) with 0. change (Rdec 1) with 1.
  case Rlt_bool_spec; intro A; [reflexivity|]. case Rlt_bool_spec; intro B; [reflexivity|].
  case Rlt_bool_spec; intro C; [reflexivity|]. rewrite rdiv_ok by qlra. rl. rewrite rpow_pos by (revert C; qlra). reflexivity.
Qed.
Lemma s_dec_fin v : sRGB_to_Y RN (Some v) = Some (s_dec v).
Proof.
  unfold sRGB_to_Y, s_dec. rl. change (Rdec 0) with 0. change (Rdec 1) with 1.
  case Rlt_bool_spec; intro A; [reflexivity|]. case Rlt_bool_spec; intro B; [reflexivity|].
  case Rlt_bool_spec; intro C; [rewrite rdiv_ok by qlra; reflexivity|].
  rewrite !rdiv_ok by qlra. rl. rewrite rpow_pos by (revert C; qlra). reflexivity.
Qed.
Lemma s_enc_lo v : 0 <= v < 0.0031308 -> s_enc v = 12.92 * v.
Proof. intros H. unfold s_enc. rb. qlra. Qed.
Lemma s_enc_hi v : 0.0031308 <= v <= 1 -> s_enc v = 1.055 * Rpower v (5 / 12) - 0.055.
Proof.
  intros H. unfold s_enc. rb. replace (Rdec 1.0 / Rdec 2.4) with (5 / 12) by qlra. qlra.
Qed.
Lemma s_dec_lo c : 0 <= c < 0.04045 -> s_dec c = c / 12.92.
Proof. intros H. unfold s_dec. rb. qlra. Qed.
Lemma s_dec_hi c : 0.04045 <= c <= 1 -> s_dec c = Rpower ((c + 0.055) / 1.055) (12 / 5).
Proof. intros H. unfold s_dec. rb. f_equal; qlra. Qed.
Lemma s_out v : (v < 0 -> s_enc v = 0 /\ s_dec v = 0) /\ (1 < v -> s_enc v = 1 /\ s_dec v = 1).
Proof. split; intros H; unfold s_enc, s_dec; rb; split; reflexivity. Qed.
(** the encoded switch point. *)
Lemma s_knee : 0.0954499 / 1.055 < Rpower 0.0031308 (5 / 12) < 0.09544991 / 1.055.
Proof.
  split; [apply (Rpower_frac_gt _ _ 5 12)|apply (Rpower_frac_lt _ _ 5 12)]; try (cbn; lra); try lra; lia.
Qed.
Lemma s_knee2 : 0.09545 / 1.055 < Rpower 0.0031309 (5 / 12).
Proof. apply (Rpower_frac_gt _ _ 5 12); try (cbn; lra); try lra; lia. Qed.
(** the decoded switch point. *)
Lemma s_knee3 : 0.003130805 < Rpower (0.09545 / 1.055) (12 / 5) < 0.0031309.
Proof.
  split; [apply (Rpower_frac_gt _ _ 12 5)|apply (Rpower_frac_lt _ _ 12 5)]; try (cbn; lra); try lra; lia.
Qed.
Lemma s_rt v : 0 <= v <= 1 -> (v < 0.0031308 \/ 0.0031309 <= v) -> s_dec (s_enc v) = v.
Proof.
  intros H [L|L].
  - rewrite s_enc_lo, s_dec_lo by lra. lra.
  - rewrite s_enc_hi by lra. pose proof s_knee2. pose proof (Rpower_le_l 0.0031309 v (5 / 12)).
    pose proof (Rpower_le_1 v (5 / 12)). rewrite s_dec_hi by lra.
    replace ((1.055 * Rpower v (5 / 12) - 0.055 + 0.055) / 1.055) with (Rpower v (5 / 12)) by lra.
    apply Rpower_back; lra.
Qed.
Lemma s_rt_err v : 0 <= v <= 1 -> Rabs (s_dec (s_enc v) - v) <= 2e-7.
Proof.
  intros H. destruct (Rlt_le_dec v 0.0031308) as [L|L]; [rewrite s_rt by auto; replace (v - v) with 0 by ring; rewrite Rabs_R0; lra|].
  destruct (Rlt_le_dec v 0.0031309) as [G|G]; [|rewrite s_rt by auto; replace (v - v) with 0 by ring; rewrite Rabs_R0; lra].
  rewrite s_enc_hi by lra. pose proof s_knee. pose proof (Rpower_le_l 0.0031308 v (5 / 12)) as K.
  pose proof (Rpower_le_1 v (5 / 12)) as K1. set (P := Rpower v (5 / 12)) in *.
  destruct (Rlt_le_dec (1.055 * P - 0.055) 0.04045) as [M|M].
  - rewrite s_dec_lo by lra. apply Rabs_le. lra.
  - rewrite s_dec_hi by lra. replace ((1.055 * P - 0.055 + 0.055) / 1.055) with P by lra.
    unfold P. rewrite Rpower_back by lra. replace (v - v) with 0 by ring; rewrite Rabs_R0; lra.
Qed.
Lemma s_rt2 c : 0 <= c <= 1 -> (c < 0.040449936 \/ 0.04045 <= c) -> s_enc (s_dec c) = c.
Proof.
  intros H [L|L].
  - rewrite s_dec_lo, s_enc_lo by lra. lra.
  - rewrite s_dec_hi by lra. pose proof s_knee3. pose proof (Rpower_le_l (0.09545 / 1.055) ((c + 0.055) / 1.055) (12 / 5)).
    pose proof (Rpower_le_1 ((c + 0.055) / 1.055) (12 / 5)). rewrite s_enc_hi by lra.
    rewrite Rpower_back by lra. lra.
Qed.
Lemma s_enc_range v : 0 <= s_enc v <= 1.
Proof.
  destruct (s_out v) as [A B].
  destruct (Rlt_le_dec v 0) as [L|L]; [rewrite (proj1 (A L)); lra|].
  destruct (Rlt_le_dec 1 v) as [L'|L']; [rewrite (proj1 (B L')); lra|].
  destruct (Rlt_le_dec v 0.0031308); [rewrite s_enc_lo; lra|]. rewrite s_enc_hi by lra.
  pose proof s_knee. pose proof (Rpower_le_l 0.0031308 v (5 / 12)). pose proof (Rpower_le_1 v (5 / 12)). lra.
Qed.
Lemma s_dec_range v : 0 <= s_dec v <= 1.
Proof.
  destruct (s_out v) as [A B].
  destruct (Rlt_le_dec v 0) as [L|L]; [rewrite (proj2 (A L)); lra|].
  destruct (Rlt_le_dec 1 v) as [L'|L']; [rewrite (proj2 (B L')); lra|].
  destruct (Rlt_le_dec v 0.04045); [rewrite s_dec_lo; lra|]. rewrite s_dec_hi by lra.
  split; [left; apply Rpower_pos|apply Rpower_le_1; lra].
Qed.
Lemma s_dec_mono v w : v <= w -> s_dec v <= s_dec w.
Proof.
  intros H. pose proof (s_dec_range v). pose proof (s_dec_range w).
  destruct (Rlt_le_dec v 0) as [L|L]; [rewrite (proj2 (proj1 (s_out v) L)); lra|].
  destruct (Rlt_le_dec 1 w) as [L'|L']; [rewrite (proj2 (proj2 (s_out w) L')); lra|].
  destruct (Rlt_le_dec v 0.04045), (Rlt_le_dec w 0.04045).
  - rewrite !s_dec_lo; lra.
  - rewrite s_dec_lo, s_dec_hi by lra. pose proof s_knee3.
    pose proof (Rpower_le_l (0.09545 / 1.055) ((w + 0.055) / 1.055) (12 / 5)). lra.
  - lra.
  - rewrite !s_dec_hi by lra. apply Rpower_le_l; lra.
Qed.
Lemma s_enc_mono v w : v <= w -> (w < 0.0031308 \/ 0.0031308 <= v) -> s_enc v <= s_enc w.
Proof.
  intros H K. pose proof (s_enc_range v). pose proof (s_enc_range w).
  destruct (Rlt_le_dec v 0) as [L|L]; [rewrite (proj1 (proj1 (s_out v) L)); lra|].
  destruct (Rlt_le_dec 1 w) as [L'|L']; [rewrite (proj1 (proj2 (s_out w) L')); lra|].
  destruct K as [K|K].
  - rewrite !s_enc_lo; lra.
  - rewrite !s_enc_hi by lra. pose proof (Rpower_le_l v w (5 / 12)). lra.
Qed.
(** not monotone across the switch. *)
Lemma s_enc_bad : s_enc 0.0031308 < s_enc 0.00313079999.
Proof. rewrite s_enc_hi, s_enc_lo by lra. pose proof s_knee. lra. Qed.
Lemma s_rt_bad : s_dec (s_enc 0.0031308) <> 0.0031308.
Proof. rewrite s_enc_hi by lra. pose proof s_knee. rewrite s_dec_lo by lra. lra. Qed.
