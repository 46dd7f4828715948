(** * [mod360], over the reals and in binary32. *)
From Coq Require Import ZArith Reals Lra Lia List Bool.
From Flocq Require Import Core BinarySingleNaN.
From Verif Require Import Num NumR NumF MVec MTri SpecMat RTac PMat F32 PMatF PClip.
Local Open Scope R_scope.

Lemma mod360_mono (N : Num) n m r x : mod360 N n r = Ret x -> (n <= m)%nat -> mod360 N m r = Ret x.
Proof.
  revert m r. induction n as [|n IH]; intros m r H L; [discriminate|].
  destruct m as [|m]; [lia|]. cbn [mod360] in *.
  destruct (fltb r (flit 0)); [apply IH; [exact H|lia]|].
  destruct (fltb (flit 360) r); [apply IH; [exact H|lia]|exact H].
Qed.
Lemma mod360_terminates (N : Num) n r x : mod360 N n r = Ret x ->
  terminates_with (fun k => mod360 N k r) (Ret x).
Proof. intros H. exists n. intros m L. split; [exact (mod360_mono N n m r x H L)|discriminate]. Qed.

(** ** Over the reals. *)
Lemma mod360_R_id n r : 0 <= r <= 360 -> mod360 RN (S n) (Some r) = Ret (Some r).
Proof. intros H. cbn [mod360]. rn. rewrite !Rlt_bool_false by lra. reflexivity. Qed.
Lemma mod360_R_neg n r : r < 0 -> mod360 RN (S n) (Some r) = mod360 RN n (Some (r + 360)).
Proof. intros H. cbn [mod360]. rn. rewrite Rlt_bool_true by lra. reflexivity. Qed.
Lemma mod360_R_pos n r : 360 < r -> mod360 RN (S n) (Some r) = mod360 RN n (Some (r - 360)).
Proof. intros H. cbn [mod360]. rn. rewrite Rlt_bool_false, Rlt_bool_true by lra. reflexivity. Qed.
Lemma mod360_R_neg_ex (k : nat) r : - (360 * INR k) <= r < 0 ->
  exists n y j, mod360 RN n (Some r) = Ret (Some y) /\ 0 <= y <= 360 /\ r = y + 360 * IZR j.
Proof.
  revert r. induction k as [|k IH]; intros r H; [cbn in H; lra|].
  rewrite S_INR in H. destruct (Rlt_le_dec (r + 360) 0) as [L|L].
  - destruct (IH (r + 360) ltac:(lra)) as (n & y & j & A & B & C).
    exists (S n), y, (j - 1)%Z. rewrite mod360_R_neg by lra. rewrite minus_IZR. repeat split; auto; lra.
  - exists 2%nat, (r + 360), (-1)%Z. rewrite mod360_R_neg by lra. rewrite mod360_R_id by lra.
    repeat split; auto; lra.
Qed.
Lemma mod360_R_pos_ex (k : nat) r : 360 < r <= 360 + 360 * INR k ->
  exists n y j, mod360 RN n (Some r) = Ret (Some y) /\ 0 <= y <= 360 /\ r = y + 360 * IZR j.
Proof.
  revert r. induction k as [|k IH]; intros r H; [cbn in H; lra|].
  rewrite S_INR in H. destruct (Rlt_le_dec 360 (r - 360)) as [L|L].
  - destruct (IH (r - 360) ltac:(lra)) as (n & y & j & A & B & C).
    exists (S n), y, (j + 1)%Z. rewrite mod360_R_pos by lra. rewrite plus_IZR. repeat split; auto; lra.
  - exists 2%nat, (r - 360), 1%Z. rewrite mod360_R_pos by lra. rewrite mod360_R_id by lra.
    repeat split; auto; lra.
Qed.
Lemma nat_above (x : R) : exists k : nat, x <= INR k.
Proof.
  destruct (archimed x) as [A _]. exists (Z.to_nat (up x)).
  destruct (Z_le_dec 0 (up x)) as [P|P].
  - rewrite INR_IZR_INZ, Z2Nat.id by exact P. lra.
  - replace (Z.to_nat (up x)) with 0%nat by lia. cbn.
    assert (IZR (up x) <= IZR (-1)) by (apply IZR_le; lia). lra.
Qed.
Lemma mod360_R_ex r : exists n y j, mod360 RN n (Some r) = Ret (Some y) /\ 0 <= y <= 360 /\ r = y + 360 * IZR j.
Proof.
  destruct (Rlt_le_dec r 0) as [L|L].
  - destruct (nat_above (- r / 360)) as [k K]. apply (mod360_R_neg_ex k). lra.
  - destruct (Rlt_le_dec 360 r) as [G|G].
    + destruct (nat_above (r / 360)) as [k K]. apply (mod360_R_pos_ex k). lra.
    + exists 1%nat, r, 0%Z. rewrite mod360_R_id by lra. repeat split; auto; lra.
Qed.
Lemma C14_real_l (r : R) :
  exists y j, 0 <= y <= 360 /\ r = y + 360 * IZR j /\
    (0 <= r <= 360 -> y = r) /\
    terminates_with (fun n => mod360 RN n (Some r)) (Ret (Some y)).
Proof.
  destruct (mod360_R_ex r) as (n & y & j & A & B & C). exists y, j. repeat split; try lra.
  - intros H. pose proof (mod360_R_id n r H) as E. rewrite (mod360_mono RN n (S n) _ _ A) in E by lia. congruence.
  - exact (mod360_terminates RN n _ _ A).
Qed.

(** ** In binary32. *)
Section Float.
Context (lm : libm).
Notation N := (FN lm).
Notation "'#360'" := (@flit N 360%dec).
Lemma v360 : fin #360 /\ B2R #360 = 360. Proof. f32_val. Qed.
Lemma v0f : fin (@flit N 0%dec) /\ B2R (@flit N 0%dec) = 0. Proof. f32_val. Qed.

Lemma b33_127 : bpow radix2 33 + 1000 <= bpow radix2 127.
Proof.
  apply Rle_trans with (bpow radix2 34); [|apply bpow_le; lia].
  change (bpow radix2 34) with 17179869184. change (bpow radix2 33) with 8589934592. lra.
Qed.

(** one step down or up *)
Lemma step_neg (r : f32) : fin r -> - bpow radix2 33 <= B2R r < 0 ->
  exists y, @fadd N r #360 = y /\ fin y /\ B2R r + 104 <= B2R y <= 360.
Proof.
  destruct v360 as [F3 V3]. intros Fr H. pose proof b33_127.
  destruct (add_ok lm r #360 Fr F3) as [Fy Vy].
  { rewrite V3. apply Rabs_le. lra. }
  eexists. split; [reflexivity|]. split; [exact Fy|]. rewrite Vy, V3. split.
  - assert (K : Rabs (B2R r + 360) < bpow radix2 33).
    { assert (1000 < bpow radix2 33) by (change (bpow radix2 33) with 8589934592; lra). apply Rabs_lt. lra. }
    pose proof (rnd_half_err 33 _ ltac:(lia) K) as E.
    change (bpow radix2 (33 - 25)) with 256 in E. apply Rabs_le_inv in E. lra.
  - apply rnd_le_fmt; [|lra]. rewrite <- V3. apply fmt_B2R.
Qed.
Lemma step_pos (r : f32) : fin r -> 360 < B2R r <= bpow radix2 33 ->
  exists y, @fsub N r #360 = y /\ fin y /\ 0 <= B2R y <= B2R r - 104.
Proof.
  destruct v360 as [F3 V3]. intros Fr H. pose proof b33_127.
  destruct (sub_ok lm r #360 Fr F3) as [Fy Vy].
  { rewrite V3. apply Rabs_le. lra. }
  eexists. split; [reflexivity|]. split; [exact Fy|]. rewrite Vy, V3. split.
  - rewrite <- rnd_0 at 1. apply rnd_le. lra.
  - assert (K : Rabs (B2R r - 360) < bpow radix2 33) by (apply Rabs_lt; lra).
    pose proof (rnd_half_err 33 _ ltac:(lia) K) as E.
    change (bpow radix2 (33 - 25)) with 256 in E. apply Rabs_le_inv in E. lra.
Qed.

Lemma mod360_F_in n (r : f32) : fin r -> 0 <= B2R r <= 360 -> mod360 N (S n) r = Ret r.
Proof.
  destruct v360 as [F3 V3], v0f as [F0 V0]. intros Fr H. cbn [mod360].
  rewrite !ltb_ok by assumption. rewrite V3, V0, !Rlt_bool_false by lra. reflexivity.
Qed.
Lemma mod360_F_neg n (r : f32) : fin r -> B2R r < 0 -> mod360 N (S n) r = mod360 N n (@fadd N r #360).
Proof.
  destruct v0f as [F0 V0]. intros Fr H. cbn [mod360].
  rewrite (ltb_ok lm r) by assumption. rewrite V0, Rlt_bool_true by lra. reflexivity.
Qed.
Lemma mod360_F_pos n (r : f32) : fin r -> 360 < B2R r -> mod360 N (S n) r = mod360 N n (@fsub N r #360).
Proof.
  destruct v360 as [F3 V3], v0f as [F0 V0]. intros Fr H. cbn [mod360].
  rewrite !ltb_ok by assumption. rewrite V0, V3, Rlt_bool_false, Rlt_bool_true by lra. reflexivity.
Qed.
Lemma mod360_F_neg_ex (k : nat) (r : f32) : fin r -> - bpow radix2 33 <= B2R r < 0 ->
  - (104 * INR k) <= B2R r ->
  exists n y, mod360 N n r = Ret y /\ fin y /\ 0 <= B2R y <= 360.
Proof.
  revert r. induction k as [|k IH]; intros r Fr H Hk; [cbn in Hk; lra|].
  rewrite S_INR in Hk. destruct (step_neg r Fr H) as (y & E & Fy & L).
  destruct (Rlt_le_dec (B2R y) 0) as [Y|Y].
  - destruct (IH y Fy ltac:(lra) ltac:(lra)) as (n & z & A & B). exists (S n), z.
    rewrite mod360_F_neg by (assumption || lra). rewrite E. auto.
  - exists 2%nat, y. rewrite mod360_F_neg by (assumption || lra). rewrite E.
    rewrite mod360_F_in by (assumption || lra). repeat split; auto; lra.
Qed.
Lemma mod360_F_pos_ex (k : nat) (r : f32) : fin r -> 360 < B2R r <= bpow radix2 33 ->
  B2R r <= 360 + 104 * INR k ->
  exists n y, mod360 N n r = Ret y /\ fin y /\ 0 <= B2R y <= 360.
Proof.
  revert r. induction k as [|k IH]; intros r Fr H Hk; [cbn in Hk; lra|].
  rewrite S_INR in Hk. destruct (step_pos r Fr H) as (y & E & Fy & L).
  destruct (Rlt_le_dec 360 (B2R y)) as [Y|Y].
  - destruct (IH y Fy ltac:(lra) ltac:(lra)) as (n & z & A & B). exists (S n), z.
    rewrite mod360_F_pos by (assumption || lra). rewrite E. auto.
  - exists 2%nat, y. rewrite mod360_F_pos by (assumption || lra). rewrite E.
    rewrite mod360_F_in by (assumption || lra). repeat split; auto; lra.
Qed.
Lemma mod360_F_ex (r : f32) : fin r -> Rabs (B2R r) <= bpow radix2 33 ->
  exists n y, mod360 N n r = Ret y /\ fin y /\ 0 <= B2R y <= 360.
Proof.
  intros Fr H. apply Rabs_le_inv in H. destruct (Rlt_le_dec (B2R r) 0) as [L|L].
  - destruct (nat_above (- B2R r / 104)) as [k K]. apply (mod360_F_neg_ex k); auto; lra.
  - destruct (Rlt_le_dec 360 (B2R r)) as [G|G].
    + destruct (nat_above (B2R r / 104)) as [k K]. apply (mod360_F_pos_ex k); auto; lra.
    + exists 1%nat, r. rewrite mod360_F_in by (auto; lra). repeat split; auto; lra.
Qed.

(** the steps are exact below 2^27, except the one that crosses zero from below *)
Lemma sub360_exact x : fmt x -> 360 <= x < bpow radix2 27 -> rnd (x - 360) = x - 360.
Proof.
  intros Hx H. apply round_generic; [typeclasses eauto|].
  set (e := cexp radix2 (FLT_exp (-149) 24) x). set (m := Ztrunc (scaled_mantissa radix2 (FLT_exp (-149) 24) x)).
  assert (E : x = IZR m * bpow radix2 e) by exact Hx.
  assert (Le : (-149 <= e <= 3)%Z).
  { unfold e, cexp, FLT_exp. assert (mag radix2 x <= 27)%Z by (apply mag_le_bpow; [lra|rewrite Rabs_pos_eq by lra; lra]). lia. }
  assert (K : 360 = IZR (45 * 2 ^ (3 - e)) * bpow radix2 e).
  { rewrite mult_IZR, (IZR_Zpower radix2) by lia. rewrite Rmult_assoc, <- bpow_plus. replace (3 - e + e)%Z with 3%Z by lia. change (bpow radix2 3) with 8. lra. }
  assert (P : 0 < bpow radix2 e) by apply bpow_gt_0.
  assert (M0 : (0 <= m - 45 * 2 ^ (3 - e))%Z).
  { apply le_IZR. rewrite minus_IZR. apply Rmult_le_reg_r with (bpow radix2 e); [exact P|]. lra. }
  assert (M1 : (m < 2 ^ 24)%Z).
  { apply lt_IZR. apply Rmult_lt_reg_r with (bpow radix2 e); [exact P|]. rewrite <- E.
    change (IZR (2 ^ 24)) with (bpow radix2 24). rewrite <- bpow_plus. apply Rlt_le_trans with (bpow radix2 (mag radix2 x)).
    - rewrite <- (Rabs_pos_eq x) at 1 by lra. apply bpow_mag_gt.
    - apply bpow_le. unfold e, cexp, FLT_exp. lia. }
  apply generic_format_FLT. exists (Float radix2 (m - 45 * 2 ^ (3 - e)) e).
  - unfold F2R. cbn [Fnum Fexp]. rewrite minus_IZR. rewrite E at 1. lra.
  - cbn [Fnum]. rewrite Z.abs_eq by exact M0. assert (0 < 45 * 2 ^ (3 - e))%Z by (apply Z.mul_pos_pos; [|apply Z.pow_pos_nonneg]; lia). change (Zpower radix2 24) with (2 ^ 24)%Z. lia.
  - cbn [Fexp]. lia.
Qed.
Lemma b27 : bpow radix2 27 = 134217728.
Proof. reflexivity. Qed.
Lemma mod360_F_pos_c (k : nat) (r : f32) : fin r -> 0 <= B2R r < bpow radix2 27 -> B2R r <= 360 * INR k ->
  exists n y j, mod360 N n r = Ret y /\ fin y /\ B2R y = B2R r - 360 * IZR j.
Proof.
  destruct v360 as [F3 V3]. revert r. induction k as [|k IH]; intros r Fr H Hk.
  - cbn in Hk. exists 1%nat, r, 0%Z. rewrite mod360_F_in by (assumption || lra). repeat split; auto; lra.
  - destruct (Rlt_le_dec 360 (B2R r)) as [G|G].
    + rewrite S_INR in Hk. pose proof b33_127. pose proof b27. destruct (sub_ok lm r #360 Fr F3) as [Fy Vy].
      { rewrite V3. apply Rabs_le. change (bpow radix2 33) with 8589934592 in *. lra. }
      rewrite V3, (sub360_exact _ (fmt_B2R r)) in Vy by lra.
      destruct (IH (@fsub N r #360) Fy ltac:(lra) ltac:(lra)) as (n & y & j & A & B & C). exists (S n), y, (j + 1)%Z.
      rewrite mod360_F_pos by (assumption || lra). rewrite plus_IZR. repeat split; auto; lra.
    + exists 1%nat, r, 0%Z. rewrite mod360_F_in by (assumption || lra). repeat split; auto; lra.
Qed.
Lemma mod360_F_neg_c (k : nat) (r : f32) : fin r -> - bpow radix2 27 < B2R r < 0 -> - (360 * INR k) <= B2R r ->
  exists n y j, mod360 N n r = Ret y /\ fin y /\ Rabs (B2R y - (B2R r - 360 * IZR j)) <= bpow radix2 (-16).
Proof.
  destruct v360 as [F3 V3]. revert r. induction k as [|k IH]; intros r Fr H Hk; [cbn in Hk; lra|].
  rewrite S_INR in Hk. pose proof b33_127. pose proof b27. destruct (add_ok lm r #360 Fr F3) as [Fy Vy].
  { rewrite V3. apply Rabs_le. change (bpow radix2 33) with 8589934592 in *. lra. }
  rewrite V3 in Vy. pose proof (bpow_gt_0 radix2 (-16)) as P16. destruct (Rlt_le_dec (B2R r + 360) 0) as [L|L].
  - assert (EX : rnd (B2R r + 360) = B2R r + 360).
    { replace (B2R r + 360) with (- (- B2R r - 360)) by ring. rewrite rnd_opp, sub360_exact; [ring|apply fmt_opp, fmt_B2R|lra]. }
    rewrite EX in Vy. destruct (IH (@fadd N r #360) Fy ltac:(lra) ltac:(lra)) as (n & y & j & A & B & C). exists (S n), y, (j - 1)%Z.
    rewrite mod360_F_neg by (assumption || lra). rewrite minus_IZR. split; [exact A|split; [exact B|]].
    replace (B2R y - (B2R r - 360 * (IZR j - 1))) with (B2R y - (B2R (@fadd N r #360) - 360 * IZR j)) by (rewrite Vy; ring). exact C.
  - assert (R0 : 0 <= rnd (B2R r + 360) <= 360) by (split; [rewrite <- rnd_0 at 1; apply rnd_le; lra|apply rnd_le_fmt; [rewrite <- V3; apply fmt_B2R|lra]]).
    exists 2%nat, (@fadd N r #360), (-1)%Z. rewrite mod360_F_neg by (assumption || lra). rewrite mod360_F_in by (assumption || lra).
    split; [reflexivity|split; [exact Fy|]]. rewrite Vy. replace (B2R r - 360 * -1) with (B2R r + 360) by ring.
    assert (K : Rabs (B2R r + 360) < bpow radix2 9) by (change (bpow radix2 9) with 512; apply Rabs_lt; lra).
    exact (rnd_half_err 9 _ ltac:(lia) K).
Qed.
Lemma mod360_F_congruent (r : f32) : fin r -> Rabs (B2R r) < bpow radix2 27 ->
  exists y j, terminates_with (fun n => mod360 N n r) (Ret y) /\ fin y /\ Rabs (B2R y - (B2R r - 360 * IZR j)) <= bpow radix2 (-16) /\
    (0 <= B2R r -> B2R y = B2R r - 360 * IZR j).
Proof.
  intros Fr H. apply Rabs_lt_inv in H. pose proof (bpow_gt_0 radix2 (-16)). destruct (Rlt_le_dec (B2R r) 0) as [L|L].
  - destruct (nat_above (- B2R r / 360)) as [k K]. destruct (mod360_F_neg_c k r Fr) as (n & y & j & A & B & C); [lra|lra|].
    exists y, j. split; [exact (mod360_terminates N n _ _ A)|]. split; [exact B|]. split; [exact C|lra].
  - destruct (nat_above (B2R r / 360)) as [k K]. destruct (mod360_F_pos_c k r Fr) as (n & y & j & A & B & C); [lra|lra|].
    exists y, j. split; [exact (mod360_terminates N n _ _ A)|]. split; [exact B|]. split; [|intros _; exact C].
    rewrite C, Rminus_diag_eq, Rabs_R0 by reflexivity. lra.
Qed.

(** Absorption above 2^33. *)
Lemma absorb x : fmt x -> bpow radix2 33 < x -> rnd (x - 360) = x.
Proof.
  intros Hx H. pose proof (pred_gap 33 x ltac:(lia) Hx H) as G.
  change (bpow radix2 (33 - 23)) with 1024 in G. apply Rle_antisym.
  - apply rnd_le_fmt; [exact Hx|lra].
  - apply round_N_ge_midp; [typeclasses eauto | exact Hx | lra].
Qed.
Lemma stuck_pos (r : f32) : fin r -> bpow radix2 33 < B2R r -> @fsub N r #360 = r.
Proof.
  destruct v360 as [F3 V3]. intros Fr H. pose proof (absorb _ (fmt_B2R r) H) as A.
  destruct (sub_gen lm r #360 Fr F3) as [Fy Vy].
  { rewrite V3, A. exact (abs_B2R_lt_emax 24 128 r). }
  rewrite V3, A in Vy. apply B2R_inj; [| |exact Vy].
  - destruct (@fsub N r #360); try discriminate Fy; [|reflexivity]. cbn in Vy.
    pose proof (bpow_gt_0 radix2 33). lra.
  - destruct r; try discriminate Fr; [|reflexivity]. cbn in H. pose proof (bpow_gt_0 radix2 33). lra.
Qed.
Lemma stuck_neg (r : f32) : fin r -> B2R r < - bpow radix2 33 -> @fadd N r #360 = r.
Proof.
  destruct v360 as [F3 V3]. intros Fr H.
  assert (A : rnd (B2R r + 360) = B2R r).
  { replace (B2R r + 360) with (- (- B2R r - 360)) by ring. rewrite rnd_opp, absorb; [ring| |lra].
    apply fmt_opp, fmt_B2R. }
  destruct (add_gen lm r #360 Fr F3) as [Fy Vy].
  { rewrite V3, A. exact (abs_B2R_lt_emax 24 128 r). }
  rewrite V3, A in Vy. apply B2R_inj; [| |exact Vy].
  - destruct (@fadd N r #360); try discriminate Fy; [|reflexivity]. cbn in Vy.
    pose proof (bpow_gt_0 radix2 33). lra.
  - destruct r; try discriminate Fr; [|reflexivity]. cbn in H. pose proof (bpow_gt_0 radix2 33). lra.
Qed.
Lemma mod360_F_never (r : f32) : fin r -> bpow radix2 33 < Rabs (B2R r) -> never_terminates (fun n => mod360 N n r).
Proof.
  intros Fr H n. pose proof (bpow_gt_0 radix2 33).
  assert (1000 < bpow radix2 33) by (change (bpow radix2 33) with 8589934592; lra).
  destruct (Rlt_le_dec (B2R r) 0) as [L|L].
  - rewrite Rabs_left in H by exact L. induction n as [|n IH]; [reflexivity|].
    rewrite mod360_F_neg by assumption. rewrite stuck_neg by (assumption || lra). exact IH.
  - rewrite Rabs_pos_eq in H by exact L. induction n as [|n IH]; [reflexivity|].
    rewrite mod360_F_pos by (assumption || lra). rewrite stuck_pos by (assumption || lra). exact IH.
Qed.
Lemma mod360_F_inf s : never_terminates (fun n => mod360 N n (B754_infinity s)).
Proof.
  intros n. induction n as [|n IH]; [reflexivity|]. cbn [mod360].
  destruct s.
  - change (@fltb N (B754_infinity true) (flit 0)) with true. cbv iota.
    change (@fadd N (B754_infinity true) (flit 360)) with (B754_infinity true : f32). exact IH.
  - change (@fltb N (B754_infinity false) (flit 0)) with false.
    change (@fltb N (flit 360) (B754_infinity false)) with true. cbv iota.
    change (@fsub N (B754_infinity false) (flit 360)) with (B754_infinity false : f32). exact IH.
Qed.
Lemma mod360_F_nan n : mod360 N (S n) B754_nan = Ret B754_nan.
Proof. reflexivity. Qed.
End Float.

Lemma C14_float_l (lm : libm) (r : f32) :
  (fin r -> Rabs (B2R r) <= bpow radix2 33 ->
     exists y, fin y /\ 0 <= B2R y <= 360 /\ (0 <= B2R r <= 360 -> y = r) /\
       terminates_with (fun n => mod360 (FN lm) n r) (Ret y)) /\
  (fin r -> bpow radix2 33 < Rabs (B2R r) -> never_terminates (fun n => mod360 (FN lm) n r)) /\
  (forall s, r = B754_infinity s -> never_terminates (fun n => mod360 (FN lm) n r)) /\
  (r = B754_nan -> terminates_with (fun n => mod360 (FN lm) n r) (Ret r)).
Proof.
  split; [|split; [|split]].
  - intros Fr H. destruct (mod360_F_ex lm r Fr H) as (n & y & A & B & C). exists y. repeat split; auto; try lra.
    + intros K. pose proof (mod360_F_in lm n r Fr K) as E.
      rewrite (mod360_mono (FN lm) n (S n) _ _ A) in E by lia. congruence.
    + exact (mod360_terminates (FN lm) n _ _ A).
  - apply mod360_F_never.
  - intros s ->. apply mod360_F_inf.
  - intros ->. apply (mod360_terminates (FN lm) 1). reflexivity.
Qed.
