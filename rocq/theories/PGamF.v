(** * Round trips through the predefined gamuts in binary32. *)
From Coq Require Import ZArith Reals Lra Lia List Bool.
From Flocq Require Import Core IEEE754.BinarySingleNaN.
From Verif Require Import Num NumR NumF MVec MTri F32 PMatF PHsvF.
Import ListNotations.
Local Open Scope R_scope.

Definition norm3 (t : Vector3 f32) : R := Rmax (Rmax (Rabs (B2R (v0 t))) (Rabs (B2R (v1 t)))) (Rabs (B2R (v2 t))).
Lemma norm3_ge t : Rabs (B2R (v0 t)) <= norm3 t /\ Rabs (B2R (v1 t)) <= norm3 t /\ Rabs (B2R (v2 t)) <= norm3 t.
Proof.
  unfold norm3. repeat split.
  - eapply Rle_trans; [|apply Rmax_l]. apply Rmax_l.
  - eapply Rle_trans; [|apply Rmax_l]. apply Rmax_r.
  - apply Rmax_r.
Qed.

(** ** Entries as multiples of 2^-80. *)
Definition zS (x : SpecFloat.spec_float) : option Z :=
  match x with
  | SpecFloat.S754_zero _ => Some 0%Z
  | SpecFloat.S754_finite s m e =>
      if (0 <=? e + 80)%Z then Some (SpecFloat.cond_Zopp s (Zpos m) * 2 ^ (e + 80))%Z else None
  | _ => None
  end.
Definition s80 : R := bpow radix2 (-80).
Lemma zS_ok (x : f32) z : zS (B2SF x) = Some z -> fin x /\ B2R x = IZR z * s80.
Proof.
  destruct x as [s|s| |s m e B]; cbn [B2SF zS]; intros H; try discriminate.
  - injection H as <-. split; [reflexivity|]. cbn. lra.
  - destruct (Z.leb_spec 0 (e + 80)); [|discriminate]. injection H as <-. split; [reflexivity|].
    cbn [B2R]. unfold F2R. cbn [Fnum Fexp]. rewrite mult_IZR, Rmult_assoc. f_equal. unfold s80.
    change 2%Z with (radix_val radix2). rewrite (IZR_Zpower radix2) by assumption. rewrite <- bpow_plus. f_equal. lia.
Qed.
Definition zM (m : Matrix3 f32) : option (Matrix3 Z) :=
  match zS (B2SF (m0 m)), zS (B2SF (m1 m)), zS (B2SF (m2 m)), zS (B2SF (m3 m)), zS (B2SF (m4 m)), zS (B2SF (m5 m)),
        zS (B2SF (m6 m)), zS (B2SF (m7 m)), zS (B2SF (m8 m)) with
  | Some a, Some b, Some c, Some d, Some e, Some f, Some g, Some h, Some i => Some (M3 a b c d e f g h i)
  | _, _, _, _, _, _, _, _, _ => None
  end.
Definition isM (m : Matrix3 f32) (z : Matrix3 Z) : Prop :=
  allM fin m /\
  B2R (m0 m) = IZR (m0 z) * s80 /\ B2R (m1 m) = IZR (m1 z) * s80 /\ B2R (m2 m) = IZR (m2 z) * s80 /\
  B2R (m3 m) = IZR (m3 z) * s80 /\ B2R (m4 m) = IZR (m4 z) * s80 /\ B2R (m5 m) = IZR (m5 z) * s80 /\
  B2R (m6 m) = IZR (m6 z) * s80 /\ B2R (m7 m) = IZR (m7 z) * s80 /\ B2R (m8 m) = IZR (m8 z) * s80.
Lemma zM_ok m z : zM m = Some z -> isM m z.
Proof.
  unfold zM. intros H.
  destruct (zS (B2SF (m0 m))) eqn:E0; [|discriminate]. destruct (zS (B2SF (m1 m))) eqn:E1; [|discriminate].
  destruct (zS (B2SF (m2 m))) eqn:E2; [|discriminate]. destruct (zS (B2SF (m3 m))) eqn:E3; [|discriminate].
  destruct (zS (B2SF (m4 m))) eqn:E4; [|discriminate]. destruct (zS (B2SF (m5 m))) eqn:E5; [|discriminate].
  destruct (zS (B2SF (m6 m))) eqn:E6; [|discriminate]. destruct (zS (B2SF (m7 m))) eqn:E7; [|discriminate].
  destruct (zS (B2SF (m8 m))) eqn:E8; [|discriminate].
  injection H as <-. apply zS_ok in E0, E1, E2, E3, E4, E5, E6, E7, E8. unfold isM, allM. cbn [m0 m1 m2 m3 m4 m5 m6 m7 m8]. tauto.
Qed.

(** One row [b] of the second matrix against the first matrix [a]; [d] is the row of the identity. *)
Definition rowchk (a : Matrix3 Z) (b0 b1 b2 d0 d1 d2 : Z) : bool :=
  let E x y z d := Z.abs (b0 * x + b1 * y + b2 * z - d * 2 ^ 160)%Z in
  let e := (E (m0 a) (m3 a) (m6 a) d0 + E (m1 a) (m4 a) (m7 a) d1 + E (m2 a) (m5 a) (m8 a) d2)%Z in
  let c := (Z.abs b0 * (Z.abs (m0 a) + Z.abs (m1 a) + Z.abs (m2 a)) + Z.abs b1 * (Z.abs (m3 a) + Z.abs (m4 a) + Z.abs (m5 a))
            + Z.abs b2 * (Z.abs (m6 a) + Z.abs (m7 a) + Z.abs (m8 a)))%Z in
  ((e * 2 ^ 24 + 9 * c <=? 50 * 2 ^ 160) && (Z.abs b0 + Z.abs b1 + Z.abs b2 <=? 24 * 2 ^ 80))%Z%bool.
Definition chk (A B : Matrix3 f32) : bool :=
  match zM A, zM B with
  | Some a, Some b =>
      rowchk a (m0 b) (m1 b) (m2 b) 1 0 0 && rowchk a (m3 b) (m4 b) (m5 b) 0 1 0 && rowchk a (m6 b) (m7 b) (m8 b) 0 0 1 &&
      (Z.abs (m0 a) + Z.abs (m1 a) + Z.abs (m2 a) <=? 24 * 2 ^ 80)%Z &&
      (Z.abs (m3 a) + Z.abs (m4 a) + Z.abs (m5 a) <=? 24 * 2 ^ 80)%Z &&
      (Z.abs (m6 a) + Z.abs (m7 a) + Z.abs (m8 a) <=? 24 * 2 ^ 80)%Z
  | _, _ => false
  end.

Lemma abs3 a b c : Rabs (a + b + c) <= Rabs a + Rabs b + Rabs c.
Proof. eapply Rle_trans; [apply Rabs_triang|]. apply Rplus_le_compat_r, Rabs_triang. Qed.
Lemma sum_le_Z x y z : (Z.abs x + Z.abs y + Z.abs z <= 24 * 2 ^ 80)%Z -> Rabs (IZR x * s80) + Rabs (IZR y * s80) + Rabs (IZR z * s80) <= 24.
Proof.
  intros H. apply IZR_le in H. rewrite !plus_IZR, !abs_IZR, mult_IZR in H. assert (P : 0 < s80) by apply bpow_gt_0.
  rewrite !Rabs_mult, (Rabs_pos_eq s80) by lra.
  assert (S : IZR (2 ^ 80) * s80 = 1). { unfold s80. change 2%Z with (radix_val radix2). rewrite (IZR_Zpower radix2) by lia. rewrite <- bpow_plus. reflexivity. }
  apply (Rmult_le_compat_r s80) in H; [|lra]. rewrite (Rmult_assoc 24), S in H. lra.
Qed.
Lemma row_le_Z a b0 b1 b2 d0 d1 d2 : rowchk a b0 b1 b2 d0 d1 d2 = true ->
  let r z := IZR z * s80 in
  let E x y z d := Rabs (r b0 * r x + r b1 * r y + r b2 * r z - IZR d) in
  E (m0 a) (m3 a) (m6 a) d0 + E (m1 a) (m4 a) (m7 a) d1 + E (m2 a) (m5 a) (m8 a) d2 +
  9 * u * (Rabs (r b0) * (Rabs (r (m0 a)) + Rabs (r (m1 a)) + Rabs (r (m2 a))) + Rabs (r b1) * (Rabs (r (m3 a)) + Rabs (r (m4 a)) + Rabs (r (m5 a)))
            + Rabs (r b2) * (Rabs (r (m6 a)) + Rabs (r (m7 a)) + Rabs (r (m8 a)))) <= 50 * u /\
  Rabs (r b0) + Rabs (r b1) + Rabs (r b2) <= 24.
Proof.
  unfold rowchk. rewrite andb_true_iff, !Z.leb_le. intros [H H']. cbv zeta. split; [|apply sum_le_Z, H'].
  apply IZR_le in H. rewrite plus_IZR, !mult_IZR, !plus_IZR, !mult_IZR, !plus_IZR, !abs_IZR in H.
  rewrite !minus_IZR, !plus_IZR, !mult_IZR in H.
  assert (P : 0 < s80) by apply bpow_gt_0.
  assert (S2 : IZR (2 ^ 160) * (s80 * s80) = 1). { unfold s80. change 2%Z with (radix_val radix2). rewrite (IZR_Zpower radix2) by lia. rewrite <- !bpow_plus. reflexivity. }
  assert (Hu : IZR (2 ^ 24) * u = 1). { unfold u. change 2%Z with (radix_val radix2). rewrite (IZR_Zpower radix2) by lia. rewrite <- !bpow_plus. reflexivity. }
  assert (X : forall x y z d, Rabs (IZR b0 * s80 * (IZR x * s80) + IZR b1 * s80 * (IZR y * s80) + IZR b2 * s80 * (IZR z * s80) - IZR d) =
              Rabs (IZR b0 * IZR x + IZR b1 * IZR y + IZR b2 * IZR z - IZR d * IZR (2 ^ 160)) * (s80 * s80)).
  { intros. rewrite <- (Rabs_pos_eq (s80 * s80)) at 1 by nra. rewrite <- Rabs_mult. f_equal.
    rewrite Rmult_minus_distr_r, (Rmult_assoc (IZR d)), S2. ring. }
  rewrite !X, !Rabs_mult, (Rabs_pos_eq s80) by lra.
  repeat match type of H with context [Rabs ?a] => let q := fresh "q" in set (q := Rabs a) in *; clearbody q end.
  generalize dependent (IZR (2 ^ 24)). generalize dependent (IZR (2 ^ 160)). intros. clear X.
  assert (Q : 0 < u * (s80 * s80)) by (apply Rmult_lt_0_compat; [apply F32.u_pos|nra]).
  apply (Rmult_le_compat_r (u * (s80 * s80))) in H; [|lra].
  match type of H with (?e * ?k + 9 * ?c) * _ <= 50 * ?l * _ =>
    replace ((e * k + 9 * c) * (u * (s80 * s80))) with (e * (s80 * s80) * (k * u) + 9 * u * (c * (s80 * s80))) in H by ring;
    replace (50 * l * (u * (s80 * s80))) with (50 * u * (l * (s80 * s80))) in H by ring end.
  rewrite Hu, S2 in H. lra.
Qed.

Section F.
Context (lm : libm).
Notation N := (FN lm).
Lemma apply_rows (m : Matrix3 f32) (v : Vector3 f32) : M_apply N m v =
  V3 (V_dot N (V3 (m0 m) (m1 m) (m2 m)) v) (V_dot N (V3 (m3 m) (m4 m) (m5 m)) v) (V_dot N (V3 (m6 m) (m7 m) (m8 m)) v).
Proof. destruct m, v. reflexivity. Qed.
(** A row applied to a vector of norm [M]. *)
Lemma row_dot (r v : Vector3 f32) M : allV fin r -> allV fin v -> allV (fun x => Rabs (B2R x) <= M) v ->
  let al := Rabs (B2R (v0 r)) + Rabs (B2R (v1 r)) + Rabs (B2R (v2 r)) in al <= 24 -> M <= bpow radix2 120 ->
  fin (V_dot N r v) /\ Rabs (B2R (V_dot N r v) - dotR r v) <= 4 * u * (Rabs (B2R (v0 r)) * Rabs (B2R (v0 v)) + Rabs (B2R (v1 r)) * Rabs (B2R (v1 v)) + Rabs (B2R (v2 r)) * Rabs (B2R (v2 v))) + 4 * eta /\
  Rabs (B2R (V_dot N r v)) <= (1 + 4 * u) * (al * M) + 4 * eta.
Proof.
  destruct r as [r0 r1 r2], v as [x0 x1 x2]. cbn [v0 v1 v2].
  set (r := V3 r0 r1 r2). set (v := V3 x0 x1 x2).
  intros Fr Fv (H0 & H1 & H2) Hal HM. set (al := Rabs (B2R r0) + Rabs (B2R r1) + Rabs (B2R r2)) in *. cbn [v v0 v1 v2] in H0, H1, H2. pose proof u16 as U.
  assert (A : absdot r v = Rabs (B2R r0) * Rabs (B2R x0) + Rabs (B2R r1) * Rabs (B2R x1) + Rabs (B2R r2) * Rabs (B2R x2)).
  { unfold absdot, r, v. cbn [v0 v1 v2]. now rewrite !Rabs_mult. }
  assert (P : 0 <= M) by (pose proof (Rabs_pos (B2R x0)); lra).
  pose proof (Rabs_pos (B2R r0)) as P0. pose proof (Rabs_pos (B2R r1)) as P1. pose proof (Rabs_pos (B2R r2)) as P2.
  assert (L : absdot r v <= al * M).
  { rewrite A. unfold al.
    assert (Rabs (B2R r0) * Rabs (B2R x0) <= Rabs (B2R r0) * M) by (apply Rmult_le_compat_l; assumption).
    assert (Rabs (B2R r1) * Rabs (B2R x1) <= Rabs (B2R r1) * M) by (apply Rmult_le_compat_l; assumption).
    assert (Rabs (B2R r2) * Rabs (B2R x2) <= Rabs (B2R r2) * M) by (apply Rmult_le_compat_l; assumption). lra. }
  assert (Pal : 0 <= al) by (unfold al; lra).
  assert (al * M <= 24 * bpow radix2 120) by (apply Rmult_le_compat; assumption).
  assert (B : bpow radix2 126 = 64 * bpow radix2 120) by (change 126%Z with (6 + 120)%Z; rewrite bpow_plus; reflexivity).
  pose proof (bpow_gt_0 radix2 120).
  destruct (V_dot_error lm r v Fr Fv) as [F E]; [lra|]. rewrite <- A. split; [exact F|]. split; [exact E|].
  assert (D : Rabs (dotR r v) <= absdot r v). { unfold dotR, absdot. apply abs3. }
  replace (B2R (V_dot N r v)) with (B2R (V_dot N r v) - dotR r v + dotR r v) by ring. eapply Rle_trans; [apply Rabs_triang|].
  assert (4 * u * absdot r v <= 4 * u * (al * M)) by (apply Rmult_le_compat_l; lra). lra.
Qed.

(** The second application against the first, in the reals. *)
Lemma rt_real (b0 b1 b2 a00 a01 a02 a10 a11 a12 a20 a21 a22 d0 d1 d2 t0 t1 t2 y0 y1 y2 z M : R) :
  let al0 := Rabs a00 + Rabs a01 + Rabs a02 in let al1 := Rabs a10 + Rabs a11 + Rabs a12 in let al2 := Rabs a20 + Rabs a21 + Rabs a22 in
  Rabs (b0 * a00 + b1 * a10 + b2 * a20 - d0) + Rabs (b0 * a01 + b1 * a11 + b2 * a21 - d1) + Rabs (b0 * a02 + b1 * a12 + b2 * a22 - d2)
    + 9 * u * (Rabs b0 * al0 + Rabs b1 * al1 + Rabs b2 * al2) <= 50 * u ->
  Rabs b0 + Rabs b1 + Rabs b2 <= 24 ->
  Rabs t0 <= M -> Rabs t1 <= M -> Rabs t2 <= M ->
  Rabs (y0 - (a00 * t0 + a01 * t1 + a02 * t2)) <= 4 * u * (al0 * M) + 4 * eta -> Rabs y0 <= (1 + 4 * u) * (al0 * M) + 4 * eta ->
  Rabs (y1 - (a10 * t0 + a11 * t1 + a12 * t2)) <= 4 * u * (al1 * M) + 4 * eta -> Rabs y1 <= (1 + 4 * u) * (al1 * M) + 4 * eta ->
  Rabs (y2 - (a20 * t0 + a21 * t1 + a22 * t2)) <= 4 * u * (al2 * M) + 4 * eta -> Rabs y2 <= (1 + 4 * u) * (al2 * M) + 4 * eta ->
  Rabs (z - (b0 * y0 + b1 * y1 + b2 * y2)) <= 4 * u * (Rabs b0 * Rabs y0 + Rabs b1 * Rabs y1 + Rabs b2 * Rabs y2) + 4 * eta ->
  Rabs (z - (d0 * t0 + d1 * t1 + d2 * t2)) <= 50 * u * M + 128 * eta.
Proof.
  intros al0 al1 al2 HC HB T0 T1 T2 Y0 Z0 Y1 Z1 Y2 Z2 HZ. pose proof u16 as U. pose proof eta16 as Et.
  assert (PM : 0 <= M) by (pose proof (Rabs_pos t0); lra).
  set (E0 := b0 * a00 + b1 * a10 + b2 * a20 - d0) in *. set (E1 := b0 * a01 + b1 * a11 + b2 * a21 - d1) in *. set (E2 := b0 * a02 + b1 * a12 + b2 * a22 - d2) in *.
  set (g0 := y0 - (a00 * t0 + a01 * t1 + a02 * t2)) in *. set (g1 := y1 - (a10 * t0 + a11 * t1 + a12 * t2)) in *. set (g2 := y2 - (a20 * t0 + a21 * t1 + a22 * t2)) in *.
  set (h := z - (b0 * y0 + b1 * y1 + b2 * y2)) in *.
  replace (z - (d0 * t0 + d1 * t1 + d2 * t2)) with (h + (b0 * g0 + b1 * g1 + b2 * g2) + (E0 * t0 + E1 * t1 + E2 * t2)) by (unfold h, g0, g1, g2, E0, E1, E2; ring).
  eapply Rle_trans; [apply abs3|].
  assert (G : Rabs (b0 * g0 + b1 * g1 + b2 * g2) <= Rabs b0 * (4 * u * (al0 * M) + 4 * eta) + Rabs b1 * (4 * u * (al1 * M) + 4 * eta) + Rabs b2 * (4 * u * (al2 * M) + 4 * eta)).
  { eapply Rle_trans; [apply abs3|]. rewrite !Rabs_mult. repeat apply Rplus_le_compat; apply Rmult_le_compat_l; auto using Rabs_pos. }
  assert (EE : Rabs (E0 * t0 + E1 * t1 + E2 * t2) <= Rabs E0 * M + Rabs E1 * M + Rabs E2 * M).
  { eapply Rle_trans; [apply abs3|]. rewrite !Rabs_mult. repeat apply Rplus_le_compat; apply Rmult_le_compat_l; auto using Rabs_pos. }
  assert (HH : Rabs b0 * Rabs y0 + Rabs b1 * Rabs y1 + Rabs b2 * Rabs y2 <= Rabs b0 * ((1 + 4 * u) * (al0 * M) + 4 * eta) + Rabs b1 * ((1 + 4 * u) * (al1 * M) + 4 * eta) + Rabs b2 * ((1 + 4 * u) * (al2 * M) + 4 * eta)).
  { repeat apply Rplus_le_compat; apply Rmult_le_compat_l; auto using Rabs_pos. }
  assert (PC : 0 <= Rabs b0 * al0 + Rabs b1 * al1 + Rabs b2 * al2).
  { unfold al0, al1, al2. pose proof (Rabs_pos b0). pose proof (Rabs_pos b1). pose proof (Rabs_pos b2).
    pose proof (Rabs_pos a00). pose proof (Rabs_pos a01). pose proof (Rabs_pos a02). pose proof (Rabs_pos a10). pose proof (Rabs_pos a11). pose proof (Rabs_pos a12). pose proof (Rabs_pos a20). pose proof (Rabs_pos a21). pose proof (Rabs_pos a22).
    assert (0 <= Rabs b0 * (Rabs a00 + Rabs a01 + Rabs a02)) by (apply Rmult_le_pos; lra). assert (0 <= Rabs b1 * (Rabs a10 + Rabs a11 + Rabs a12)) by (apply Rmult_le_pos; lra). assert (0 <= Rabs b2 * (Rabs a20 + Rabs a21 + Rabs a22)) by (apply Rmult_le_pos; lra). lra. }
  set (c := Rabs b0 * al0 + Rabs b1 * al1 + Rabs b2 * al2) in *. set (b := Rabs b0 + Rabs b1 + Rabs b2) in *.
  replace (Rabs b0 * ((1 + 4 * u) * (al0 * M) + 4 * eta) + Rabs b1 * ((1 + 4 * u) * (al1 * M) + 4 * eta) + Rabs b2 * ((1 + 4 * u) * (al2 * M) + 4 * eta)) with ((1 + 4 * u) * (c * M) + 4 * eta * b) in HH by (unfold c, b; ring).
  replace (Rabs b0 * (4 * u * (al0 * M) + 4 * eta) + Rabs b1 * (4 * u * (al1 * M) + 4 * eta) + Rabs b2 * (4 * u * (al2 * M) + 4 * eta)) with (4 * u * (c * M) + 4 * eta * b) in G by (unfold c, b; ring).
  apply (Rmult_le_compat_r M) in HC; [|exact PM].
  replace ((Rabs E0 + Rabs E1 + Rabs E2 + 9 * u * c) * M) with (Rabs E0 * M + Rabs E1 * M + Rabs E2 * M + 9 * u * (c * M)) in HC by ring.
  assert (Pcm : 0 <= c * M) by (apply Rmult_le_pos; assumption).
  assert (Eb : eta * b <= eta * 24) by (apply Rmult_le_compat_l; lra).
  rewrite U in *.
  set (cm := c * M) in *. replace (4 * eta * b) with (4 * (eta * b)) in * by ring. set (eb := eta * b) in *. clearbody cm eb.
  set (S := Rabs b0 * Rabs y0 + Rabs b1 * Rabs y1 + Rabs b2 * Rabs y2) in *. clearbody S. lra.
Qed.
Lemma chk_ok (A B : Matrix3 f32) (t : Vector3 f32) : chk A B = true -> allV fin t -> norm3 t <= bpow radix2 110 ->
  let t' := M_apply N B (M_apply N A t) in
  allV fin t' /\ Rabs (B2R (v0 t') - B2R (v0 t)) <= 50 * u * norm3 t + 128 * eta /\
  Rabs (B2R (v1 t') - B2R (v1 t)) <= 50 * u * norm3 t + 128 * eta /\ Rabs (B2R (v2 t') - B2R (v2 t)) <= 50 * u * norm3 t + 128 * eta.
Proof.
  unfold chk. destruct (zM A) as [a|] eqn:EA; [|discriminate]. destruct (zM B) as [b|] eqn:EB; [|discriminate].
  rewrite !andb_true_iff, !Z.leb_le. intros (((((R0 & R1) & R2) & S0) & S1) & S2) Ft HM.
  apply zM_ok in EA, EB. destruct EA as (FA & A0 & A1 & A2 & A3 & A4 & A5 & A6 & A7 & A8). destruct EB as (FB & B0 & B1 & B2 & B3 & B4 & B5 & B6 & B7 & B8).
  apply row_le_Z in R0, R1, R2. apply sum_le_Z in S0, S1, S2. cbv zeta in R0, R1, R2.
  revert R0 R1 R2 S0 S1 S2. rewrite <- !A0, <- !A1, <- !A2, <- !A3, <- !A4, <- !A5, <- !A6, <- !A7, <- !A8, <- !B0, <- !B1, <- !B2, <- !B3, <- !B4, <- !B5, <- !B6, <- !B7, <- !B8. intros R0 R1 R2 S0 S1 S2.
  clear A0 A1 A2 A3 A4 A5 A6 A7 A8 B0 B1 B2 B3 B4 B5 B6 B7 B8 a b.
  destruct R0 as [R0 Q0], R1 as [R1 Q1], R2 as [R2 Q2]. destruct (norm3_ge t) as (N0 & N1 & N2). set (M := norm3 t) in *. clearbody M.
  cbv zeta. rewrite !apply_rows. destruct A as [a00 a01 a02 a10 a11 a12 a20 a21 a22], B as [b00 b01 b02 b10 b11 b12 b20 b21 b22], t as [t0 t1 t2].
  unfold allM in FA, FB. cbn [m0 m1 m2 m3 m4 m5 m6 m7 m8 v0 v1 v2] in *.
  destruct FA as (FA0 & FA1 & FA2 & FA3 & FA4 & FA5 & FA6 & FA7 & FA8), FB as (FB0 & FB1 & FB2 & FB3 & FB4 & FB5 & FB6 & FB7 & FB8).
  assert (L : bpow radix2 110 * 1024 = bpow radix2 120) by (change 120%Z with (110 + 10)%Z; rewrite (bpow_plus radix2 110 10); reflexivity).
  pose proof (bpow_gt_0 radix2 110) as P110. pose proof u16 as U. pose proof eta16 as Et.
  assert (PM : 0 <= M) by (pose proof (Rabs_pos (B2R t0)); lra).
  assert (E110 : eta <= bpow radix2 110) by (apply bpow_le; lia).
  assert (AV : allV (fun x : f32 => Rabs (B2R x) <= M) (V3 t0 t1 t2)) by (repeat split; assumption).
  assert (W : forall p q r : f32, fin p -> fin q -> fin r -> Rabs (B2R p) + Rabs (B2R q) + Rabs (B2R r) <= 24 ->
     let y := V_dot N (V3 p q r) (V3 t0 t1 t2) in fin y /\
     Rabs (B2R y - (B2R p * B2R t0 + B2R q * B2R t1 + B2R r * B2R t2)) <= 4 * u * ((Rabs (B2R p) + Rabs (B2R q) + Rabs (B2R r)) * M) + 4 * eta /\
     Rabs (B2R y) <= (1 + 4 * u) * ((Rabs (B2R p) + Rabs (B2R q) + Rabs (B2R r)) * M) + 4 * eta /\ Rabs (B2R y) <= bpow radix2 120).
  { intros p q r Fp Fq Fr Hs. destruct (row_dot (V3 p q r) (V3 t0 t1 t2) M) as (Fy & Ey & By); try assumption; [repeat split; assumption|lra|].
    cbv zeta. cbn [v0 v1 v2] in *. split; [exact Fy|]. pose proof (Rabs_pos (B2R p)). pose proof (Rabs_pos (B2R q)). pose proof (Rabs_pos (B2R r)).
    split; [|split; [exact By|]].
    - unfold dotR in Ey. cbn [v0 v1 v2] in Ey. eapply Rle_trans; [exact Ey|]. apply Rplus_le_compat_r. apply Rmult_le_compat_l; [lra|].
      assert (Rabs (B2R p) * Rabs (B2R t0) <= Rabs (B2R p) * M) by (apply Rmult_le_compat_l; assumption).
      assert (Rabs (B2R q) * Rabs (B2R t1) <= Rabs (B2R q) * M) by (apply Rmult_le_compat_l; assumption).
      assert (Rabs (B2R r) * Rabs (B2R t2) <= Rabs (B2R r) * M) by (apply Rmult_le_compat_l; assumption). lra.
    - eapply Rle_trans; [exact By|].
      assert ((Rabs (B2R p) + Rabs (B2R q) + Rabs (B2R r)) * M <= 24 * bpow radix2 110) by (apply Rmult_le_compat; lra).
      rewrite U. lra. }
  destruct (W a00 a01 a02) as (Fy0 & Ey0 & By0 & Cy0); try assumption. destruct (W a10 a11 a12) as (Fy1 & Ey1 & By1 & Cy1); try assumption. destruct (W a20 a21 a22) as (Fy2 & Ey2 & By2 & Cy2); try assumption.
  set (y0 := V_dot N (V3 a00 a01 a02) _) in *. set (y1 := V_dot N (V3 a10 a11 a12) _) in *. set (y2 := V_dot N (V3 a20 a21 a22) _) in *. clearbody y0 y1 y2. clear W.
  assert (W : forall p q r : f32, fin p -> fin q -> fin r -> Rabs (B2R p) + Rabs (B2R q) + Rabs (B2R r) <= 24 ->
     let y := V_dot N (V3 p q r) (V3 y0 y1 y2) in fin y /\
     Rabs (B2R y - (B2R p * B2R y0 + B2R q * B2R y1 + B2R r * B2R y2)) <= 4 * u * (Rabs (B2R p) * Rabs (B2R y0) + Rabs (B2R q) * Rabs (B2R y1) + Rabs (B2R r) * Rabs (B2R y2)) + 4 * eta).
  { intros p q r Fp Fq Fr Hs. destruct (row_dot (V3 p q r) (V3 y0 y1 y2) (bpow radix2 120)) as (Fy & Ey & _); try assumption; [repeat split; assumption..|lra|].
    split; [exact Fy|exact Ey]. }
  destruct (W b00 b01 b02) as (Fz0 & Ez0); try assumption. destruct (W b10 b11 b12) as (Fz1 & Ez1); try assumption. destruct (W b20 b21 b22) as (Fz2 & Ez2); try assumption.
  split; [repeat split; assumption|].
  pose proof (rt_real _ _ _ _ _ _ _ _ _ _ _ _ _ _ _ _ _ _ _ _ _ _ M R0 Q0 N0 N1 N2 Ey0 By0 Ey1 By1 Ey2 By2 Ez0) as X0.
  pose proof (rt_real _ _ _ _ _ _ _ _ _ _ _ _ _ _ _ _ _ _ _ _ _ _ M R1 Q1 N0 N1 N2 Ey0 By0 Ey1 By1 Ey2 By2 Ez1) as X1.
  pose proof (rt_real _ _ _ _ _ _ _ _ _ _ _ _ _ _ _ _ _ _ _ _ _ _ M R2 Q2 N0 N1 N2 Ey0 By0 Ey1 By1 Ey2 By2 Ez2) as X2.
  replace (1 * B2R t0 + 0 * B2R t1 + 0 * B2R t2) with (B2R t0) in X0 by ring.
  replace (0 * B2R t0 + 1 * B2R t1 + 0 * B2R t2) with (B2R t1) in X1 by ring.
  replace (0 * B2R t0 + 0 * B2R t1 + 1 * B2R t2) with (B2R t2) in X2 by ring. auto.
Qed.
Definition gams : list (Gamut f32) :=
  [AdobeRGB N; Rec709 N; Rec2020 N; DCI_P3 N; S_Gamut N; S_Gamut3_Cine N; ACEScg N; ACES2065 N; LMS N; XYZ_gamut N].
Lemma gams_chk : forallb (fun G : Gamut f32 => chk (g_toXYZ G) (g_fromXYZ G) && chk (g_fromXYZ G) (g_toXYZ G)) gams = true.
Proof. vm_compute. reflexivity. Qed.
Lemma gams_conv : forallb (fun G => forallb (fun H => chk (GamutConvert N G H) (GamutConvert N H G)) gams) gams = true.
Proof. vm_compute. reflexivity. Qed.
End F.
Definition back (t t' : Vector3 f32) : Prop :=
  allV fin t' /\ Rabs (B2R (v0 t') - B2R (v0 t)) <= 50 * u * norm3 t + 128 * eta /\
  Rabs (B2R (v1 t') - B2R (v1 t)) <= 50 * u * norm3 t + 128 * eta /\ Rabs (B2R (v2 t') - B2R (v2 t)) <= 50 * u * norm3 t + 128 * eta.
Lemma gam_round (lm : libm) (G : Gamut f32) (t : Vector3 f32) : In G (gams lm) -> allV fin t -> norm3 t <= bpow radix2 110 ->
  back t (G_fromXYZ_t (FN lm) G (G_toXYZ_t (FN lm) G t)) /\ back t (G_toXYZ_t (FN lm) G (G_fromXYZ_t (FN lm) G t)).
Proof.
  intros HG Ft HM. pose proof (proj1 (forallb_forall _ _) (gams_chk lm) G HG) as H. apply andb_true_iff in H. destruct H as [H1 H2].
  split; [exact (chk_ok lm _ _ t H1 Ft HM)|exact (chk_ok lm _ _ t H2 Ft HM)].
Qed.
Lemma gam_conv (lm : libm) (G H : Gamut f32) (t : Vector3 f32) : In G (gams lm) -> In H (gams lm) -> allV fin t -> norm3 t <= bpow radix2 110 ->
  back t (M_apply (FN lm) (GamutConvert (FN lm) H G) (M_apply (FN lm) (GamutConvert (FN lm) G H) t)).
Proof.
  intros HG HH Ft HM. pose proof (proj1 (forallb_forall _ _) (gams_conv lm) G HG) as C. pose proof (proj1 (forallb_forall _ _) C H HH) as C2.
  exact (chk_ok lm _ _ t C2 Ft HM).
Qed.
