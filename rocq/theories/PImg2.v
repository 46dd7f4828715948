(** * Integer images through CIELAB and through Yxy in binary32. *)
From Coq Require Import ZArith QArith Qreals Reals Lra Lia List Bool.
From Flocq Require Import Core IEEE754.BinarySingleNaN.
From Verif Require Import Num NumR NumF MVec MTri MOtf SpecMat RTac F32 RPow RExp PHsvF PYxyF PYuvF PLibm PPowF PNearF PNearF2 PRelF POtf POtf2 POtfF POtfF2 PCodes PMat PMatF PLab PLabF PGamF PImg.
Import ListNotations.
Local Open Scope R_scope.

(** ** The gamuts with non-negative [toXYZ] and a white near D65 or DCI. *)
Definition wrow (a b c lo hi : Z) : bool := ((0 <=? a) && (0 <=? b) && (0 <=? c) && (lo * 2 ^ 80 <=? 10000 * (a + b + c)) && (10000 * (a + b + c) <=? hi * 2 ^ 80))%Z%bool.
Definition brow (a b c : Z) : bool := ((9600 * Z.abs a + 10001 * Z.abs b + 11000 * Z.abs c <=? 52500 * 2 ^ 80) && (42 * Z.abs a + 310 * Z.abs c <=? 400 * 2 ^ 80) && (Z.abs a + Z.abs b + Z.abs c <=? 24 * 2 ^ 80) && (103 * Z.abs a + 338 * Z.abs c <=? 510 * 2 ^ 80))%Z%bool.
Definition ycol (a b c : Z) : bool := ((2 ^ 80 <=? 2 * (a + b + c)) && (a + b + c <=? 100 * b))%Z%bool.
Definition gok (lm : libm) (G : Gamut f32) : bool :=
  chk (g_toXYZ G) (g_fromXYZ G) &&
  match zM (g_toXYZ G), zM (g_fromXYZ G) with
  | Some a, Some b =>
      wrow (m0 a) (m1 a) (m2 a) 5000 9600 && wrow (m3 a) (m4 a) (m5 a) 5000 10001 && wrow (m6 a) (m7 a) (m8 a) 5000 11000 &&
      brow (m0 b) (m1 b) (m2 b) && brow (m3 b) (m4 b) (m5 b) && brow (m6 b) (m7 b) (m8 b) &&
      ycol (m0 a) (m3 a) (m6 a) && ycol (m1 a) (m4 a) (m7 a) && ycol (m2 a) (m5 a) (m8 a)
  | _, _ => false
  end.
Definition rgb_gamuts (lm : libm) : list (Gamut f32) := [AdobeRGB (FN lm); Rec709 (FN lm); Rec2020 (FN lm); DCI_P3 (FN lm)].
Lemma rgb_gok lm : forallb (gok lm) (rgb_gamuts lm) = true.
Proof. vm_compute. reflexivity. Qed.
Definition wr (a b c lo hi : R) : Prop := 0 <= a /\ 0 <= b /\ 0 <= c /\ lo <= a + b + c <= hi.
Definition br (a b c : R) : Prop := 0.96 * Rabs a + 1.0001 * Rabs b + 1.1 * Rabs c <= 5.25 /\ 4.2 * Rabs a + 31 * Rabs c <= 40 /\ Rabs a + Rabs b + Rabs c <= 24 /\ 103 * Rabs a + 338 * Rabs c <= 510.
Definition yc (a b c : R) : Prop := / 2 <= a + b + c <= 100 * b.
Lemma s80_pos : 0 < s80. Proof. apply bpow_gt_0. Qed.
Lemma s80_2 : IZR (2 ^ 80) * s80 = 1.
Proof. unfold s80. change (IZR (2 ^ 80)) with (IZR (radix2 ^ 80)). rewrite IZR_Zpower by lia. rewrite <- bpow_plus. reflexivity. Qed.
Lemma leZ a b : (a <= b)%Z -> IZR a * s80 <= IZR b * s80.
Proof. intros H. apply Rmult_le_compat_r; [apply Rlt_le, s80_pos|apply IZR_le, H]. Qed.
Lemma absZ a : IZR (Z.abs a) * s80 = Rabs (IZR a * s80).
Proof. rewrite abs_IZR, Rabs_mult, (Rabs_pos_eq s80) by apply Rlt_le, s80_pos. reflexivity. Qed.
Ltac toR H := apply leZ in H; rewrite ?plus_IZR, ?mult_IZR, ?plus_IZR, ?mult_IZR in H.
Lemma wrow_ok a b c lo hi : wrow a b c lo hi = true -> wr (IZR a * s80) (IZR b * s80) (IZR c * s80) (IZR lo / 10000) (IZR hi / 10000).
Proof.
  unfold wrow. rewrite !andb_true_iff, !Z.leb_le. intros ((((A & B) & C) & D) & E). pose proof s80_2 as S. set (T := (2 ^ 80)%Z) in *.
  clearbody T. toR A. toR B. toR C. toR D. toR E. rewrite Rmult_assoc, S in D. rewrite (Rmult_assoc (IZR hi)), S in E. unfold wr. lra.
Qed.
Lemma brow_ok a b c : brow a b c = true -> br (IZR a * s80) (IZR b * s80) (IZR c * s80).
Proof.
  unfold brow. rewrite !andb_true_iff, !Z.leb_le. intros (((A & B) & C) & D). pose proof s80_2 as S. set (T := (2 ^ 80)%Z) in *. clearbody T.
  toR A. toR B. toR C. toR D. pose proof (absZ a). pose proof (absZ b). pose proof (absZ c). rewrite Rmult_assoc, S in A. rewrite (Rmult_assoc (IZR 400)), S in B. unfold br. lra.
Qed.
Lemma ycol_ok a b c : ycol a b c = true -> yc (IZR a * s80) (IZR b * s80) (IZR c * s80).
Proof.
  unfold ycol. rewrite !andb_true_iff, !Z.leb_le. intros (A & B). pose proof s80_2 as S. set (T := (2 ^ 80)%Z) in *. clearbody T.
  toR A. toR B. unfold yc. lra.
Qed.
Definition gokR (G : Gamut f32) : Prop :=
  let a := g_toXYZ G in let b := g_fromXYZ G in allM fin a /\ allM fin b /\
  wr (B2R (m0 a)) (B2R (m1 a)) (B2R (m2 a)) 0.5 0.96 /\ wr (B2R (m3 a)) (B2R (m4 a)) (B2R (m5 a)) 0.5 1.0001 /\ wr (B2R (m6 a)) (B2R (m7 a)) (B2R (m8 a)) 0.5 1.1 /\
  br (B2R (m0 b)) (B2R (m1 b)) (B2R (m2 b)) /\ br (B2R (m3 b)) (B2R (m4 b)) (B2R (m5 b)) /\ br (B2R (m6 b)) (B2R (m7 b)) (B2R (m8 b)) /\
  yc (B2R (m0 a)) (B2R (m3 a)) (B2R (m6 a)) /\ yc (B2R (m1 a)) (B2R (m4 a)) (B2R (m7 a)) /\ yc (B2R (m2 a)) (B2R (m5 a)) (B2R (m8 a)).
Lemma gok_ok lm G : In G (rgb_gamuts lm) -> chk (g_toXYZ G) (g_fromXYZ G) = true /\ gokR G.
Proof.
  intros H. pose proof (rgb_gok lm) as C. rewrite forallb_forall in C. specialize (C G H). unfold gok in C. apply andb_true_iff in C. destruct C as [C D]. split; [exact C|].
  destruct (zM (g_toXYZ G)) as [a|] eqn:EA; [|discriminate]. destruct (zM (g_fromXYZ G)) as [b|] eqn:EB; [|discriminate].
  rewrite !andb_true_iff in D. destruct D as ((((((((W0 & W1) & W2) & B0) & B1) & B2) & Y0) & Y1) & Y2).
  apply zM_ok in EA, EB. destruct EA as (FA & A0 & A1 & A2 & A3 & A4 & A5 & A6 & A7 & A8). destruct EB as (FB & E0 & E1 & E2 & E3 & E4 & E5 & E6 & E7 & E8).
  apply wrow_ok in W0, W1, W2. apply brow_ok in B0, B1, B2. apply ycol_ok in Y0, Y1, Y2.
  unfold gokR. cbv zeta. rewrite A0, A1, A2, A3, A4, A5, A6, A7, A8, E0, E1, E2, E3, E4, E5, E6, E7, E8.
  replace 0.5 with (5000 / 10000) by lra. replace 0.96 with (9600 / 10000) by lra. replace 1.0001 with (10001 / 10000) by lra. replace 1.1 with (11000 / 10000) by lra.
  repeat split; try assumption; try apply FA; try apply FB; try apply W0; try apply W1; try apply W2; try apply B0; try apply B1; try apply B2; try apply Y0; try apply Y1; try apply Y2.
Qed.
Section F.
Context (lm : libm).
Notation N := (FN lm).
Lemma rnd_pos z : 0 <= z -> 0 <= rnd z.
Proof. intros H. apply rnd_ge_fmt; [apply generic_format_0|exact H]. Qed.
(** A non-negative row applied to non-negative components. *)
Lemma dot_pos (a b c x y z : f32) : allV fin (V3 a b c) -> allV fin (V3 x y z) -> 0 <= B2R a <= 2 -> 0 <= B2R b <= 2 -> 0 <= B2R c <= 2 ->
  0 <= B2R x <= 2 -> 0 <= B2R y <= 2 -> 0 <= B2R z <= 2 ->
  let d := V_dot N (V3 a b c) (V3 x y z) in let r := B2R a * B2R x + B2R b * B2R y + B2R c * B2R z in
  fin d /\ 0 <= B2R d /\ Rabs (B2R d - r) <= 4 * u * r + 4 * eta /\ (r = 0 -> B2R d = 0).
Proof.
  intros Fa Fx A B C X Y Z d r. pose proof b127_big as BB. pose proof u16 as U. pose proof eta16 as Et.
  assert (P0 : 0 <= B2R a * B2R x <= 4) by (split; [apply Rmult_le_pos|apply Rle_trans with (2 * 2); [apply Rmult_le_compat|]]; lra).
  assert (P1 : 0 <= B2R b * B2R y <= 4) by (split; [apply Rmult_le_pos|apply Rle_trans with (2 * 2); [apply Rmult_le_compat|]]; lra).
  assert (P2 : 0 <= B2R c * B2R z <= 4) by (split; [apply Rmult_le_pos|apply Rle_trans with (2 * 2); [apply Rmult_le_compat|]]; lra).
  assert (AD : absdot (V3 a b c) (V3 x y z) = r) by (unfold absdot, r; cbn [v0 v1 v2]; rewrite !Rabs_pos_eq by lra; reflexivity).
  destruct (V_dot_error lm (V3 a b c) (V3 x y z) Fa Fx) as [Fd Ed].
  { rewrite AD. apply Rle_trans with (bpow radix2 4); [change (bpow radix2 4) with 16; unfold r; lra|apply bpow_le; lia]. }
  rewrite AD in Ed. fold d in Fd, Ed. change (dotR (V3 a b c) (V3 x y z)) with r in Ed. split; [exact Fd|].
  destruct Fa as (Fa & Fb & Fc), Fx as (Fx & Fy & Fz). cbn [v0 v1 v2] in Fa, Fb, Fc, Fx, Fy, Fz.
  destruct (mul_ok lm a x Fa Fx) as [F0 V0]; [apply Rabs_le; lra|]. destruct (mul_ok lm b y Fb Fy) as [F1 V1]; [apply Rabs_le; lra|]. destruct (mul_ok lm c z Fc Fz) as [F2 V2]; [apply Rabs_le; lra|].
  pose proof (rnd_pos _ (proj1 P0)) as Q0. pose proof (rnd_pos _ (proj1 P1)) as Q1. pose proof (rnd_pos _ (proj1 P2)) as Q2.
  pose proof (rnd_err_abs (B2R a * B2R x)) as E0. pose proof (rnd_err_abs (B2R b * B2R y)) as E1. pose proof (rnd_err_abs (B2R c * B2R z)) as E2.
  rewrite (Rabs_pos_eq (_ * _)) in E0 by lra. rewrite (Rabs_pos_eq (_ * _)) in E1 by lra. rewrite (Rabs_pos_eq (_ * _)) in E2 by lra. apply Rabs_le_inv in E0, E1, E2.
  destruct (add_ok lm (@fmul N a x) (@fmul N b y) F0 F1) as [F3 V3]; [rewrite V0, V1; apply Rabs_le; rewrite U in *; lra|].
  rewrite V0, V1 in V3. pose proof (rnd_pos _ (Rplus_le_le_0_compat _ _ Q0 Q1)) as Q3.
  pose proof (rnd_err_abs (rnd (B2R a * B2R x) + rnd (B2R b * B2R y))) as E3. rewrite (Rabs_pos_eq (_ + _)) in E3 by lra. apply Rabs_le_inv in E3.
  destruct (add_ok lm (@fadd N (@fmul N a x) (@fmul N b y)) (@fmul N c z) F3 F2) as [F4 V4]; [rewrite V3, V2; apply Rabs_le; rewrite U in *; lra|].
  assert (VD : B2R d = rnd (rnd (rnd (B2R a * B2R x) + rnd (B2R b * B2R y)) + rnd (B2R c * B2R z))) by (rewrite <- V2, <- V3; exact V4).
  split; [rewrite VD; apply rnd_pos; lra|]. split; [exact Ed|]. intros R0. unfold r in R0.
  rewrite VD. replace (B2R a * B2R x) with 0 by lra. replace (B2R b * B2R y) with 0 by lra. replace (B2R c * B2R z) with 0 by lra. rewrite !rnd_0, !Rplus_0_r, !rnd_0. reflexivity.
Qed.
(** A row of [fromXYZ] applied to two nearby stimuli. *)
Lemma row_pertK (b0 b1 b2 : f32) (x x' : Vector3 f32) e0 e1 e2 K : allV fin (V3 b0 b1 b2) -> br (B2R b0) (B2R b1) (B2R b2) -> allV fin x -> allV fin x' ->
  Rabs (B2R (v0 x)) <= 1.001 * 0.96 -> Rabs (B2R (v1 x)) <= 1.001 * 1.0001 -> Rabs (B2R (v2 x)) <= 1.001 * 1.1 ->
  Rabs (B2R (v0 x') - B2R (v0 x)) <= e0 -> Rabs (B2R (v1 x') - B2R (v1 x)) <= e1 -> Rabs (B2R (v2 x') - B2R (v2 x)) <= e2 ->
  e0 <= 0.0009 -> e1 <= 0.0009 -> e2 <= 0.0009 -> Rabs (B2R b0 * (B2R (v0 x') - B2R (v0 x)) + B2R b1 * (B2R (v1 x') - B2R (v1 x)) + B2R b2 * (B2R (v2 x') - B2R (v2 x))) <= K ->
  fin (V_dot N (V3 b0 b1 b2) x') /\ Rabs (B2R (V_dot N (V3 b0 b1 b2) x') - B2R (V_dot N (V3 b0 b1 b2) x)) <= K + 42.2 * u.
Proof.
  intros Fb (B1 & _ & B3 & _) Fx Fx' X0 X1 X2 D0 D1 D2 L0 L1 L2 S. destruct x as [x0 x1 x2], x' as [y0 y1 y2]. cbn [v0 v1 v2] in *. pose proof u16 as U. pose proof eta16 as Et.
  set (p := Rabs (B2R b0)) in *. set (q := Rabs (B2R b1)) in *. set (r := Rabs (B2R b2)) in *.
  assert (P : 0 <= p) by apply Rabs_pos. assert (Q : 0 <= q) by apply Rabs_pos. assert (R : 0 <= r) by apply Rabs_pos.
  assert (B126 : 100 <= bpow radix2 126) by (apply Rle_trans with (bpow radix2 7); [change (bpow radix2 7) with 128; lra|apply bpow_le; lia]).
  assert (T : forall z0 z1 z2 : f32, Rabs (B2R z0) <= 1.002 * 0.96 -> Rabs (B2R z1) <= 1.002 * 1.0001 -> Rabs (B2R z2) <= 1.002 * 1.1 -> allV fin (V3 z0 z1 z2) ->
    fin (V_dot N (V3 b0 b1 b2) (V3 z0 z1 z2)) /\ Rabs (B2R (V_dot N (V3 b0 b1 b2) (V3 z0 z1 z2)) - (B2R b0 * B2R z0 + B2R b1 * B2R z1 + B2R b2 * B2R z2)) <= 21.1 * u).
  { intros z0 z1 z2 Z0 Z1 Z2 Fz. assert (A : absdot (V3 b0 b1 b2) (V3 z0 z1 z2) <= 1.002 * 5.25).
    { unfold absdot. cbn [v0 v1 v2]. rewrite !Rabs_mult. fold p. fold q. fold r.
      assert (p * Rabs (B2R z0) <= p * (1.002 * 0.96)) by (apply Rmult_le_compat_l; assumption).
      assert (q * Rabs (B2R z1) <= q * (1.002 * 1.0001)) by (apply Rmult_le_compat_l; assumption).
      assert (r * Rabs (B2R z2) <= r * (1.002 * 1.1)) by (apply Rmult_le_compat_l; assumption). lra. }
    destruct (V_dot_error lm _ _ Fb Fz) as [F E]; [lra|]. split; [exact F|]. eapply Rle_trans; [exact E|]. rewrite U in *. lra. }
  destruct (T x0 x1 x2) as [_ E]; [lra|lra|lra|exact Fx|].
  apply Rabs_le_inv in D0 as D0'. apply Rabs_le_inv in D1 as D1'. apply Rabs_le_inv in D2 as D2'. apply Rabs_le_inv in X0 as X0'. apply Rabs_le_inv in X1 as X1'. apply Rabs_le_inv in X2 as X2'.
  destruct (T y0 y1 y2) as [F E']; [apply Rabs_le; lra|apply Rabs_le; lra|apply Rabs_le; lra|exact Fx'|]. split; [exact F|].
  apply Rabs_le_inv in S. apply Rabs_le_inv in E. apply Rabs_le_inv in E'. apply Rabs_le. lra.
Qed.
Lemma row_sum (b0 b1 b2 d0 d1 d2 e0 e1 e2 K : R) : Rabs d0 <= e0 -> Rabs d1 <= e1 -> Rabs d2 <= e2 -> Rabs b0 * e0 + Rabs b1 * e1 + Rabs b2 * e2 <= K ->
  Rabs (b0 * d0 + b1 * d1 + b2 * d2) <= K.
Proof.
  intros D0 D1 D2 HK. eapply Rle_trans; [apply abs3|]. rewrite !Rabs_mult.
  assert (Rabs b0 * Rabs d0 <= Rabs b0 * e0) by (apply Rmult_le_compat_l; [apply Rabs_pos|assumption]).
  assert (Rabs b1 * Rabs d1 <= Rabs b1 * e1) by (apply Rmult_le_compat_l; [apply Rabs_pos|assumption]).
  assert (Rabs b2 * Rabs d2 <= Rabs b2 * e2) by (apply Rmult_le_compat_l; [apply Rabs_pos|assumption]). lra.
Qed.
(** The decoded pixel in XYZ. *)
Definition row_ok (a b c : f32) (t : Vector3 f32) (x : f32) : Prop :=
  let r := B2R a * B2R (v0 t) + B2R b * B2R (v1 t) + B2R c * B2R (v2 t) in fin x /\ 0 <= B2R x /\ Rabs (B2R x - r) <= 4 * u * r + 4 * eta /\ (r = 0 -> B2R x = 0).
Lemma xyz_rows G (t : Vector3 f32) : gokR G -> allV fin t -> allV (fun x => 0 <= B2R x <= 1 + 16 * u) t -> let x := G_toXYZ_t N G t in let a := g_toXYZ G in
  row_ok (m0 a) (m1 a) (m2 a) t (v0 x) /\ row_ok (m3 a) (m4 a) (m5 a) t (v1 x) /\ row_ok (m6 a) (m7 a) (m8 a) t (v2 x).
Proof.
  intros (FA & _ & W0 & W1 & W2 & _) Ft R. cbv zeta. unfold G_toXYZ_t. rewrite apply_rows. change (F N) with f32. cbn [v0 v1 v2]. destruct t as [t0 t1 t2]. pose proof u16 as U.
  destruct R as (R0 & R1 & R2). cbn [v0 v1 v2] in *. unfold wr in *. destruct FA as (F0 & F1 & F2 & F3 & F4 & F5 & F6 & F7 & F8).
  split; [|split]; (apply dot_pos; [repeat split; assumption|repeat split; apply Ft| | | | | |]; rewrite U in *; lra).
Qed.

Context (Acc : accurate lm).
Definition dec (M : Z) (k : Vector3 Z) : Vector3 f32 := toScene N SRGB (pixel lm M k) (@flit N 1.0%dec).
Lemma row_le (p q r t0 t1 t2 h b x : R) : 0 <= p -> 0 <= q -> 0 <= r -> p + q + r <= h -> 0 <= t0 <= 1 + b -> 0 <= t1 <= 1 + b -> 0 <= t2 <= 1 + b ->
  0 <= p * t0 + q * t1 + r * t2 <= (p + q + r) * (1 + b) /\ p * t0 + q * t1 + r * t2 <= h * (1 + b).
Proof.
  intros P Q R H A B C. pose proof (Rmult_le_compat_l p _ _ P (proj2 A)). pose proof (Rmult_le_compat_l q _ _ Q (proj2 B)). pose proof (Rmult_le_compat_l r _ _ R (proj2 C)).
  pose proof (Rmult_le_pos p t0 P (proj1 A)). pose proof (Rmult_le_pos q t1 Q (proj1 B)). pose proof (Rmult_le_pos r t2 R (proj1 C)).
  pose proof (Rmult_le_compat_r (1 + b) _ _ ltac:(lra) H). lra.
Qed.
Lemma tri3 a b c p q : Rabs (a - b) <= p -> Rabs (b - c) <= q -> Rabs (a - c) <= p + q.
Proof. intros A B. replace (a - c) with ((a - b) + (b - c)) by ring. eapply Rle_trans; [apply Rabs_triang|]. lra. Qed.
Lemma x_le x r h : Rabs (x - r) <= 4 * u * r + 4 * eta -> 0 <= r -> r <= h * (1 + 16 * u) -> / 2 <= h <= 2 -> x <= 1.001 * h.
Proof. intros E R0 R1 H. pose proof u16 as U. pose proof eta16 as Et. apply Rabs_le_inv in E. rewrite U in *. lra. Qed.
Lemma img_pertK G M k g (x' : Vector3 f32) e0 e1 e2 K : In G (rgb_gamuts lm) -> codes_of M k -> (0 < M <= 2 ^ 15)%Z -> let x := G_toXYZ_t N G (dec M k) in
  allV fin x' -> Rabs (B2R (v0 x') - B2R (v0 x)) <= e0 -> Rabs (B2R (v1 x') - B2R (v1 x)) <= e1 -> Rabs (B2R (v2 x') - B2R (v2 x)) <= e2 ->
  e0 <= 0.0009 -> e1 <= 0.0009 -> e2 <= 0.0009 ->
  (let b := g_fromXYZ G in let d0 := B2R (v0 x') - B2R (v0 x) in let d1 := B2R (v1 x') - B2R (v1 x) in let d2 := B2R (v2 x') - B2R (v2 x) in
    Rabs (B2R (m0 b) * d0 + B2R (m1 b) * d1 + B2R (m2 b) * d2) <= K /\ Rabs (B2R (m3 b) * d0 + B2R (m4 b) * d1 + B2R (m5 b) * d2) <= K /\ Rabs (B2R (m6 b) * d0 + B2R (m7 b) * d1 + B2R (m8 b) * d2) <= K) -> IZR M * (12.92 * (92.3 * u + K) + 225 * u) < / 2 ->
  same_codes M k (toScreen N SRGB (G_fromXYZ_t N G x') g).
Proof.
  intros HG HK HM x Fx' D0 D1 D2 L0 L1 L2 (KB0 & KB1 & KB2) HB. destruct (gok_ok lm G HG) as [C GR]. destruct (pixel_dec lm Acc M k HK HM) as (Ft & Rt & Nt). fold (dec M k) in Ft, Rt, Nt.
  pose proof u16 as U. pose proof eta16 as Et.
  assert (B : back (dec M k) (G_fromXYZ_t N G x)). { apply (chk_ok lm _ _ _ C Ft). apply big110. rewrite U in *. lra. }
  destruct (xyz_rows G _ GR Ft Rt) as ((X0 & P0 & E0 & _) & (X1 & P1 & E1 & _) & (X2 & P2 & E2 & _)). fold x in X0, P0, E0, X1, P1, E1, X2, P2, E2.
  destruct Rt as (R0 & R1 & R2). destruct GR as (_ & FB & W0 & W1 & W2 & B0 & B1 & B2 & _).
  assert (Q0 : Rabs (B2R (v0 x)) <= 1.001 * 0.96).
  { destruct W0 as (A0 & A1 & A2 & A3). destruct (row_le _ _ _ _ _ _ 0.96 (16 * u) 0 A0 A1 A2 ltac:(lra) R0 R1 R2) as [S0 S1]; cbn [v0 v1 v2] in *. rewrite Rabs_pos_eq by exact P0. apply (x_le _ _ _ E0); [apply S0|exact S1|lra]. }
  assert (Q1 : Rabs (B2R (v1 x)) <= 1.001 * 1.0001).
  { destruct W1 as (A0 & A1 & A2 & A3). destruct (row_le _ _ _ _ _ _ 1.0001 (16 * u) 0 A0 A1 A2 ltac:(lra) R0 R1 R2) as [S0 S1]; cbn [v0 v1 v2] in *. rewrite Rabs_pos_eq by exact P1. apply (x_le _ _ _ E1); [apply S0|exact S1|lra]. }
  assert (Q2 : Rabs (B2R (v2 x)) <= 1.001 * 1.1).
  { destruct W2 as (A0 & A1 & A2 & A3). destruct (row_le _ _ _ _ _ _ 1.1 (16 * u) 0 A0 A1 A2 ltac:(lra) R0 R1 R2) as [S0 S1]; cbn [v0 v1 v2] in *. rewrite Rabs_pos_eq by exact P2. apply (x_le _ _ _ E2); [apply S0|exact S1|lra]. }
  destruct FB as (F0 & F1 & F2 & F3 & F4 & F5 & F6 & F7 & F8).
  assert (Fx : allV fin x) by (repeat split; assumption).
  destruct (row_pertK _ _ _ x x' e0 e1 e2 K (conj F0 (conj F1 F2)) B0 Fx Fx' Q0 Q1 Q2 D0 D1 D2 L0 L1 L2 KB0) as [G0 T0].
  destruct (row_pertK _ _ _ x x' e0 e1 e2 K (conj F3 (conj F4 F5)) B1 Fx Fx' Q0 Q1 Q2 D0 D1 D2 L0 L1 L2 KB1) as [G1 T1].
  destruct (row_pertK _ _ _ x x' e0 e1 e2 K (conj F6 (conj F7 F8)) B2 Fx Fx' Q0 Q1 Q2 D0 D1 D2 L0 L1 L2 KB2) as [G2 T2].
  destruct B as (_ & H0 & H1 & H2). unfold G_fromXYZ_t in *. rewrite apply_rows in H0, H1, H2. rewrite apply_rows. change (Num.F N) with f32 in *. cbn [v0 v1 v2] in H0, H1, H2.
  assert (NB : 50 * u * norm3 (dec M k) + 128 * eta <= 50.1 * u).
  { assert (50 * u * norm3 (dec M k) <= 50 * u * (1 + 16 * u)) by (apply Rmult_le_compat_l; [rewrite U; lra|exact Nt]). rewrite U in *. lra. }
  assert (HB' : IZR M * (12.92 * (92.3 * u + K) + 225 * u) < / 2) by exact HB.
  apply (pixel_back lm Acc M k g _ (92.3 * u + K) HK HM); [repeat split; assumption| | | |exact HB]; cbn [v0 v1 v2]; fold (dec M k).
  - eapply Rle_trans; [exact (tri3 _ _ _ _ _ T0 H0)|]. lra.
  - eapply Rle_trans; [exact (tri3 _ _ _ _ _ T1 H1)|]. lra.
  - eapply Rle_trans; [exact (tri3 _ _ _ _ _ T2 H2)|]. lra.
Qed.
Lemma img_pert G M k g (x' : Vector3 f32) e0 e1 e2 K : In G (rgb_gamuts lm) -> codes_of M k -> (0 < M <= 2 ^ 15)%Z -> let x := G_toXYZ_t N G (dec M k) in
  allV fin x' -> Rabs (B2R (v0 x') - B2R (v0 x)) <= e0 -> Rabs (B2R (v1 x') - B2R (v1 x)) <= e1 -> Rabs (B2R (v2 x') - B2R (v2 x)) <= e2 ->
  e0 <= 0.0009 -> e1 <= 0.0009 -> e2 <= 0.0009 ->
  (forall b0 b1 b2, br b0 b1 b2 -> Rabs b0 * e0 + Rabs b1 * e1 + Rabs b2 * e2 <= K) -> IZR M * (12.92 * (92.3 * u + K) + 225 * u) < / 2 ->
  same_codes M k (toScreen N SRGB (G_fromXYZ_t N G x') g).
Proof.
  intros HG HK HM x Fx' D0 D1 D2 L0 L1 L2 KB HB. destruct (gok_ok lm G HG) as [_ (_ & _ & _ & _ & _ & B0 & B1 & B2 & _)].
  apply (img_pertK G M k g x' e0 e1 e2 K HG HK HM Fx' D0 D1 D2 L0 L1 L2); [|exact HB]. cbv zeta.
  split; [|split]; (eapply row_sum; [exact D0|exact D1|exact D2|apply KB; assumption]).
Qed.

(** Decoded codes exceed 1 by at most [4u]. *)
Lemma dec_le1 k M : (0 <= k <= M)%Z -> (0 < M <= 2 ^ 15)%Z -> B2R (sRGB_to_Y N (code lm k M)) <= 1 + 4 * u.
Proof.
  intros K HM. destruct (code_ok lm k M K ltac:(lia)) as (Fc & _ & Q & C & Ec). set (c := code lm k M) in *. pose proof u16 as U. pose proof b127_big as BB.
  destruct (srgb_dec_near lm Acc c Fc) as [Fd Hd]. destruct (l0 lm) as [F0 V0]. destruct (l1 lm) as [F1 V1]. destruct (sl_g lm) as [Fg Vg].
  destruct (Rlt_dec (B2R c) (B2R (@flit N 0.04045%dec))) as [L|L].
  - rewrite Vg in L. pose proof (s_dec_lo (B2R c) ltac:(lra)) as S. apply Rabs_le_inv in Hd. rewrite S in Hd. rewrite U in *. lra.
  - unfold sRGB_to_Y. rewrite !ltb_ok by assumption. rewrite V0, V1. rewrite (Rlt_bool_false _ 0), (Rlt_bool_false 1) by lra. rewrite Rlt_bool_false by lra.
    rewrite Vg in L.
    assert (E1 : fin (@fadd N (@flit N 1%dec) (@flit N 0.055%dec)) /\ B2R (@fadd N (@flit N 1%dec) (@flit N 0.055%dec)) = 8849981 / 8388608) by f32_val.
    assert (E2 : fin (@flit N 1.055%dec) /\ B2R (@flit N 1.055%dec) = 8849981 / 8388608) by f32_val.
    assert (E3 : fin (@flit N 0.055%dec) /\ 0 <= B2R (@flit N 0.055%dec) <= 1). { assert (X : fin (@flit N 0.055%dec) /\ B2R (@flit N 0.055%dec) = 14763950 / 268435456) by f32_val. destruct X as [X ->]. split; [exact X|lra]. }
    assert (E4 : fin (@flit N 2.4%dec) /\ B2R (@flit N 2.4%dec) = 10066330 / 4194304) by f32_val.
    destruct E1 as [G1 E1], E2 as [G2 E2], E3 as [G3 E3], E4 as [G4 E4].
    destruct (add_ok lm c _ Fc G3) as [Fa Va]; [apply Rabs_le; lra|].
    assert (A1 : B2R (@fadd N c (@flit N 0.055%dec)) <= 8849981 / 8388608).
    { rewrite Va, <- E1. destruct (add_ok lm (@flit N 1%dec) _ F1 G3) as [_ ->]; [rewrite V1; apply Rabs_le; lra|]. apply rnd_le. rewrite V1. lra. }
    assert (A0 : 0.04 <= B2R (@fadd N c (@flit N 0.055%dec))).
    { rewrite Va. apply Rle_trans with (rnd (B2R c)); [rewrite rnd_id by apply generic_format_B2R; lra|apply rnd_le; lra]. }
    assert (DV : 0.03 <= B2R (@fadd N c (@flit N 0.055%dec)) / (8849981 / 8388608) <= 1).
    { set (v := B2R (@fadd N c (@flit N 0.055%dec))) in *. clearbody v. replace (v / (8849981 / 8388608)) with (v * (8388608 / 8849981)) by field. lra. }
    destruct (div_ok lm _ _ Fa ltac:(apply Rgt_not_eq; rewrite E2; lra)) as [Fq Vq]; [rewrite E2; apply Rabs_le; lra|].
    set (q := @fdiv N _ _) in *. assert (Q1 : 0.01 <= B2R q <= 1).
    { rewrite Vq, E2. split; [|apply rnd_01; lra].
      apply Rle_trans with (rnd 0.03); [|apply rnd_le; lra].
      pose proof (rnd_err_abs 0.03) as R0. rewrite (Rabs_pos_eq 0.03) in R0 by lra. apply Rabs_le_inv in R0. pose proof eta16. rewrite U in *. lra. }
    assert (PB : 0.000001 <= Rpower (B2R q) (B2R (@flit N 2.4%dec)) <= 1).
    { rewrite E4. split; [|apply Rpower_le_1; lra]. apply Rle_trans with (Rpower 0.01 (INR 3)); [rewrite Rpower_nat by lra; simpl; lra|].
      apply Rle_trans with (Rpower 0.01 (10066330 / 4194304)); [|apply Rpower_le_l; lra]. unfold Rpower. assert (ln 0.01 < 0) by (rewrite <- ln_1; apply ln_increasing; lra).
      replace (INR 3) with 3 by (rewrite INR_IZR_INZ; reflexivity). apply Rlt_le, exp_increasing. nra. }
    destruct (acc_pow lm Acc q _ Fq G4 ltac:(lra)) as [_ Ep].
    { rewrite Rabs_pos_eq by (apply Rle_trans with 0.000001; [lra|exact (proj1 PB)]). split; [|apply Rle_trans with 1; [exact (proj2 PB)|lra]].
      apply Rle_trans with 0.000001; [|exact (proj1 PB)]. apply Rle_trans with (bpow radix2 (-30)); [apply bpow_le; lia|change (bpow radix2 (-30)) with (/ 1073741824); lra]. }
    apply Rabs_le_inv in Ep. destruct Ep as [_ Ep]. change (@fpow N q (@flit N 2.4%dec)) with (lm_powf lm q (@flit N 2.4%dec)).
    rewrite (Rabs_pos_eq (Rpower _ _)) in Ep by (apply Rle_trans with 0.000001; [lra|exact (proj1 PB)]).
    assert (4 * u * Rpower (B2R q) (B2R (@flit N 2.4%dec)) <= 4 * u * 1) by (apply Rmult_le_compat_l; [rewrite U; lra|exact (proj2 PB)]).
    pose proof (proj2 PB) as P2. cbv beta in *. change (Num.F N) with f32 in *. lra.
Qed.
Definition white_of (G : Gamut f32) : Vector3 f32 := G_toXYZ_t N G (V3 (@flit N 1.0%dec) (@flit N 1.0%dec) (@flit N 1.0%dec)).
Lemma one_component (x w r r1 W : R) : Rabs (w - r1) <= 4 * u * r1 + 4 * eta -> 0.5 <= r1 <= W -> 0 <= r <= r1 * (1 + 4 * u) -> Rabs (x - r) <= 4 * u * r + 4 * eta -> W <= 2 ->
  0.4 <= w <= W * 1.0001 /\ forall y, Rabs (y - Rmin x w) <= 83 * u * w -> Rabs (y - x) <= 96 * u * W.
Proof.
  intros Hw H1 Hr Hx HW. pose proof u16 as U. pose proof eta16 as Et. apply Rabs_le_inv in Hw. apply Rabs_le_inv in Hx.
  split; [rewrite U in *; lra|]. intros y Hy. apply Rabs_le_inv in Hy. apply Rabs_le. unfold Rmin in Hy. destruct (Rle_dec x w); rewrite U in *; lra.
Qed.

Lemma white_rows G : gokR G -> let w := white_of G in let a := g_toXYZ G in allV fin w /\
  Rabs (B2R (v0 w) - (B2R (m0 a) + B2R (m1 a) + B2R (m2 a))) <= 4 * u * (B2R (m0 a) + B2R (m1 a) + B2R (m2 a)) + 4 * eta /\
  Rabs (B2R (v1 w) - (B2R (m3 a) + B2R (m4 a) + B2R (m5 a))) <= 4 * u * (B2R (m3 a) + B2R (m4 a) + B2R (m5 a)) + 4 * eta /\
  Rabs (B2R (v2 w) - (B2R (m6 a) + B2R (m7 a) + B2R (m8 a))) <= 4 * u * (B2R (m6 a) + B2R (m7 a) + B2R (m8 a)) + 4 * eta.
Proof.
  intros GR. cbv zeta. destruct (l1 lm) as [F1 V1]. pose proof u16 as U. assert (E1 : fin (@flit N 1.0%dec) /\ B2R (@flit N 1.0%dec) = 1) by f32_val. destruct E1 as [G1 E1].
  destruct (xyz_rows G (V3 (@flit N 1.0%dec) (@flit N 1.0%dec) (@flit N 1.0%dec)) GR) as ((X0 & _ & E0 & _) & (X1 & _ & E2 & _) & (X2 & _ & E3 & _)).
  { repeat split; assumption. } { repeat split; cbn [v0 v1 v2]; rewrite E1, ?U; lra. }
  fold (white_of G) in X0, E0, X1, E2, X2, E3. cbn [v0 v1 v2] in E0, E2, E3. rewrite E1, !Rmult_1_r in E0, E2, E3.
  split; [repeat split; assumption|]. split; [exact E0|]. split; [exact E2|exact E3].
Qed.
Lemma img_lab G M k g g' : In G (rgb_gamuts lm) -> codes_of M k -> (0 < M <= 1050)%Z ->
  same_codes M k (toScreen N SRGB (G_fromXYZ_t N G (fromCIELAB N (toCIELAB N (G_toXYZ_t N G (toScene N SRGB (pixel lm M k) g)) (white_of G)) (white_of G))) g').
Proof.
  intros HG HK HM. change (toScene N SRGB (pixel lm M k) g) with (dec M k). destruct (gok_ok lm G HG) as [_ GR]. pose proof u16 as U. pose proof eta16 as Et.
  destruct (pixel_dec lm Acc M k HK ltac:(lia)) as (Ft & Rt & _). fold (dec M k) in Ft, Rt.
  destruct (xyz_rows G _ GR Ft Rt) as ((X0 & P0 & E0 & _) & (X1 & P1 & E1 & _) & (X2 & P2 & E2 & _)).
  destruct (white_rows G GR) as (Fw & H0 & H1 & H2).
  pose proof (img_pert G M k g' (fromCIELAB N (toCIELAB N (G_toXYZ_t N G (dec M k)) (white_of G)) (white_of G)) (96 * u * 0.96) (96 * u * 1.0001) (96 * u * 1.1) (504.01 * u) HG HK ltac:(lia)) as Goal0.
  set (x := G_toXYZ_t N G (dec M k)) in *. set (w := white_of G) in *.
  assert (T0 : 0 <= B2R (v0 (dec M k)) <= 1 + 4 * u) by (split; [apply Rt|apply dec_le1; [apply HK|lia]]).
  assert (T1 : 0 <= B2R (v1 (dec M k)) <= 1 + 4 * u) by (split; [apply Rt|apply dec_le1; [apply HK|lia]]).
  assert (T2 : 0 <= B2R (v2 (dec M k)) <= 1 + 4 * u) by (split; [apply Rt|apply dec_le1; [apply HK|lia]]).
  destruct GR as (_ & _ & (A0 & A1 & A2 & A3) & (B0 & B1 & B2 & B3) & (C0 & C1 & C2 & C3) & _).
  destruct (row_le _ _ _ _ _ _ 0.96 (4 * u) 0 A0 A1 A2 (proj2 A3) T0 T1 T2) as [S0 _]. destruct (row_le _ _ _ _ _ _ 1.0001 (4 * u) 0 B0 B1 B2 (proj2 B3) T0 T1 T2) as [S1 _].
  destruct (row_le _ _ _ _ _ _ 1.1 (4 * u) 0 C0 C1 C2 (proj2 C3) T0 T1 T2) as [S2 _].
  destruct (one_component _ _ _ _ 0.96 H0 A3 S0 E0 ltac:(lra)) as [W0 Y0]. destruct (one_component _ _ _ _ 1.0001 H1 B3 S1 E1 ltac:(lra)) as [W1 Y1].
  destruct (one_component _ _ _ _ 1.1 H2 C3 S2 E2 ltac:(lra)) as [W2 Y2].
  assert (B20 : bpow radix2 20 = 1048576) by reflexivity. assert (B20' : bpow radix2 (-20) = / 1048576) by reflexivity.
  assert (B100 : 1048576 <= bpow radix2 100) by (rewrite <- B20; apply bpow_le; lia).
  assert (ST : allV stim_ok x).
  { destruct Rt as (R0 & R1 & R2).
    destruct (row_le _ _ _ _ _ _ 0.96 (16 * u) 0 A0 A1 A2 (proj2 A3) R0 R1 R2) as [Z0 Z0']. destruct (row_le _ _ _ _ _ _ 1.0001 (16 * u) 0 B0 B1 B2 (proj2 B3) R0 R1 R2) as [Z1 Z1'].
    destruct (row_le _ _ _ _ _ _ 1.1 (16 * u) 0 C0 C1 C2 (proj2 C3) R0 R1 R2) as [Z2 Z2'].
    assert (U0 := x_le _ _ 0.96 E0 (proj1 Z0) Z0' ltac:(lra)). assert (U1 := x_le _ _ 1.0001 E1 (proj1 Z1) Z1' ltac:(lra)). assert (U2 := x_le _ _ 1.1 E2 (proj1 Z2) Z2' ltac:(lra)).
    repeat split; try assumption; (eapply Rle_trans; [eassumption|]); lra. }
  assert (WH : allV white_ok w) by (repeat split; try apply Fw; rewrite ?B20, ?B20'; eapply Rle_trans; try (apply W0 || apply W1 || apply W2); try lra; try (apply W0 || apply W1 || apply W2); lra).
  destruct (lab_rt_near lm Acc x w ST WH) as ([L0 M0] & [L1 M1] & [L2 M2]).
  apply Goal0; clear Goal0.
  - repeat split; assumption.
  - apply Y0, M0.
  - apply Y1, M1.
  - apply Y2, M2.
  - rewrite U. lra.
  - rewrite U. lra.
  - rewrite U. lra.
  - intros b0 b1 b2 (Q1 & _). pose proof (Rabs_pos b0). pose proof (Rabs_pos b1). pose proof (Rabs_pos b2). rewrite U. lra.
  - assert (0 < IZR M) by (apply IZR_lt; lia). assert (IZR M <= 1050) by (apply IZR_le; lia).
    apply Rle_lt_trans with (1050 * (7930 * u)); [apply Rmult_le_compat; rewrite ?U; lra|rewrite U; lra].
Qed.

(** Decoding code 0 gives 0, any other code at least 1e-5. *)
Lemma dec_0 M : (0 < M <= 2 ^ 15)%Z -> B2R (sRGB_to_Y N (code lm 0 M)) = 0.
Proof.
  intros HM. destruct (code_ok lm 0 M ltac:(lia) ltac:(lia)) as (Fc & V & _). set (c := code lm 0 M) in *. assert (C0 : B2R c = 0) by (rewrite V; unfold Rdiv; rewrite Rmult_0_l; apply rnd_0).
  destruct (l0 lm) as [F0 V0]. destruct (l1 lm) as [F1 V1]. destruct (sl_g lm) as [Fg Vg]. destruct (sl_b lm) as [Fb Vb]. pose proof b127_big.
  unfold sRGB_to_Y. rewrite !ltb_ok by assumption. rewrite V0, V1, Vg, C0. rewrite (Rlt_bool_false 0 0), (Rlt_bool_false 1), Rlt_bool_true by lra.
  destruct (div_ok lm c _ Fc ltac:(apply Rgt_not_eq; rewrite Vb; lra)) as [_ ->]; rewrite C0; unfold Rdiv; rewrite Rmult_0_l; [rewrite Rabs_R0; lra|apply rnd_0].
Qed.
Lemma dec_ge k M : (0 < k <= M)%Z -> (M <= 4300)%Z -> 0.00001 <= B2R (sRGB_to_Y N (code lm k M)).
Proof.
  intros K HM. destruct (code_ok lm k M ltac:(lia) ltac:(lia)) as (Fc & _ & Q & C & Ec). set (c := code lm k M) in *. pose proof u16 as U.
  destruct (srgb_dec_near lm Acc c Fc) as [Fd Hd]. assert (M0 : 0 < IZR M <= 4300) by (split; [apply IZR_lt|apply IZR_le]; lia). assert (K1 : 1 <= IZR k) by (apply IZR_le; lia).
  assert (Q1 : 0.00023 <= IZR k / IZR M). { apply Rmult_le_reg_r with (IZR M); [lra|]. unfold Rdiv. rewrite Rmult_assoc, Rinv_l by lra. lra. }
  assert (S : s_dec 0.0002 <= s_dec (B2R c)) by (apply s_dec_mono; apply Rabs_le_inv in Ec; rewrite U in *; lra). rewrite s_dec_lo in S by lra.
  apply Rabs_le_inv in Hd. rewrite U in *. lra.
Qed.
Lemma yxy_black (X Y Z : f32) : fin X -> fin Y -> fin Z -> B2R X = 0 -> B2R Y = 0 -> B2R Z = 0 -> let r := fromYxy N (toYxy N (V3 X Y Z)) in
  allV fin r /\ B2R (v0 r) = 0 /\ B2R (v1 r) = 0 /\ B2R (v2 r) = 0.
Proof.
  intros FX FY FZ X0 Y0 Z0. cbv zeta. pose proof b127_big as BB.
  destruct (add_ok lm X Y FX FY) as [Fa Va]; [rewrite X0, Y0, Rplus_0_r, Rabs_R0; lra|]. rewrite X0, Y0, Rplus_0_r, rnd_0 in Va.
  destruct (add_ok lm _ Z Fa FZ) as [Fs Vs]; [rewrite Va, Z0, Rplus_0_r, Rabs_R0; lra|]. rewrite Va, Z0, Rplus_0_r, rnd_0 in Vs.
  destruct (absf_ok lm _ Fs) as [Fb Vb]. rewrite Vs, Rabs_R0 in Vb. destruct (l1e8 lm) as [F8 V8].
  assert (G : @fltb N (abs_f N (@fadd N (@fadd N X Y) Z)) (@flit N 1e-8%dec) = true) by (rewrite (ltb_ok lm _ _ Fb F8), Vb; apply Rlt_bool_true; lra).
  assert (Ex : fin (@flit N 0.3127%dec) /\ B2R (@flit N 0.3127%dec) = 10492471 / 33554432) by f32_val.
  assert (Ey : fin (@flit N 0.3290%dec) /\ B2R (@flit N 0.3290%dec) = 11039408 / 33554432) by f32_val.
  destruct Ex as [Fx Vx], Ey as [Fy Vy].
  assert (G2 : @fltb N (abs_f N (@flit N 0.3290%dec)) (@flit N 1e-8%dec) = false) by (apply guard_ok; [exact Fy|rewrite Vy; lra]).
  assert (E : fromYxy N (toYxy N (V3 X Y Z)) = V3 (@fdiv N (@fmul N (@flit N 0.3127%dec) Y) (@flit N 0.3290%dec)) Y
      (@fdiv N (@fmul N (z_from_xy N (@flit N 0.3127%dec) (@flit N 0.3290%dec)) Y) (@flit N 0.3290%dec))).
  { unfold toYxy, toYxy3, fromYxy, fromYxy3, X_from_Yxy, Z_from_Yxy, Y_from_Yxy, Y_from_XYZ, x_from_XYZ, y_from_XYZ, vref. cbn [v0 v1 v2]. change (@v0 f32) with (@v0 (Num.F N)). cbn [v0 v1 v2]. rewrite G. rewrite G2. reflexivity. }
  rewrite E. cbn [v0 v1 v2]. assert (T : forall c : f32, fin c -> let y := @fdiv N (@fmul N c Y) (@flit N 0.3290%dec) in fin y /\ B2R y = 0).
  { intros c Fc. destruct (mul_ok lm c Y Fc FY) as [Fm Vm]; [rewrite Y0, Rmult_0_r, Rabs_R0; lra|]. rewrite Y0, Rmult_0_r, rnd_0 in Vm.
    destruct (div_ok lm _ (@flit N 0.3290%dec) Fm ltac:(apply Rgt_not_eq; rewrite Vy; lra)) as [Fd Vd]; [rewrite Vm; unfold Rdiv; rewrite Rmult_0_l, Rabs_R0; lra|].
    split; [exact Fd|]. rewrite Vd, Vm. unfold Rdiv. rewrite Rmult_0_l. apply rnd_0. }
  assert (Fz : fin (z_from_xy N (@flit N 0.3127%dec) (@flit N 0.3290%dec))).
  { assert (Z1 : fin (z_from_xy N (@flit N 0.3127%dec) (@flit N 0.3290%dec)) /\ B2R (z_from_xy N (@flit N 0.3127%dec) (@flit N 0.3290%dec)) = 12022552 / 33554432) by f32_val. apply Z1. }
  destruct (T _ Fx) as [A1 A2]. destruct (T _ Fz) as [B1 B2]. repeat split; assumption.
Qed.

Lemma yxy_sum (X Y Z r0 r1 r2 : R) : Rabs (X - r0) <= 4 * u * r0 + 4 * eta -> Rabs (Y - r1) <= 4 * u * r1 + 4 * eta -> Rabs (Z - r2) <= 4 * u * r2 + 4 * eta ->
  0 <= r0 -> 0 <= r2 -> 0.000005 <= r0 + r1 + r2 -> r0 + r1 + r2 <= 100 * r1 -> 2e-8 <= X + Y + Z /\ 2e-8 * (X + Y + Z) <= Y.
Proof.
  intros A B C R0 R2 S T. pose proof u16 as U. pose proof eta16 as Et. apply Rabs_le_inv in A. apply Rabs_le_inv in B. apply Rabs_le_inv in C. rewrite U in *. lra.
Qed.
Lemma three (a b c d e f g h i t0 t1 t2 : R) : yc a d g -> yc b e h -> yc c f i -> 0 <= t0 -> 0 <= t1 -> 0 <= t2 -> 0.00001 <= t0 \/ 0.00001 <= t1 \/ 0.00001 <= t2 ->
  let r0 := a * t0 + b * t1 + c * t2 in let r1 := d * t0 + e * t1 + f * t2 in let r2 := g * t0 + h * t1 + i * t2 in
  0.000005 <= r0 + r1 + r2 /\ r0 + r1 + r2 <= 100 * r1.
Proof.
  intros [A A'] [B B'] [C C'] T0 T1 T2 H. cbv zeta.
  pose proof (Rmult_le_compat_r t0 _ _ T0 A). pose proof (Rmult_le_compat_r t0 _ _ T0 A'). pose proof (Rmult_le_compat_r t1 _ _ T1 B). pose proof (Rmult_le_compat_r t1 _ _ T1 B').
  pose proof (Rmult_le_compat_r t2 _ _ T2 C). pose proof (Rmult_le_compat_r t2 _ _ T2 C'). lra.
Qed.
Lemma zz a b e : a = 0 -> b = 0 -> 0 <= e -> Rabs (a - b) <= e.
Proof. intros -> -> H. rewrite Rminus_0_r, Rabs_R0. exact H. Qed.
Lemma sum3 a b c : a <= 1.001 * 0.96 -> b <= 1.001 * 1.0001 -> c <= 1.001 * 1.1 -> a + b + c <= 3.0632.
Proof. lra. Qed.
Lemma sum3p a b c : 0 <= a -> 0 <= b -> 0 <= c -> 0 <= a + b + c.
Proof. lra. Qed.
Lemma yx_fin0 d r tw s : Rabs d <= 4.1 * u * r + tw * s -> tw * s <= 0.0001 * u * 3.0632 -> r <= 1.001 * 0.96 -> Rabs d <= 4.2 * u.
Proof. intros. pose proof u16 as U. rewrite U in *. lra. Qed.
Lemma yx_fin2 d s : Rabs d <= 10 * u * s -> s <= 3.0632 -> Rabs d <= 31 * u.
Proof. intros. pose proof u16 as U. rewrite U in *. lra. Qed.
Lemma yxy_black_v (x : Vector3 f32) : fin (v0 x) -> fin (v1 x) -> fin (v2 x) -> B2R (v0 x) = 0 -> B2R (v1 x) = 0 -> B2R (v2 x) = 0 -> let r := fromYxy N (toYxy N x) in
  allV fin r /\ B2R (v0 r) = 0 /\ B2R (v1 r) = 0 /\ B2R (v2 r) = 0.
Proof. destruct x as [a b c]. apply yxy_black. Qed.
Lemma yxy_rt_v (x : Vector3 f32) : fin (v0 x) -> fin (v1 x) -> fin (v2 x) -> 0 <= B2R (v0 x) -> 0 <= B2R (v1 x) -> 0 <= B2R (v2 x) ->
  let S := B2R (v0 x) + B2R (v1 x) + B2R (v2 x) in 2e-8 <= S <= bpow radix2 100 -> 2e-8 * S <= B2R (v1 x) ->
  exists X' Z' : f32, fromYxy N (toYxy N x) = V3 X' (v1 x) Z' /\ fin X' /\ fin Z' /\
    Rabs (B2R X' - B2R (v0 x)) <= 4.1 * u * B2R (v0 x) + / IZR (2 ^ 70) * S /\ Rabs (B2R Z' - B2R (v2 x)) <= 10 * u * S.
Proof. destruct x as [a b c]. apply yxy_rt_F. Qed.
Lemma img_yxy G M k g g' : In G (rgb_gamuts lm) -> codes_of M k -> (0 < M <= 4300)%Z ->
  same_codes M k (toScreen N SRGB (G_fromXYZ_t N G (fromYxy N (toYxy N (G_toXYZ_t N G (toScene N SRGB (pixel lm M k) g))))) g').
Proof.
  intros HG HK HM. change (toScene N SRGB (pixel lm M k) g) with (dec M k). destruct (gok_ok lm G HG) as [_ GR]. pose proof u16 as U. pose proof eta16 as Et.
  destruct (pixel_dec lm Acc M k HK ltac:(lia)) as (Ft & Rt & _). fold (dec M k) in Ft, Rt.
  destruct (xyz_rows G _ GR Ft Rt) as ((X0 & P0 & E0 & Z0) & (X1 & P1 & E1 & Z1) & (X2 & P2 & E2 & Z2)).
  pose proof (fun x' => img_pert G M k g' x' (4.2 * u) 0 (31 * u) (40 * u) HG HK ltac:(lia)) as Goal0.
  set (x := G_toXYZ_t N G (dec M k)) in *.
  assert (MB : IZR M * (12.92 * (92.3 * u + 40 * u) + 225 * u) < / 2).
  { assert (0 < IZR M) by (apply IZR_lt; lia). assert (IZR M <= 4300) by (apply IZR_le; lia).
    apply Rle_lt_trans with (4300 * (1935 * u)); [apply Rmult_le_compat; rewrite ?U; lra|rewrite U; lra]. }
  assert (KB : forall b0 b1 b2 : R, br b0 b1 b2 -> Rabs b0 * (4.2 * u) + Rabs b1 * 0 + Rabs b2 * (31 * u) <= 40 * u) by (intros b0 b1 b2 (_ & Q & _); rewrite U; lra).
  destruct GR as (_ & _ & (A0 & A1 & A2 & A3) & (B0 & B1 & B2 & B3) & (C0 & C1 & C2 & C3) & _ & _ & _ & Y0 & Y1 & Y2).
  destruct Rt as (R0 & R1 & R2).
  destruct (row_le _ _ _ _ _ _ 0.96 (16 * u) 0 A0 A1 A2 (proj2 A3) R0 R1 R2) as [S0 S0']. destruct (row_le _ _ _ _ _ _ 1.0001 (16 * u) 0 B0 B1 B2 (proj2 B3) R0 R1 R2) as [S1 S1'].
  destruct (row_le _ _ _ _ _ _ 1.1 (16 * u) 0 C0 C1 C2 (proj2 C3) R0 R1 R2) as [S2 S2'].
  assert (U0 := x_le _ _ 0.96 E0 (proj1 S0) S0' ltac:(lra)). assert (U1 := x_le _ _ 1.0001 E1 (proj1 S1) S1' ltac:(lra)). assert (U2 := x_le _ _ 1.1 E2 (proj1 S2) S2' ltac:(lra)).
  destruct (Z.eq_dec (v0 k) 0) as [K0|K0]; [destruct (Z.eq_dec (v1 k) 0) as [K1|K1]; [destruct (Z.eq_dec (v2 k) 0) as [K2|K2]|]|].
  1: { assert (D0 : B2R (v0 (dec M k)) = 0) by (unfold dec; cbn [toScene v0 v1 v2 vref pixel]; rewrite K0; apply dec_0; lia).
    assert (D1 : B2R (v1 (dec M k)) = 0) by (unfold dec; cbn [toScene v0 v1 v2 vref pixel]; rewrite K1; apply dec_0; lia).
    assert (D2 : B2R (v2 (dec M k)) = 0) by (unfold dec; cbn [toScene v0 v1 v2 vref pixel]; rewrite K2; apply dec_0; lia).
    specialize (Z0 ltac:(rewrite D0, D1, D2; ring)). specialize (Z1 ltac:(rewrite D0, D1, D2; ring)). specialize (Z2 ltac:(rewrite D0, D1, D2; ring)).
    destruct (yxy_black_v x X0 X1 X2 Z0 Z1 Z2) as (FF & V0 & V1 & V2).
    apply Goal0; [exact FF|apply (zz _ _ _ V0 Z0); rewrite ?U; lra|apply (zz _ _ _ V1 Z1); rewrite ?U; lra|apply (zz _ _ _ V2 Z2); rewrite ?U; lra|rewrite ?U; lra|rewrite ?U; lra|rewrite ?U; lra|exact KB|exact MB]. }
  all: assert (T : 0.00001 <= B2R (v0 (dec M k)) \/ 0.00001 <= B2R (v1 (dec M k)) \/ 0.00001 <= B2R (v2 (dec M k)))
    by (destruct HK as (HK0 & HK1 & HK2); first [left; apply dec_ge; lia|right; left; apply dec_ge; lia|right; right; apply dec_ge; lia]).
  all: destruct (three _ _ _ _ _ _ _ _ _ _ _ _ Y0 Y1 Y2 (proj1 R0) (proj1 R1) (proj1 R2) T) as [L1 L2];
    destruct (yxy_sum _ _ _ _ _ _ E0 E1 E2 (proj1 S0) (proj1 S2) L1 L2) as [L3 L4].
  all: assert (B100 : 3.0632 <= bpow radix2 100) by (apply Rle_trans with (bpow radix2 7); [change (bpow radix2 7) with 128; lra|apply bpow_le; lia]).
  all: assert (SB := sum3 _ _ _ U0 U1 U2); assert (SP := sum3p _ _ _ P0 P1 P2).
  all: destruct (yxy_rt_v x X0 X1 X2 P0 P1 P2 (conj L3 (Rle_trans _ _ _ SB B100)) L4) as (X' & Z' & EQ & FX & FZ & EX' & EZ'); rewrite EQ.
  all: assert (T70 : 0 < / IZR (2 ^ 70) <= 0.0001 * u) by (rewrite U; split; [apply Rinv_0_lt_compat, IZR_lt; reflexivity|]; apply Rle_trans with (/ IZR (2 ^ 60)); [apply Rinv_le_contravar; [apply IZR_lt; reflexivity|apply IZR_le; vm_compute; discriminate]|change (IZR (2 ^ 60)) with 1152921504606846976; lra]).
  all: assert (T71 := Rmult_le_compat _ _ _ _ (Rlt_le _ _ (proj1 T70)) SP (proj2 T70) SB).
  all: apply Goal0; cbn [v0 v1 v2];
    [repeat split; assumption|exact (yx_fin0 _ _ _ _ EX' T71 U0)|rewrite Rminus_diag_eq, Rabs_R0 by reflexivity; lra|exact (yx_fin2 _ _ EZ' SB)
    |rewrite ?U; lra|rewrite ?U; lra|rewrite ?U; lra|exact KB|exact MB].
Qed.
(** ** CIE 1960 u, v *)
Lemma fromYxy_dark (Y x y : f32) : fin Y -> fin x -> fin y -> B2R Y = 0 -> Rabs (B2R x) <= 2 -> 0.1 <= B2R y <= 2 ->
  let r := fromYxy N (V3 Y x y) in allV fin r /\ B2R (v0 r) = 0 /\ B2R (v1 r) = 0 /\ B2R (v2 r) = 0.
Proof.
  intros FY Fx Fy Y0 Hx Hy. cbv zeta. pose proof b127_big as BB. apply Rabs_le_inv in Hx.
  assert (G2 : @fltb N (abs_f N y) (@flit N 1e-8%dec) = false) by (apply guard_ok; [exact Fy|lra]).
  assert (E : fromYxy N (V3 Y x y) = V3 (@fdiv N (@fmul N x Y) y) Y (@fdiv N (@fmul N (z_from_xy N x y) Y) y)).
  { unfold fromYxy, fromYxy3, X_from_Yxy, Z_from_Yxy, Y_from_Yxy, vref. cbn [v0 v1 v2]. change (@v0 f32) with (@v0 (Num.F N)). cbn [v0 v1 v2]. rewrite G2. reflexivity. }
  rewrite E. cbn [v0 v1 v2]. assert (T : forall c : f32, fin c -> let d := @fdiv N (@fmul N c Y) y in fin d /\ B2R d = 0).
  { intros c Fc. destruct (mul_ok lm c Y Fc FY) as [Fm Vm]; [rewrite Y0, Rmult_0_r, Rabs_R0; lra|]. rewrite Y0, Rmult_0_r, rnd_0 in Vm.
    destruct (div_ok lm _ y Fm ltac:(apply Rgt_not_eq; lra)) as [Fd Vd]; [rewrite Vm; unfold Rdiv; rewrite Rmult_0_l, Rabs_R0; lra|].
    split; [exact Fd|]. rewrite Vd, Vm. unfold Rdiv. rewrite Rmult_0_l. apply rnd_0. }
  assert (Fz : fin (z_from_xy N x y)).
  { unfold z_from_xy. assert (F1 : fin (@fofZ N 1%Z) /\ B2R (@fofZ N 1%Z) = 1) by f32_val. destruct F1 as [F1 V1].
    destruct (sub_ok lm _ x F1 Fx) as [Fa Va]; [apply Rabs_le; lra|].
    assert (Ra : -1 <= B2R (@fsub N (@fofZ N 1%Z) x) <= 3).
    { rewrite Va, V1. split; [apply rnd_ge_fmt; [|lra]|apply rnd_le_fmt; [|lra]]; [replace (-1) with (B2R (@flit N (-1)%dec))|replace 3 with (B2R (@flit N 3%dec))]; try apply generic_format_B2R;
        [assert (E1 : fin (@flit N (-1)%dec) /\ B2R (@flit N (-1)%dec) = -1) by f32_val|assert (E1 : fin (@flit N 3%dec) /\ B2R (@flit N 3%dec) = 3) by f32_val]; apply E1. }
    destruct (sub_ok lm _ y Fa Fy) as [Fb _]; [apply Rabs_le; lra|exact Fb]. }
  destruct (T _ Fx) as [A1 A2]. destruct (T _ Fz) as [B1 B2]. repeat split; assumption.
Qed.
Lemma toYxy_dark (X Y Z : f32) : fin X -> fin Y -> fin Z -> B2R X = 0 -> B2R Y = 0 -> B2R Z = 0 -> toYxy N (V3 X Y Z) = V3 Y (@flit N 0.3127%dec) (@flit N 0.3290%dec).
Proof.
  intros FX FY FZ X0 Y0 Z0. pose proof b127_big as BB.
  destruct (add_ok lm X Y FX FY) as [Fa Va]; [rewrite X0, Y0, Rplus_0_r, Rabs_R0; lra|]. rewrite X0, Y0, Rplus_0_r, rnd_0 in Va.
  destruct (add_ok lm _ Z Fa FZ) as [Fs Vs]; [rewrite Va, Z0, Rplus_0_r, Rabs_R0; lra|]. rewrite Va, Z0, Rplus_0_r, rnd_0 in Vs.
  destruct (absf_ok lm _ Fs) as [Fb Vb]. rewrite Vs, Rabs_R0 in Vb. destruct (l1e8 lm) as [F8 V8].
  assert (G : @fltb N (abs_f N (@fadd N (@fadd N X Y) Z)) (@flit N 1e-8%dec) = true) by (rewrite (ltb_ok lm _ _ Fb F8), Vb; apply Rlt_bool_true; lra).
  unfold toYxy, toYxy3, Y_from_XYZ, x_from_XYZ, y_from_XYZ, vref. cbn [v0 v1 v2]. change (@v0 f32) with (@v0 (Num.F N)). cbn [v0 v1 v2]. rewrite G. reflexivity.
Qed.
Lemma yuv_black_v (x : Vector3 f32) : fin (v0 x) -> fin (v1 x) -> fin (v2 x) -> B2R (v0 x) = 0 -> B2R (v1 x) = 0 -> B2R (v2 x) = 0 -> let r := fromYuv N (toYuv N x) in
  allV fin r /\ B2R (v0 r) = 0 /\ B2R (v1 r) = 0 /\ B2R (v2 r) = 0.
Proof.
  destruct x as [X Y Z]. cbn [v0 v1 v2]. intros FX FY FZ X0 Y0 Z0. cbv zeta. unfold toYuv, fromYuv. rewrite (toYxy_dark X Y Z FX FY FZ X0 Y0 Z0).
  assert (Ex : fin (@flit N 0.3127%dec) /\ B2R (@flit N 0.3127%dec) = 10492471 / 33554432) by f32_val.
  assert (Ey : fin (@flit N 0.3290%dec) /\ B2R (@flit N 0.3290%dec) = 11039408 / 33554432) by f32_val.
  destruct Ex as [Fx Vx], Ey as [Fy Vy]. pose proof u16 as U.
  destruct (yxy_yuv lm Y _ _ Fx Fy) as (x' & y' & E & Fx' & Fy' & A & B); [rewrite Vx; lra|rewrite Vy; lra|rewrite Vx, Vy; lra|].
  rewrite E. rewrite Vx in A. rewrite Vy in B. apply Rabs_le_inv in A, B. rewrite U in A, B.
  apply (fromYxy_dark Y x' y' FY Fx' Fy' Y0); [apply Rabs_le; lra|lra].
Qed.
Lemma yuv_rt_v (x : Vector3 f32) : fin (v0 x) -> fin (v1 x) -> fin (v2 x) -> 0 <= B2R (v0 x) -> 0 <= B2R (v1 x) -> 0 <= B2R (v2 x) ->
  let S := B2R (v0 x) + B2R (v1 x) + B2R (v2 x) in 1e-6 <= S <= 1e6 -> 1e-6 * S <= B2R (v1 x) ->
  exists X' Z' : f32, fromYuv N (toYuv N x) = V3 X' (v1 x) Z' /\ fin X' /\ fin Z' /\
    Rabs (B2R X' - B2R (v0 x)) <= 106 * u * B2R (v0 x) + 1e-30 /\ Rabs (B2R Z' - B2R (v2 x)) <= 110 * u * S.
Proof. destruct x as [a b c]. apply yuv_round. Qed.
Lemma yuv_sum (X Y Z r0 r1 r2 : R) : Rabs (X - r0) <= 4 * u * r0 + 4 * eta -> Rabs (Y - r1) <= 4 * u * r1 + 4 * eta -> Rabs (Z - r2) <= 4 * u * r2 + 4 * eta ->
  0 <= r0 -> 0 <= r2 -> 0.000005 <= r0 + r1 + r2 -> r0 + r1 + r2 <= 100 * r1 -> 1e-6 <= X + Y + Z /\ 1e-6 * (X + Y + Z) <= Y.
Proof.
  intros A B C. pose proof u16 as U. pose proof eta16 as Et. apply Rabs_le_inv in A, B, C. rewrite U in *. lra.
Qed.
Lemma yu_fin0 d r : Rabs d <= 106 * u * r + 1e-30 -> r <= 1.001 * 0.96 -> Rabs d <= 102.5 * u.
Proof. intros. pose proof u16 as U. rewrite U in *. lra. Qed.
Lemma yu_fin2 d s : Rabs d <= 110 * u * s -> s <= 3.0632 -> Rabs d <= 337.5 * u.
Proof. intros. pose proof u16 as U. rewrite U in *. lra. Qed.
Lemma img_yuv G M k g g' : In G (rgb_gamuts lm) -> codes_of M k -> (0 < M <= 1040)%Z ->
  same_codes M k (toScreen N SRGB (G_fromXYZ_t N G (fromYuv N (toYuv N (G_toXYZ_t N G (toScene N SRGB (pixel lm M k) g))))) g').
Proof.
  intros HG HK HM. change (toScene N SRGB (pixel lm M k) g) with (dec M k). destruct (gok_ok lm G HG) as [_ GR]. pose proof u16 as U. pose proof eta16 as Et.
  destruct (pixel_dec lm Acc M k HK ltac:(lia)) as (Ft & Rt & _). fold (dec M k) in Ft, Rt.
  destruct (xyz_rows G _ GR Ft Rt) as ((X0 & P0 & E0 & Z0) & (X1 & P1 & E1 & Z1) & (X2 & P2 & E2 & Z2)).
  pose proof (fun x' => img_pert G M k g' x' (102.5 * u) 0 (337.5 * u) (510 * u) HG HK ltac:(lia)) as Goal0.
  set (x := G_toXYZ_t N G (dec M k)) in *.
  assert (MB : IZR M * (12.92 * (92.3 * u + 510 * u) + 225 * u) < / 2).
  { assert (0 < IZR M) by (apply IZR_lt; lia). assert (IZR M <= 1040) by (apply IZR_le; lia).
    apply Rle_lt_trans with (1040 * (8010 * u)); [apply Rmult_le_compat; rewrite ?U; lra|rewrite U; lra]. }
  assert (KB : forall b0 b1 b2 : R, br b0 b1 b2 -> Rabs b0 * (102.5 * u) + Rabs b1 * 0 + Rabs b2 * (337.5 * u) <= 510 * u) by (intros b0 b1 b2 (_ & _ & _ & Q); pose proof (Rabs_pos b0); pose proof (Rabs_pos b2); rewrite U; lra).
  destruct GR as (_ & _ & (A0 & A1 & A2 & A3) & (B0 & B1 & B2 & B3) & (C0 & C1 & C2 & C3) & _ & _ & _ & Y0 & Y1 & Y2).
  destruct Rt as (R0 & R1 & R2).
  destruct (row_le _ _ _ _ _ _ 0.96 (16 * u) 0 A0 A1 A2 (proj2 A3) R0 R1 R2) as [S0 S0']. destruct (row_le _ _ _ _ _ _ 1.0001 (16 * u) 0 B0 B1 B2 (proj2 B3) R0 R1 R2) as [S1 S1'].
  destruct (row_le _ _ _ _ _ _ 1.1 (16 * u) 0 C0 C1 C2 (proj2 C3) R0 R1 R2) as [S2 S2'].
  assert (U0 := x_le _ _ 0.96 E0 (proj1 S0) S0' ltac:(lra)). assert (U1 := x_le _ _ 1.0001 E1 (proj1 S1) S1' ltac:(lra)). assert (U2 := x_le _ _ 1.1 E2 (proj1 S2) S2' ltac:(lra)).
  destruct (Z.eq_dec (v0 k) 0) as [K0|K0]; [destruct (Z.eq_dec (v1 k) 0) as [K1|K1]; [destruct (Z.eq_dec (v2 k) 0) as [K2|K2]|]|].
  1: { assert (D0 : B2R (v0 (dec M k)) = 0) by (unfold dec; cbn [toScene v0 v1 v2 vref pixel]; rewrite K0; apply dec_0; lia).
    assert (D1 : B2R (v1 (dec M k)) = 0) by (unfold dec; cbn [toScene v0 v1 v2 vref pixel]; rewrite K1; apply dec_0; lia).
    assert (D2 : B2R (v2 (dec M k)) = 0) by (unfold dec; cbn [toScene v0 v1 v2 vref pixel]; rewrite K2; apply dec_0; lia).
    specialize (Z0 ltac:(rewrite D0, D1, D2; ring)). specialize (Z1 ltac:(rewrite D0, D1, D2; ring)). specialize (Z2 ltac:(rewrite D0, D1, D2; ring)).
    destruct (yuv_black_v x X0 X1 X2 Z0 Z1 Z2) as (FF & V0 & V1 & V2).
    apply Goal0; [exact FF|apply (zz _ _ _ V0 Z0); rewrite ?U; lra|apply (zz _ _ _ V1 Z1); rewrite ?U; lra|apply (zz _ _ _ V2 Z2); rewrite ?U; lra|rewrite ?U; lra|rewrite ?U; lra|rewrite ?U; lra|exact KB|exact MB]. }
  all: assert (T : 0.00001 <= B2R (v0 (dec M k)) \/ 0.00001 <= B2R (v1 (dec M k)) \/ 0.00001 <= B2R (v2 (dec M k)))
    by (destruct HK as (HK0 & HK1 & HK2); first [left; apply dec_ge; lia|right; left; apply dec_ge; lia|right; right; apply dec_ge; lia]).
  all: destruct (three _ _ _ _ _ _ _ _ _ _ _ _ Y0 Y1 Y2 (proj1 R0) (proj1 R1) (proj1 R2) T) as [L1 L2];
    destruct (yuv_sum _ _ _ _ _ _ E0 E1 E2 (proj1 S0) (proj1 S2) L1 L2) as [L3 L4].
  all: assert (B100 : 3.0632 <= 1e6) by lra.
  all: assert (SB := sum3 _ _ _ U0 U1 U2); assert (SP := sum3p _ _ _ P0 P1 P2).
  all: destruct (yuv_rt_v x X0 X1 X2 P0 P1 P2 (conj L3 (Rle_trans _ _ _ SB B100)) L4) as (X' & Z' & EQ & FX & FZ & EX' & EZ'); rewrite EQ.
  all: apply Goal0; cbn [v0 v1 v2];
    [repeat split; assumption|exact (yu_fin0 _ _ EX' U0)|rewrite Rminus_diag_eq, Rabs_R0 by reflexivity; lra|exact (yu_fin2 _ _ EZ' SB)
    |rewrite ?U; lra|rewrite ?U; lra|rewrite ?U; lra|exact KB|exact MB].
Qed.
End F.
Lemma img2_case (lm : libm) : codes_of 1023 (V3 12 200 1023)%Z /\ (0 < 1023 <= 1040)%Z /\ In (Rec709 (FN lm)) (rgb_gamuts lm).
Proof. unfold codes_of. cbn [v0 v1 v2]. repeat split; try lia; unfold rgb_gamuts; cbn [In]; tauto. Qed.
