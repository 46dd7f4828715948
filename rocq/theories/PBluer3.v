(** * The chromaticity of black bodies as the predefined observers see it. *)
From Coq Require Import ZArith Reals Lra Lia List Bool Psatz.
From Verif Require Import Num NumR MVec MTri MSpectrum Tables RTac PSpec PTables PTri PBluer PBluer2.
Import ListNotations.
Local Open Scope R_scope.

(** ** Tables as integers. *)
Definition zt (t : list dec) : list Z := map dm t.
Definition zat (l : list Z) (i : nat) : Z := nth i l 0%Z.
Definition ztot (l : list Z) : Z := fold_right Z.add 0%Z l.
Lemma zsum_list l : length l = 400%nat -> zsum (zat l) = ztot l.
Proof.
  intros L. unfold zsum, ztot. f_equal. apply nth_ext with 0%Z 0%Z; [now rewrite map_length, seq_length|].
  rewrite map_length, seq_length. intros n H. apply (nth_tab (zat l)). exact H.
Qed.
Lemma smp_scaled p t : chk p t = true -> length t = 400%nat /\ exists s, 0 < s /\ forall i, (i <= 399)%nat -> smp (tabR t) i = s * IZR (zat (zt t) i).
Proof.
  intros C. pose proof (chk_ok p t C) as [L _]. split; [exact L|]. unfold chk in C. destruct t as [|d t]; [discriminate|].
  apply andb_true_iff in C as [C F]. apply andb_true_iff in C as [E _]. apply Z.leb_le in E. rewrite forallb_forall in F.
  assert (P : (0 < 10 ^ (- de d))%Z) by (apply Z.pow_pos_nonneg; lia). apply IZR_lt in P.
  exists (/ IZR (10 ^ (- de d))). split; [now apply Rinv_0_lt_compat|]. intros i Li. unfold smp, zat, tabR, zt.
  rewrite (nth_indep _ 0 (Rdec d)) by (rewrite map_length; lia). rewrite (nth_indep _ 0%Z (dm d)) by (rewrite map_length; lia).
  rewrite !map_nth. set (x := nth i (d :: t) d). assert (I : In x (d :: t)) by (apply nth_In; lia).
  specialize (F x I). apply andb_true_iff in F as [F _]. apply andb_true_iff in F as [F _]. apply Z.eqb_eq in F.
  rewrite <- F. rewrite <- F in E, P. unfold Rdec. destruct (de x) as [|q|q]; [|lia|].
  - change (10 ^ (- 0))%Z with 1%Z. cbv beta iota. lra.
  - change (10 ^ (- Zneg q))%Z with (Z.pow_pos 10 q) in *. cbv beta iota. unfold Rdiv. ring.
Qed.
(** A stimulus component, multiplied by the integer total of its table. *)
Lemma comp_int p t s : chk p t = true -> (0 < ztot (zt t))%Z ->
  dotR s (tabR t) / sumR (tabR t) = sig (fun i => smp s i * IZR (zat (zt t) i)) / IZR (ztot (zt t)).
Proof.
  intros C H. destruct (smp_scaled p t C) as (L & k & Pk & E). apply IZR_lt in H as HR.
  assert (S : sumR (tabR t) = k * IZR (ztot (zt t))).
  { rewrite <- zsum_list by (unfold zt; now rewrite map_length). rewrite <- zsum_ok, scal_sum. unfold sumR. apply sum_ext. intros i Li. rewrite E by exact Li. ring. }
  assert (D : dotR s (tabR t) = k * sig (fun i => smp s i * IZR (zat (zt t) i))).
  { rewrite scal_sum. unfold dotR. apply sum_ext. intros i Li. rewrite E by exact Li. ring. }
  rewrite S, D. field. lra.
Qed.

(** ** Chromaticity coordinates as ratios of sums of integers. *)
Definition cx (X : list Z) (mx : Z) (i : nat) : Z := (zat X i * mx)%Z.
Definition cxy (X Y : list Z) (mx my : Z) (i : nat) : Z := (zat X i * mx + zat Y i * my)%Z.
Definition cd (X Y W : list Z) (mx my mw : Z) (i : nat) : Z := (zat X i * mx + zat Y i * my + zat W i * mw)%Z.
(** [n] over [cd] crosses each level between [r0] and [r1] (in units of 1/100000) once. *)
Definition chkR (n d : nat -> Z) (r0 r1 : Z) (k0 k1 : nat) : bool :=
  forallb (fun i => let a := n i in let b := d i in ((0 <=? a) && (a <=? b))%Z && (k0 <=? i)%nat || (((0 <=? a) && (a <=? b) && (100000 * a <=? r0 * b)))%Z) (seq 0 400) &&
  forallb (fun i => let a := n i in let b := d i in negb (k1 <=? i)%nat || (r1 * b <=? 100000 * a)%Z) (seq 0 400) &&
  forallb (fun i => negb ((k0 <=? i)%nat && (S i <? k1)%nat) || ((n i * d (S i) <=? n (S i) * d i) && (0 <? d i))%Z) (seq 0 400).
Lemma chkR_ok n d r0 r1 k0 k1 : chkR n d r0 r1 k0 k1 = true ->
  (forall i, (i <= 399)%nat -> 0 <= IZR (n i) <= IZR (d i)) /\
  (forall i j, (i < j <= 399)%nat -> IZR (n i) * IZR (d j) <= IZR (n j) * IZR (d i) \/ IZR (n i) <= IZR r0 / 100000 * IZR (d i) \/ IZR r1 / 100000 * IZR (d j) <= IZR (n j)).
Proof.
  intros C. unfold chkR in C. apply andb_true_iff in C as [C C3]. apply andb_true_iff in C as [C1 C2].
  pose proof (all400 _ C1) as H1. pose proof (all400 _ C2) as H2. pose proof (all400 _ C3) as H3. cbv beta zeta in H1, H2, H3. clear C1 C2 C3.
  assert (A : forall i, (i <= 399)%nat -> (0 <= n i <= d i)%Z /\ ((i < k0)%nat -> (100000 * n i <= r0 * d i)%Z)).
  { intros i L. specialize (H1 i L). apply orb_true_iff in H1 as [H|H]; rewrite !andb_true_iff, ?Z.leb_le, ?Nat.leb_le in H; split; lia. }
  assert (B : forall i, (i <= 399)%nat -> (k1 <= i)%nat -> (r1 * d i <= 100000 * n i)%Z).
  { intros i L K. specialize (H2 i L). apply orb_true_iff in H2 as [H|H]; [apply negb_true_iff, Nat.leb_gt in H; lia|now apply Z.leb_le]. }
  assert (D : forall i, (i <= 399)%nat -> (k0 <= i)%nat -> (S i < k1)%nat -> (n i * d (S i) <= n (S i) * d i /\ 0 < d i)%Z).
  { intros i L K K'. specialize (H3 i L). apply orb_true_iff in H3 as [H|H].
    - apply negb_true_iff, andb_false_iff in H as [H|H]; [apply Nat.leb_gt in H|apply Nat.ltb_ge in H]; lia.
    - rewrite andb_true_iff, Z.leb_le, Z.ltb_lt in H. exact H. }
  split; [intros i L; destruct (A i L) as [[a b] _]; split; now apply IZR_le|]. intros i j L.
  destruct (le_lt_dec k0 i) as [Ki|Ki].
  2:{ right; left. destruct (A i ltac:(lia)) as [_ a]. specialize (a Ki). apply IZR_le in a. rewrite !mult_IZR in a. lra. }
  destruct (le_lt_dec k1 j) as [Kj|Kj].
  1:{ right; right. pose proof (B j ltac:(lia) Kj) as b. apply IZR_le in b. rewrite !mult_IZR in b. lra. }
  left. rewrite <- !mult_IZR. apply IZR_le.
  assert (G : forall m, (S i + m <= j)%nat -> (n i * d (S i + m)%nat <= n (S i + m)%nat * d i)%Z).
  { induction m as [|m IH]; intros Lm.
    - rewrite Nat.add_0_r. apply D; lia.
    - specialize (IH ltac:(lia)). destruct (D (S i + m)%nat ltac:(lia) ltac:(lia) ltac:(lia)) as [E F].
      replace (S i + S m)%nat with (S (S i + m))%nat by lia.
      destruct (A i ltac:(lia)) as [a _]. destruct (A (S (S i + m)) ltac:(lia)) as [b _].
      apply Z.mul_le_mono_pos_r with (d (S i + m)%nat); [exact F|]. nia. }
  specialize (G (j - S i)%nat ltac:(lia)). now replace (S i + (j - S i))%nat with j in G by lia.
Qed.

Lemma neg_r a b : 0 < a -> a * b < 0 -> b < 0. Proof. intros. nra. Qed.
Lemma sum_ge0 f n : (forall i, (i <= n)%nat -> 0 <= f i) -> 0 <= sum_f_R0 f n.
Proof. intros H. induction n as [|n IH]; cbn [sum_f_R0]; [now apply H|]. pose proof (H (S n) ltac:(lia)). specialize (IH ltac:(auto)). lra. Qed.
(** ** The bounds at 800 K and in the limit of high temperature. *)
Definition chkL (n d : nat -> Z) (r0 r1 : Z) : bool :=
  (ubsum plt pht (fun i => 100000 * n i - r1 * d i) <? 0)%Z && (ubsum qlt qht (fun i => r0 * d i - 100000 * n i) <? 0)%Z.
Lemma chkL_ok n d r0 r1 : chkL n d r0 r1 = true ->
  sig (fun i => bb 800 i * IZR (n i)) < IZR r1 / 100000 * sig (fun i => bb 800 i * IZR (d i)) /\
  IZR r0 / 100000 * sig (fun i => rj i * IZR (d i)) < sig (fun i => rj i * IZR (n i)).
Proof.
  intros C. unfold chkL in C. rewrite andb_true_iff, !Z.ltb_lt in C. destruct C as [C1 C2]. apply IZR_lt in C1, C2.
  pose proof (ubsum_ok P800 plt pht (fun i => 100000 * n i - r1 * d i)%Z (IZR S132) ltac:(apply IZR_lt; reflexivity) Pt_ok) as U1.
  pose proof (ubsum_ok rj qlt qht (fun i => r0 * d i - 100000 * n i)%Z (IZR S80) ltac:(apply IZR_lt; reflexivity) Qt_ok) as U2.
  assert (K : 0 < Kp) by (unfold Kp; lra). assert (S1 : 0 < IZR S132) by (apply IZR_lt; reflexivity). assert (S2 : 0 < IZR S80) by (apply IZR_lt; reflexivity).
  cbv beta in U1, U2. split.
  - assert (E : sig (fun i => P800 i * IZR (100000 * n i - r1 * d i)) = 100000 * sig (fun i => P800 i * IZR (n i)) - IZR r1 * sig (fun i => P800 i * IZR (d i))).
    { rewrite !scal_sum, <- minus_sum. apply sum_ext. intros i _. rewrite minus_IZR, !mult_IZR. ring. }
    assert (F : forall f : nat -> Z, sig (fun i => bb 800 i * IZR (f i)) = Kp * sig (fun i => P800 i * IZR (f i))).
    { intros f. rewrite scal_sum. apply sum_ext. intros i _. rewrite bb800. ring. }
    rewrite !F. assert (Q : sig (fun i => P800 i * IZR (100000 * n i - r1 * d i)) < 0) by (apply (neg_r _ _ S1); lra). rewrite E in Q.
    replace (IZR r1 / 100000 * (Kp * sig (fun i => P800 i * IZR (d i)))) with (Kp * (IZR r1 / 100000 * sig (fun i => P800 i * IZR (d i)))) by ring.
    apply Rmult_lt_compat_l; [exact K|lra].
  - assert (E : sig (fun i => rj i * IZR (r0 * d i - 100000 * n i)) = IZR r0 * sig (fun i => rj i * IZR (d i)) - 100000 * sig (fun i => rj i * IZR (n i))).
    { rewrite !scal_sum, <- minus_sum. apply sum_ext. intros i _. rewrite minus_IZR, !mult_IZR. ring. }
    assert (Q : sig (fun i => rj i * IZR (r0 * d i - 100000 * n i)) < 0) by (apply (neg_r _ _ S2); lra). rewrite E in Q. lra.
Qed.
Definition chkS (d : nat -> Z) (m : Z) : bool := (S132 * m <=? 10 ^ 28 * zsum (fun i => plt i * d i))%Z.
Lemma chkS_ok d m : (forall i, (i <= 399)%nat -> 0 <= IZR (d i)) -> chkS d m = true -> 1 / 100000000 * IZR m <= sig (fun i => bb 800 i * IZR (d i)).
Proof.
  intros D C. unfold chkS in C. apply Z.leb_le, IZR_le in C. rewrite !mult_IZR, <- zsum_ok in C.
  assert (S1 : 0 < IZR S132) by (apply IZR_lt; reflexivity).
  assert (A : sig (fun i => IZR (plt i * d i)) <= IZR S132 * sig (fun i => P800 i * IZR (d i))).
  { rewrite scal_sum. apply sum_Rle. intros i L. rewrite mult_IZR. pose proof (Pt_ok i L). pose proof (D i L). nra. }
  assert (F : sig (fun i => bb 800 i * IZR (d i)) = Kp * sig (fun i => P800 i * IZR (d i))).
  { rewrite scal_sum. apply sum_ext. intros i _. rewrite bb800. ring. }
  rewrite F. assert (P : 0 <= sig (fun i => P800 i * IZR (d i))).
  { apply sum_ge0. intros i L. pose proof (D i L). apply Rmult_le_pos; [|assumption].
    pose proof (bb_pos 800 i ltac:(lra)) as B. rewrite bb800 in B. unfold Kp in B. lra. }
  change (10 ^ 28)%Z with 10000000000000000000000000000%Z in C.
  assert (K : 100000000000000000000 <= Kp) by (unfold Kp; lra).
  set (s := sig (fun i => P800 i * IZR (d i))) in *.
  assert (IZR S132 * IZR m <= IZR S132 * (10000000000000000000000000000 * s)) by nra.
  apply Rmult_le_reg_l in H; [|exact S1]. nra.
Qed.

(** ** Each coordinate falls as the temperature rises. *)
Lemma falls n d r0 r1 k0 k1 i0 T T' : chkR n d r0 r1 k0 k1 = true -> chkL n d r0 r1 = true -> (r0 <= r1)%Z -> (i0 <= 399)%nat ->
  (100000 * n i0 < r0 * d i0)%Z -> 800 <= T < T' ->
  0 < sig (fun i => bb T i * IZR (d i)) /\ sig (fun i => bb T' i * IZR (n i)) * sig (fun i => bb T i * IZR (d i)) < sig (fun i => bb T i * IZR (n i)) * sig (fun i => bb T' i * IZR (d i)).
Proof.
  intros CR CL R01 L0 I0 HT. destruct (chkR_ok _ _ _ _ _ _ CR) as [ND PW]. destruct (chkL_ok _ _ _ _ CL) as [U0 L1]. clear CR CL.
  assert (I1 : (i0 <= 399)%nat /\ IZR (n i0) < IZR r0 / 100000 * IZR (d i0)). { split; [exact L0|]. apply IZR_lt in I0. rewrite !mult_IZR in I0. lra. }
  pose proof (cross_r (fun i => IZR (n i)) (fun i => IZR (d i)) (IZR r0 / 100000) (IZR r1 / 100000) i0 ND PW I1) as X. cbv beta in X.
  apply IZR_le in R01.
  assert (DP : 0 < sig (fun i => bb T i * IZR (d i))).
  { enough (sig (fun i => - (bb T i * IZR (d i))) < 0) as Q.
    - rewrite (sum_ext _ (fun i => (bb T i * IZR (d i)) * -1)) in Q by (intros; ring). rewrite <- scal_sum in Q. lra.
    - apply sum_lt0 with i0; [|exact L0|].
      + intros i L. destruct (ND i L). pose proof (bb_pos T i ltac:(lra)). nra.
      + destruct (ND i0 L0). destruct I1 as [_ I1]. pose proof (bb_pos T i0 ltac:(lra)). assert (IZR (d i0) <> 0) by (intros E; rewrite E in *; lra). nra. }
  split; [exact DP|]. set (A := sig (fun i => bb T i * IZR (n i))) in *. set (B := sig (fun i => bb T i * IZR (d i))) in *.
  assert (U : A <= IZR r1 / 100000 * B).
  { destruct (Req_dec T 800) as [E|E]; [unfold A, B; rewrite E; lra|]. left. apply (X (bb 800)); [lra| | |lra].
    - intros i _. split; apply bb_pos; lra.
    - intros i j L. apply bb_ratio; [lra|lia]. }
  assert (L : IZR r0 / 100000 * B < A).
  { apply Rnot_le_lt. intros Q. apply (Rlt_asym _ _ L1). apply (X (bb T)); [lra| | |exact Q].
    - intros i _. split; [apply bb_pos; lra|apply rj_pos].
    - intros i j Lij. apply rj_ratio; [lra|lia]. }
  assert (E : A = A / B * B) by (field; lra).
  assert (Rg : IZR r0 / 100000 <= A / B <= IZR r1 / 100000). { rewrite E in U, L. split; apply Rmult_le_reg_r with B; lra. }
  pose proof (X (bb T) (bb T') (A / B) Rg) as Y. specialize (Y ltac:(intros i _; split; apply bb_pos; lra)).
  specialize (Y ltac:(intros i j Lij; apply bb_ratio; [lra|lia])). specialize (Y ltac:(fold A B; lra)).
  set (A' := sig (fun i => bb T' i * IZR (n i))) in *. set (B' := sig (fun i => bb T' i * IZR (d i))) in *.
  replace (A * B') with (A / B * B' * B) by (field; lra). apply Rmult_lt_compat_r; assumption.
Qed.

(** ** A predefined observer. *)
Definition chkO (tx ty tz : list dec) (k0 k1 k0' k1' : nat) : bool :=
  let X := zt tx in let Y := zt ty in let W := zt tz in let sx := ztot X in let sy := ztot Y in let sw := ztot W in
  let mx := (sy * sw)%Z in let my := (sx * sw)%Z in let mw := (sx * sy)%Z in
  let D := map (cd X Y W mx my mw) (seq 0 400) in let NX := map (cx X mx) (seq 0 400) in let NXY := map (cxy X Y mx my) (seq 0 400) in
  (chk 3 tx && chk 3 ty && chk 3 tz) && ((0 <? sx) && (0 <? sy) && (0 <? sw))%Z &&
  (chkR (zat NX) (zat D) 20000 71000 k0 k1 && chkL (zat NX) (zat D) 20000 71000 && (100000 * zat NX 50 <? 20000 * zat D 50)%Z) &&
  (chkR (zat NXY) (zat D) 20000 99980 k0' k1' && chkL (zat NXY) (zat D) 20000 99980 && (100000 * zat NXY 50 <? 20000 * zat D 50)%Z) &&
  chkS (zat D) (sx * sy * sw).
Lemma O1931 : chkO T_CIE1931_X T_CIE1931_Y T_CIE1931_Z 156 252 96 232 = true. Proof. vm_compute. reflexivity. Qed.
Lemma OJV : chkO T_CIE1931_JuddVos_X T_CIE1931_JuddVos_Y T_CIE1931_JuddVos_Z 156 254 94 242 = true. Proof. vm_compute. reflexivity. Qed.
Lemma O2012 : chkO T_CIE2012_X T_CIE2012_Y T_CIE2012_Z 155 262 91 195 = true. Proof. vm_compute. reflexivity. Qed.
Lemma zat_tab f i : (i <= 399)%nat -> zat (map f (seq 0 400)) i = f i.
Proof. intros L. apply (nth_tab f). lia. Qed.
Lemma bb_smp T i : (i <= 399)%nat -> smp (map (fun i => planckR T ((380 + INR i) * 1e-9)) (seq 0 400)) i = bb T i.
Proof. intros L. unfold smp. rewrite nth_tab by lia. reflexivity. Qed.
Lemma lin3 (f x y z : nat -> R) a b c : sig (fun i => f i * (x i * a + y i * b + z i * c)) =
  a * sig (fun i => f i * x i) + b * sig (fun i => f i * y i) + c * sig (fun i => f i * z i).
Proof. rewrite !scal_sum, <- !plus_sum. apply sum_ext. intros. ring. Qed.
Lemma lin2 (f x y : nat -> R) a b : sig (fun i => f i * (x i * a + y i * b)) = a * sig (fun i => f i * x i) + b * sig (fun i => f i * y i).
Proof. rewrite !scal_sum, <- !plus_sum. apply sum_ext. intros. ring. Qed.
Lemma lin1 (f x : nat -> R) a : sig (fun i => f i * (x i * a)) = a * sig (fun i => f i * x i).
Proof. rewrite scal_sum. apply sum_ext. intros. ring. Qed.
Lemma obs_falls tx ty tz k0 k1 k0' k1' T T' : chkO tx ty tz k0 k1 k0' k1' = true -> obs_ok (tabR tx) (tabR ty) (tabR tz) -> 800 <= T < T' ->
  exists Y x y Y' x' y', let o := observerR (tabR tx) (tabR ty) (tabR tz) in
    toYxy RN (fromSpectrum RN o (S_blackbody RN (Some T))) = finV (V3 Y x y) /\
    toYxy RN (fromSpectrum RN o (S_blackbody RN (Some T'))) = finV (V3 Y' x' y') /\
    x' < x /\ x' + y' < x + y.
Proof.
  intros C O HT. unfold chkO in C. cbv zeta in C. rewrite !andb_true_iff, !Z.ltb_lt in C.
  destruct C as ((((CK & CP) & CX) & CXY) & CS). destruct CK as ((Kx & Ky) & Kz). destruct CP as ((Px & Py) & Pz).
  destruct CX as ((X1 & X2) & X3). destruct CXY as ((W1 & W2) & W3).
  set (sx := ztot (zt tx)) in *. set (sy := ztot (zt ty)) in *. set (sz := ztot (zt tz)) in *.
  set (D := map (cd (zt tx) (zt ty) (zt tz) (sy * sz) (sx * sz) (sx * sy)) (seq 0 400)) in *.
  set (NX := map (cx (zt tx) (sy * sz)) (seq 0 400)) in *. set (NXY := map (cxy (zt tx) (zt ty) (sy * sz) (sx * sz)) (seq 0 400)) in *.
  apply IZR_lt in Px as Rx. apply IZR_lt in Py as Ry. apply IZR_lt in Pz as Rz.
  pose (cX := fun T => sig (fun i => bb T i * IZR (zat (zt tx) i))). pose (cY := fun T => sig (fun i => bb T i * IZR (zat (zt ty) i))).
  pose (cZ := fun T => sig (fun i => bb T i * IZR (zat (zt tz) i))).
  assert (ED : forall T, sig (fun i => bb T i * IZR (zat D i)) = IZR sy * IZR sz * cX T + IZR sx * IZR sz * cY T + IZR sx * IZR sy * cZ T).
  { intros t. unfold cX, cY, cZ. rewrite <- lin3. apply sum_ext. intros i L. unfold D. rewrite zat_tab by exact L. unfold cd. rewrite !plus_IZR, !mult_IZR. ring. }
  assert (EX : forall T, sig (fun i => bb T i * IZR (zat NX i)) = IZR sy * IZR sz * cX T).
  { intros t. unfold cX. rewrite <- lin1. apply sum_ext. intros i L. unfold NX. rewrite zat_tab by exact L. unfold cx. rewrite !mult_IZR. ring. }
  assert (EXY : forall T, sig (fun i => bb T i * IZR (zat NXY i)) = IZR sy * IZR sz * cX T + IZR sx * IZR sz * cY T).
  { intros t. unfold cX, cY. rewrite <- lin2. apply sum_ext. intros i L. unfold NXY. rewrite zat_tab by exact L. unfold cxy. rewrite !plus_IZR, !mult_IZR. ring. }
  assert (M : 0 < IZR sx * IZR sy * IZR sz) by (repeat apply Rmult_lt_0_compat; assumption).
  assert (DN : forall i, (i <= 399)%nat -> 0 <= IZR (zat D i)) by (intros i L; destruct (chkR_ok _ _ _ _ _ _ X1) as [ND _]; destruct (ND i L); lra).
  pose proof (chkS_ok _ _ DN CS) as S0. rewrite !mult_IZR, ED in S0.
  assert (SM : forall t, 800 <= t -> 1 / 100000000 * (IZR sx * IZR sy * IZR sz) <= IZR sy * IZR sz * cX t + IZR sx * IZR sz * cY t + IZR sx * IZR sy * cZ t).
  { intros t Ht. rewrite <- ED. eapply Rle_trans; [exact S0|]. rewrite <- ED. apply sum_Rle. intros i L. apply Rmult_le_compat_r; [apply DN, L|].
    destruct (Req_dec t 800) as [->|E]; [lra|]. left. pose proof (nm_pos i). apply planck_incr; lra. }
  assert (TY : forall t, 800 <= t -> let S := IZR sy * IZR sz * cX t + IZR sx * IZR sz * cY t + IZR sx * IZR sy * cZ t in
    toYxy RN (fromSpectrum RN (observerR (tabR tx) (tabR ty) (tabR tz)) (S_blackbody RN (Some t))) =
    finV (V3 (cY t / IZR sy) (IZR sy * IZR sz * cX t / S) (IZR sx * IZR sz * cY t / S))).
  { intros t Ht S. rewrite bb_fin by lra. rewrite fromSpectrum_fin; [|exact O|unfold spectrumR; now rewrite map_length, seq_length].
    unfold triR. rewrite (comp_int 3 tx _ Kx Px), (comp_int 3 ty _ Ky Py), (comp_int 3 tz _ Kz Pz).
    set (s := map (fun i => planckR t ((380 + INR i) * 1e-9)) (seq 0 400)).
    replace (sig (fun i => smp s i * IZR (zat (zt tx) i))) with (cX t) by (apply sum_ext; intros i L; unfold s; now rewrite bb_smp).
    replace (sig (fun i => smp s i * IZR (zat (zt ty) i))) with (cY t) by (apply sum_ext; intros i L; unfold s; now rewrite bb_smp).
    replace (sig (fun i => smp s i * IZR (zat (zt tz) i))) with (cZ t) by (apply sum_ext; intros i L; unfold s; now rewrite bb_smp).
    fold sx sy sz. pose proof (SM t Ht) as Q. fold S in Q.
    assert (QS : cX t / IZR sx + cY t / IZR sy + cZ t / IZR sz = S / (IZR sx * IZR sy * IZR sz)) by (unfold S; field; lra).
    assert (Q8 : 1 / 100000000 <= S / (IZR sx * IZR sy * IZR sz)).
    { apply Rmult_le_reg_r with (IZR sx * IZR sy * IZR sz); [exact M|]. replace (S / (IZR sx * IZR sy * IZR sz) * (IZR sx * IZR sy * IZR sz)) with S by (field; lra). exact Q. }
    rewrite toYxy_ok. 2:{ rewrite QS, Rabs_pos_eq by lra. unfold eps8. lra. }
    rewrite QS. assert (0 < S) by nra. unfold finV. cbn [v0 v1 v2]. fin_eq; field; lra. }
  do 6 eexists. intros o. split; [apply (TY T); lra|]. split; [apply (TY T'); lra|].
  destruct (falls _ _ _ _ _ _ 50 T T' X1 X2 ltac:(lia) ltac:(lia) X3 HT) as [DP FX].
  destruct (falls _ _ _ _ _ _ 50 T T' W1 W2 ltac:(lia) ltac:(lia) W3 HT) as [_ FW].
  rewrite !ED in *. rewrite !EX in FX. rewrite !EXY in FW. pose proof (SM T' ltac:(lra)) as Q'.
  assert (DP' : 0 < IZR sy * IZR sz * cX T' + IZR sx * IZR sz * cY T' + IZR sx * IZR sy * cZ T') by nra.
  set (S := IZR sy * IZR sz * cX T + IZR sx * IZR sz * cY T + IZR sx * IZR sy * cZ T) in *.
  set (S' := IZR sy * IZR sz * cX T' + IZR sx * IZR sz * cY T' + IZR sx * IZR sy * cZ T') in *.
  assert (G : forall a a', a' * S < a * S' -> a' / S' < a / S).
  { intros a a' H. apply Rmult_lt_reg_r with (S * S'); [now apply Rmult_lt_0_compat|].
    replace (a' / S' * (S * S')) with (a' * S) by (field; lra). replace (a / S * (S * S')) with (a * S') by (field; lra). exact H. }
  split; [apply G, FX|]. unfold Rdiv. rewrite <- !Rmult_plus_distr_r. apply G, FW.
Qed.
Lemma C129_l : Forall (fun o => forall T T', 800 <= T < T' -> exists Y x y Y' x' y',
    toYxy RN (fromSpectrum RN o (S_blackbody RN (Some T))) = finV (V3 Y x y) /\
    toYxy RN (fromSpectrum RN o (S_blackbody RN (Some T'))) = finV (V3 Y' x' y') /\
    x' < x /\ x' + y' < x + y) [CIE1931 RN; CIE31JV RN; CIE2012 RN].
Proof.
  repeat constructor; intros T T' H.
  - replace (CIE1931 RN) with (observerR (tabR T_CIE1931_X) (tabR T_CIE1931_Y) (tabR T_CIE1931_Z)) by (symmetry; apply obs_of). apply (obs_falls _ _ _ _ _ _ _ T T' O1931); [|exact H]. apply tab_obs; cbn [In CMFs]; tauto.
  - replace (CIE31JV RN) with (observerR (tabR T_CIE1931_JuddVos_X) (tabR T_CIE1931_JuddVos_Y) (tabR T_CIE1931_JuddVos_Z)) by (symmetry; apply obs_of). apply (obs_falls _ _ _ _ _ _ _ T T' OJV); [|exact H]. apply tab_obs; cbn [In CMFs]; tauto.
  - replace (CIE2012 RN) with (observerR (tabR T_CIE2012_X) (tabR T_CIE2012_Y) (tabR T_CIE2012_Z)) by (symmetry; apply obs_of). apply (obs_falls _ _ _ _ _ _ _ T T' O2012); [|exact H]. apply tab_obs; cbn [In CMFs]; tauto.
Qed.
