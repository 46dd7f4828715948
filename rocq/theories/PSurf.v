(** * The chart patches and the TM-30 samples under D65, and the gamuts that contain them. *)
From Coq Require Import ZArith Reals Lra Lia List Bool.
From Flocq Require Import Core BinarySingleNaN.
From Verif Require Import Num NumR NumF MVec MTri MSpectrum Tables TablesCES RTac SpecMat PMat PTri PGamut F32 PMatF PHsvF PGamF PGamF2 PSpec PSpecF PTables PD65 PCover PObsF.
Import ListNotations.
Local Open Scope R_scope.

Definition surfaces (N : Num) : list (Spectrum N) := Macbeth_Patch N ++ TM_30_15_sample N.
Definition T_surf : list (list dec) := T_Patch ++ T_sample.
Lemma surf_map N : surfaces N = map (spectrum_of N) T_surf.
Proof. unfold surfaces, T_surf. now rewrite map_app. Qed.
Lemma surf_chk : forallb (chk 1) T_surf = true.
Proof. unfold T_surf. rewrite forallb_app, Patch_chk, CES_chk. reflexivity. Qed.
(** patch 18 (cyan) and samples 53, 57, 58, 64, 66 and 67. *)
Definition out709 : list nat := [17; 76; 80; 81; 87; 89; 90]%nat.
Definition outb (k : nat) : bool := existsb (Nat.eqb k) out709.
Lemma outb_ok k : outb k = true <-> In k out709.
Proof.
  unfold outb. rewrite existsb_exists. split; [intros (x & I & E); apply Nat.eqb_eq in E; now subst|].
  intros I. exists k. split; [exact I|apply Nat.eqb_refl].
Qed.
Definition rgbs : list gname := [gAdobeRGB; gRec709; gRec2020; gDCI_P3; gS_Gamut; gS_Gamut3_Cine; gACEScg; gACES2065].

(** ** Integer certificates. *)
Fixpoint wtab (l x : list dec) : list dec :=
  match l, x with a :: l, b :: x => mkdec (dm a * dm b) (de a + de b) :: wtab l x | _, _ => [] end.
(** a sum of products through second differences of one side and repeated partial sums of the other. *)
Fixpoint zdl (r w : list Z) : Z := match r, w with a :: r, b :: w => a * b + zdl r w | _, _ => 0 end%Z.
Fixpoint diff (p : Z) (r : list Z) : list Z := match r with [] => [] | a :: r => (a - p)%Z :: diff a r end.
Fixpoint suf (w : list Z) : list Z := match w with [] => [] | a :: w => let s := suf w in (a + hd 0 s)%Z :: s end.
Lemma zdl_diff r : forall w p, length r = length w -> zdl (diff p r) (suf w) = (zdl r w - p * hd 0 (suf w))%Z.
Proof.
  induction r as [|a r IH]; intros [|b w] p L; try discriminate; [cbn; lia|]. cbn [diff suf zdl hd].
  rewrite IH by (cbn in L; lia). cbv zeta. cbn [hd]. nia.
Qed.
Lemma diff_len r : forall p, length (diff p r) = length r. Proof. induction r; intros p; cbn [diff length]; [reflexivity|now rewrite IHr]. Qed.
Lemma suf_len w : length (suf w) = length w. Proof. induction w; cbn [suf length]; [reflexivity|now rewrite IHw]. Qed.
Definition d2 (r : list dec) : list Z := diff 0 (diff 0 (map dm r)).
Definition s2 (w : list dec) : list Z := suf (suf (map dm w)).
Lemma zdot_zdl r : forall w, zdot r w = zdl (map dm r) (map dm w).
Proof. induction r as [|a r IH]; intros [|b w]; try reflexivity. cbn [zdot map zdl]. now rewrite IH. Qed.
Lemma zdot_2 r w : length r = length w -> zdl (d2 r) (s2 w) = zdot r w.
Proof.
  intros L. unfold d2, s2. rewrite zdot_zdl. rewrite zdl_diff by (rewrite diff_len, suf_len, !map_length; exact L).
  rewrite zdl_diff by (rewrite !map_length; exact L). lia.
Qed.
Definition pexp (t : list dec) : positive := match t with mkdec _ (Zneg p) :: _ => p | _ => 1%positive end.
(** the rows of a matrix in units of 2^-20, rounded down. *)
Definition row_z (a b c d : Z) : Z * Z * Z := ((a * 2 ^ 20) / d, (b * 2 ^ 20) / d, (c * 2 ^ 20) / d)%Z.
Definition rows_z (q : qmat) : (Z * Z * Z) * (Z * Z * Z) * (Z * Z * Z) :=
  let n := qn q in (row_z (m0 n) (m1 n) (m2 n) (qd0 q), row_z (m3 n) (m4 n) (m5 n) (qd1 q), row_z (m6 n) (m7 n) (m8 n) (qd2 q)).
Definition row_small (r : Z * Z * Z) : bool := let '(a, b, c) := r in
  (Z.abs a <? 2 ^ 22)%Z && (Z.abs b <? 2 ^ 22)%Z && (Z.abs c <? 2 ^ 22)%Z.
Definition rows_small (q : qmat) : bool := let '(r0, r1, r2) := rows_z q in nz_den q && row_small r0 && row_small r1 && row_small r2.
Definition row_pos (r : Z * Z * Z) (a b c : Z) : bool := let '(x, y, z) := r in (1024 * (a + b + c + 3) + 12582912 <=? x * a + y * b + z * c)%Z.
Definition row_neg (r : Z * Z * Z) (a b c : Z) : bool := let '(x, y, z) := r in (x * a + y * b + z * c + 12582912 + 1025 * (a + b + c + 3) <=? 0)%Z.
Definition rows_chk (r : (Z * Z * Z) * (Z * Z * Z) * (Z * Z * Z)) (neg : bool) (a b c : Z) : bool := let '(r0, r1, r2) := r in
  (if neg then row_neg r0 a b c else row_pos r0 a b c) && row_pos r1 a b c && row_pos r2 a b c.
Definition samp_chk (gs : list (gname * ((Z * Z * Z) * (Z * Z * Z) * (Z * Z * Z)))) (wx wy wz : list Z) (sx sy sz : Z) (k : nat) (r : list dec) : bool :=
  (fun d => (fun a b c =>
  (0 <=? a)%Z && (0 <=? b)%Z && (0 <=? c)%Z && (Z.pow_pos 10 (pexp r) * 100000 <=? a + b + c)%Z && (a + b + c <=? 2 ^ 60)%Z &&
  forallb (fun g => rows_chk (snd g) (geqb (fst g) gRec709 && outb k) a b c) gs) (zdl d wx / sx)%Z (zdl d wy / sy)%Z (zdl d wz / sz)%Z) (d2 r).
Fixpoint each (f : nat -> list dec -> bool) (k : nat) (l : list (list dec)) : bool :=
  match l with [] => true | r :: l => f k r && each f (S k) l end.
Lemma each_ok f k0 l k r : each f k0 l = true -> nth_error l k = Some r -> f (k0 + k)%nat r = true.
Proof.
  revert k0 k. induction l as [|a l IH]; intros k0 k H E; [destruct k; discriminate|]. cbn [each] in H. apply andb_true_iff in H as (H & K).
  destruct k as [|k]; [injection E as ->; now rewrite Nat.add_0_r|]. rewrite <- Nat.add_succ_comm. now apply IH.
Qed.
Definition rgb_rows := map (fun g => (g, rows_z (snd (gq g)))) rgbs.
Definition obs_chk (k : nat) : bool :=
  let '((x, y, z), _) := tabs k in
  (fun gs wx wy wz sx sy sz => each (samp_chk gs wx wy wz sx sy sz) 0 T_surf)
  rgb_rows (s2 (wtab T_CIE_D65 x)) (s2 (wtab T_CIE_D65 y)) (s2 (wtab T_CIE_D65 z)) (zsum x) (zsum y) (zsum z).
Lemma obs_chks : forallb obs_chk [0; 1; 2]%nat = true. Proof. vm_compute. reflexivity. Qed.
Lemma rgb_small : forallb (fun g => rows_small (snd (gq g))) rgbs = true. Proof. vm_compute. reflexivity. Qed.
Lemma surf_exps : forallb (fun r => exps (Zneg (pexp r)) r && lowchk r) T_surf = true. Proof. vm_compute. reflexivity. Qed.

(** ** From the certificates to signs. *)
Lemma wtab_len l : forall x, length l = length x -> length (wtab l x) = length l.
Proof. induction l as [|a l IH]; intros [|b x] L; try discriminate; [reflexivity|]. cbn [wtab length]. rewrite IH; cbn in L; lia. Qed.
Lemma wtab_exps p q l : forall x, exps (Zneg p) l = true -> exps (Zneg q) x = true -> exps (Zneg (p + q)) (wtab l x) = true.
Proof.
  induction l as [|a l IH]; intros [|b x] E G; try reflexivity. apply exps_cons in E as (E0 & E), G as (G0 & G). cbn [wtab]. unfold exps. cbn [forallb de].
  rewrite E0, G0. apply andb_true_iff. split; [apply Z.eqb_eq; reflexivity|]. now apply IH.
Qed.
Lemma p10_plus p q : p10 (p + q) = p10 p * p10 q.
Proof.
  unfold p10. rewrite <- mult_IZR. f_equal. change (Z.pow_pos 10 (p + q)) with (10 ^ (Zpos p + Zpos q))%Z. change (Z.pow_pos 10 p) with (10 ^ Zpos p)%Z. change (Z.pow_pos 10 q) with (10 ^ Zpos q)%Z.
  apply Z.pow_add_r; lia.
Qed.
Lemma wtab_smp p q l : forall x i, exps (Zneg p) l = true -> exps (Zneg q) x = true -> smp (tabR (wtab l x)) i = smp (tabR l) i * smp (tabR x) i.
Proof.
  induction l as [|[a e] l IH]; intros [|[b f] x] i E G.
  1, 2: unfold smp, tabR; cbn [wtab map]; destruct i; cbn [nth]; ring.
  - unfold smp, tabR; cbn [wtab map]; destruct i; cbn [nth]; ring.
  - apply exps_cons in E as (E0 & E), G as (G0 & G). cbn [de] in E0, G0. subst e f. destruct i as [|i].
    + unfold smp, tabR. cbn [wtab map nth dm de]. change (Zneg p + Zneg q)%Z with (Zneg (p + q)). rewrite !Rdec_neg, p10_plus, mult_IZR.
      pose proof (p10_pos p). pose proof (p10_pos q). field. lra.
    + exact (IH x i E G).
Qed.
Lemma dot_ext f g n : (forall i, (i <= n)%nat -> f i = g i) -> sum_f_R0 f n = sum_f_R0 g n.
Proof. intros H. apply sum_eq. exact H. Qed.
Lemma refl_z r l x pr pl px : length r = 400%nat -> length l = 400%nat -> length x = 400%nat ->
  exps (Zneg pr) r = true -> exps (Zneg pl) l = true -> exps (Zneg px) x = true -> (0 < zsum x)%Z ->
  dotR (mulS (tabR r) (tabR l)) (tabR x) / sumR (tabR x) = / (p10 pr * p10 pl) * (IZR (zdl (d2 r) (s2 (wtab l x))) / IZR (zsum x)).
Proof.
  intros Lr Ll Lx Er El Ex P. assert (Lw : length (wtab l x) = 400%nat) by (rewrite wtab_len; lia).
  rewrite zdot_2 by lia. rewrite (sumR_z px) by assumption.
  assert (E : dotR (mulS (tabR r) (tabR l)) (tabR x) = dotR (tabR r) (tabR (wtab l x))).
  { unfold dotR. apply dot_ext. intros i Hi. rewrite (wtab_smp pl px) by assumption. unfold mulS. rewrite smp_pw by lia. ring. }
  rewrite E, (dotR_z pr (pl + px)) by (assumption || now apply wtab_exps). rewrite p10_plus.
  pose proof (p10_pos pr). pose proof (p10_pos pl). pose proof (p10_pos px). apply IZR_lt in P. field. lra.
Qed.
Lemma div_R n s : (0 < s)%Z -> exists f, 0 <= f <= 1 /\ IZR n / IZR s = IZR (n / s) + f.
Proof.
  intros S. exists (IZR (n mod s) / IZR s). pose proof (Z.mod_pos_bound n s S) as (A & B). pose proof (Z.div_mod n s ltac:(lia)) as E.
  apply IZR_le in A. apply IZR_lt in B, S. split.
  - split; [apply Rmult_le_pos; [lra|]; apply Rlt_le, Rinv_0_lt_compat; lra|]. apply Rmult_le_reg_r with (IZR s); [lra|]. unfold Rdiv. rewrite Rmult_assoc, Rinv_l by lra. lra.
  - rewrite E at 1. rewrite plus_IZR, mult_IZR. field. lra.
Qed.
Lemma div_R' n d : d <> 0%Z -> exists f, 0 <= f <= 1 /\ IZR n / IZR d = IZR (n / d) + f.
Proof.
  intros D. destruct (Z_lt_le_dec 0 d) as [P|P]; [now apply div_R|]. destruct (div_R (- n) (- d) ltac:(lia)) as (f & F & E). exists f. split; [exact F|].
  rewrite Z.div_opp_opp in E by exact D. rewrite !opp_IZR in E. rewrite <- E. apply not_0_IZR in D. field. exact D.
Qed.
(** one row: coefficients in units of 2^-20, tristimulus components in units of [l]. *)
Lemma unit20 n d : d <> 0%Z -> exists f, 0 <= f <= 1 /\ IZR n / IZR d = (IZR ((n * 2 ^ 20) / d) + f) / 1048576.
Proof.
  intros D. destruct (div_R' (n * 2 ^ 20) d D) as (f & F & E). exists f. split; [exact F|]. rewrite <- E, mult_IZR. change (IZR (2 ^ 20)) with 1048576.
  apply not_0_IZR in D. field. exact D.
Qed.
Lemma prod_lo x f a g : Rabs x <= 4194304 -> 0 <= f <= 1 -> 0 <= a -> 0 <= g <= 1 -> x * a - 4194304 <= (x + f) * (a + g) <= x * a + 4194304 + a + 1.
Proof. intros X F A G. apply Rabs_le_inv in X. nra. Qed.
Lemma row_sign (x y z a b c : Z) (f0 f1 f2 g0 g1 g2 l : R) : row_small (x, y, z) = true -> (0 <= a)%Z -> (0 <= b)%Z -> (0 <= c)%Z ->
  0 <= f0 <= 1 -> 0 <= f1 <= 1 -> 0 <= f2 <= 1 -> 0 <= g0 <= 1 -> 0 <= g1 <= 1 -> 0 <= g2 <= 1 -> 0 < l ->
  let t0 := l * (IZR a + g0) in let t1 := l * (IZR b + g1) in let t2 := l * (IZR c + g2) in
  let v := (IZR x + f0) / 1048576 * t0 + (IZR y + f1) / 1048576 * t1 + (IZR z + f2) / 1048576 * t2 in
  (row_pos (x, y, z) a b c = true -> (t0 + t1 + t2) / 1024 <= v) /\ (row_neg (x, y, z) a b c = true -> v <= - (t0 + t1 + t2) / 1024).
Proof.
  intros S A B C F0 F1 F2 G0 G1 G2 L. cbv zeta. unfold row_small in S. rewrite !andb_true_iff, !Z.ltb_lt in S. destruct S as ((S0 & S1) & S2).
  apply IZR_lt in S0, S1, S2. rewrite abs_IZR in S0, S1, S2. change (IZR (2 ^ 22)) with 4194304 in *. apply IZR_le in A, B, C.
  destruct (prod_lo (IZR x) f0 (IZR a) g0) as (P0 & Q0); try lra. destruct (prod_lo (IZR y) f1 (IZR b) g1) as (P1 & Q1); try lra. destruct (prod_lo (IZR z) f2 (IZR c) g2) as (P2 & Q2); try lra.
  set (p0 := (IZR x + f0) * (IZR a + g0)) in *. set (p1 := (IZR y + f1) * (IZR b + g1)) in *. set (p2 := (IZR z + f2) * (IZR c + g2)) in *.
  assert (E : (IZR x + f0) / 1048576 * (l * (IZR a + g0)) + (IZR y + f1) / 1048576 * (l * (IZR b + g1)) + (IZR z + f2) / 1048576 * (l * (IZR c + g2)) = l * ((p0 + p1 + p2) / 1048576)) by (unfold p0, p1, p2; field).
  assert (T : l * (IZR a + g0) + l * (IZR b + g1) + l * (IZR c + g2) = l * (IZR a + IZR b + IZR c + g0 + g1 + g2)) by ring.
  rewrite E, T. split; intros H; unfold row_pos, row_neg in H; apply Z.leb_le, IZR_le in H; repeat rewrite ?plus_IZR, ?mult_IZR in H.
  - apply Rle_trans with (l * ((IZR a + IZR b + IZR c + 3) / 1024)); [unfold Rdiv; rewrite <- !Rmult_assoc|]; [|apply Rmult_le_compat_l; lra].
    apply Rmult_le_compat_r; [lra|]. apply Rmult_le_compat_l; lra.
  - apply Rle_trans with (l * (- (IZR a + IZR b + IZR c + 3) / 1024)); [apply Rmult_le_compat_l; lra|].
    replace (- (l * (IZR a + IZR b + IZR c + g0 + g1 + g2)) / 1024) with (l * (- (IZR a + IZR b + IZR c + g0 + g1 + g2) / 1024)) by field. apply Rmult_le_compat_l; lra.
Qed.
Definition tabs3 (k : nat) (s : list R) : Vector3 R := let '((x, y, z), _) := tabs k in triR (tabR x) (tabR y) (tabR z) s.
Definition sum3 (t : Vector3 R) : R := v0 t + v1 t + v2 t.
Definition lit (r : list dec) : list R := mulS (tabR r) (tabR T_CIE_D65).
Definition D65_exp : positive := 5.
Lemma D65_facts : length T_CIE_D65 = 400%nat /\ exps (Zneg D65_exp) T_CIE_D65 = true.
Proof. split; vm_compute; reflexivity. Qed.
Lemma surf_facts j r : nth_error T_surf j = Some r -> length r = 400%nat /\ exps (Zneg (pexp r)) r = true /\ lowchk r = true /\ chk 1 r = true.
Proof.
  intros H. apply nth_error_In in H. pose proof (proj1 (forallb_forall _ _) surf_exps r H) as A. pose proof (proj1 (forallb_forall _ _) surf_chk r H) as B. cbv beta in A.
  apply andb_true_iff in A as (A0 & A1). split; [|tauto]. now apply chk_ok in B as (L & _).
Qed.
Definition signs (neg : bool) (T : R) (c : Vector3 R) : Prop :=
  (if neg then v0 c <= - T / 1024 else T / 1024 <= v0 c) /\ T / 1024 <= v1 c /\ T / 1024 <= v2 c.
Lemma samp_sign k j r g : In k [0; 1; 2]%nat -> nth_error T_surf j = Some r -> In g rgbs ->
  let t := tabs3 k (lit r) in 1 <= sum3 t <= bpow radix2 61 /\ nn3 t /\ signs (geqb g gRec709 && outb j) (sum3 t) (applyR (qR (snd (gq g))) t).
Proof.
  intros K J I. pose proof (proj1 (forallb_forall obs_chk _) obs_chks k K) as C. pose proof (tabs_okT k) as OK.
  destruct (surf_facts j r J) as (Lr & Er & _). destruct D65_facts as (Ll & El).
  pose proof (proj1 (forallb_forall (fun g => rows_small (snd (gq g))) _) rgb_small g I) as SM. cbv beta in SM.
  unfold obs_chk, tabs3, tabs_chk in *. destruct (tabs k) as [[[x y] z] [p q]]. apply (each_ok _ 0 T_surf j r) in C; [|exact J]. cbn [Nat.add] in C.
  unfold okT in OK. rewrite !andb_true_iff, !Nat.eqb_eq, !Z.ltb_lt in OK. destruct OK as ((((((((LX & LY) & LZ) & EX) & EY) & EZ) & PX) & PY) & PZ).
  unfold samp_chk in C. set (a := (zdl (d2 r) (s2 (wtab T_CIE_D65 x)) / zsum x)%Z) in *. set (b := (zdl (d2 r) (s2 (wtab T_CIE_D65 y)) / zsum y)%Z) in *.
  set (c := (zdl (d2 r) (s2 (wtab T_CIE_D65 z)) / zsum z)%Z) in *. rewrite !andb_true_iff, !Z.leb_le in C. destruct C as (((((A & B) & Cc) & TT) & TU) & R).
  assert (RC : rows_chk (rows_z (snd (gq g))) (geqb g gRec709 && outb j) a b c = true).
  { rewrite forallb_forall in R. specialize (R (g, rows_z (snd (gq g)))). apply R. unfold rgb_rows. apply in_map_iff. exists g. auto. }
  clear R. cbv zeta. unfold triR, lit. rewrite !(refl_z r T_CIE_D65 _ (pexp r) D65_exp p), (refl_z r T_CIE_D65 _ (pexp r) D65_exp q) by assumption.
  destruct (div_R (zdl (d2 r) (s2 (wtab T_CIE_D65 x))) (zsum x) PX) as (g0 & G0 & ->). destruct (div_R (zdl (d2 r) (s2 (wtab T_CIE_D65 y))) (zsum y) PY) as (g1 & G1 & ->).
  destruct (div_R (zdl (d2 r) (s2 (wtab T_CIE_D65 z))) (zsum z) PZ) as (g2 & G2 & ->). fold a b c.
  pose proof (p10_pos (pexp r)) as Pr. pose proof (p10_pos D65_exp) as Pl. assert (P5 : p10 D65_exp = 100000) by reflexivity.
  set (l := / (p10 (pexp r) * p10 D65_exp)). assert (L : 0 < l) by (apply Rinv_0_lt_compat; apply Rmult_lt_0_compat; assumption).
  assert (L1 : l * (p10 (pexp r) * 100000) = 1) by (unfold l; rewrite P5; field; lra).
  apply IZR_le in TT, TU. rewrite !plus_IZR in TU. change (IZR (2 ^ 60)) with (bpow radix2 60) in TU. rewrite !plus_IZR, mult_IZR in TT. fold (p10 (pexp r)) in TT.
  unfold rows_small in SM. destruct (rows_z (snd (gq g))) as [[r0 r1] r2] eqn:RZ. rewrite !andb_true_iff in SM. destruct SM as (((D & S0) & S1) & S2).
  destruct (snd (gq g)) as [[n0 n1 n2 n3 n4 n5 n6 n7 n8] d0 d1 d2']. unfold nz_den in D. cbn [qd0 qd1 qd2] in D. rewrite !andb_true_iff, !negb_true_iff, !Z.eqb_neq in D. destruct D as ((D0 & D1) & D2).
  unfold rows_z in RZ. cbn [qn qd0 qd1 qd2 m0 m1 m2 m3 m4 m5 m6 m7 m8] in RZ. injection RZ as <- <- <-.
  rewrite applyR_eq. unfold qR. cbn [qn qd0 qd1 qd2 m0 m1 m2 m3 m4 m5 m6 m7 m8 v0 v1 v2]. unfold sum3, nn3, signs. cbn [v0 v1 v2].
  apply IZR_le in A as A', B as B', Cc as C'.
  split; [|split].
  - assert (L2 : l <= 1).
    { unfold l. rewrite P5. assert (1 <= p10 (pexp r)). { unfold p10. apply (IZR_le 1). change (Z.pow_pos 10 (pexp r)) with (10 ^ Zpos (pexp r))%Z. pose proof (Z.pow_pos_nonneg 10 (Zpos (pexp r))). lia. }
      rewrite <- Rinv_1. apply Rinv_le_contravar; lra. }
    split; [|apply Rle_trans with (l * (IZR a + IZR b + IZR c + 3)); [rewrite <- !Rmult_plus_distr_l; apply Rmult_le_compat_l; lra|];
      apply Rle_trans with (1 * (IZR a + IZR b + IZR c + 3)); [apply Rmult_le_compat_r; lra|];
      change (bpow radix2 61) with 2305843009213693952; change (bpow radix2 60) with 1152921504606846976 in TU; lra].
    apply Rle_trans with (l * (IZR a + IZR b + IZR c)); [rewrite <- L1; apply Rmult_le_compat_l; lra|].
    apply Rle_trans with (l * (IZR a + IZR b + IZR c + g0 + g1 + g2)); [apply Rmult_le_compat_l; lra|]. apply Req_le. ring.
  - repeat split; apply Rmult_le_pos; lra.
  - unfold rows_chk, row_z in *. rewrite !andb_true_iff in RC. destruct RC as ((R0 & R1) & R2).
    destruct (unit20 n0 d0 D0) as (f0 & F0 & ->), (unit20 n1 d0 D0) as (f1 & F1 & ->), (unit20 n2 d0 D0) as (f2 & F2 & ->).
    destruct (unit20 n3 d1 D1) as (f3 & F3 & ->), (unit20 n4 d1 D1) as (f4 & F4 & ->), (unit20 n5 d1 D1) as (f5 & F5 & ->).
    destruct (unit20 n6 d2' D2) as (f6 & F6 & ->), (unit20 n7 d2' D2) as (f7 & F7 & ->), (unit20 n8 d2' D2) as (f8 & F8 & ->).
    pose proof (row_sign _ _ _ a b c f0 f1 f2 g0 g1 g2 l S0 A B Cc F0 F1 F2 G0 G1 G2 L) as (X0 & Y0).
    pose proof (row_sign _ _ _ a b c f3 f4 f5 g0 g1 g2 l S1 A B Cc F3 F4 F5 G0 G1 G2 L) as (X1 & _).
    pose proof (row_sign _ _ _ a b c f6 f7 f8 g0 g1 g2 l S2 A B Cc F6 F7 F8 G0 G1 G2 L) as (X2 & _).
    split; [|split; [exact (X1 R1)|exact (X2 R2)]]. destruct (geqb g gRec709 && outb j); [exact (Y0 R0)|exact (X0 R0)].
Qed.

(** ** Mixtures, over the reals. *)
Lemma dot_mix s w f n X : (forall i, (i < 400)%nat -> smp s i = sum_f_R0 (fun j => w j * smp (f j) i) n) ->
  dotR s X = sum_f_R0 (fun j => w j * dotR (f j) X) n.
Proof.
  intros H. unfold dotR. assert (G : forall m, (m < 400)%nat -> sum_f_R0 (fun i => smp s i * smp X i) m = sum_f_R0 (fun j => w j * sum_f_R0 (fun i => smp (f j) i * smp X i) m) n); [|apply G; lia].
  induction m as [|m IH]; intros M; cbn [sum_f_R0]; [|rewrite IH by lia]; rewrite H by lia; rewrite Rmult_comm, scal_sum; [apply sum_eq; intros; ring|].
  rewrite <- sum_plus. apply sum_eq. intros. ring.
Qed.
Lemma comb3 (w A B C : nat -> R) a b c n : a * sum_f_R0 (fun j => w j * A j) n + b * sum_f_R0 (fun j => w j * B j) n + c * sum_f_R0 (fun j => w j * C j) n =
  sum_f_R0 (fun j => w j * (a * A j + b * B j + c * C j)) n.
Proof. induction n as [|n IH]; cbn [sum_f_R0]; [ring|]. rewrite <- IH. ring. Qed.
Lemma div_sum (w A : nat -> R) s n : sum_f_R0 (fun j => w j * A j) n / s = sum_f_R0 (fun j => w j * (A j / s)) n.
Proof. induction n as [|n IH]; cbn [sum_f_R0]; [unfold Rdiv; ring|]. rewrite <- IH. unfold Rdiv. ring. Qed.
Lemma mix3 k q s w f n : (forall i, (i < 400)%nat -> smp s i = sum_f_R0 (fun j => w j * smp (f j) i) n) ->
  let c := applyR q (tabs3 k s) in let cj j := applyR q (tabs3 k (f j)) in
  v0 c = sum_f_R0 (fun j => w j * v0 (cj j)) n /\ v1 c = sum_f_R0 (fun j => w j * v1 (cj j)) n /\ v2 c = sum_f_R0 (fun j => w j * v2 (cj j)) n.
Proof.
  intros H. cbv zeta. unfold tabs3. destruct (tabs k) as [[[x y] z] e]. rewrite applyR_eq. cbn [v0 v1 v2]. unfold triR. cbn [v0 v1 v2].
  rewrite !(dot_mix s w f n _ H), !div_sum, !comb3. repeat split; apply sum_eq; intros; rewrite applyR_eq; reflexivity.
Qed.
Definition surfR : list (list R) := map tabR T_surf.
Lemma surfR_fin : surfaces RN = map finS surfR.
Proof. rewrite surf_map. unfold surfR. rewrite map_map. apply map_ext. intros. apply spectrum_of_fin. Qed.
Lemma surf_count : length T_surf = 123%nat. Proof. reflexivity. Qed.
Lemma real_obs k r l : spectrumR r -> spectrumR l -> fromReflectanceAndLight RN (obs_of_tabs (fst (tabs k))) (finS r) (finS l) = finV (tabs3 k (mulS r l)).
Proof.
  intros Lr Ll. rewrite C57_l, S_mul_fin by assumption. pose proof (tabs_okT k) as T. unfold tabs3, tabs_chk in *. destruct (tabs k) as [[[x y] z] [p q]]. cbn [fst obs_of_tabs].
  apply fromSpectrum_fin; [exact (ok_obs _ _ _ _ _ T)|apply pw_len].
Qed.
Lemma real_gam g t : G_fromXYZ_t RN (gam g RN) (finV t) = finV (applyR (qR (snd (gq g))) t).
Proof. rewrite gq_ok. unfold G_fromXYZ_t. cbn [g_fromXYZ]. apply M_apply_fin. Qed.
Lemma D65_fin : CIE_D65 RN = finS (tabR T_CIE_D65) /\ spectrumR (tabR T_CIE_D65).
Proof. split; [apply spectrum_of_fin|]. unfold spectrumR, tabR. rewrite map_length. apply D65_facts. Qed.
Lemma sum_nn' f n : (forall i, (i <= n)%nat -> 0 <= f i) -> 0 <= sum_f_R0 f n.
Proof. induction n as [|n IH]; intros H; cbn [sum_f_R0]; [apply H; lia|]. specialize (IH ltac:(intros; apply H; lia)). specialize (H (S n) ltac:(lia)). lra. Qed.
Lemma mixtures o g (w : nat -> R) (r : list R) : In o [CIE1931 RN; CIE31JV RN; CIE2012 RN] -> In g rgbs -> (forall k, 0 <= w k) ->
  (g = gRec709 -> forall k, In k out709 -> w k = 0) -> spectrumR r ->
  (forall i, (i < 400)%nat -> nth i r 0 = sum_f_R0 (fun k => w k * nth i (nth k surfR []) 0) 122) ->
  exists t c, fromReflectanceAndLight RN o (finS r) (CIE_D65 RN) = finV t /\ G_fromXYZ_t RN (gam g RN) (finV t) = finV c /\ 0 <= v0 c /\ 0 <= v1 c /\ 0 <= v2 c.
Proof.
  intros O I W W7 L M. destruct (obs_names3 o O) as (k & K & ->). destruct D65_fin as (-> & LD).
  eexists. eexists. split; [apply real_obs; assumption|]. split; [apply real_gam|].
  set (f := fun j => lit (nth j T_surf [])).
  destruct (mix3 k (qR (snd (gq g))) (mulS r (tabR T_CIE_D65)) w f 122) as (E0 & E1 & E2).
  { intros i Hi. unfold mulS. rewrite smp_pw by exact Hi. unfold smp at 1. rewrite M by exact Hi. rewrite Rmult_comm, scal_sum. apply sum_eq. intros j Hj. unfold f, lit, mulS. rewrite smp_pw by exact Hi.
    unfold surfR, smp. change (@nil R) with (tabR []). rewrite map_nth. ring. }
  cbv zeta in E0, E1, E2. rewrite E0, E1, E2. clear E0 E1 E2.
  assert (S : forall j, (j <= 122)%nat -> let c := applyR (qR (snd (gq g))) (tabs3 k (f j)) in 0 <= w j * v0 c /\ 0 <= w j * v1 c /\ 0 <= w j * v2 c).
  { intros j Hj. assert (J : nth_error T_surf j = Some (nth j T_surf [])) by (apply nth_error_nth'; rewrite surf_count; lia).
    destruct (samp_sign k j _ g K J I) as (T1 & _ & S0 & S1 & S2). fold (f j) in *. cbv zeta in *. specialize (W j).
    destruct (geqb g gRec709 && outb j) eqn:B.
    - apply andb_true_iff in B as (B0 & B1). apply geqb_ok in B0. apply outb_ok in B1. rewrite (W7 B0 j B1). lra.
    - repeat split; apply Rmult_le_pos; lra. }
  repeat split; apply sum_nn'; intros j Hj; apply (S j Hj).
Qed.
Lemma outside o j r : In o [CIE1931 RN; CIE31JV RN; CIE2012 RN] -> nth_error surfR j = Some r ->
  exists t c, fromReflectanceAndLight RN o (finS r) (CIE_D65 RN) = finV t /\ G_fromXYZ_t RN (Rec709 RN) (finV t) = finV c /\
    (if in_dec Nat.eq_dec j out709 then v0 c < 0 else 0 < v0 c) /\ 0 < v1 c /\ 0 < v2 c.
Proof.
  intros O J. destruct (obs_names3 o O) as (k & K & ->). destruct D65_fin as (-> & LD). unfold surfR in J. rewrite nth_error_map in J.
  destruct (nth_error T_surf j) as [x|] eqn:E; [|discriminate]. injection J as <-. destruct (surf_facts j x E) as (Lx & _).
  eexists. eexists. split; [apply real_obs; [unfold spectrumR, tabR; now rewrite map_length|exact LD]|]. split; [exact (real_gam gRec709 _)|].
  destruct (samp_sign k j x gRec709 K E ltac:(cbn [rgbs In]; tauto)) as (T1 & _ & S0 & S1 & S2). fold (lit x) in *. cbv zeta in *. cbn [geqb andb] in S0.
  split; [|split; lra]. destruct (in_dec Nat.eq_dec j out709) as [B|B]; [apply outb_ok in B; rewrite B in S0; lra|].
  destruct (outb j) eqn:Q; [apply outb_ok in Q; contradiction|lra].
Qed.

(** ** Each surface, in binary32. *)
Lemma surf_row (n0 n1 n2 d : Z) (s0 s1 s2 t0 t1 t2 e0 e1 e2 : R) : d <> 0%Z -> row_small (row_z n0 n1 n2 d) = true -> Rabs (s0 - t0) <= e0 -> Rabs (s1 - t1) <= e1 -> Rabs (s2 - t2) <= e2 ->
  Rabs ((IZR n0 / IZR d * s0 + IZR n1 / IZR d * s1 + IZR n2 / IZR d * s2) - (IZR n0 / IZR d * t0 + IZR n1 / IZR d * t1 + IZR n2 / IZR d * t2)) <= 4 * (e0 + e1 + e2).
Proof.
  intros D S E0 E1 E2. unfold row_small, row_z in S. rewrite !andb_true_iff, !Z.ltb_lt in S. destruct S as ((S0 & S1) & S2).
  assert (Q : forall n, (Z.abs (n * 2 ^ 20 / d) < 2 ^ 22)%Z -> Rabs (IZR n / IZR d) <= 4).
  { intros n H. destruct (unit20 n d D) as (f & F & ->). assert (- IZR (2 ^ 22) <= IZR (n * 2 ^ 20 / d) <= IZR (2 ^ 22) - 1). { rewrite <- opp_IZR, <- minus_IZR. split; apply IZR_le; lia. }
    change (IZR (2 ^ 22)) with 4194304 in *. apply Rabs_le. lra. }
  apply Q in S0, S1, S2. set (a := IZR n0 / IZR d) in *. set (b := IZR n1 / IZR d) in *. set (c := IZR n2 / IZR d) in *.
  replace (a * s0 + b * s1 + c * s2 - (a * t0 + b * t1 + c * t2)) with (a * (s0 - t0) + b * (s1 - t1) + c * (s2 - t2)) by ring.
  eapply Rle_trans; [apply Rabs_triang|]. eapply Rle_trans; [apply Rplus_le_compat_r, Rabs_triang|]. rewrite !Rabs_mult.
  pose proof (Rabs_pos a). pose proof (Rabs_pos b). pose proof (Rabs_pos c). pose proof (Rabs_pos (s0 - t0)). pose proof (Rabs_pos (s1 - t1)). pose proof (Rabs_pos (s2 - t2)). nra.
Qed.
Lemma near_sign f e' e T N : 1 <= T -> N <= 1.001 * T -> Rabs (e' - e) <= 4 * (810 * u * T + 3 * bpow radix2 (-133)) -> Rabs (f - e') <= 30 * u * N + 4 * eta -> Rabs (f - e) <= T / 2048.
Proof.
  intros T1 HN A B. assert (E1 : bpow radix2 (-133) <= u). { apply bpow_le. lia. } assert (E2 : eta <= u) by (apply bpow_le; lia).
  assert (U : u = / 16777216) by (unfold u; cbn; lra). rewrite U in *. apply Rabs_le_inv in A, B. apply Rabs_le. lra.
Qed.
Lemma hasNegF lm (c : Vector3 f32) : allV fin c -> T_hasNegative (FN lm) c = (Rlt_bool (B2R (v0 c)) 0 || Rlt_bool (B2R (v1 c)) 0 || Rlt_bool (B2R (v2 c)) 0).
Proof.
  intros (F0 & F1 & F2). unfold T_hasNegative, isNegative. destruct (l0 lm) as (Z0 & V0).
  assert (Q : forall x : f32, fin x -> @fltb (FN lm) x (@flit (FN lm) 0) = Rlt_bool (B2R x) 0). { intros x Fx. rewrite <- V0. apply ltb_ok; assumption. }
  now rewrite !Q.
Qed.
Lemma gam_agrees lm g : agrees lm (gam g).
Proof.
  destruct g; [exact (AdobeRGB_agrees lm)|exact (Rec709_agrees lm)|exact (Rec2020_agrees lm)|exact (DCI_P3_agrees lm)|exact (S_Gamut_agrees lm)|exact (S_Gamut3_Cine_agrees lm)|exact (ACEScg_agrees lm)|exact (ACES2065_agrees lm)|exact (XYZ_agrees lm)|exact (LMS_agrees lm)].
Qed.
Lemma obs_idx (o : forall N : Num, Observer N) : In o [CIE1931; CIE31JV; CIE2012] -> exists k, In k [0; 1; 2]%nat /\ let '((X, Y, Z), _) := tabs k in In X CMFs /\ In Y CMFs /\ In Z CMFs /\
    forall N, o N = Observer_make N (spectrum_of N X) (spectrum_of N Y) (spectrum_of N Z).
Proof.
  intros O. destruct O as [<-|[<-|[<-|[]]]]; [exists 0%nat|exists 1%nat|exists 2%nat]; (split; [cbn [In]; tauto|]); cbn [tabs T1931 T31JV T2012]; (split; [cbn [In CMFs]; tauto|]); (split; [cbn [In CMFs]; tauto|]);
      (split; [cbn [In CMFs]; tauto|]); intros N; reflexivity.
Qed.
Lemma surf_close lm (o : forall N : Num, Observer N) j x k : (let '((X, Y, Z), _) := tabs k in In X CMFs /\ In Y CMFs /\ In Z CMFs /\
    forall N, o N = Observer_make N (spectrum_of N X) (spectrum_of N Y) (spectrum_of N Z)) -> nth_error T_surf j = Some x ->
  closeT 810 (-133) (fromReflectanceAndLight (FN lm) (o (FN lm)) (spectrum_of (FN lm) x) (CIE_D65 (FN lm))) (tabs3 k (lit x)) (tabs3 k (lit x)).
Proof.
  intros OK E. destruct (surf_facts j x E) as (Lx & Ex & Wx & Cx).
  pose proof (real_obs k (tabR x) (tabR T_CIE_D65)) as RO. destruct (tabs k) as [[[X Y] Z] e] eqn:TK. destruct OK as (IX & IY & IZ & EO).
  destruct (obs_tab lm 1 200 x T_CIE_D65 ltac:(lia) ltac:(lia) Cx D65_chk Wx low_D65 X Y Z IX IY IZ) as (t' & A & _ & B). rewrite EO.
  rewrite obs_of, !spectrum_of_fin in A. cbn [fst obs_of_tabs] in RO. rewrite RO in A; [|unfold spectrumR, tabR; now rewrite map_length|apply D65_fin]. apply finV_inj in A.
  unfold lit. rewrite A. exact B.
Qed.
Lemma conv_signs lm g b (f : Vector3 f32) (t : Vector3 R) : In g rgbs -> 1 <= sum3 t <= bpow radix2 61 -> nn3 t -> signs b (sum3 t) (applyR (qR (snd (gq g))) t) -> closeT 810 (-133) f t t ->
  allV fin (G_fromXYZ_t (FN lm) (gam g (FN lm)) f) /\ T_hasNegative (FN lm) (G_fromXYZ_t (FN lm) (gam g (FN lm)) f) = b.
Proof.
  intros I (T1 & T2) (P0 & P1 & P2) SG CL.
  destruct CL as ((F0 & C0) & (F1 & C1) & (F2 & C2)).
  assert (FF : allV fin f) by (repeat split; assumption). unfold sum3 in *.
  assert (U : u = / 16777216) by (unfold u; cbn; lra). assert (E1 : bpow radix2 (-133) <= u) by (apply bpow_le; lia).
  assert (NB : norm3 f <= 1.001 * sum3 t).
  { unfold norm3, sum3. rewrite U in *. apply Rabs_le_inv in C0, C1, C2. repeat apply Rmax_lub; apply Rabs_le; lra. }
  assert (NB2 : norm3 f <= bpow radix2 110).
  { apply Rle_trans with (1 := NB). apply Rle_trans with (bpow radix2 62); [|apply bpow_le; lia]. change (bpow radix2 62) with (2 * bpow radix2 61). unfold sum3. lra. }
  destruct (gam_agrees lm g f FF NB2) as (_ & e & EE & (FC & N0 & N1 & N2)). rewrite real_gam in EE. apply finV_inj in EE.
  pose proof (proj1 (forallb_forall (fun g => rows_small (snd (gq g))) _) rgb_small g I) as SM. cbv beta in SM. unfold rows_small in SM.
  destruct (rows_z (snd (gq g))) as [[r0 r1] r2] eqn:RZ. rewrite !andb_true_iff in SM. destruct SM as (((D & S0) & S1) & S2).
  split; [exact FC|]. rewrite hasNegF by exact FC.
  set (c := G_fromXYZ_t (FN lm) (gam g (FN lm)) f) in *. clearbody c. rewrite applyR_eq in EE, SG. subst e.
  destruct (snd (gq g)) as [[n0 n1 n2 n3 n4 n5 n6 n7 n8] d0 d1 d2']. unfold nz_den in D. cbn [qd0 qd1 qd2] in D. rewrite !andb_true_iff, !negb_true_iff, !Z.eqb_neq in D. destruct D as ((D0 & D1) & D2).
  unfold rows_z in RZ. cbn [qn qd0 qd1 qd2 m0 m1 m2 m3 m4 m5 m6 m7 m8] in RZ. injection RZ as <- <- <-.
  unfold qR, signs, vR in *. cbn [qn qd0 qd1 qd2 m0 m1 m2 m3 m4 m5 m6 m7 m8 v0 v1 v2] in *.
  assert (ES : forall m0 m1 m2 d, d <> 0%Z -> row_small (row_z m0 m1 m2 d) = true -> forall y,
    Rabs (y - (IZR m0 / IZR d * B2R (v0 f) + IZR m1 / IZR d * B2R (v1 f) + IZR m2 / IZR d * B2R (v2 f))) <= 30 * u * norm3 f + 4 * eta ->
    Rabs (y - (IZR m0 / IZR d * v0 t + IZR m1 / IZR d * v1 t + IZR m2 / IZR d * v2 t)) <= (v0 t + v1 t + v2 t) / 2048).
  { intros p0 p1 p2 d Hd HS y HY. apply (near_sign y _ _ _ _ T1 NB) with (2 := HY). eapply Rle_trans; [apply (surf_row p0 p1 p2 d _ _ _ _ _ _ _ _ _ Hd HS C0 C1 C2)|]. lra. }
  pose proof (ES _ _ _ _ D0 S0 _ N0) as Q0. pose proof (ES _ _ _ _ D1 S1 _ N1) as Q1. pose proof (ES _ _ _ _ D2 S2 _ N2) as Q2. clear ES N0 N1 N2. apply Rabs_le_inv in Q0, Q1, Q2.
  destruct SG as (G0 & G1 & G2). match type of Q0 with _ <= ?y - _ <= _ => set (y0 := y) in * end. match type of Q1 with _ <= ?y - _ <= _ => set (y1 := y) in * end. match type of Q2 with _ <= ?y - _ <= _ => set (y2 := y) in * end.
  change (Rlt_bool y0 0 || Rlt_bool y1 0 || Rlt_bool y2 0 = b)%bool. clearbody y0 y1 y2.
  rewrite (Rlt_bool_false y1), (Rlt_bool_false y2) by lra. rewrite !orb_false_r.
  destruct b; [apply Rlt_bool_true|apply Rlt_bool_false]; lra.
Qed.
Lemma surf_signF lm (o : forall N : Num, Observer N) g j (r : Spectrum (FN lm)) : In o [CIE1931; CIE31JV; CIE2012] -> In g rgbs -> nth_error (surfaces (FN lm)) j = Some r ->
  let c := G_fromXYZ_t (FN lm) (gam g (FN lm)) (fromReflectanceAndLight (FN lm) (o (FN lm)) r (CIE_D65 (FN lm))) in
  allV fin c /\ T_hasNegative (FN lm) c = (geqb g gRec709 && outb j).
Proof.
  intros O I J. rewrite surf_map, nth_error_map in J. destruct (nth_error T_surf j) as [x|] eqn:E; [|discriminate]. injection J as <-.
  destruct (obs_idx o O) as (k & K & OK). destruct (samp_sign k j x g K E I) as (T & P & SG). exact (conv_signs lm g _ _ _ I T P SG (surf_close lm o j x k OK E)).
Qed.
Lemma surf_in lm o g j r : In o [CIE1931; CIE31JV; CIE2012] -> In g [gAdobeRGB; gRec2020; gDCI_P3; gS_Gamut; gS_Gamut3_Cine; gACEScg; gACES2065] -> nth_error (surfaces (FN lm)) j = Some r ->
  let c := G_fromXYZ_t (FN lm) (gam g (FN lm)) (fromReflectanceAndLight (FN lm) (o (FN lm)) r (CIE_D65 (FN lm))) in allV fin c /\ T_hasNegative (FN lm) c = false.
Proof.
  intros O I J. assert (R : In g rgbs) by (cbn [In rgbs] in *; tauto). destruct (surf_signF lm o g j r O R J) as (F & E). split; [exact F|]. rewrite E.
  destruct I as [<-|[<-|[<-|[<-|[<-|[<-|[<-|[]]]]]]]]; reflexivity.
Qed.
Lemma surf_709 lm o j r : In o [CIE1931; CIE31JV; CIE2012] -> nth_error (surfaces (FN lm)) j = Some r ->
  let c := G_fromXYZ_t (FN lm) (Rec709 (FN lm)) (fromReflectanceAndLight (FN lm) (o (FN lm)) r (CIE_D65 (FN lm))) in allV fin c /\ (T_hasNegative (FN lm) c = true <-> In j out709).
Proof.
  intros O J. destruct (surf_signF lm o gRec709 j r O ltac:(cbn [In rgbs]; tauto) J) as (F & E). split; [exact F|]. change (Rec709 (FN lm)) with (gam gRec709 (FN lm)). rewrite E. cbn [geqb andb]. apply outb_ok.
Qed.
Lemma surf_case lm : length (surfaces (FN lm)) = 123%nat /\ nth_error (surfaces (FN lm)) 17 = Some (spectrum_of (FN lm) T_Macbeth26) /\ nth_error (surfaces (FN lm)) 76 = Some (spectrum_of (FN lm) T_CES53) /\
  surfaces RN = map finS surfR /\ length surfR = 123%nat.
Proof. rewrite surf_map, map_length. split; [exact surf_count|]. split; [reflexivity|]. split; [reflexivity|]. split; [exact surfR_fin|]. unfold surfR. rewrite map_length. exact surf_count. Qed.
(** half of one sample: weights that are not all zero. *)
Lemma mix_case : let w := fun k => if Nat.eqb k 0 then / 2 else 0 in let r := map (Rmult (/ 2)) (nth 0 surfR []) in
  (forall k, 0 <= w k) /\ (forall k, In k [17; 76; 80; 81; 87; 89; 90]%nat -> w k = 0) /\ spectrumR r /\
  (forall i, (i < 400)%nat -> nth i r 0 = sum_f_R0 (fun k => w k * nth i (nth k surfR []) 0) 122).
Proof.
  cbv zeta. split; [intros k; destruct (Nat.eqb k 0); lra|]. split; [intros k I; destruct k; [cbn [In] in I; exfalso; lia|reflexivity]|].
  split; [unfold spectrumR; rewrite map_length; unfold surfR; change (@nil R) with (tabR []); rewrite map_nth; unfold tabR; rewrite map_length; reflexivity|].
  intros i Hi. set (y := nth i (nth 0 surfR []) 0).
  assert (E : forall n, sum_f_R0 (fun k => (if Nat.eqb k 0 then / 2 else 0) * nth i (nth k surfR []) 0) n = / 2 * y).
  { induction n as [|n IH]; cbn [sum_f_R0 Nat.eqb]; [reflexivity|]. rewrite IH. ring. }
  rewrite E. unfold y. replace 0 with (/ 2 * 0) at 1 by ring. apply map_nth.
Qed.
