(** * The Newton iteration of [util::sqrtf] over the reals with binary32 rounding. *)
From Coq Require Import ZArith Znumtheory Zpow_facts Reals Lra Lia Psatz Bool.
From Flocq Require Import Core BinarySingleNaN Sterbenz Mult_error.
From Verif Require Import Num NumF MVec MTri F32.
Local Open Scope R_scope.

Notation B := (bpow radix2).
Lemma p23 : IZR (2 ^ 23) = 8388608. Proof. reflexivity. Qed.
Lemma p24 : IZR (2 ^ 24) = 16777216. Proof. reflexivity. Qed.

(** ** Rounding on the grid of multiples of [2^e] between [2^23 2^e] and [2^24 2^e]. *)
Lemma grid_cexp e z : (-149 <= e)%Z -> 8388608 * B e <= z < 16777216 * B e -> cexp radix2 fe z = e.
Proof.
  intros He H. unfold cexp. assert (M : mag radix2 z = (e + 24)%Z :> Z).
  { apply mag_unique. pose proof (bpow_gt_0 radix2 e). rewrite Rabs_pos_eq by lra.
    replace (e + 24 - 1)%Z with (23 + e)%Z by lia. rewrite (Zplus_comm e 24), !bpow_plus.
    change (B 23) with 8388608. change (B 24) with 16777216. exact H. }
  rewrite M. unfold FLT_exp. lia.
Qed.
Lemma grid_rnd e z : (-149 <= e)%Z -> 8388608 * B e <= z < 16777216 * B e -> rnd z = IZR (ZnearestE (z / B e)) * B e.
Proof.
  intros He H. unfold round, scaled_mantissa. rewrite (grid_cexp e z He H). unfold F2R. cbn [Fnum Fexp].
  rewrite bpow_opp. reflexivity.
Qed.
Section Grid.
Context (e n : Z) (He : (-149 <= e)%Z) (Hn : (2 ^ 23 <= n < 2 ^ 24)%Z).
Lemma Gn : 8388608 <= IZR n /\ IZR n + 1 <= 16777216.
Proof. destruct Hn as [A C]. apply IZR_le in A. rewrite p23 in A. assert (C' : (n + 1 <= 2 ^ 24)%Z) by lia. apply IZR_le in C'. rewrite plus_IZR, p24 in C'. lra. Qed.
Lemma Gf0 : fmt (IZR n * B e). Proof. apply fmt_F2R; lia. Qed.
Lemma Gf1 : fmt ((IZR n + 1) * B e). Proof. rewrite <- (plus_IZR n 1). apply fmt_F2R; lia. Qed.
Lemma Gdiv z : IZR n * B e <= z < (IZR n + 1) * B e -> rnd z = IZR (ZnearestE (z / B e)) * B e /\ IZR n <= z / B e < IZR n + 1.
Proof.
  intros H. pose proof (bpow_gt_0 radix2 e) as U. pose proof Gn as N. split.
  - apply grid_rnd; [exact He|]. split; [apply Rle_trans with (2 := proj1 H)|apply Rlt_le_trans with (1 := proj2 H)];
      apply Rmult_le_compat_r; lra.
  - split; [apply Rmult_le_reg_r with (B e)|apply Rmult_lt_reg_r with (B e)]; try assumption;
      unfold Rdiv; rewrite Rmult_assoc, Rinv_l, Rmult_1_r by lra; lra.
Qed.
Lemma zcmp z a : z < a * B e -> z / B e < a.
Proof. intros H. pose proof (bpow_gt_0 radix2 e). apply Rmult_lt_reg_r with (B e); [assumption|]. unfold Rdiv. rewrite Rmult_assoc, Rinv_l; lra. Qed.
Lemma zcmp' z a : a * B e < z -> a < z / B e.
Proof. intros H. pose proof (bpow_gt_0 radix2 e). apply Rmult_lt_reg_r with (B e); [assumption|]. unfold Rdiv. rewrite Rmult_assoc, Rinv_l; lra. Qed.
Lemma G_hi z : z < (IZR n + /2) * B e -> rnd z <= IZR n * B e.
Proof.
  intros H. pose proof (bpow_gt_0 radix2 e) as U. destruct (Rlt_le_dec z (IZR n * B e)) as [L|L].
  - apply rnd_le_fmt; [apply Gf0|lra].
  - destruct (Gdiv z) as [-> K]; [split; [exact L|lra]|]. apply zcmp in H.
    rewrite (Znearest_imp _ _ n); [lra|]. rewrite Rabs_pos_eq by lra. lra.
Qed.
Lemma G_lo z : (IZR n + /2) * B e < z -> (IZR n + 1) * B e <= rnd z.
Proof.
  intros H. pose proof (bpow_gt_0 radix2 e) as U. destruct (Rlt_le_dec z ((IZR n + 1) * B e)) as [L|L].
  - destruct (Gdiv z) as [-> K]; [split; [lra|exact L]|]. apply zcmp' in H.
    rewrite (Znearest_imp _ _ (n + 1)); [rewrite plus_IZR; lra|]. rewrite plus_IZR, Rabs_left1 by lra. lra.
  - apply rnd_ge_fmt; [apply Gf1|exact L].
Qed.
Lemma G_tie : ZnearestE (IZR n + /2) = if Z.even n then n else (n + 1)%Z.
Proof.
  unfold Znearest. assert (F : Zfloor (IZR n + / 2) = n) by (apply Zfloor_imp; rewrite plus_IZR; lra).
  rewrite F. replace (IZR n + / 2 - IZR n) with (/2) by ring. rewrite Rcompare_Eq by reflexivity.
  destruct (Z.even n); [reflexivity|]. cbn [negb].
  rewrite (Zceil_imp (n + 1)); [reflexivity|]. rewrite plus_IZR. replace (n + 1 - 1)%Z with n by lia. lra.
Qed.
Lemma G_mid : rnd ((IZR n + /2) * B e) = (if Z.even n then IZR n else IZR n + 1) * B e.
Proof.
  pose proof (bpow_gt_0 radix2 e) as U. destruct (Gdiv ((IZR n + /2) * B e)) as [-> _]; [split; lra|].
  replace ((IZR n + / 2) * B e / B e) with (IZR n + /2) by (field; lra). rewrite G_tie.
  destruct (Z.even n); [reflexivity|]. now rewrite plus_IZR.
Qed.
Lemma G_even z : Z.even n = true -> z <= (IZR n + /2) * B e -> rnd z <= IZR n * B e.
Proof. intros E H. pose proof G_mid as M. rewrite E in M. rewrite <- M. now apply rnd_le. Qed.
Lemma G_odd z : Z.even n = false -> (IZR n + /2) * B e <= z -> (IZR n + 1) * B e <= rnd z.
Proof. intros E H. pose proof G_mid as M. rewrite E in M. rewrite <- M. now apply rnd_le. Qed.
(** the float after [n 2^e] is [(n+1) 2^e]. *)
Lemma G_next c : fmt c -> IZR n * B e < c -> (IZR n + 1) * B e <= c.
Proof.
  intros F H. destruct (Rle_lt_dec ((IZR n + 1) * B e) c) as [L|L]; [exact L|exfalso].
  destruct (Gdiv c) as [E K]; [split; lra|]. rewrite (rnd_id c F) in E. pose proof (bpow_gt_0 radix2 e) as U.
  set (q := ZnearestE (c / B e)) in *.
  assert (n < q)%Z by (apply lt_IZR; apply Rmult_lt_reg_r with (B e); lra).
  assert (q < n + 1)%Z by (apply lt_IZR; rewrite plus_IZR; apply Rmult_lt_reg_r with (B e); lra). lia.
Qed.
End Grid.

(** ** Setting: [X] a positive float, [s] its root, [m 2^e] the float just below. *)
Section Newton.
Context (X : R) (FX : fmt X) (X0 : 0 < X) (Xmax : X < B 128).
Let s := sqrt X.
Lemma s_pos : 0 < s. Proof. apply sqrt_lt_R0, X0. Qed.
Lemma s_sq : s * s = X. Proof. apply sqrt_def. lra. Qed.
Lemma X_lo : B (-149) <= X.
Proof.
  apply (generic_format_ge_bpow radix2 fe (-149)) in FX; [exact FX| |exact X0].
  intros k. unfold FLT_exp. lia.
Qed.
Definition ex : Z := (mag radix2 s - 24)%Z.
Lemma ex_lo : (-98 <= ex)%Z.
Proof.
  unfold ex. assert (75 <= 149 + mag radix2 s)%Z; [|lia].
  assert (K : B (-75) < s).
  { apply Rsqr_incrst_0; [|apply bpow_ge_0|left; apply s_pos]. unfold Rsqr. rewrite s_sq, <- bpow_plus.
    apply Rlt_le_trans with (2 := X_lo). apply bpow_lt. lia. }
  assert (-75 < mag radix2 s)%Z; [|lia]. apply mag_gt_bpow. rewrite Rabs_pos_eq by (left; apply s_pos). lra.
Qed.
Definition mm : Z := Zfloor (s / B ex).
Notation u := (B ex).
Notation m := (IZR mm).
Lemma u_pos : 0 < u. Proof. apply bpow_gt_0. Qed.
Lemma s_scale : 8388608 <= s / u < 16777216.
Proof.
  pose proof u_pos. pose proof s_pos. pose proof (bpow_mag_le radix2 s ltac:(lra)) as L. pose proof (bpow_mag_gt radix2 s) as G.
  rewrite Rabs_pos_eq in L, G by lra. assert (E : (mag radix2 s = 24 + ex :> Z)%Z) by (unfold ex; lia). rewrite E in *.
  replace (24 + ex - 1)%Z with (23 + ex)%Z in L by lia. rewrite bpow_plus in L, G.
  change (B 23) with 8388608 in L. change (B 24) with 16777216 in G.
  split; [apply Rmult_le_reg_r with u|apply Rmult_lt_reg_r with u]; try assumption; unfold Rdiv; rewrite Rmult_assoc, Rinv_l; lra.
Qed.
Lemma mm_range : (2 ^ 23 <= mm < 2 ^ 24)%Z.
Proof.
  pose proof s_scale. unfold mm. split.
  - apply Zfloor_lub. rewrite p23. lra.
  - apply lt_IZR. rewrite p24. pose proof (Zfloor_lb (s / u)). lra.
Qed.
Lemma m_range : 8388608 <= m <= 16777215.
Proof. pose proof mm_range as [A C]. apply IZR_le in A. assert (C' : (mm <= 2 ^ 24 - 1)%Z) by lia. apply IZR_le in C'. split; [exact A|exact C']. Qed.
Lemma s_between : m * u <= s < (m + 1) * u.
Proof.
  pose proof u_pos. pose proof (Zfloor_lb (s / u)) as L. pose proof (Zfloor_ub (s / u)) as G. fold mm in L, G.
  assert (E : s = s / u * u) by (field; lra). split; rewrite E at 1; [apply Rmult_le_compat_r; lra|apply Rmult_lt_compat_r; lra].
Qed.
Lemma X_between : m * u * (m * u) <= X < (m + 1) * u * ((m + 1) * u).
Proof.
  pose proof s_between as [A C]. pose proof u_pos. pose proof m_range. rewrite <- s_sq.
  assert (0 <= m * u) by (apply Rmult_le_pos; lra). split; [apply Rmult_le_compat; lra|apply Rmult_le_0_lt_compat; lra].
Qed.
Lemma e_ok : (-149 <= ex)%Z. Proof. pose proof ex_lo. lia. Qed.
Lemma e1_ok : (-149 <= 1 + ex)%Z. Proof. pose proof ex_lo. lia. Qed.
Lemma e2_ok : (-149 <= 2 + ex)%Z. Proof. pose proof ex_lo. lia. Qed.
Lemma B1 : B (1 + ex) = 2 * u. Proof. rewrite bpow_plus. reflexivity. Qed.
Lemma B2 : B (2 + ex) = 4 * u. Proof. rewrite bpow_plus. reflexivity. Qed.

(** The unhalved Newton step. *)
Definition Y (c : R) : R := rnd (c + rnd (X / c)).

Lemma k_fmt : fmt (m * u). Proof. apply fmt_F2R; pose proof mm_range; pose proof e_ok; lia. Qed.
Lemma k2_fmt : fmt (2 * (m * u)).
Proof. replace (2 * (m * u)) with (m * B (1 + ex)) by (rewrite B1; ring). apply fmt_F2R; pose proof mm_range; pose proof e1_ok; lia. Qed.
Lemma amgm c : 0 < c -> 2 * s - c <= X / c.
Proof.
  intros C. apply Rmult_le_reg_r with c; [exact C|]. unfold Rdiv. rewrite Rmult_assoc, Rinv_l, Rmult_1_r by lra.
  rewrite <- s_sq. pose proof (Rle_0_sqr (s - c)). unfold Rsqr in *. lra.
Qed.
(** (A) a step never goes below the root's lower neighbour. *)
Lemma step_ge c : fmt c -> m * u <= c -> 2 * (m * u) <= Y c.
Proof.
  intros F H. pose proof u_pos. pose proof m_range. assert (P : 0 < m * u) by (apply Rmult_lt_0_compat; lra).
  unfold Y. apply rnd_ge_fmt; [apply k2_fmt|]. pose proof (amgm c ltac:(lra)) as A. pose proof s_between.
  destruct (Rle_lt_dec c (2 * (m * u))) as [L|L].
  - assert (S : fmt (2 * (m * u) - c)). { apply sterbenz; [typeclasses eauto|typeclasses eauto|apply k2_fmt|exact F|lra]. }
    pose proof (rnd_ge_fmt (2 * (m * u) - c) (X / c) S ltac:(lra)). lra.
  - assert (0 <= rnd (X / c)). { apply rnd_ge_fmt; [apply fmt_0|]. apply Rmult_le_pos; [lra|]. left. apply Rinv_0_lt_compat. lra. } lra.
Qed.
(** (B) above the root a step does not increase. *)
Lemma step_le c : fmt c -> fmt (2 * c) -> (m + 1) * u <= c -> Y c <= 2 * c.
Proof.
  intros F F2 H. pose proof u_pos. pose proof m_range. assert (P : 0 < (m + 1) * u) by (apply Rmult_lt_0_compat; lra).
  unfold Y. apply rnd_le_fmt; [exact F2|]. assert (rnd (X / c) <= c); [|lra]. apply rnd_le_fmt; [exact F|].
  apply Rmult_le_reg_r with c; [lra|]. unfold Rdiv. rewrite Rmult_assoc, Rinv_l, Rmult_1_r by lra. pose proof X_between as [_ X2].
  apply Rle_trans with (1 := Rlt_le _ _ X2). apply Rmult_le_compat; lra.
Qed.
(** strictly, two floats above. *)
Lemma q_small c : (m + 2) * u <= c -> rnd (X / c) <= m * u.
Proof.
  intros H. pose proof u_pos. pose proof m_range. assert (P : 0 < (m + 2) * u) by (apply Rmult_lt_0_compat; lra).
  apply (G_hi ex mm e_ok mm_range). apply Rmult_lt_reg_r with c; [lra|]. unfold Rdiv. rewrite Rmult_assoc, Rinv_l, Rmult_1_r by lra.
  pose proof X_between as [_ X2]. apply Rlt_le_trans with (1 := X2). 
  apply Rle_trans with ((m + / 2) * u * ((m + 2) * u)); [|apply Rmult_le_compat_l; [apply Rmult_le_pos; lra|lra]].
  replace ((m + 1) * u * ((m + 1) * u)) with ((u * u) * ((m + 1) * (m + 1))) by ring.
  replace ((m + / 2) * u * ((m + 2) * u)) with ((u * u) * ((m + / 2) * (m + 2))) by ring.
  apply Rmult_le_compat_l; [apply Rmult_le_pos; lra|]. nra.
Qed.
Lemma float_grid c : fmt c -> m * u <= c -> exists f n, (ex <= f)%Z /\ (2 ^ 23 <= n < 2 ^ 24)%Z /\ c = IZR n * B f.
Proof.
  intros F H. pose proof u_pos. pose proof m_range. assert (P : 0 < m * u) by (apply Rmult_lt_0_compat; lra).
  set (f := cexp radix2 fe c). assert (E : c = IZR (Ztrunc (scaled_mantissa radix2 fe c)) * B f) by exact F.
  set (n := Ztrunc (scaled_mantissa radix2 fe c)) in *.
  assert (M1 : B (23 + ex) <= c).
  { rewrite bpow_plus. change (B 23) with 8388608. apply Rle_trans with (2 := H). apply Rmult_le_compat_r; lra. }
  assert (MG : (23 + ex < mag radix2 c)%Z) by (apply mag_gt_bpow; rewrite Rabs_pos_eq; lra).
  assert (Ef : f = (mag radix2 c - 24)%Z) by (unfold f, cexp, FLT_exp; pose proof ex_lo; lia).
  pose proof (bpow_mag_le radix2 c ltac:(lra)) as L. pose proof (bpow_mag_gt radix2 c) as G. rewrite Rabs_pos_eq in L, G by lra.
  assert (Em : (mag radix2 c = 24 + f :> Z)%Z) by lia. rewrite Em in L, G. replace (24 + f - 1)%Z with (23 + f)%Z in L by lia.
  rewrite bpow_plus in L, G. pose proof (bpow_gt_0 radix2 f) as V.
  exists f, n. split; [lia|]. split; [|exact E]. split.
  - apply le_IZR. apply Rmult_le_reg_r with (B f); [exact V|]. rewrite <- E. exact L.
  - apply lt_IZR. apply Rmult_lt_reg_r with (B f); [exact V|]. rewrite <- E. exact G.
Qed.
Lemma bpow_ge2 f : (ex < f)%Z -> 2 * u <= B f.
Proof. intros H. rewrite <- B1. apply bpow_le. lia. Qed.
Lemma bpow_ge4 f : (1 + ex < f)%Z -> 4 * u <= B f.
Proof. intros H. rewrite <- B2. apply bpow_le. lia. Qed.
Lemma step_lt c : fmt c -> (m + 2) * u <= c -> Y c < 2 * c.
Proof.
  intros F H. pose proof u_pos. pose proof m_range. pose proof (q_small c H) as Q. unfold Y.
  destruct (float_grid c F) as (f & n & Hf & Hn & E). { apply Rle_trans with (2 := H). apply Rmult_le_compat_r; lra. }
  pose proof (bpow_gt_0 radix2 f) as V. pose proof (Gn n Hn) as N. pose proof ex_lo.
  destruct (Z.eq_dec n (2 ^ 23)) as [Z|Z].
  - (* c a power of two *)
    assert (Ec : c = 8388608 * B f) by (rewrite E, Z; reflexivity).
    assert (Fe : (ex < f)%Z). { destruct (Z.eq_dec f ex) as [->|]; [|lia]. exfalso. rewrite Ec in H. apply Rmult_le_reg_r in H; lra. }
    pose proof (bpow_ge2 f Fe) as V2.
    assert (L : rnd (c + rnd (X / c)) <= IZR (2 ^ 24 - 1) * B f).
    { apply (G_hi f (2 ^ 24 - 1)); [lia|lia|]. change (IZR (2 ^ 24 - 1)) with 16777215.
      assert (m * u < 8388607.5 * B f); [|lra].
      destruct (Z.eq_dec f (1 + ex)) as [->|NF].
      - rewrite B1 in *. rewrite Ec in H. assert (m + 2 <= 16777216) by (apply Rmult_le_reg_r with u; lra). apply Rlt_le_trans with (16777215 * u); [apply Rmult_lt_compat_r; lra|lra].
      - pose proof (bpow_ge4 f ltac:(lia)). apply Rle_lt_trans with (16777215 * u); [apply Rmult_le_compat_r; lra|lra]. }
    change (IZR (2 ^ 24 - 1)) with 16777215 in L. lra.
  - assert (L : rnd (c + rnd (X / c)) <= IZR (n - 1) * B (1 + f)).
    { apply (G_hi (1 + f) (n - 1)); [lia|lia|]. rewrite minus_IZR, bpow_plus. change (B 1) with 2.
      assert (m * u < (IZR n - 1) * B f); [|lra].
      destruct (Z.eq_dec f ex) as [->|NF].
      - rewrite E in H. assert (m + 2 <= IZR n) by (apply Rmult_le_reg_r with u; lra). apply Rmult_lt_compat_r; lra.
      - pose proof (bpow_ge2 f ltac:(lia)). assert (NN : (2 ^ 23 <= n - 1)%Z) by lia. apply IZR_le in NN. rewrite minus_IZR, p23 in NN.
        apply Rle_lt_trans with (16777215 * u); [apply Rmult_le_compat_r; lra|].
        apply Rlt_le_trans with (8388608 * (2 * u)); [lra|]. apply Rmult_le_compat; lra. }
    rewrite minus_IZR, bpow_plus in L. change (B 1) with 2 in L. rewrite E in *. lra.
Qed.

(** (C) from the lower neighbour a step goes at most to the upper one. *)
Lemma q_le : X / (m * u) < (m + 2 + / 8388608) * u.
Proof.
  pose proof u_pos. pose proof m_range. assert (P : 0 < m * u) by (apply Rmult_lt_0_compat; lra).
  apply Rmult_lt_reg_r with (m * u); [lra|]. unfold Rdiv. rewrite Rmult_assoc, Rinv_l, Rmult_1_r by lra.
  pose proof X_between as [_ X2]. apply Rlt_le_trans with (1 := X2).
  replace ((m + 1) * u * ((m + 1) * u)) with ((u * u) * ((m + 1) * (m + 1))) by ring.
  replace ((m + 2 + / 8388608) * u * (m * u)) with ((u * u) * ((m + 2 + / 8388608) * m)) by ring.
  apply Rmult_le_compat_l; [apply Rmult_le_pos; lra|]. lra.
Qed.
Lemma step_k_le : Y (m * u) <= 2 * ((m + 1) * u).
Proof.
  pose proof u_pos. pose proof m_range. pose proof q_le as Q. pose proof mm_range as MR. unfold Y. set (q := X / (m * u)) in *. pose proof ex_lo.
  destruct (Z.eq_dec mm (2 ^ 24 - 1)) as [E|N].
  - assert (Em : m = 16777215) by (rewrite E; reflexivity). rewrite Em in *.
    assert (R1 : rnd q <= 8388609 * B (1 + ex)).
    { apply rnd_le_fmt; [apply (fmt_F2R 8388609); lia|]. rewrite B1. lra. }
    rewrite B1 in R1. replace (2 * ((16777215 + 1) * u)) with (IZR (2 ^ 23) * B (2 + ex)) by (rewrite B2, p23; ring).
    apply (G_hi (2 + ex) (2 ^ 23)); [lia|lia|]. rewrite B2, p23. lra.
  - assert (R1 : rnd q <= (m + 2) * u).
    { destruct (Z.eq_dec mm (2 ^ 24 - 2)) as [E'|N'].
      - assert (Em : m = 16777214) by (rewrite E'; reflexivity). rewrite Em in *.
        replace ((16777214 + 2) * u) with (IZR (2 ^ 23) * B (1 + ex)) by (rewrite B1, p23; ring).
        apply (G_hi (1 + ex) (2 ^ 23)); [lia|lia|]. rewrite B1, p23. lra.
      - replace (m + 2) with (IZR (mm + 2)) by now rewrite plus_IZR. apply (G_hi ex (mm + 2)); [lia|lia|].
        rewrite plus_IZR. lra. }
    replace (2 * ((m + 1) * u)) with (IZR (mm + 1) * B (1 + ex)) by (rewrite plus_IZR, B1; ring).
    apply (G_hi (1 + ex) (mm + 1)); [lia|lia|]. rewrite plus_IZR, B1. lra.
Qed.
(** [X] is an integer multiple of [2^23 u^2]. *)
Lemma X_int : exists j : Z, X = IZR j * (8388608 * (u * u)).
Proof.
  assert (EX : X = IZR (Ztrunc (scaled_mantissa radix2 fe X)) * B (cexp radix2 fe X)) by exact FX.
  set (n := Ztrunc (scaled_mantissa radix2 fe X)) in *.
  assert (C : (23 + (ex + ex) <= cexp radix2 fe X)%Z).
  { unfold cexp, FLT_exp. assert (46 + (ex + ex) < mag radix2 X)%Z; [|lia]. apply mag_gt_bpow. rewrite Rabs_pos_eq by lra.
    pose proof X_between as [L _]. apply Rle_trans with (2 := L). rewrite !bpow_plus. pose proof u_pos. pose proof m_range.
    replace (B 46) with (8388608 * 8388608) by (cbn; lra). replace (8388608 * 8388608 * (u * u)) with ((8388608 * u) * (8388608 * u)) by ring.
    apply Rmult_le_compat; try (apply Rmult_le_compat_r; lra); lra. }
  exists (n * 2 ^ (cexp radix2 fe X - (23 + (ex + ex))))%Z.
  rewrite mult_IZR. change 2%Z with (radix_val radix2) at 1. rewrite IZR_Zpower by lia.
  rewrite EX at 1. replace (8388608 * (u * u)) with (B (23 + (ex + ex))) by (rewrite !bpow_plus; reflexivity).
  rewrite Rmult_assoc, <- bpow_plus. do 2 f_equal. lia.
Qed.
Lemma div_lower c a : 0 < c -> a <= X / c -> a * c <= X.
Proof. intros C H. apply Rmult_le_compat_r with (r := c) in H; [|lra]. unfold Rdiv in H. rewrite Rmult_assoc, Rinv_l, Rmult_1_r in H by lra. exact H. Qed.
Lemma div_upper c a : 0 < c -> X / c <= a -> X <= a * c.
Proof. intros C H. apply Rmult_le_compat_r with (r := c) in H; [|lra]. unfold Rdiv in H. rewrite Rmult_assoc, Rinv_l, Rmult_1_r in H by lra. exact H. Qed.
(** (D) the two neighbours are not exchanged. *)
Lemma no_cycle : Y (m * u) = 2 * ((m + 1) * u) -> Y ((m + 1) * u) = 2 * (m * u) -> False.
Proof.
  intros A C. pose proof u_pos as U. pose proof m_range as M. pose proof mm_range as MR. pose proof ex_lo.
  assert (P : 0 < m * u) by (apply Rmult_lt_0_compat; lra). assert (P1 : 0 < (m + 1) * u) by (apply Rmult_lt_0_compat; lra).
  unfold Y in A, C. set (q := X / (m * u)) in *. set (q' := X / ((m + 1) * u)) in *.
  destruct (Z.even mm) eqn:EV.
  - (* m even *)
    assert (A1 : (m + 1) * u < rnd q).
    { apply Rnot_le_lt. intros L. assert (K : rnd (m * u + rnd q) <= m * B (1 + ex)).
      { apply (G_even (1 + ex) mm); [lia|lia|exact EV|]. rewrite B1. lra. }
      rewrite B1 in K. lra. }
    assert (A2 : (m + 1 + / 2) * u <= q).
    { apply Rnot_lt_le. intros L. assert (mm <> 2 ^ 24 - 1)%Z by (intros EE; rewrite EE in EV; discriminate).
      assert (K : rnd q <= IZR (mm + 1) * u) by (apply (G_hi ex (mm + 1)); [lia|lia|rewrite plus_IZR; exact L]).
      rewrite plus_IZR in K. lra. }
    assert (C1 : rnd q' <= m * u).
    { apply Rnot_lt_le. intros L. assert (K : (m + 1) * B (1 + ex) <= rnd ((m + 1) * u + rnd q')).
      { apply (G_lo (1 + ex) mm); [lia|lia|]. rewrite B1. lra. }
      rewrite B1 in K. lra. }
    assert (C2 : q' <= (m + / 2) * u).
    { apply Rnot_lt_le. intros L. assert (K : (m + 1) * u <= rnd q') by (apply (G_lo ex mm); [lia|lia|exact L]). lra. }
    apply (div_lower (m * u) _ P) in A2. apply (div_upper _ _ P1) in C2.
    destruct X_int as [j J]. rewrite J in A2, C2.
    apply Z.even_spec in EV. destruct EV as [h Hh]. assert (Em : m = 2 * IZR h) by (rewrite Hh, mult_IZR; reflexivity).
    assert (UU : 0 < u * u) by (apply Rmult_lt_0_compat; lra).
    assert (I1 : IZR h * (4 * IZR h + 3) <= IZR j * 8388608).
    { apply Rmult_le_reg_r with (u * u); [exact UU|]. rewrite Em in A2. lra. }
    assert (I2 : IZR j * 8388608 < IZR h * (4 * IZR h + 3) + 1).
    { apply Rmult_lt_reg_r with (u * u); [exact UU|]. rewrite Em in C2. lra. }
    assert (Z1 : (h * (4 * h + 3) <= j * 8388608)%Z) by (apply le_IZR; rewrite !mult_IZR, plus_IZR, mult_IZR; exact I1).
    assert (Z2 : (j * 8388608 < h * (4 * h + 3) + 1)%Z) by (apply lt_IZR; rewrite plus_IZR, !mult_IZR, plus_IZR, mult_IZR; exact I2).
    assert (I : (h * (4 * h + 3) = j * 2 ^ 23)%Z) by lia.
    assert (D : (2 ^ 23 | h * (4 * h + 3))%Z) by (exists j; exact I).
    rewrite Z.mul_comm in D. apply Z.gauss in D.
    + destruct D as [w W]. lia.
    + apply Zgcd_1_rel_prime. apply rel_prime_sym, rel_prime_Zpower_r; [lia|]. apply rel_prime_sym.
      apply bezout_rel_prime. apply (Bezout_intro 2 (4 * h + 3) 1 (- (2 * h + 1)) 1). ring.
  - (* m odd *)
    assert (A1 : (m + 1) * u <= rnd q).
    { apply Rnot_lt_le. intros L. assert (K : rnd (m * u + rnd q) <= m * B (1 + ex)).
      { apply (G_hi (1 + ex) mm); [lia|lia|]. rewrite B1. lra. }
      rewrite B1 in K. lra. }
    assert (A2 : (m + / 2) * u <= q).
    { apply Rnot_lt_le. intros L. assert (K : rnd q <= m * u) by (apply (G_hi ex mm); [lia|lia|exact L]). lra. }
    assert (C1 : rnd q' < m * u).
    { apply Rnot_le_lt. intros L. assert (K : (m + 1) * B (1 + ex) <= rnd ((m + 1) * u + rnd q')).
      { apply (G_odd (1 + ex) mm); [lia|lia|exact EV|]. rewrite B1. lra. }
      rewrite B1 in K. lra. }
    assert (C2 : q' <= (m - / 2) * u).
    { apply Rnot_lt_le. intros L. assert (mm <> 2 ^ 23)%Z by (intros EE; rewrite EE in EV; discriminate).
      assert (K : (IZR (mm - 1) + 1) * u <= rnd q') by (apply (G_lo ex (mm - 1)); [lia|lia|rewrite minus_IZR; lra]).
      rewrite minus_IZR in K. lra. }
    apply (div_lower (m * u) _ P) in A2. apply (div_upper _ _ P1) in C2.
    assert (UU : 0 < u * u) by (apply Rmult_lt_0_compat; lra). lra.
Qed.
(** an exact root is a fixed point, and its upper neighbour steps down to it. *)
Lemma exact_fix : s = m * u -> Y (m * u) = 2 * (m * u).
Proof.
  intros E. pose proof u_pos. pose proof m_range. assert (P : 0 < m * u) by (apply Rmult_lt_0_compat; lra). unfold Y.
  replace (X / (m * u)) with (m * u). 2:{ rewrite <- s_sq, E. field. lra. }
  rewrite (rnd_id (m * u)) by apply k_fmt. replace (m * u + m * u) with (2 * (m * u)) by ring. apply rnd_id, k2_fmt.
Qed.
Lemma exact_down : s = m * u -> Y ((m + 1) * u) <= 2 * (m * u).
Proof.
  intros E. pose proof u_pos. pose proof m_range. assert (P : 0 < m * u) by (apply Rmult_lt_0_compat; lra). pose proof mm_range. pose proof ex_lo.
  assert (P1 : 0 < (m + 1) * u) by (apply Rmult_lt_0_compat; lra).
  assert (Q : X / ((m + 1) * u) < (m - / 2) * u).
  { apply Rmult_lt_reg_r with ((m + 1) * u); [exact P1|]. unfold Rdiv. rewrite Rmult_assoc, Rinv_l, Rmult_1_r by lra.
    rewrite <- s_sq, E. assert (0 < u * u) by (apply Rmult_lt_0_compat; lra).
    replace (m * u * (m * u)) with ((u * u) * (m * m)) by ring.
    replace ((m - / 2) * u * ((m + 1) * u)) with ((u * u) * ((m - / 2) * (m + 1))) by ring. apply Rmult_lt_compat_l; lra. }
  assert (L : rnd (X / ((m + 1) * u)) <= (m - / 2) * u).
  { destruct (Z.eq_dec mm (2 ^ 23)) as [Z|Z].
    - apply rnd_le_fmt; [|lra]. assert (Em : m = 8388608) by (rewrite Z; reflexivity). rewrite Em.
      replace ((8388608 - / 2) * u) with (IZR 16777215 * B (ex - 1)).
      + apply fmt_F2R; lia.
      + replace (ex - 1)%Z with (-1 + ex)%Z by lia. rewrite bpow_plus. change (B (-1)) with (/ 2). lra.
    - assert (K : rnd (X / ((m + 1) * u)) <= IZR (mm - 1) * u) by (apply (G_hi ex (mm - 1)); [lia|lia|rewrite minus_IZR; lra]).
      rewrite minus_IZR in K. lra. }
  replace (2 * (m * u)) with (m * B (1 + ex)) by (rewrite B1; ring). unfold Y. apply (G_hi (1 + ex) mm); [lia|lia|]. rewrite B1. lra.
Qed.
End Newton.
