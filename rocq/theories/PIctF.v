(** * XYZ to ICtCp, and the ICtCp difference, in binary32. *)
From Coq Require Import ZArith Reals Lra Lia List Bool.
From Flocq Require Import Core IEEE754.BinarySingleNaN.
From Verif Require Import Num NumR NumF MVec MTri MOtf MDelta SpecMat RTac F32 PMat PMatF PHsvF PYxyF PEuclF PLibm PPowF PSlogF PBlackF PGamut PGamF PGamF2 PCover POtf POtf2 POtfF2 POtfF3 PDelta PICtStd SpecIct PNearF PRelF.
Local Open Scope R_scope.

Lemma pqv_ratio a b d : 0 < a -> Rabs (b - a) <= d * a -> d <= 0.00145 -> Rabs (pqv b - pqv a) <= 0.112 * d.
Proof.
  intros A H D.
  assert (K : forall a b, 0 < a <= 100 -> Rabs (b - a) <= d * a -> Rabs (pqv b - pqv a) <= 0.112 * d).
  { intros x y X Y. pose proof (pq_close x y d X Y D) as E. pose proof (pq_close x x 0 X) as E0. rewrite Rminus_diag_eq, Rabs_R0 in E0 by reflexivity.
    specialize (E0 ltac:(lra) ltac:(lra)). apply Rabs_le_inv in E, E0. apply Rabs_le. lra. }
  destruct (Rle_lt_dec a 100) as [L|L]; [apply K; lra|]. apply Rabs_le_inv in H as H'.
  assert (D0 : 0 <= d). { pose proof (Rabs_pos (b - a)). apply Rmult_le_reg_r with a; lra. }
  assert (E : pqv a = pqv 100). { unfold pqv. destruct (Rle_dec a 0); [lra|]. destruct (Rle_dec 100 a); [|lra]. destruct (Rle_dec 100 0); [lra|]. destruct (Rle_dec 100 100); lra. }
  rewrite E. destruct (Rle_lt_dec 100 b) as [B|B].
  - replace (pqv b) with (pqv 100); [rewrite Rminus_diag_eq, Rabs_R0 by reflexivity; lra|]. unfold pqv. destruct (Rle_dec b 0); [lra|]. destruct (Rle_dec 100 b); [|lra]. destruct (Rle_dec 100 0); [lra|]. destruct (Rle_dec 100 100); lra.
  - apply K; [lra|]. assert (100 * (1 - d) <= a * (1 - d)) by (apply Rmult_le_compat_r; lra). rewrite Rabs_minus_sym, Rabs_pos_eq by lra. lra.
Qed.

(** a stimulus [x, y, z] whose response to the row [a, b, c] does not cancel. *)
Definition seen (a b c x y z : R) : Prop :=
  bpow radix2 (-48) <= a * x + b * y + c * z <= bpow radix2 100 /\ Rabs (a * x) + Rabs (b * y) + Rabs (c * z) <= 3 * (a * x + b * y + c * z).

Section F.
Context (lm : libm).
Notation N := (FN lm).
Lemma prod_err (l x : f32) a : near l a (u * Rabs a) -> Rabs (B2R l * B2R x - a * B2R x) <= u * Rabs (a * B2R x) /\ Rabs (B2R l * B2R x) <= (1 + u) * Rabs (a * B2R x).
Proof.
  intros [_ E]. assert (A : Rabs (B2R l * B2R x - a * B2R x) <= u * Rabs (a * B2R x)).
  { rewrite <- Rmult_minus_distr_r, !Rabs_mult, <- Rmult_assoc. apply Rmult_le_compat_r; [apply Rabs_pos|exact E]. }
  split; [exact A|]. replace (B2R l * B2R x) with (a * B2R x + (B2R l * B2R x - a * B2R x)) by ring. eapply Rle_trans; [apply Rabs_triang|]. lra.
Qed.
Lemma cone_row (r0 r1 r2 x y z : f32) a b c : near r0 a (u * Rabs a) -> near r1 b (u * Rabs b) -> near r2 c (u * Rabs c) ->
  fin x -> fin y -> fin z -> seen a b c (B2R x) (B2R y) (B2R z) -> let v := a * B2R x + b * B2R y + c * B2R z in
  near (V_dot N (V3 r0 r1 r2) (V3 x y z)) v (15.1 * u * v).
Proof.
  intros N0 N1 N2 Fx Fy Fz [[L H] S]. cbv zeta. pose proof u16 as U. pose proof eta16 as Et.
  destruct (prod_err r0 x a N0) as [P0 Q0]. destruct (prod_err r1 y b N1) as [P1 Q1]. destruct (prod_err r2 z c N2) as [P2 Q2].
  destruct (V_dot_error lm (V3 r0 r1 r2) (V3 x y z)) as [F E].
  - repeat split; cbn [v0 v1 v2]; [apply N0|apply N1|apply N2].
  - repeat split; assumption.
  - unfold absdot. cbn [v0 v1 v2]. assert (B : bpow radix2 126 = 67108864 * bpow radix2 100) by (change 126%Z with (26 + 100)%Z; rewrite (bpow_plus radix2 26 100); reflexivity).
    pose proof (bpow_gt_0 radix2 100). pose proof (Rabs_pos (a * B2R x)). pose proof (Rabs_pos (b * B2R y)). pose proof (Rabs_pos (c * B2R z)).
    rewrite B. apply Rle_trans with (2 * (Rabs (a * B2R x) + Rabs (b * B2R y) + Rabs (c * B2R z))); [|lra].
    assert (forall w, 0 <= w -> (1 + u) * w <= 2 * w) as W by (intros; apply Rmult_le_compat_r; lra).
    pose proof (W _ (Rabs_pos (a * B2R x))). pose proof (W _ (Rabs_pos (b * B2R y))). pose proof (W _ (Rabs_pos (c * B2R z))). lra.
  - split; [exact F|]. unfold absdot, dotR in E. cbn [v0 v1 v2] in E.
    set (p := a * B2R x) in *. set (q := b * B2R y) in *. set (s := c * B2R z) in *. set (p' := B2R r0 * B2R x) in *. set (q' := B2R r1 * B2R y) in *. set (s' := B2R r2 * B2R z) in *.
    assert (ET : eta <= 0.001 * u * (p + q + s)).
    { apply Rle_trans with (0.001 * u * bpow radix2 (-48)); [|apply Rmult_le_compat_l; lra]. replace eta with (bpow radix2 (-78) * bpow radix2 (-24) * bpow radix2 (-48)) by (unfold eta; rewrite <- !bpow_plus; reflexivity).
      apply Rmult_le_compat_r; [apply bpow_ge_0|]. change (bpow radix2 (-24)) with u. apply Rmult_le_compat_r; [lra|]. apply Rle_trans with (bpow radix2 (-10)); [apply bpow_le; lia|]. change (bpow radix2 (-10)) with (/ 1024). lra. }
    set (X := V_dot N (V3 r0 r1 r2) (V3 x y z)) in *. clearbody X.
    replace (B2R X - (p + q + s)) with ((B2R X - (p' + q' + s')) + ((p' - p) + (q' - q) + (s' - s))) by ring.
    eapply Rle_trans; [apply Rabs_triang|]. pose proof (Rabs_triang (p' - p + (q' - q)) (s' - s)). pose proof (Rabs_triang (p' - p) (q' - q)).
    assert (SU : u * (Rabs p + Rabs q + Rabs s) <= u * (3 * (p + q + s))) by (apply Rmult_le_compat_l; lra).
    assert (AU : 4 * u * (Rabs p' + Rabs q' + Rabs s') <= 4 * u * ((1 + u) * (Rabs p + Rabs q + Rabs s))) by (apply Rmult_le_compat_l; lra).
    assert (UU : 4 * u * ((1 + u) * (Rabs p + Rabs q + Rabs s)) <= 4.001 * (u * (Rabs p + Rabs q + Rabs s))).
    { replace (4 * u * ((1 + u) * (Rabs p + Rabs q + Rabs s))) with (4 * (1 + u) * (u * (Rabs p + Rabs q + Rabs s))) by ring. apply Rmult_le_compat_r; [|lra].
      pose proof (Rabs_pos p). pose proof (Rabs_pos q). pose proof (Rabs_pos s). apply Rmult_le_pos; lra. }
    lra.
Qed.
Context (Acc : accurate lm).
Lemma code_near (c : f32) v : near c v (15.1 * u * v) -> bpow radix2 (-48) <= v -> near (Y_to_ST2084 N c) (pqv v) (439 * u).
Proof.
  intros [Fc E] L. pose proof u16 as U. pose proof (bpow_gt_0 radix2 (-48)) as P. pose proof (bpow_gt_0 radix2 (-50)) as P'.
  assert (L' : bpow radix2 (-50) <= B2R c).
  { apply Rabs_le_inv in E. assert (B : bpow radix2 (-48) = 4 * bpow radix2 (-50)) by (change (-48)%Z with (2 + -50)%Z; rewrite (bpow_plus radix2 2 (-50)); reflexivity).
    assert (15.1 * u * v <= 0.001 * v) by (apply Rmult_le_compat_r; lra). lra. }
  destruct (pq_stmt lm Acc c Fc L') as (e & Ee & (F & E0 & R) & E1). rewrite pqv_fin in Ee. injection Ee as <-.
  pose proof (pqv_ratio v (B2R c) (15.1 * u) ltac:(lra) E ltac:(lra)) as Q. split; [exact F|].
  set (X := Y_to_ST2084 N c) in *. clearbody X. replace (B2R X - pqv v) with ((B2R X - pqv (B2R c)) + (pqv (B2R c) - pqv v)) by ring.
  eapply Rle_trans; [apply Rabs_triang|]. assert (437 * u * pqv (B2R c) <= 437 * u * 1) by (apply Rmult_le_compat_l; lra). lra.
Qed.
Lemma ex_lit (x : f32) r : fin x /\ B2R x = r -> near x r 0.
Proof. intros H. apply (near_lit _ r); [exact H|]. rewrite Rminus_diag_eq, Rabs_R0 by reflexivity. lra. Qed.
Lemma term (k p : f32) K l : near k K 0 -> 0 <= K <= 20000 -> near p l (439 * u) -> 0 <= l <= 1 -> near (@fmul N k p) (K * l) (440.02 * u * K + eta).
Proof.
  intros Nk HK Np Hl. pose proof u16 as U. pose proof eta16. eapply near_le; [apply (near_mul lm _ _ _ _ _ _ K 1 Nk Np); try (rewrite Rabs_pos_eq; lra)|].
  - rewrite U. lra.
  - assert (u * ((K + 0) * (1 + 439 * u)) <= 1.01 * u * K). { replace (u * ((K + 0) * (1 + 439 * u))) with ((1 + 439 * u) * (u * K)) by ring. replace (1.01 * u * K) with (1.01 * (u * K)) by ring. apply Rmult_le_compat_r; [apply Rmult_le_pos; lra|lra]. }
    assert (0 <= u * K) by (apply Rmult_le_pos; lra). lra.
Qed.
Lemma codes_ICtCp (p0 p1 p2 : f32) l m s : near p0 l (439 * u) -> near p1 m (439 * u) -> near p2 s (439 * u) -> 0 <= l <= 1 -> 0 <= m <= 1 -> 0 <= s <= 1 ->
  near (@fmul N (@fadd N p0 p1) (@flit N 0.5%dec)) ((l + m) / 2) (442 * u) /\
  near (@fdiv N (@fadd N (@fsub N (@fmul N (@flit N 6610%dec) p0) (@fmul N (@flit N 13613%dec) p1)) (@fmul N (@flit N 7003%dec) p2)) (@flit N 4096%dec)) ((6610 * l - 13613 * m + 7003 * s) / 4096) (2936 * u) /\
  near (@fdiv N (@fsub N (@fsub N (@fmul N (@flit N 17933%dec) p0) (@fmul N (@flit N 17390%dec) p1)) (@fmul N (@flit N 543%dec) p2)) (@flit N 4096%dec)) ((17933 * l - 17390 * m - 543 * s) / 4096) (3868 * u).
Proof.
  intros P0 P1 P2 L M S. pose proof u16 as U. pose proof eta16 as Et. assert (E0 : 0 < eta) by lra. assert (E1 : eta <= 0.001 * u) by lra. assert (D4 : near (@flit N 4096%dec) 4096 0) by (apply ex_lit; f32_val).
  split; [|split].
  - assert (A : near (@fadd N p0 p1) (l + m) (880.1 * u)) by (eapply near_le; [apply (near_add lm _ _ _ _ _ _ 2 P0 P1); [rewrite Rabs_pos_eq; lra|lra]|rewrite U; lra]).
    assert (H : near (@flit N 0.5%dec) (/ 2) 0) by (apply ex_lit; f32_val).
    eapply near_le; [apply (near_mul lm _ _ _ _ _ _ 2 (/ 2) A H); [rewrite Rabs_pos_eq; lra|rewrite Rabs_pos_eq; lra|rewrite U; lra]|]. rewrite U in *; lra.
  - assert (A0 : near (@fmul N (@flit N 6610%dec) p0) (6610 * l) (440.02 * u * 6610 + eta)) by (apply term; try assumption; [apply ex_lit; f32_val|lra]).
    assert (A1 : near (@fmul N (@flit N 13613%dec) p1) (13613 * m) (440.02 * u * 13613 + eta)) by (apply term; try assumption; [apply ex_lit; f32_val|lra]).
    assert (A2 : near (@fmul N (@flit N 7003%dec) p2) (7003 * s) (440.02 * u * 7003 + eta)) by (apply term; try assumption; [apply ex_lit; f32_val|lra]).
    assert (B : near (@fsub N (@fmul N (@flit N 6610%dec) p0) (@fmul N (@flit N 13613%dec) p1)) (6610 * l - 13613 * m) (8913000 * u)).
    { eapply near_le; [apply (near_sub lm _ _ _ _ _ _ 13613 A0 A1); [apply Rabs_le; lra|lra]|]. rewrite U in *; lra. }
    assert (C : near (@fadd N (@fsub N (@fmul N (@flit N 6610%dec) p0) (@fmul N (@flit N 13613%dec) p1)) (@fmul N (@flit N 7003%dec) p2)) (6610 * l - 13613 * m + 7003 * s) (12009000 * u)).
    { eapply near_le; [apply (near_add lm _ _ _ _ _ _ 13613 B A2); [apply Rabs_le; lra|lra]|]. rewrite U in *; lra. }
    eapply near_le; [apply (near_div lm _ _ _ _ _ _ 3.4 4096 C D4); [rewrite Rabs_pos_eq; lra|lra|apply Rabs_le; lra|rewrite U; lra]|]. rewrite U in *; lra.
  - assert (A0 : near (@fmul N (@flit N 17933%dec) p0) (17933 * l) (440.02 * u * 17933 + eta)) by (apply term; try assumption; [apply ex_lit; f32_val|lra]).
    assert (A1 : near (@fmul N (@flit N 17390%dec) p1) (17390 * m) (440.02 * u * 17390 + eta)) by (apply term; try assumption; [apply ex_lit; f32_val|lra]).
    assert (A2 : near (@fmul N (@flit N 543%dec) p2) (543 * s) (440.02 * u * 543 + eta)) by (apply term; try assumption; [apply ex_lit; f32_val|lra]).
    assert (B : near (@fsub N (@fmul N (@flit N 17933%dec) p0) (@fmul N (@flit N 17390%dec) p1)) (17933 * l - 17390 * m) (15562000 * u)).
    { eapply near_le; [apply (near_sub lm _ _ _ _ _ _ 17933 A0 A1); [apply Rabs_le; lra|lra]|]. rewrite U in *; lra. }
    assert (C : near (@fsub N (@fsub N (@fmul N (@flit N 17933%dec) p0) (@fmul N (@flit N 17390%dec) p1)) (@fmul N (@flit N 543%dec) p2)) (17933 * l - 17390 * m - 543 * s) (15820000 * u)).
    { eapply near_le; [apply (near_sub lm _ _ _ _ _ _ 17933 B A2); [apply Rabs_le; lra|lra]|]. rewrite U in *; lra. }
    eapply near_le; [apply (near_div lm _ _ _ _ _ _ 4.4 4096 C D4); [rewrite Rabs_pos_eq; lra|lra|apply Rabs_le; lra|rewrite U; lra]|]. rewrite U in *; lra.
Qed.
Ltac clit := match goal with |- near _ ?a (u * Rabs ?a) => first [rewrite (Rabs_pos_eq a) by lra; flit_near | rewrite (Rabs_left a) by lra; flit_near] end.
(** the colour is seen by the three cones. *)
Definition seen3 (t : Vector3 f32) : Prop := allV fin t /\
  seen 0.3592 0.6976 (- 0.0358) (B2R (v0 t)) (B2R (v1 t)) (B2R (v2 t)) /\
  seen (- 0.1922) 1.1004 0.0755 (B2R (v0 t)) (B2R (v1 t)) (B2R (v2 t)) /\
  seen 0.0070 0.0749 0.8434 (B2R (v0 t)) (B2R (v1 t)) (B2R (v2 t)).
Definition valV (t : Vector3 f32) : Vector3 R := V3 (B2R (v0 t)) (B2R (v1 t)) (B2R (v2 t)).
Lemma ictcp_near (t : Vector3 f32) : seen3 t -> let i := ictcp (valV t) in let f := XYZ_to_ICtCp N t in
  near (v0 f) (v0 i) (442 * u) /\ near (v1 f) (v1 i) (2936 * u) /\ near (v2 f) (v2 i) (3868 * u).
Proof.
  destruct t as [x y z]. intros ((Fx & Fy & Fz) & S0 & S1 & S2). cbn [v0 v1 v2] in *. cbv zeta.
  assert (E : XYZ_to_ICtCp N (V3 x y z) = let l := M_apply N (g_fromXYZ (HPE_LMS N)) (V3 x y z) in
    let p0 := Y_to_ST2084 N (v0 l) in let p1 := Y_to_ST2084 N (v1 l) in let p2 := Y_to_ST2084 N (v2 l) in
    V3 (@fmul N (@fadd N p0 p1) (@flit N 0.5%dec))
      (@fdiv N (@fadd N (@fsub N (@fmul N (@flit N 6610%dec) p0) (@fmul N (@flit N 13613%dec) p1)) (@fmul N (@flit N 7003%dec) p2)) (@flit N 4096%dec))
      (@fdiv N (@fsub N (@fsub N (@fmul N (@flit N 17933%dec) p0) (@fmul N (@flit N 17390%dec) p1)) (@fmul N (@flit N 543%dec) p2)) (@flit N 4096%dec))) by reflexivity.
  rewrite E. cbv zeta. cbn [v0 v1 v2]. rewrite (apply_rows lm). unfold HPE_LMS, Gamut_of_fromXYZ. cbn [g_fromXYZ m0 m1 m2 m3 m4 m5 m6 m7 m8 v0 v1 v2].
  unfold ictcp, valV, applyR, hpe. spec.
  apply codes_ICtCp; try apply pqv_range.
  - apply code_near; [apply cone_row; try assumption; clit|apply S0].
  - apply code_near; [apply cone_row; try assumption; clit|apply S1].
  - apply code_near; [apply cone_row; try assumption; clit|apply S2].
Qed.
Lemma sqrt_pert' D s e : 0 <= D -> 0 <= s -> 0 <= e -> Rabs (s - D * D) <= 6.02 * u * (D * D) + e -> Rabs (sqrt s - D) <= 3.1 * u * D + sqrt e.
Proof using.
  intros HD Hs He H. pose proof u16 as U. apply Rabs_le_inv in H. pose proof (sqrt_pos e) as Pe. pose proof (sqrt_pos s) as Ps.
  pose proof (sqrt_sqrt s Hs) as S2. pose proof (sqrt_sqrt e He) as E2.
  assert (0 <= u * D) by (apply Rmult_le_pos; lra).
  apply Rabs_le. split.
  - apply Rnot_lt_le. intros K.
    assert (L : sqrt s + sqrt e < D * (1 - 3.1 * u)) by lra.
    assert (Q : s + e <= (sqrt s + sqrt e) * (sqrt s + sqrt e)) by nra.
    assert (Q2 : (sqrt s + sqrt e) * (sqrt s + sqrt e) < D * (1 - 3.1 * u) * (D * (1 - 3.1 * u))) by (apply Rmult_le_0_lt_compat; lra).
    assert (Q3 : D * (1 - 3.1 * u) * (D * (1 - 3.1 * u)) <= D * D * (1 - 6.02 * u)).
    { replace (D * (1 - 3.1 * u) * (D * (1 - 3.1 * u))) with (D * D * ((1 - 3.1 * u) * (1 - 3.1 * u))) by ring. apply Rmult_le_compat_l; [nra|]. rewrite U. lra. }
    lra.
  - apply Rnot_lt_le. intros K.
    assert (L : D * (1 + 3.1 * u) + sqrt e < sqrt s) by lra.
    assert (P : 0 <= D * (1 + 3.1 * u)) by (apply Rmult_le_pos; lra).
    assert (Q2 : (D * (1 + 3.1 * u) + sqrt e) * (D * (1 + 3.1 * u) + sqrt e) < sqrt s * sqrt s) by (apply Rmult_le_0_lt_compat; lra).
    assert (Q3 : D * D * (1 + 6.02 * u) <= D * (1 + 3.1 * u) * (D * (1 + 3.1 * u))).
    { replace (D * (1 + 3.1 * u) * (D * (1 + 3.1 * u))) with (D * D * ((1 + 3.1 * u) * (1 + 3.1 * u))) by ring. apply Rmult_le_compat_l; [nra|]. rewrite U. lra. }
    nra.
Qed.
Lemma sqrt_fin' (s : f32) D : fin s -> 0 <= B2R s -> 0 <= D -> Rabs (B2R s - D) <= 6.02 * u * D + 4 * eta ->
  near (@fsqrt N s) (sqrt D) (4.5 * u * sqrt D + bpow radix2 (-73)).
Proof.
  intros Fs Hs HD E. pose proof u16 as U. pose proof eta16 as Et. destruct (sqrt_ok lm s Fs Hs) as [Fr Vr]. split; [exact Fr|].
  pose proof (sqrt_pos D) as PD.
  pose proof (sqrt_pert' (sqrt D) (B2R s) (4 * eta) PD Hs ltac:(lra)) as E2. rewrite (sqrt_sqrt D HD) in E2. specialize (E2 E). rewrite sqrt_4eta in E2.
  pose proof (rnd_err_abs (sqrt (B2R s))) as E3. rewrite <- Vr in E3. rewrite (Rabs_pos_eq (sqrt (B2R s))) in E3 by apply sqrt_pos.
  assert (X : bpow radix2 (-73) = 2 * bpow radix2 (-74)) by (change (-73)%Z with (1 + -74)%Z; rewrite bpow_plus; reflexivity).
  assert (Y : eta <= / 4 * bpow radix2 (-74)). { change (/ 4) with (bpow radix2 (-2)). rewrite <- bpow_plus. unfold eta. apply bpow_le. lia. }
  pose proof (bpow_gt_0 radix2 (-74)) as P74. rewrite X. apply Rabs_le_inv in E2, E3.
  assert (u * sqrt (B2R s) <= u * (1.001 * sqrt D + bpow radix2 (-74))). { apply Rmult_le_compat_l; [lra|]. assert (3.1 * u * sqrt D <= 0.001 * sqrt D) by (apply Rmult_le_compat_r; lra). lra. }
  assert (u * bpow radix2 (-74) <= 0.1 * bpow radix2 (-74)) by (apply Rmult_le_compat_r; lra). assert (0 <= u * sqrt D) by (apply Rmult_le_pos; lra).
  apply Rabs_le. lra.
Qed.
Lemma diff_near (p q : Vector3 f32) : allV fin p -> allV fin q ->
  Rabs (B2R (v0 p) - B2R (v0 q)) <= bpow radix2 60 -> Rabs (B2R (v1 p) - B2R (v1 q)) <= bpow radix2 60 -> Rabs (B2R (v2 p) - B2R (v2 q)) <= bpow radix2 60 ->
  let dI := @fsub N (v0 p) (v0 q) in let dT := @fsub N (v1 p) (v1 q) in let dP := @fsub N (v2 p) (v2 q) in
  let D := dE (half1 (valV p)) (half1 (valV q)) in
  near (@fsqrt N (@fadd N (@fadd N (@fmul N dI dI) (@fmul N (@fmul N dT dT) (@flit N 0.25%dec))) (@fmul N dP dP))) D (4.5 * u * D + bpow radix2 (-73)).
Proof.
  destruct p as [p0 p1 p2], q as [q0 q1 q2]. intros (Fp0 & Fp1 & Fp2) (Fq0 & Fq1 & Fq2) H0 H1 H2. cbn [v0 v1 v2] in *. cbv zeta. unfold dE, n3, half1, valV. cbn [v0 v1 v2].
  pose proof u16 as U. pose proof eta16 as Et.
  destruct (dsq lm p0 q0 Fp0 Fq0 H0) as (Fa & Ra & Ea). destruct (dsq lm p1 q1 Fp1 Fq1 H1) as (Fb & Rb & Eb). destruct (dsq lm p2 q2 Fp2 Fq2 H2) as (Fc & Rc & Ec).
  set (a := @fmul N (@fsub N p0 q0) _) in *. set (b := @fmul N (@fsub N p1 q1) _) in *. set (c := @fmul N (@fsub N p2 q2) _) in *.
  set (x := B2R p0 - B2R q0) in *. set (y := B2R p1 - B2R q1) in *. set (z := B2R p2 - B2R q2) in *.
  assert (B : bpow radix2 127 = 128 * bpow radix2 120) by (change 127%Z with (7 + 120)%Z; rewrite (bpow_plus radix2 7 120); reflexivity).
  assert (Q : fin (@flit N 0.25%dec) /\ B2R (@flit N 0.25%dec) = / 4) by f32_val. destruct Q as [Fq Vq].
  destruct (mul_ok lm b (@flit N 0.25%dec) Fb Fq) as [Fh Vh]; [rewrite Vq; apply Rabs_le; lra|]. rewrite Vq in Vh.
  pose proof (rnd_err_abs (B2R b * / 4)) as Eh. rewrite <- Vh in Eh. rewrite (Rabs_pos_eq (B2R b * / 4)) in Eh by lra.
  assert (Rh : 0 <= B2R (@fmul N b (@flit N 0.25%dec)) <= bpow radix2 120).
  { rewrite Vh. split; [apply rnd_ge_fmt; [apply fmt_0|lra]|apply rnd_le_fmt; [apply fmt_bpow; lia|lra]]. }
  set (h := @fmul N b (@flit N 0.25%dec)) in *. clearbody a b c h.
  destruct (add_ok lm a h Fa Fh) as [Fs Vs]; [apply Rabs_le; lra|].
  pose proof (rnd_add_err _ _ (fmt_B2R a) (fmt_B2R h)) as Es. rewrite <- Vs in Es. rewrite (Rabs_pos_eq (B2R a + B2R h)) in Es by lra.
  assert (Rs : 0 <= B2R (@fadd N a h) <= 4 * bpow radix2 120).
  { rewrite Vs. split; [apply rnd_ge_fmt; [apply fmt_0|lra]|apply rnd_le_fmt; [|lra]]. change 4 with (bpow radix2 2). rewrite <- bpow_plus. apply fmt_bpow. lia. }
  set (s := @fadd N a h) in *. clearbody s.
  destruct (add_ok lm s c Fs Fc) as [Ft Vt]; [apply Rabs_le; lra|].
  pose proof (rnd_add_err _ _ (fmt_B2R s) (fmt_B2R c)) as Ett. rewrite <- Vt in Ett. rewrite (Rabs_pos_eq (B2R s + B2R c)) in Ett by lra.
  assert (Rt : 0 <= B2R (@fadd N s c)) by (rewrite Vt; apply rnd_ge_fmt; [apply fmt_0|lra]).
  set (t := @fadd N s c) in *. clearbody t.
  assert (X2 : 0 <= x * x) by nra. assert (Y2 : 0 <= y * y) by nra. assert (Z2 : 0 <= z * z) by nra.
  match goal with |- near _ (sqrt ?d) _ => replace d with (x * x + y * y / 4 + z * z) by (unfold x, y, z; field) end. clearbody x y z.
  apply sqrt_fin'; auto; [lra|]. set (X := x * x) in *. set (Y := y * y) in *. set (Z := z * z) in *. clearbody X Y Z.
  apply Rabs_le_inv in Ea, Eb, Ec, Eh, Es, Ett. rewrite U in *. apply Rabs_le. split; lra.
Qed.
Lemma n3_le a b c A B C : Rabs a <= A -> Rabs b <= B -> Rabs c <= C -> n3 a b c <= n3 A B C.
Proof using.
  intros Ha Hb Hc. unfold n3. apply sqrt_le_1_alt.
  assert (K : forall x X, Rabs x <= X -> x * x <= X * X). { intros x X H. rewrite <- (Rabs_pos_eq (x * x)) by nra. rewrite Rabs_mult. apply Rmult_le_compat; auto using Rabs_pos. }
  pose proof (K _ _ Ha). pose proof (K _ _ Hb). pose proof (K _ _ Hc). lra.
Qed.
Lemma n3_bound : n3 (442 * u) (1468 * u) (3868 * u) <= 4161 * u.
Proof using.
  pose proof F32.u_pos as P. unfold n3. replace (442 * u * (442 * u) + 1468 * u * (1468 * u) + 3868 * u * (3868 * u)) with (17311812 * (u * u)) by ring.
  rewrite <- (sqrt_square (4161 * u)) by lra. apply sqrt_le_1_alt. assert (0 < u * u) by (apply Rmult_lt_0_compat; assumption). lra.
Qed.
Lemma ictcp_dist (t : Vector3 f32) : seen3 t -> dE (half1 (valV (XYZ_to_ICtCp N t))) (half1 (ictcp (valV t))) <= 4161 * u.
Proof.
  intros S. destruct (ictcp_near t S) as ([_ A] & [_ B] & [_ C]). apply Rle_trans with (2 := n3_bound). unfold dE, half1. cbn [v0 v1 v2 valV].
  assert (K : forall x y, Rabs (x - y) <= 2936 * u -> Rabs (x / 2 - y / 2) <= 1468 * u) by (intros x y H; apply Rabs_le_inv in H; apply Rabs_le; lra).
  apply n3_le; [exact A|exact (K _ _ B)|exact C].
Qed.
Lemma ictcp_box t : 0 <= v0 (ictcp t) <= 1 /\ -13613 / 4096 <= v1 (ictcp t) <= 13613 / 4096 /\ - 17933 / 4096 <= v2 (ictcp t) <= 17933 / 4096.
Proof using.
  unfold ictcp. cbn [v0 v1 v2]. pose proof (pqv_range (v0 (applyR hpe t))). pose proof (pqv_range (v1 (applyR hpe t))). pose proof (pqv_range (v2 (applyR hpe t))). lra.
Qed.
Lemma ictcp_diam s t : dE (half1 (ictcp s)) (half1 (ictcp t)) <= 9.5.
Proof using.
  pose proof (ictcp_box s) as (A0 & A1 & A2). pose proof (ictcp_box t) as (B0 & B1 & B2). unfold dE, half1. cbn [v0 v1 v2].
  apply Rle_trans with (n3 1 3.33 8.76); [apply n3_le; apply Rabs_le; lra|]. unfold n3. apply Rsqr_incr_0_var; [|lra]. rewrite Rsqr_sqrt by lra. unfold Rsqr. lra.
Qed.
Lemma Delta_near (s t : Vector3 f32) : seen3 s -> seen3 t ->
  near (Delta_ICtCp N s t) (dE (half1 (ictcp (valV s))) (half1 (ictcp (valV t)))) (8400 * u).
Proof.
  intros S T. pose proof u16 as U. destruct (ictcp_near s S) as (A0 & A1 & A2). destruct (ictcp_near t T) as (B0 & B1 & B2).
  pose proof (ictcp_dist s S) as Ds. pose proof (ictcp_dist t T) as Dt. pose proof (ictcp_diam (valV s) (valV t)) as DD.
  pose proof (ictcp_box (valV s)) as (I0 & I1 & I2). pose proof (ictcp_box (valV t)) as (J0 & J1 & J2).
  change (Delta_ICtCp N s t) with (let p := XYZ_to_ICtCp N s in let q := XYZ_to_ICtCp N t in
    let dI := @fsub N (v0 p) (v0 q) in let dT := @fsub N (v1 p) (v1 q) in let dP := @fsub N (v2 p) (v2 q) in
    @fsqrt N (@fadd N (@fadd N (@fmul N dI dI) (@fmul N (@fmul N dT dT) (@flit N 0.25%dec))) (@fmul N dP dP))). cbv zeta.
  set (p := XYZ_to_ICtCp N s) in *. set (q := XYZ_to_ICtCp N t) in *. clearbody p q. set (i := ictcp (valV s)) in *. set (j := ictcp (valV t)) in *. clearbody i j.
  assert (B60 : 100 <= bpow radix2 60) by (apply Rle_trans with (bpow radix2 7); [change (bpow radix2 7) with 128; lra|apply bpow_le; lia]).
  assert (K : forall x y a b e, Rabs (x - a) <= e -> Rabs (y - b) <= e -> e <= 1 -> - 20 <= a - b <= 20 -> Rabs (x - y) <= bpow radix2 60).
  { intros x y a b e X Y E1 AB. apply Rabs_le_inv in X, Y. apply Rabs_le. lra. }
  destruct (diff_near p q) as [F E].
  - repeat split; [apply A0|apply A1|apply A2].
  - repeat split; [apply B0|apply B1|apply B2].
  - exact (K _ _ _ _ (442 * u) (proj2 A0) (proj2 B0) ltac:(lra) ltac:(lra)).
  - exact (K _ _ _ _ (2936 * u) (proj2 A1) (proj2 B1) ltac:(lra) ltac:(lra)).
  - exact (K _ _ _ _ (3868 * u) (proj2 A2) (proj2 B2) ltac:(lra) ltac:(lra)).
  - split; [exact F|]. set (D' := dE (half1 (valV p)) (half1 (valV q))) in *. set (D := dE (half1 i) (half1 j)) in *.
    pose proof (dE_tri (half1 (valV p)) (half1 i) (half1 (valV q))) as T1. pose proof (dE_tri (half1 i) (half1 j) (half1 (valV q))) as T2.
    pose proof (dE_tri (half1 i) (half1 (valV p)) (half1 j)) as T3. pose proof (dE_tri (half1 (valV p)) (half1 (valV q)) (half1 j)) as T4.
    rewrite (dE_sym (half1 j)) in T2. rewrite (dE_sym (half1 i) (half1 (valV p))) in T3. fold D D' in T1, T2, T3, T4.
    assert (P : bpow radix2 (-73) <= u) by (apply bpow_le; lia).
    assert (W : forall Z, Rabs (Z - D') <= 4.5 * u * D' + bpow radix2 (-73) -> Rabs (Z - D) <= 8400 * u); [|exact (W _ E)]. clear E. intros Z E.
    replace (Z - D) with ((Z - D') + (D' - D)) by ring. eapply Rle_trans; [apply Rabs_triang|].
    assert (Rabs (D' - D) <= 8322 * u) by (apply Rabs_le; lra). assert (D' <= 10) by (rewrite U in *; lra).
    assert (4.5 * u * D' <= 4.5 * u * 10) by (apply Rmult_le_compat_l; lra). lra.
Qed.
End F.
(** ** Colours of BT.2020. *)
Lemma seen_2020 (t : Vector3 f32) r g b : allV fin t -> 0 <= r -> 0 <= g -> 0 <= b -> bpow radix2 (-40) <= r + g + b <= bpow radix2 60 ->
  G_toXYZ_t RN (Rec2020 RN) (finV (V3 r g b)) = finV (valV t) -> seen3 t.
Proof.
  destruct t as [x y z]. intros F R G B S E. pose proof (gq_ok gRec2020) as Q. cbn [gam] in Q. rewrite Q in E. unfold G_toXYZ_t in E. cbn [g_toXYZ] in E. rewrite M_apply_fin in E.
  assert (V : applyR (qR (fst (gq gRec2020))) (V3 r g b) = valV (V3 x y z)). { destruct (applyR (qR (fst (gq gRec2020))) (V3 r g b)) as [a0 a1 a2]. unfold finV, valV in *. cbn [v0 v1 v2] in *. injection E as -> -> ->. reflexivity. }
  clear E. pose proof q2020 as Q'. cbv zeta in Q'. destruct (qR (fst (gq gRec2020))) as [a0 a1 a2 a3 a4 a5 a6 a7 a8]. cbn [m0 m1 m2 m3 m4 m5 m6 m7 m8] in Q'.
  destruct Q' as (Q0 & Q1 & Q2 & Q3 & Q4 & Q5 & Q6 & Q7 & Q8). apply Rabs_le_inv in Q0, Q1, Q2, Q3, Q4, Q5, Q6, Q7, Q8.
  unfold valV, applyR in V. revert V. spec. intros V. injection V as X Y Z.
  assert (L : bpow radix2 (-48) = / 256 * bpow radix2 (-40)) by (change (-48)%Z with (-8 + -40)%Z; rewrite bpow_plus; reflexivity).
  assert (H : 100 * bpow radix2 60 <= bpow radix2 100). { apply Rle_trans with (bpow radix2 7 * bpow radix2 60); [change (bpow radix2 7) with 128; pose proof (bpow_gt_0 radix2 60); lra|rewrite <- bpow_plus; apply bpow_le; lia]. }
  assert (P40 := bpow_gt_0 radix2 (-40)). assert (P60 := bpow_gt_0 radix2 60).
  unfold seen3, seen. split; [exact F|]. cbn [v0 v1 v2]. rewrite <- X, <- Y, <- Z. clear X Y Z. generalize dependent (bpow radix2 (-48)). generalize dependent (bpow radix2 (-40)). generalize dependent (bpow radix2 60). generalize dependent (bpow radix2 100). intros h100 h60 HH K1 l40 S K2 l48 L.
  assert (M : forall k lo hi w, lo <= k <= hi -> 0 <= w -> lo * w <= k * w <= hi * w) by (intros; split; apply Rmult_le_compat_r; lra).
  repeat match goal with H : ?lo <= ?k - ?c <= ?hi |- _ => let A := fresh in let B := fresh in let C := fresh in
    assert (A := M k (c + lo) (c + hi) r ltac:(lra) R); assert (B := M k (c + lo) (c + hi) g ltac:(lra) G); assert (C := M k (c + lo) (c + hi) b ltac:(lra) ltac:(assumption)); clear H end.
  set (X := a0 * r + a1 * g + a2 * b). set (Y := a3 * r + a4 * g + a5 * b). set (Z := a6 * r + a7 * g + a8 * b).
  assert (BX : 0.6369 * r + 0.1446 * g + 0.1688 * b <= X <= 0.637 * r + 0.1447 * g + 0.1689 * b) by (unfold X; lra).
  assert (BY : 0.2627 * r + 0.6779 * g + 0.0593 * b <= Y <= 0.2628 * r + 0.678 * g + 0.0594 * b) by (unfold Y; lra).
  assert (BZ : - (1e-9 * r) + 0.028 * g + 1.0609 * b <= Z <= 1e-9 * r + 0.0281 * g + 1.061 * b) by (unfold Z; lra).
  clearbody X Y Z. clear - R G B HH K1 S K2 L BX BY BZ.
  assert (AX : forall k, 0 <= k -> Rabs (k * X) = k * X) by (intros; apply Rabs_pos_eq, Rmult_le_pos; lra).
  assert (AY : forall k, 0 <= k -> Rabs (k * Y) = k * Y) by (intros; apply Rabs_pos_eq, Rmult_le_pos; lra).
  assert (AZ : forall k, 0 <= k -> Rabs (k * Z) <= k * (Z + 2e-9 * r)).
  { intros k Hk. rewrite Rabs_mult, (Rabs_pos_eq k) by exact Hk. apply Rmult_le_compat_l; [exact Hk|]. apply Rabs_le. lra. }
  pose proof (AX 0.3592 ltac:(lra)). pose proof (AX 0.1922 ltac:(lra)). pose proof (AX 0.0070 ltac:(lra)). pose proof (AY 0.6976 ltac:(lra)). pose proof (AY 1.1004 ltac:(lra)). pose proof (AY 0.0749 ltac:(lra)).
  pose proof (AZ 0.0358 ltac:(lra)). pose proof (AZ 0.0755 ltac:(lra)). pose proof (AZ 0.8434 ltac:(lra)).
  replace (- 0.0358 * Z) with (- (0.0358 * Z)) by lra. replace (- 0.1922 * X) with (- (0.1922 * X)) by lra. rewrite !Rabs_Ropp.
  repeat split; lra.
Qed.
Ltac clit2 := match goal with |- near _ ?a (u * Rabs ?a) => first [rewrite (Rabs_pos_eq a) by lra; flit_near | rewrite (Rabs_left a) by lra; flit_near] end.
Lemma codes_eq lm (t : Vector3 f32) : XYZ_to_ICtCp (FN lm) t = let l := M_apply (FN lm) (g_fromXYZ (HPE_LMS (FN lm))) t in
    let p0 : f32 := Y_to_ST2084 (FN lm) (v0 l) in let p1 : f32 := Y_to_ST2084 (FN lm) (v1 l) in let p2 : f32 := Y_to_ST2084 (FN lm) (v2 l) in
    V3 (@fmul (FN lm) (@fadd (FN lm) p0 p1) (@flit (FN lm) 0.5%dec))
      (@fdiv (FN lm) (@fadd (FN lm) (@fsub (FN lm) (@fmul (FN lm) (@flit (FN lm) 6610%dec) p0) (@fmul (FN lm) (@flit (FN lm) 13613%dec) p1)) (@fmul (FN lm) (@flit (FN lm) 7003%dec) p2)) (@flit (FN lm) 4096%dec))
      (@fdiv (FN lm) (@fsub (FN lm) (@fsub (FN lm) (@fmul (FN lm) (@flit (FN lm) 17933%dec) p0) (@fmul (FN lm) (@flit (FN lm) 17390%dec) p1)) (@fmul (FN lm) (@flit (FN lm) 543%dec) p2)) (@flit (FN lm) 4096%dec)).
Proof. reflexivity. Qed.
Lemma code_top lm (c : f32) : fin c -> 100 <= B2R c -> Y_to_ST2084 (FN lm) c = @flit (FN lm) 1%dec.
Proof.
  intros Fc L. destruct (l0 lm) as [F0 V0]. destruct (pl_100 lm) as [F2 V2]. unfold Y_to_ST2084. rewrite !leb_ok by assumption. rewrite V0, V2, Rle_bool_false, Rle_bool_true by lra. reflexivity.
Qed.
Definition bitsV (t : Vector3 f32) : Vector3 SpecFloat.spec_float := V3 (B2SF (v0 t)) (B2SF (v1 t)) (B2SF (v2 t)).
(** every cone response above 100 (10000 cd/m2): peak white. *)
Lemma ictcp_peak lm (t : Vector3 f32) : seen3 t -> let c := applyR hpe (valV t) in 101 <= v0 c -> 101 <= v1 c -> 101 <= v2 c ->
  bitsV (XYZ_to_ICtCp (FN lm) t) = V3 (SpecFloat.S754_finite false 8388608 (-23)) (SpecFloat.S754_zero false) (SpecFloat.S754_zero false).
Proof.
  destruct t as [x y z]. intros ((Fx & Fy & Fz) & S0 & S1 & S2). cbv zeta. unfold applyR, hpe, valV. spec. cbn [v0 v1 v2] in *. intros C0 C1 C2.
  rewrite codes_eq, (apply_rows lm). unfold HPE_LMS, Gamut_of_fromXYZ. cbn [g_fromXYZ m0 m1 m2 m3 m4 m5 m6 m7 m8]. cbv zeta. cbn [v0 v1 v2].
  assert (K : forall (c : f32) v, near c v (15.1 * u * v) -> 101 <= v -> Y_to_ST2084 (FN lm) c = @flit (FN lm) 1%dec).
  { intros c v [F E] V. apply code_top; [exact F|]. apply Rabs_le_inv in E. pose proof u16 as U. assert (15.1 * u * v <= 0.001 * v) by (apply Rmult_le_compat_r; lra). lra. }
  erewrite K; [|apply (cone_row lm); [..|exact S0]; try assumption; clit2|exact C0].
  erewrite K; [|apply (cone_row lm); [..|exact S1]; try assumption; clit2|exact C1].
  erewrite K; [|apply (cone_row lm); [..|exact S2]; try assumption; clit2|exact C2].
  unfold bitsV. cbn [v0 v1 v2]. vm_compute. reflexivity.
Qed.
Lemma ictcp_zero lm : bitsV (XYZ_to_ICtCp (FN lm) (V3 (@flit (FN lm) 0%dec) (@flit (FN lm) 0%dec) (@flit (FN lm) 0%dec))) =
  V3 (SpecFloat.S754_zero false) (SpecFloat.S754_zero false) (SpecFloat.S754_zero false).
Proof. vm_compute. reflexivity. Qed.
Lemma seen_white lm : seen3 (V3 (@flit (FN lm) 0.5%dec) (@flit (FN lm) 1%dec) (@flit (FN lm) 0.25%dec)).
Proof.
  assert (X : fin (@flit (FN lm) 0.5%dec) /\ B2R (@flit (FN lm) 0.5%dec) = / 2) by f32_val. assert (Y : fin (@flit (FN lm) 1%dec) /\ B2R (@flit (FN lm) 1%dec) = 1) by f32_val. assert (Z : fin (@flit (FN lm) 0.25%dec) /\ B2R (@flit (FN lm) 0.25%dec) = / 4) by f32_val.
  destruct X as [Fx X], Y as [Fy Y], Z as [Fz Z]. assert (L : bpow radix2 (-48) <= / 1024) by (change (/ 1024) with (bpow radix2 (-10)); apply bpow_le; lia). assert (H : 1024 <= bpow radix2 100) by (change 1024 with (bpow radix2 10); apply bpow_le; lia).
  unfold seen3, seen, allV. cbn [v0 v1 v2]. rewrite X, Y, Z. repeat split; try assumption; try lra.
  - rewrite (Rabs_pos_eq (0.3592 * _)), (Rabs_pos_eq (0.6976 * _)), (Rabs_left (-0.0358 * _)) by lra. lra.
  - rewrite (Rabs_left (-0.1922 * _)), (Rabs_pos_eq (1.1004 * _)), (Rabs_pos_eq (0.0755 * _)) by lra. lra.
  - rewrite (Rabs_pos_eq (0.0070 * _)), (Rabs_pos_eq (0.0749 * _)), (Rabs_pos_eq (0.8434 * _)) by lra. lra.
Qed.
Definition finite3 (t : Vector3 f32) : Prop := is_finite (v0 t) = true /\ is_finite (v1 t) = true /\ is_finite (v2 t) = true.
Lemma ictcp_accuracy lm : accurate lm -> forall t, seen3 t -> exists i, XYZ_to_ICtCp RN (finV (valV t)) = finV i /\ let f := XYZ_to_ICtCp (FN lm) t in finite3 f /\
  Rabs (B2R (v0 f) - v0 i) <= 0.0000264 /\ Rabs (B2R (v1 f) - v1 i) <= 0.000176 /\ Rabs (B2R (v2 f) - v2 i) <= 0.000231.
Proof.
  intros A t S. exists (ictcp (valV t)). split; [apply ictcp_fin|]. destruct (ictcp_near lm A t S) as ([F0 E0] & [F1 E1] & [F2 E2]). pose proof u16 as U. cbv zeta.
  split; [split; [exact F0|split; [exact F1|exact F2]]|]. repeat split; (eapply Rle_trans; [eassumption|]; rewrite U; lra).
Qed.
Lemma ictcp_difference lm : accurate lm -> forall s t, seen3 s -> seen3 t -> exists d, Delta_ICtCp RN (finV (valV s)) (finV (valV t)) = Some d /\
  is_finite (Delta_ICtCp (FN lm) s t) = true /\ Rabs (B2R (Delta_ICtCp (FN lm) s t) - d) <= 0.000501.
Proof.
  intros A s t S T. eexists. split; [apply dICtCp_fin|]. destruct (Delta_near lm A s t S T) as [F E]. pose proof u16 as U. split; [exact F|]. eapply Rle_trans; [exact E|]. rewrite U; lra.
Qed.
Lemma ictcp_jnd lm : accurate lm -> forall s t d, seen3 s -> seen3 t -> Delta_ICtCp RN (finV (valV s)) (finV (valV t)) = Some d ->
  (d <= 0.00088 -> B2R (Delta_ICtCp (FN lm) s t) < / 720) /\ (0.0019 <= d -> / 720 < B2R (Delta_ICtCp (FN lm) s t)).
Proof.
  intros A s t d S T E. destruct (ictcp_difference lm A s t S T) as (d' & E' & _ & B). rewrite E in E'. injection E' as <-. apply Rabs_le_inv in B. split; intros; lra.
Qed.
Lemma seen_peak lm : let t := V3 (@flit (FN lm) 512%dec) (@flit (FN lm) 512%dec) (@flit (FN lm) 512%dec) in seen3 t /\ 101 <= v0 (applyR hpe (valV t)) /\ 101 <= v1 (applyR hpe (valV t)) /\ 101 <= v2 (applyR hpe (valV t)).
Proof.
  assert (X : fin (@flit (FN lm) 512%dec) /\ B2R (@flit (FN lm) 512%dec) = 512) by f32_val.
  destruct X as [Fx X]. assert (L : bpow radix2 (-48) <= / 1024) by (change (/ 1024) with (bpow radix2 (-10)); apply bpow_le; lia). assert (H : 1024 <= bpow radix2 100) by (change 1024 with (bpow radix2 10); apply bpow_le; lia).
  cbv zeta. unfold valV. cbn [v0 v1 v2]. rewrite X. unfold applyR, hpe. spec.
  split; [|repeat split; lra]. unfold seen3, seen, allV. cbn [v0 v1 v2]. rewrite X. repeat split; try assumption; try lra.
  - rewrite (Rabs_pos_eq (0.3592 * _)), (Rabs_pos_eq (0.6976 * _)), (Rabs_left (-0.0358 * _)) by lra. lra.
  - rewrite (Rabs_left (-0.1922 * _)), (Rabs_pos_eq (1.1004 * _)), (Rabs_pos_eq (0.0755 * _)) by lra. lra.
  - rewrite (Rabs_pos_eq (0.0070 * _)), (Rabs_pos_eq (0.0749 * _)), (Rabs_pos_eq (0.8434 * _)) by lra. lra.
Qed.
Lemma seen_2020_case lm : let t := V3 (@flit (FN lm) 512%dec) (@flit (FN lm) 512%dec) (@flit (FN lm) 512%dec) in exists r g b,
  finite3 t /\ 0 <= r /\ 0 <= g /\ 0 <= b /\ bpow radix2 (-40) <= r + g + b <= bpow radix2 60 /\ G_toXYZ_t RN (Rec2020 RN) (finV (V3 r g b)) = finV (valV t).
Proof.
  assert (X : fin (@flit (FN lm) 512%dec) /\ B2R (@flit (FN lm) 512%dec) = 512) by f32_val. destruct X as [Fx X].
  cbv zeta. pose proof (gq_ok gRec2020) as Q. cbn [gam] in Q. rewrite Q. clear Q. unfold G_toXYZ_t. cbn [g_toXYZ]. unfold valV. cbn [v0 v1 v2]. rewrite X.
  assert (L : bpow radix2 (-40) <= / 1024) by (change (/ 1024) with (bpow radix2 (-10)); apply bpow_le; lia). assert (H : 4096 <= bpow radix2 60) by (change 4096 with (bpow radix2 12); apply bpow_le; lia).
  exists (v0 (applyR (qR (snd (gq gRec2020))) (V3 512 512 512))), (v1 (applyR (qR (snd (gq gRec2020))) (V3 512 512 512))), (v2 (applyR (qR (snd (gq gRec2020))) (V3 512 512 512))).
  let q := eval vm_compute in (snd (gq gRec2020)) in change (snd (gq gRec2020)) with q.
  let q := eval vm_compute in (fst (gq gRec2020)) in change (fst (gq gRec2020)) with q.
  unfold qR. cbn [qn qd0 qd1 qd2 m0 m1 m2 m3 m4 m5 m6 m7 m8]. rewrite M_apply_fin. unfold applyR. spec.
  split; [split; [exact Fx|split; exact Fx]|]. repeat split; try lra.
  apply f_equal. f_equal; lra.
Qed.
