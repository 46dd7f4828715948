(** * Accuracy of the CIE 2000 difference in binary32: hue angles. *)
From Coq Require Import ZArith Reals Lra Lia List Bool Psatz Machin.
From Flocq Require Import Core IEEE754.BinarySingleNaN.
From Verif Require Import Num NumR NumF MVec MDelta F32 RPow PHsvF PYxyF PLibm PPowF PNearF PNearF2 PRelF SpecDelta PE00 PE00b PHsvA PE00d PE00acc.
Local Open Scope R_scope.

Lemma PI_tight : 3.1415926535 <= PI <= 3.1415926537.
Proof.
  assert (A := PI_2_3_7_ineq 7). unfold tg_alt, PI_2_3_7_tg, Ratan_seq in A. cbn in A. lra.
Qed.
Lemma atan_mvt a b m : 0 < m -> (forall c, Rmin a b <= c <= Rmax a b -> m <= 1 + c ^ 2) -> Rabs (atan b - atan a) <= Rabs (b - a) / m.
Proof.
  assert (W : forall a b, a < b -> 0 < m -> (forall c, a <= c <= b -> m <= 1 + c ^ 2) -> Rabs (atan b - atan a) <= Rabs (b - a) / m).
  { intros x y L M H. destruct (MVT_cor2 atan (fun x => / (1 + x ^ 2)) x y L) as (c & E & C).
    - intros c _. apply derivable_pt_lim_atan.
    - rewrite E, Rabs_mult. rewrite Rmult_comm. apply Rmult_le_compat_l; [apply Rabs_pos|]. specialize (H c ltac:(lra)).
      rewrite Rabs_pos_eq by (left; apply Rinv_0_lt_compat; lra). apply Rinv_le_contravar; lra. }
  intros M H. destruct (Rtotal_order a b) as [L|[->|L]].
  - apply W; auto. intros c C. apply H. rewrite Rmin_left, Rmax_right by lra. lra.
  - rewrite !Rminus_diag_eq, Rabs_R0 by reflexivity. lra.
  - rewrite Rabs_minus_sym, (Rabs_minus_sym b). apply W; auto. intros c C. apply H. rewrite Rmin_right, Rmax_left by lra. lra.
Qed.
Lemma atan_scale t d k : Rabs d <= k -> k <= / 100 -> Rabs (atan (t / (1 + d)) - atan t) <= 0.6 * k.
Proof.
  intros D K. assert (D' := Rabs_le_inv _ _ D). 
  assert (I : 0.99 <= / (1 + d) <= 1.0102). { split; (apply Rmult_le_reg_l with (1 + d); [lra|]; rewrite Rinv_r by lra; lra). }
  set (j := / (1 + d)) in *. change (t / (1 + d)) with (t * j).
  assert (E : Rabs (t * j - t) <= 1.0102 * k * Rabs t).
  { replace (t * j - t) with (t * (- d * j)) by (unfold j; field; lra). rewrite !Rabs_mult, Rabs_Ropp, (Rabs_pos_eq j) by lra. pose proof (Rabs_pos d). assert (Rabs d * j <= k * 1.0102) by (apply Rmult_le_compat; lra). replace (1.0102 * k * Rabs t) with (Rabs t * (k * 1.0102)) by ring. apply Rmult_le_compat_l; [apply Rabs_pos|assumption]. }
  clearbody j. assert (M : 0 < 1 + 0.98 * t ^ 2) by nra.
  assert (H := atan_mvt t (t * j) (1 + 0.98 * t ^ 2) M).
  eapply Rle_trans; [apply H|].
  - intros c C. assert (c ^ 2 >= 0.98 * t ^ 2); [|lra]. assert (Q : Rmin t (t * j) <= c <= Rmax t (t * j)) by exact C.
    destruct (Rle_or_lt 0 t) as [P|P].
    + assert (0.99 * t <= c). { apply Rle_trans with (2 := proj1 Q). apply Rmin_glb; nra. } nra.
    + assert (c <= 0.99 * t). { apply Rle_trans with (1 := proj2 Q). apply Rmax_lub; nra. } nra.
  - apply Rmult_le_reg_r with (1 + 0.98 * t ^ 2); [lra|]. unfold Rdiv. rewrite Rmult_assoc, Rinv_l, Rmult_1_r by lra.
    eapply Rle_trans; [exact E|]. assert (k0 : 0 <= k) by (pose proof (Rabs_pos d); lra).
    replace (t ^ 2) with (Rabs t * Rabs t) by (rewrite <- Rabs_mult, Rabs_pos_eq; nra). pose proof (Rabs_pos t). set (y := Rabs t) in *. clearbody y.
    assert (B : 1.0102 * y <= 0.6 * (1 + 0.98 * (y * y))) by (pose proof (Rle_0_sqr (y - 0.86)) as W; unfold Rsqr in W; lra).
    apply (Rmult_le_compat_l k) in B; [lra|exact k0].
Qed.
Lemma atan2_scale s r d k : Rabs d <= k -> k <= / 100 -> Rabs (R_atan2 s (r * (1 + d)) - R_atan2 s r) <= 0.6 * k.
Proof.
  intros D K. assert (D' := Rabs_le_inv _ _ D). assert (Q : r <> 0 -> s / (r * (1 + d)) = (s / r) / (1 + d)). { intros ?. field. split; [assumption|lra]. }
  pose proof (Rabs_pos d) as d0. unfold R_atan2. destruct (Rtotal_order 0 r) as [H|[H|H]].
  - rewrite !Rlt_bool_true by nra. rewrite Q by lra. now apply atan_scale.
  - subst r. rewrite Rmult_0_l. rewrite Rminus_diag_eq, Rabs_R0 by reflexivity. lra.
  - rewrite (Rlt_bool_false 0 (r * (1 + d))), (Rlt_bool_true (r * (1 + d)) 0), (Rlt_bool_false 0 r), (Rlt_bool_true r 0) by nra. rewrite Q by lra.
    destruct (Rle_bool 0 s).
    + replace (atan (s / r / (1 + d)) + PI - (atan (s / r) + PI)) with (atan (s / r / (1 + d)) - atan (s / r)) by ring. now apply atan_scale.
    + replace (atan (s / r / (1 + d)) - PI - (atan (s / r) - PI)) with (atan (s / r / (1 + d)) - atan (s / r)) by ring. now apply atan_scale.
Qed.

Section F.
Context (lm : libm) (Tr : accurate_trig lm).
Notation N := (FN lm).
Notation l_ := (@flit (FN lm)).
Lemma l180 : fin (l_ 180%dec) /\ B2R (l_ 180%dec) = 180. Proof. f32_val. Qed.
Lemma l180' : fin (l_ 180.0%dec) /\ B2R (l_ 180.0%dec) = 180. Proof. f32_val. Qed.
Lemma l360 : fin (l_ 360%dec) /\ B2R (l_ 360%dec) = 360. Proof. f32_val. Qed.
Lemma near_pi : near (@fpi N) PI (1.5 * u).
Proof.
  assert (E : fin (@fpi N) /\ B2R (@fpi N) = 13176795 / 4194304) by f32_val. pose proof PI_tight. destruct E as [F E]. split; [exact F|]. rewrite E, u16. apply Rabs_le. lra.
Qed.
Definition deg (s r : R) : R := R_atan2 s r * 180 / PI.
Lemma near_deg x b r s k : near x r (k * Rabs r) -> fin b -> B2R b = s -> s <> 0 -> 0 <= k <= 24 * u ->
  near (@fadd N (l_ 360%dec) (@fdiv N (@fmul N (@fatan2 N b x) (l_ 180.0%dec)) (@fpi N))) (360 + deg s r) (2800 * u).
Proof.
  intros [Fx Hx] Fb Vb S K. pose proof u16 as U. pose proof eta16 as Et. pose proof PI_tight as P.
  assert (A : exists d, Rabs d <= k /\ B2R x = r * (1 + d)).
  { destruct (Req_dec r 0) as [->|R]; [exists 0; rewrite Rabs_R0; split; [lra|]; rewrite Rabs_R0, Rmult_0_r in Hx; apply Rabs_le_inv in Hx; lra|].
    exists ((B2R x - r) / r). split; [|field; exact R]. unfold Rdiv. rewrite Rabs_mult, Rabs_inv. pose proof (Rabs_pos_lt r R) as R1.
    apply Rmult_le_reg_r with (Rabs r); [exact R1|]. rewrite Rmult_assoc, Rinv_l by lra. lra. }
  destruct A as (d & D & E). assert (Sc := atan2_scale s r d k D ltac:(rewrite U in *; lra)).
  destruct (tr_atan2 lm Tr b x Fb Fx ltac:(congruence)) as [Fa Ha]. rewrite Vb, E in Ha.
  assert (N0 : near (@fatan2 N b x) (R_atan2 s r) (31 * u)).
  { split; [exact Fa|]. change (@fatan2 N b x) with (lm_atan2f lm b x). replace (B2R (lm_atan2f lm b x) - R_atan2 s r) with ((B2R (lm_atan2f lm b x) - R_atan2 s (r * (1 + d))) + (R_atan2 s (r * (1 + d)) - R_atan2 s r)) by ring.
    eapply Rle_trans; [apply Rabs_triang|]. lra. }
  assert (R0 : Rabs (R_atan2 s r) <= 3.15). { pose proof (atan2_range s r). apply Rabs_le. lra. }
  assert (N1 := near_mul lm _ _ _ _ _ _ 3.15 180 N0 (near_v _ _ l180') R0 ltac:(rewrite Rabs_pos_eq; lra) ltac:(rewrite U; lra)).
  assert (Dg := deg_range s r).
  assert (N2 := near_div lm _ _ _ _ _ _ 181 3.14 N1 near_pi ltac:(rewrite Rabs_pos_eq; lra) ltac:(rewrite U; lra) ltac:(apply Rabs_le; lra)).
  cbv zeta in N2. 
  assert (N3 : near (@fdiv N (@fmul N (@fatan2 N b x) (l_ 180.0%dec)) (@fpi N)) (deg s r) (2230 * u)).
  { eapply near_le; [apply N2|]; rewrite U in *; lra. }
  eapply near_le; [apply (near_add lm _ _ 360 (deg s r) 0 _ 541 (near_v _ _ l360) N3)|].
  - unfold deg. apply Rabs_le. lra.
  - rewrite U. lra.
  - rewrite U. lra.
Qed.
Lemma near_hue x b r s k : near x r (k * Rabs r) -> fin b -> B2R b = s -> s <> 0 -> 0 <= k <= 24 * u -> / 1000 <= Rabs (deg s r) ->
  near (e00_hue N b x) (cie_hue r s) (2800 * u).
Proof.
  intros Nx Fb Vb S K G. pose proof u16 as U. pose proof (near_deg x b r s k Nx Fb Vb S K) as [F H]. unfold e00_hue. set (X := @fadd N _ _) in *.
  destruct l360 as [F3 V3]. pose proof (deg_range s r) as Dg. fold (deg s r) in Dg. apply Rabs_le_inv in H. rewrite U in H.
  destruct (tr_fmod lm Tr X (l_ 360%dec) F F3 ltac:(rewrite V3; lra)) as [Fm Vm]. change (@ffmod N) with (lm_fmodf lm). split; [exact Fm|]. rewrite Vm, V3. rewrite U.
  unfold cie_hue. fold (deg s r). apply Rabs_le. revert G. unfold Rabs. destruct (Rcase_abs (deg s r)); intros G.
  - destruct (Rlt_dec (deg s r) 0); [|lra]. destruct (Rlt_dec (B2R X) 360); lra.
  - destruct (Rlt_dec (deg s r) 0); [lra|]. destruct (Rlt_dec (B2R X) 360); lra.
Qed.
End F.
