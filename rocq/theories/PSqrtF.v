(** * [util::sqrtf] in binary32: termination and accuracy. *)
From Coq Require Import ZArith Reals Lra Lia Psatz Bool.
From Flocq Require Import Core BinarySingleNaN Mult_error.
From Verif Require Import Num NumF MVec MTri F32 PSqrt.
Local Open Scope R_scope.

Lemma int149 c : fmt c -> exists n : Z, c = IZR n * B (-149).
Proof.
  intros F. assert (E : c = IZR (Ztrunc (scaled_mantissa radix2 fe c)) * B (cexp radix2 fe c)) by exact F.
  set (n := Ztrunc _) in *. assert (L : (-149 <= cexp radix2 fe c)%Z) by (unfold cexp, FLT_exp; lia).
  exists (n * 2 ^ (cexp radix2 fe c + 149))%Z. rewrite mult_IZR. change 2%Z with (radix_val radix2) at 1. rewrite IZR_Zpower by lia.
  rewrite E at 1. rewrite Rmult_assoc, <- bpow_plus. do 2 f_equal. lia.
Qed.
Lemma half_fmt y : fmt y -> B (-125) <= y -> fmt (y / 2).
Proof.
  intros F H. replace (y / 2) with (y * B (-1)) by (change (B (-1)) with (/ 2); lra).
  apply mult_bpow_exact_FLT; [exact F|]. assert (-125 < mag radix2 y)%Z; [|lia]. apply mag_gt_bpow.
  pose proof (bpow_gt_0 radix2 (-125)). rewrite Rabs_pos_eq; lra.
Qed.

Section F.
Context (lm : libm).
Notation N := (FN lm).
Lemma half_val : fin (@flit N 0.5) /\ B2R (@flit N 0.5) = / 2.
Proof. f32_val. Qed.

Section Fixed.
Context (x : f32) (Fx : fin x) (x0 : 0 < B2R x).
Notation X := (B2R x).
Notation m := (IZR (mm X)).
Notation u := (B (ex X)).
Notation s := (sqrt X).
Lemma FX : fmt X. Proof. apply fmt_B2R. Qed.
Lemma Xmax : X < B 128.
Proof. pose proof (abs_B2R_lt_emax 24 128 x) as H. rewrite Rabs_pos_eq in H by lra. exact H. Qed.
Lemma k_pos : 0 < m * u.
Proof. pose proof (bpow_gt_0 radix2 (ex X)). pose proof (m_range X x0). apply Rmult_lt_0_compat; lra. Qed.
Lemma ex_hi : (ex X <= 40)%Z.
Proof.
  unfold ex. assert (mag radix2 s <= 64)%Z; [|lia]. pose proof (s_pos X x0). apply mag_le_bpow; [lra|]. rewrite Rabs_pos_eq by lra.
  apply Rsqr_incrst_0; [|lra|apply bpow_ge_0]. unfold Rsqr. rewrite <- bpow_plus, (s_sq X x0). apply Xmax.
Qed.
Lemma u_hi : u <= B 40. Proof. apply bpow_le, ex_hi. Qed.
Definition step (c : f32) : f32 := @fmul N (@flit N 0.5) (@fadd N c (@fdiv N x c)).
Definition dom (c : f32) : Prop := fin c /\ (c = x \/ (m * u <= B2R c /\ B2R c <= B 127)).
Lemma dom_pos c : dom c -> 0 < B2R c.
Proof. intros [_ [->|[H _]]]; [exact x0|]. pose proof k_pos. lra. Qed.
Lemma Y_ge c : dom c -> 2 * (m * u) <= Y X (B2R c).
Proof.
  intros [Fc [->|[H _]]].
  - unfold Y. replace (X / X) with 1 by (field; lra). rewrite (rnd_id 1) by (apply (fmt_IZR 1); lia).
    apply rnd_ge_fmt; [apply k2_fmt; [apply FX|exact x0]|]. pose proof (s_between X). pose proof (s_sq X x0).
    pose proof (Rle_0_sqr (s - 1)). unfold Rsqr in *. lra.
  - apply step_ge; [apply FX|exact x0|apply fmt_B2R|exact H].
Qed.
Lemma q_bound c : dom c -> 0 <= X / B2R c <= B 66.
Proof.
  intros D. pose proof (dom_pos c D) as P. split; [apply Rmult_le_pos; [lra|left; now apply Rinv_0_lt_compat]|].
  destruct D as [Fc [->|[H _]]].
  - replace (X / X) with 1 by (field; lra). change 1 with (B 0). apply bpow_le. lia.
  - pose proof (q_le X x0) as Q. pose proof k_pos. pose proof (m_range X x0). pose proof u_hi. pose proof (bpow_gt_0 radix2 (ex X)).
    apply Rle_trans with (X / (m * u)).
    + unfold Rdiv. apply Rmult_le_compat_l; [lra|]. apply Rinv_le_contravar; lra.
    + apply Rle_trans with (1 := Rlt_le _ _ Q). replace 66%Z with (26 + 40)%Z by lia. rewrite bpow_plus. change (B 26) with 67108864.
      apply Rmult_le_compat; lra.
Qed.
Lemma Y_lt c : dom c -> Y X (B2R c) < B 128.
Proof.
  intros D. pose proof (q_bound c D) as [Q0 Q]. destruct D as [Fc [->|[H H']]].
  - unfold Y. replace (X / X) with 1 by (field; lra). rewrite (rnd_id 1) by (apply (fmt_IZR 1); lia).
    destruct (Rle_lt_dec X (B 126)) as [L|L].
    + apply Rle_lt_trans with (B 127); [|apply bpow_lt; lia]. apply rnd_le_fmt; [apply fmt_bpow; lia|].
      replace 127%Z with (1 + 126)%Z by lia. rewrite bpow_plus. change (B 1) with 2.
      assert (B 0 <= B 126) by (apply bpow_le; lia). change (B 0) with 1 in *. lra.
    + destruct (float_grid X FX x0 X FX) as (f & n & Hf & Hn & E).
      { pose proof (s_between X) as SB. apply Rle_trans with (1 := proj1 SB). pose proof (s_sq X x0). pose proof (s_pos X x0).
        assert (1 <= X). { apply Rle_trans with (2 := Rlt_le _ _ L). change 1 with (B 0). apply bpow_le; lia. }
        destruct (Rle_lt_dec 1 s); [|nra]. rewrite <- H at 2. rewrite <- (Rmult_1_l s) at 1. apply Rmult_le_compat_r; lra. }
      assert (GF : (102 <= f)%Z).
      { destruct (Z_lt_le_dec f 102) as [K|K]; [exfalso|exact K]. pose proof (Gn n Hn). pose proof (bpow_gt_0 radix2 f).
        assert (X < B 126); [|lra]. rewrite E. apply Rlt_le_trans with (16777216 * B f); [apply Rmult_lt_compat_r; lra|].
        change 16777216 with (B 24). rewrite <- bpow_plus. apply bpow_le. lia. }
      apply Rle_lt_trans with X; [|apply Xmax]. rewrite E. apply (G_hi f n); [lia|exact Hn|].
      assert (B 102 <= B f) by (apply bpow_le; exact GF). assert (B 2 <= B 102) by (apply bpow_le; lia). change (B 2) with 4 in *. lra.
  - unfold Y. apply Rle_lt_trans with (3 * B 126).
    + apply rnd_le_fmt; [apply (fmt_F2R 3 126); lia|].
      assert (rnd (X / B2R c) <= B 66) by (apply rnd_le_fmt; [apply fmt_bpow; lia|exact Q]).
      assert (B 66 <= B 126) by (apply bpow_le; lia). replace 127%Z with (1 + 126)%Z in H' by lia. rewrite bpow_plus in H'. change (B 1) with 2 in H'. lra.
    + replace 128%Z with (2 + 126)%Z by lia. rewrite bpow_plus. change (B 2) with 4. pose proof (bpow_gt_0 radix2 126). lra.
Qed.
Lemma Y_fmt c : fmt (Y X c). Proof. apply generic_format_round; typeclasses eauto. Qed.
Lemma Y_big c : dom c -> B (-125) <= Y X (B2R c).
Proof.
  intros D. apply Rle_trans with (2 := Y_ge c D). pose proof (m_range X x0). pose proof (ex_lo X FX x0).
  apply Rle_trans with (1 * B (-98)); [rewrite Rmult_1_l; apply bpow_le; lia|].
  rewrite <- Rmult_assoc. apply Rmult_le_compat; [lra|apply bpow_ge_0|lra|apply bpow_le; lia].
Qed.
Lemma step_ok c : dom c -> fin (step c) /\ B2R (step c) = Y X (B2R c) / 2.
Proof.
  intros D. pose proof (dom_pos c D) as P. pose proof (q_bound c D) as [Q0 Q]. pose proof (Y_lt c D) as YL. pose proof (Y_big c D) as YB.
  pose proof (bpow_gt_0 radix2 (-125)) as B0.
  destruct (div_ok lm x c Fx ltac:(lra)) as [F1 E1].
  { rewrite Rabs_pos_eq by exact Q0. apply Rle_trans with (1 := Q). apply bpow_le. lia. }
  assert (F2E2 : fin (@fadd N c (@fdiv N x c)) /\ B2R (@fadd N c (@fdiv N x c)) = Y X (B2R c)).
  { destruct D as [Fc _]. unfold Y. rewrite <- E1. apply add_gen; [exact Fc|exact F1|]. rewrite E1. fold (Y X (B2R c)). rewrite Rabs_pos_eq by lra. exact YL. }
  destruct F2E2 as [F2 E2]. unfold step. destruct half_val as [Fh Eh].
  assert (R : rnd (/ 2 * Y X (B2R c)) = Y X (B2R c) / 2).
  { replace (/ 2 * Y X (B2R c)) with (Y X (B2R c) / 2) by lra. apply rnd_id, half_fmt; [apply Y_fmt|exact YB]. }
  destruct (mul_gen lm (@flit N 0.5) (@fadd N c (@fdiv N x c)) Fh F2) as [F3 E3].
  { rewrite Eh, E2, R, Rabs_pos_eq; lra. }
  split; [exact F3|]. rewrite E3, Eh, E2. exact R.
Qed.
Lemma step_dom c : dom c -> dom (step c) /\ m * u <= B2R (step c).
Proof.
  intros D. destruct (step_ok c D) as [F E]. pose proof (Y_ge c D). pose proof (Y_lt c D) as L.
  assert (B2R (step c) <= B 127). { rewrite E. assert (B 128 = 2 * B 127) by (change 128%Z with (1 + 127)%Z; rewrite bpow_plus; reflexivity). lra. }
  split; [split; [exact F|right]|]; rewrite E in *; split || idtac; lra.
Qed.

(** The recursion, from a state whose previous iterate is [c]. *)
Definition good (r : f32) : Prop := fin r /\ (B2R r = m * u \/ (B2R r = (m + 1) * u /\ s <> m * u)).
Notation nr := (sqrtNewtonRaphsonF N).
Definition halts (c : f32) : Prop := exists n r, good r /\ forall k, (n <= k)%nat -> nr k x (step c) c = Ret r.
Lemma nr_eq k c : fin c -> fin (step c) -> B2R (step c) = B2R c -> nr (S k) x (step c) c = Ret (step c).
Proof. intros A C E. cbn [sqrtNewtonRaphsonF]. rewrite eqb_ok by assumption. rewrite E, Req_bool_true by reflexivity. reflexivity. Qed.
Lemma nr_ne k c : fin c -> fin (step c) -> B2R (step c) <> B2R c -> nr (S k) x (step c) c = nr k x (step (step c)) (step c).
Proof. intros A C E. cbn [sqrtNewtonRaphsonF]. rewrite eqb_ok by assumption. rewrite Req_bool_false by exact E. reflexivity. Qed.
Lemma halt_eq c : dom c -> good (step c) -> B2R (step c) = B2R c -> halts c.
Proof.
  intros D G E. exists 1%nat, (step c). split; [exact G|]. intros k L. destruct k as [|k]; [lia|].
  apply nr_eq; [apply D|apply step_ok, D|exact E].
Qed.
Lemma halt_ne c : dom c -> B2R (step c) <> B2R c -> halts (step c) -> halts c.
Proof.
  intros D E (n & r & G & H). exists (S n), r. split; [exact G|]. intros k L. destruct k as [|k]; [lia|].
  rewrite nr_ne; [apply H; lia|apply D|apply step_ok, D|exact E].
Qed.
Lemma above c : fmt c -> m * u <= c -> c = m * u \/ c = (m + 1) * u \/ (m + 2) * u <= c.
Proof.
  intros F H. pose proof (mm_range X x0) as MR. pose proof (ex_lo X FX x0). pose proof (bpow_gt_0 radix2 (ex X)).
  destruct (Rle_lt_dec c (m * u)) as [L|L]; [left; lra|]. right.
  pose proof (G_next (ex X) (mm X) ltac:(lia) MR c F L) as L1.
  destruct (Rle_lt_dec c ((m + 1) * u)) as [K|K]; [left; lra|right].
  destruct (Z.eq_dec (mm X) (2 ^ 24 - 1)) as [Z|Z].
  - assert (Em : m = 16777215) by (rewrite Z; reflexivity). rewrite Em in *.
    pose proof (G_next (1 + ex X) (2 ^ 23) ltac:(lia) ltac:(lia) c F) as L2. rewrite B1, p23 in L2. lra.
  - pose proof (G_next (ex X) (mm X + 1) ltac:(lia) ltac:(lia) c F) as L2. rewrite plus_IZR in L2. lra.
Qed.
Lemma k1_fmt : fmt ((m + 1) * u) /\ fmt (2 * ((m + 1) * u)).
Proof.
  pose proof (mm_range X x0) as MR. pose proof (ex_lo X FX x0). split.
  - replace (m + 1) with (IZR (mm X + 1)) by now rewrite plus_IZR. apply fmt_F2R; lia.
  - replace (2 * ((m + 1) * u)) with (IZR (mm X + 1) * B (1 + ex X)) by (rewrite plus_IZR, B1; ring). apply fmt_F2R; lia.
Qed.
Lemma step_k c : dom c -> B2R c = m * u -> B2R (step c) = m * u \/ (B2R (step c) = (m + 1) * u /\ s <> m * u).
Proof.
  intros D E. destruct (step_ok c D) as [F V]. pose proof (step_dom c D) as [_ L]. pose proof (step_k_le X FX x0) as U. rewrite <- E in U.
  pose proof (bpow_gt_0 radix2 (ex X)). destruct (above (B2R (step c)) (fmt_B2R _) L) as [A|[A|A]]; [auto| |rewrite V in A; lra].
  right. split; [exact A|]. intros S. pose proof (exact_fix X FX x0 S) as K. rewrite <- E in K. lra.
Qed.
Lemma step_k1 c : dom c -> B2R c = (m + 1) * u -> B2R (step c) = m * u \/ (B2R (step c) = (m + 1) * u /\ s <> m * u).
Proof.
  intros D E. destruct (step_ok c D) as [F V]. pose proof (step_dom c D) as [_ L]. destruct k1_fmt as [K1 K2].
  pose proof (step_le X x0 _ K1 K2 (Rle_refl _)) as U. rewrite <- E in U.
  pose proof (bpow_gt_0 radix2 (ex X)). destruct (above (B2R (step c)) (fmt_B2R _) L) as [A|[A|A]]; [auto| |rewrite V in A; lra].
  right. split; [exact A|]. intros S. pose proof (exact_down X FX x0 S) as K. rewrite <- E in K. lra.
Qed.
Lemma halts_k c : dom c -> B2R c = m * u -> halts c.
Proof.
  intros D E. pose proof (bpow_gt_0 radix2 (ex X)) as U. destruct (step_ok c D) as [F V]. destruct (step_dom c D) as [D' _].
  destruct (step_k c D E) as [A|[A S]].
  - apply halt_eq; [exact D|split; auto|congruence].
  - apply halt_ne; [exact D|lra|]. destruct (step_ok _ D') as [F' V'].
    destruct (step_k1 _ D' A) as [A'|[A' _]].
    + exfalso. apply (no_cycle X FX x0); [rewrite <- E; lra|rewrite <- A; lra].
    + apply halt_eq; [exact D'|split; auto|congruence].
Qed.
Lemma halts_k1 c : dom c -> B2R c = (m + 1) * u -> halts c.
Proof.
  intros D E. pose proof (bpow_gt_0 radix2 (ex X)) as U. destruct (step_ok c D) as [F V]. destruct (step_dom c D) as [D' _].
  destruct (step_k1 c D E) as [A|[A S]].
  - apply halt_ne; [exact D|lra|]. now apply halts_k.
  - apply halt_eq; [exact D|split; auto|congruence].
Qed.
Lemma halts_ind (n : nat) : forall c z, dom c -> m * u <= B2R c -> B2R c = IZR z * B (-149) -> (z <= Z.of_nat n)%Z -> halts c.
Proof.
  induction n as [|n IH]; intros c z D H E Z.
  - exfalso. pose proof k_pos. pose proof (bpow_gt_0 radix2 (-149)). apply (IZR_le z 0) in Z. nra.
  - destruct (above (B2R c) (fmt_B2R c) H) as [A|[A|A]]; [now apply halts_k|now apply halts_k1|].
    destruct (step_ok c D) as [F V]. destruct (step_dom c D) as [D' L].
    pose proof (step_lt X FX x0 _ (fmt_B2R c) A) as S. apply halt_ne; [exact D|lra|].
    destruct (int149 (B2R (step c)) (fmt_B2R _)) as [z' E']. apply (IH _ z' D' L E').
    assert (z' < z)%Z; [|lia]. apply lt_IZR. pose proof (bpow_gt_0 radix2 (-149)). apply Rmult_lt_reg_r with (B (-149)); [assumption|]. lra.
Qed.
Lemma halts_all c : dom c -> m * u <= B2R c -> halts c.
Proof.
  intros D H. destruct (int149 (B2R c) (fmt_B2R c)) as [z E]. apply (halts_ind (Z.to_nat z) c z D H E). lia.
Qed.
Lemma halts_x : halts x.
Proof.
  assert (D : dom x) by (split; [exact Fx|left; reflexivity]). destruct (Rle_lt_dec (m * u) X) as [L|L]; [now apply halts_all|].
  destruct (step_dom x D) as [D' L']. apply halt_ne; [exact D|lra|]. now apply halts_all.
Qed.
Lemma round_k : round radix2 fe Zfloor s = m * u /\ (s <> m * u -> round radix2 fe Zceil s = (m + 1) * u).
Proof.
  pose proof (s_scale X x0) as S. pose proof (bpow_gt_0 radix2 (ex X)) as U. pose proof (ex_lo X FX x0).
  assert (C : cexp radix2 fe s = ex X).
  { apply grid_cexp; [lia|]. assert (E : s = s / u * u) by (field; lra). split; rewrite E at 1; [apply Rmult_le_compat_r|apply Rmult_lt_compat_r]; lra. }
  unfold round, scaled_mantissa. rewrite C, bpow_opp. unfold F2R. cbn [Fnum Fexp]. fold (s / u). split; [reflexivity|].
  intros NE. rewrite Zceil_floor_neq; [rewrite plus_IZR; reflexivity|]. fold (mm X). intros E. apply NE. rewrite E. field. lra.
Qed.
End Fixed.

Lemma zero_val : fin (@flit N 0) /\ B2R (@flit N 0) = 0.
Proof. f32_val. Qed.
Lemma guard x : (@fleb N (@flit N 0) x && fltinf x)%bool = (is_finite x && Rle_bool 0 (B2R x))%bool.
Proof.
  destruct x as [t|t| |t n e H]; try (destruct t; reflexivity); try reflexivity.
  all: rewrite leb_ok; [|apply zero_val|reflexivity]; rewrite (proj2 zero_val); cbn [is_finite]; rewrite andb_comm; f_equal; destruct t; reflexivity.
Qed.
Lemma C12_l (x : f32) : is_finite x = true -> 0 <= B2R x -> exists r,
  terminates_with (fun n => util_sqrtf N n x) (Ret r) /\ is_finite r = true /\
  (B2R r = round radix2 fe Zfloor (sqrt (B2R x)) \/ B2R r = round radix2 fe Zceil (sqrt (B2R x))).
Proof.
  intros Fx H. assert (G : (@fleb N (@flit N 0) x && @fltinf N x)%bool = true).
  { rewrite guard, Fx, Rle_bool_true by exact H. reflexivity. }
  destruct (Req_dec (B2R x) 0) as [E|NE].
  - exists x. split; [|split; [exact Fx|left; rewrite E, sqrt_0; symmetry; apply round_0; typeclasses eauto]].
    exists 1%nat. intros k L. split; [|discriminate]. unfold util_sqrtf. rewrite G. destruct k as [|k]; [lia|].
    cbn [sqrtNewtonRaphsonF]. rewrite eqb_ok; [|exact Fx|apply zero_val]. rewrite (proj2 zero_val), E, Req_bool_true; reflexivity.
  - assert (x0 : 0 < B2R x) by lra. destruct (halts_x x Fx x0) as (n & r & [Fr V] & T). exists r. split; [|split; [exact Fr|]].
    + exists (S n). intros k L. split; [|discriminate]. unfold util_sqrtf. rewrite G. destruct k as [|k]; [lia|].
      cbn [sqrtNewtonRaphsonF]. rewrite eqb_ok; [|exact Fx|apply zero_val]. rewrite (proj2 zero_val), Req_bool_false by exact NE.
      apply T. lia.
    + destruct (round_k x x0) as [R1 R2]. rewrite R1. destruct V as [V|[V S]]; [left; exact V|right; rewrite R2; assumption].
Qed.
Lemma C12_nan_l (x : f32) : is_finite x = false \/ B2R x < 0 ->
  terminates_with (fun n => util_sqrtf N n x) (Ret (B754_nan : f32)).
Proof.
  intros H. exists O. intros k _. split; [|discriminate]. unfold util_sqrtf. rewrite guard.
  replace (is_finite x && Rle_bool 0 (B2R x))%bool with false; [reflexivity|].
  destruct H as [->|H]; [reflexivity|]. rewrite Rle_bool_false by exact H. now rewrite andb_false_r.
Qed.
End F.

(** ** Exact roots, and a witness that is not correctly rounded. *)
Lemma C13_exact_l (lm : libm) (x y : f32) : is_finite x = true -> 0 <= B2R y -> B2R y * B2R y = B2R x -> exists r,
  terminates_with (fun n => util_sqrtf (FN lm) n x) (Ret r) /\ B2R r = B2R y.
Proof.
  intros Fx y0 E. destruct (C12_l lm x Fx) as (r & T & Fr & V). { rewrite <- E. nra. }
  exists r. split; [exact T|]. rewrite <- E, (sqrt_square (B2R y) y0) in V.
  rewrite !(round_generic radix2 fe) in V by (typeclasses eauto || apply fmt_B2R). tauto.
Qed.
Lemma C13_ulp_l (lm : libm) (x r : f32) : is_finite x = true -> 0 <= B2R x ->
  terminates_with (fun n => util_sqrtf (FN lm) n x) (Ret r) -> Rabs (B2R r - sqrt (B2R x)) < ulp radix2 fe (sqrt (B2R x)).
Proof.
  intros Fx x0 T. destruct (C12_l lm x Fx x0) as (r' & [n T'] & Fr & V). destruct T as [k T].
  destruct (T (Nat.max n k) (Nat.le_max_r _ _)) as [T1 _]. destruct (T' (Nat.max n k) (Nat.le_max_l _ _)) as [T2 _].
  rewrite T1 in T2. injection T2 as <-.
  destruct (Req_dec (B2R x) 0) as [Z|NZ].
  - rewrite Z, sqrt_0, !round_0 in * by typeclasses eauto. replace (B2R r) with 0 by (destruct V; congruence). rewrite Rminus_0_r, Rabs_R0.
    rewrite ulp_FLT_0; [apply bpow_gt_0|reflexivity].
  - assert (S : sqrt (B2R x) <> 0) by (intros S; apply NZ, sqrt_eq_0; assumption).
    destruct V as [-> | ->]; apply error_lt_ulp; try exact S; typeclasses eauto.
Qed.
Lemma nr_mono (N : Num) n m x c p r : sqrtNewtonRaphsonF N n x c p = Ret r -> (n <= m)%nat -> sqrtNewtonRaphsonF N m x c p = Ret r.
Proof.
  revert m c p. induction n as [|n IH]; intros m c p H L; [discriminate|]. destruct m as [|m]; [lia|]. cbn [sqrtNewtonRaphsonF] in *.
  destruct (feqb c p); [exact H|]. apply IH; [exact H|lia].
Qed.
Definition three : f32 := @flit (FN no_libm) 3.
Lemma C13_witness (lm : libm) : exists x r, is_finite x = true /\ B2R x = 3 /\
  terminates_with (fun n => util_sqrtf (FN lm) n x) (Ret r) /\ B2R r <> round radix2 fe ZnearestE (sqrt (B2R x)).
Proof.
  assert (V3 : fin three /\ B2R three = 3) by f32_val.
  assert (E : exists r, util_sqrtf (FN lm) 20 three = Ret r /\ B2SF r = SpecFloat.S754_finite false 14529496 (-23)).
  { assert (O : oSF (util_sqrtf (FN lm) 20 three) = Ret (SpecFloat.S754_finite false 14529496 (-23))) by (vm_compute; reflexivity).
    destruct (util_sqrtf (FN lm) 20 three) as [r| | |]; try discriminate. exists r. split; [reflexivity|]. injection O. auto. }
  destruct E as (r & E & S). exists three, r. destruct V3 as [F3 V3]. split; [exact F3|]. split; [exact V3|]. split.
  - exists 20%nat. intros k L. split; [|discriminate]. unfold util_sqrtf in *.
    destruct (andb _ _); [|exact E]. exact (nr_mono (FN lm) 20 k _ _ _ r E L).
  - pose proof (sqrt_ok lm three F3 ltac:(lra)) as [_ Q]. fold fe rnd in *. rewrite <- Q.
    assert (R : B2SF (@fsqrt (FN lm) three) = SpecFloat.S754_finite false 14529495 (-23)) by (vm_compute; reflexivity).
    rewrite <- !SF2R_B2SF, S, R. unfold SF2R, F2R. cbn [Fnum Fexp cond_Zopp]. intros K.
    apply Rmult_eq_reg_r in K; [|pose proof (bpow_gt_0 radix2 (-23)); lra]. apply eq_IZR in K. discriminate.
Qed.
