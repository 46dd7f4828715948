(** * Monotonicity in binary32: sums of products of non-negative floats; the grey
    patches of the Macbeth chart. *)
From Coq Require Import ZArith Reals Lra Lia List Bool.
From Flocq Require Import Core BinarySingleNaN.
From Verif Require Import Num NumR NumF MVec MTri MSpectrum Tables RTac F32 PMatF PClip PSpec PSpecF PTables.
Import ListNotations.
Local Open Scope R_scope.

Section Mono.
Context (lm : libm).
Notation N := (FN lm).
Notation le x y := (@fleb N x y = true).
Notation inf := (B754_infinity false : f32).

(** a non-negative float, +infinity included. *)
Definition nn (x : f32) : Prop := x = inf \/ (fin x /\ 0 <= B2R x).
Lemma le_inf x : nn x -> le x inf.
Proof. intros H. rewrite leb_cases. right. right. split; [reflexivity|]. destruct H as [->|[F _]]; [discriminate|]. intros ->. discriminate F. Qed.
Lemma le_fin (x y : f32) : fin x -> fin y -> B2R x <= B2R y -> le x y.
Proof. intros. rewrite leb_cases. auto. Qed.
Lemma le_nn (x y : f32) : nn x -> le x y -> nn y.
Proof.
  intros H L. rewrite leb_cases in L. destruct L as [(A & B & C)|[(A & B)|(A & B)]].
  - destruct H as [->|[F H]]; [discriminate|]. right. split; [exact B|lra].
  - subst x. destruct H as [H|[H _]]; discriminate.
  - left. exact A.
Qed.
Lemma B2SF_inf (z : f32) : B2SF z = SpecFloat.S754_infinity false -> z = inf.
Proof. intros H. apply B2SF_inj. exact H. Qed.
Lemma nn_sign (x : f32) : 0 < B2R x -> Bsign x = false.
Proof.
  destruct x as [s|s| |s m e E]; cbn; try lra. intros H. destruct s; [|reflexivity]. exfalso.
  apply (Rlt_irrefl 0). apply Rlt_trans with (1 := H). apply F2R_lt_0. reflexivity.
Qed.
Lemma mul_dich (x y : f32) : fin x -> fin y -> 0 <= B2R x -> 0 <= B2R y ->
  (fin (@fmul N x y) /\ B2R (@fmul N x y) = rnd (B2R x * B2R y)) \/
  (@fmul N x y = inf /\ bpow radix2 128 <= rnd (B2R x * B2R y)).
Proof.
  intros Fx Fy Hx Hy. destruct (Rlt_or_le (Rabs (rnd (B2R x * B2R y))) (bpow radix2 128)) as [H|H].
  - left. apply mul_gen; assumption.
  - right. assert (P : 0 <= rnd (B2R x * B2R y)) by (apply rnd_ge_fmt; [apply fmt_0|nra]).
    rewrite Rabs_pos_eq in H by exact P. split; [|exact H].
    pose proof (Bmult_correct 24 128 _ _ mode_NE x y) as C. change (SpecFloat.fexp 24 128) with fe in C. cbn [round_mode] in C.
    rewrite Rlt_bool_false in C by (rewrite Rabs_pos_eq; assumption).
    assert (NZ : B2R x * B2R y <> 0). { intros E. rewrite E, rnd_0 in H. pose proof (bpow_gt_0 radix2 128). lra. }
    assert (B2R x <> 0) by (intros E; apply NZ; rewrite E; ring). assert (B2R y <> 0) by (intros E; apply NZ; rewrite E; ring).
    rewrite (nn_sign x), (nn_sign y) in C by lra. apply B2SF_inf. exact C.
Qed.
Lemma mul_nn (x y : f32) : fin x -> fin y -> 0 <= B2R x -> 0 <= B2R y -> nn (@fmul N x y).
Proof.
  intros Fx Fy Hx Hy. destruct (mul_dich x y Fx Fy Hx Hy) as [[F V]|[E _]]; [right|left; exact E].
  split; [exact F|]. rewrite V. apply rnd_ge_fmt; [apply fmt_0|nra].
Qed.
Lemma mul_mono (x x' y y' : f32) : fin x -> fin x' -> fin y -> fin y' -> 0 <= B2R x <= B2R x' -> 0 <= B2R y <= B2R y' ->
  le (@fmul N x y) (@fmul N x' y').
Proof.
  intros Fx Fx' Fy Fy' Hx Hy. assert (M : B2R x * B2R y <= B2R x' * B2R y') by (apply Rmult_le_compat; lra).
  destruct (mul_dich x' y' Fx' Fy' ltac:(lra) ltac:(lra)) as [[F V]|[E _]].
  - destruct (mul_dich x y Fx Fy ltac:(lra) ltac:(lra)) as [[F' V']|[_ B]].
    + apply le_fin; auto. rewrite V, V'. apply rnd_le, M.
    + exfalso. apply rnd_le in M. pose proof (abs_B2R_lt_emax 24 128 (@fmul N x' y')) as K. rewrite V in K.
      rewrite Rabs_pos_eq in K by (apply rnd_ge_fmt; [apply fmt_0|nra]). lra.
  - rewrite E. apply le_inf, mul_nn; lra || assumption.
Qed.
Lemma add_dich (x y : f32) : fin x -> fin y -> 0 <= B2R x -> 0 <= B2R y ->
  (fin (@fadd N x y) /\ B2R (@fadd N x y) = rnd (B2R x + B2R y)) \/
  (@fadd N x y = inf /\ bpow radix2 128 <= rnd (B2R x + B2R y)).
Proof.
  intros Fx Fy Hx Hy. destruct (Rlt_or_le (Rabs (rnd (B2R x + B2R y))) (bpow radix2 128)) as [H|H].
  - left. apply add_gen; assumption.
  - right. assert (P : 0 <= rnd (B2R x + B2R y)) by (apply rnd_ge_fmt; [apply fmt_0|lra]).
    rewrite Rabs_pos_eq in H by exact P. split; [|exact H].
    pose proof (Bplus_correct 24 128 _ _ mode_NE x y Fx Fy) as C. change (SpecFloat.fexp 24 128) with fe in C. cbn [round_mode] in C.
    rewrite Rlt_bool_false in C by (rewrite Rabs_pos_eq; assumption). destruct C as [C S].
    assert (NZ : B2R x + B2R y <> 0). { intros E. rewrite E, rnd_0 in H. pose proof (bpow_gt_0 radix2 128). lra. }
    assert (Sx : Bsign x = false). { destruct (Req_dec (B2R x) 0); [rewrite S|]; apply nn_sign; lra. }
    rewrite Sx in C. apply B2SF_inf. exact C.
Qed.
Lemma add_nn (x y : f32) : nn x -> nn y -> nn (@fadd N x y).
Proof.
  intros [->|[Fx Hx]] [->|[Fy Hy]].
  - left. reflexivity.
  - left. destruct y as [[]|[]| |[] m e E]; try reflexivity; discriminate.
  - left. destruct x as [[]|[]| |[] m e E]; try reflexivity; discriminate.
  - destruct (add_dich x y Fx Fy Hx Hy) as [[F V]|[E _]]; [right|left; exact E].
    split; [exact F|]. rewrite V. apply rnd_ge_fmt; [apply fmt_0|lra].
Qed.
Lemma add_inf_l (y : f32) : nn y -> @fadd N inf y = inf.
Proof. intros [->|[F _]]; [reflexivity|]. destruct y as [[]|[]| |[] m e E]; try reflexivity; discriminate. Qed.
Lemma add_inf_r (x : f32) : nn x -> @fadd N x inf = inf.
Proof. intros [->|[F _]]; [reflexivity|]. destruct x as [[]|[]| |[] m e E]; try reflexivity; discriminate. Qed.
Lemma add_mono (x x' y y' : f32) : nn x -> nn y -> le x x' -> le y y' -> le (@fadd N x y) (@fadd N x' y').
Proof.
  intros Hx Hy Lx Ly. pose proof (le_nn _ _ Hx Lx) as Hx'. pose proof (le_nn _ _ Hy Ly) as Hy'.
  destruct Hx' as [->|[Fx' Px']]; [rewrite add_inf_l by assumption; apply le_inf, add_nn; assumption|].
  destruct Hy' as [->|[Fy' Py']]; [rewrite add_inf_r by (right; auto); apply le_inf, add_nn; assumption|].
  rewrite leb_cases in Lx, Ly.
  destruct Lx as [(Fx & _ & Lx)|[[-> _]|[-> _]]]; [|destruct Hx as [E|[E _]]; discriminate E|discriminate Fx'].
  destruct Ly as [(Fy & _ & Ly)|[[-> _]|[-> _]]]; [|destruct Hy as [E|[E _]]; discriminate E|discriminate Fy'].
  destruct Hx as [->|[_ Hx]]; [discriminate|]. destruct Hy as [->|[_ Hy]]; [discriminate|].
  destruct (add_dich x' y' Fx' Fy' Px' Py') as [[F V]|[E _]].
  - destruct (add_dich x y Fx Fy Hx Hy) as [[F' V']|[_ B]].
    + apply le_fin; auto. rewrite V, V'. apply rnd_le. lra.
    + exfalso. pose proof (rnd_le (B2R x + B2R y) (B2R x' + B2R y') ltac:(lra)) as M. pose proof (abs_B2R_lt_emax 24 128 (@fadd N x' y')) as K. rewrite V in K.
      rewrite Rabs_pos_eq in K by (apply rnd_ge_fmt; [apply fmt_0|lra]). lra.
  - rewrite E. apply le_inf, add_nn; right; auto.
Qed.

(** ** Dot products. *)
Definition okS (s : list f32) : Prop := length s = 400%nat /\ Forall (fun x : f32 => is_finite x = true /\ 0 <= B2R x) s.
Definition belowS (a b : list f32) : Prop := forall i, (i < 400)%nat -> B2R (nth i a (B754_nan : f32)) <= B2R (nth i b (B754_nan : f32)).
Lemma ok_nth s i : okS s -> (i < 400)%nat -> fin (sref N s i) /\ 0 <= B2R (sref N s i).
Proof. intros [L F] H. rewrite Forall_forall in F. apply F, nth_In. change (i < @length f32 s)%nat. rewrite L. exact H. Qed.
Lemma dot_nn a x n : okS a -> okS x -> (n < 400)%nat -> nn (dotHelper N a x n).
Proof.
  intros A X. induction n as [|n IH]; intros H; cbn [dotHelper].
  - destruct (ok_nth a 0 A H), (ok_nth x 0 X H). now apply mul_nn.
  - destruct (ok_nth a (S n) A H), (ok_nth x (S n) X H). apply add_nn; [now apply mul_nn|apply IH; lia].
Qed.
Lemma dot_mono_f a b x n : okS a -> okS b -> okS x -> belowS a b -> (n < 400)%nat -> le (dotHelper N a x n) (dotHelper N b x n).
Proof.
  intros A B X L. induction n as [|n IH]; intros H; cbn [dotHelper].
  - destruct (ok_nth a 0 A H), (ok_nth x 0 X H), (ok_nth b 0 B H). apply mul_mono; auto; [|lra]. split; [assumption|apply (L 0%nat H)].
  - destruct (ok_nth a (S n) A H), (ok_nth x (S n) X H), (ok_nth b (S n) B H).
    apply add_mono; [now apply mul_nn|apply dot_nn; auto; lia| |apply IH; lia].
    apply mul_mono; auto; [|lra]. split; [assumption|apply (L (S n) H)].
Qed.
Lemma C88_dot_l a b x : okS a -> okS b -> okS x -> belowS a b -> le (S_dot N a x) (S_dot N b x).
Proof. intros. apply dot_mono_f; auto with arith. Qed.

(** the pointwise product of two bounded spectra. *)
Definition B30 : R := IZR (2 ^ 30).
Lemma B30_val : B30 = 1073741824. Proof. reflexivity. Qed.
Lemma prod_fin (x y : f32) : fin x -> fin y -> 0 <= B2R x <= B30 -> 0 <= B2R y <= B30 ->
  fin (@fmul N x y) /\ B2R (@fmul N x y) = rnd (B2R x * B2R y) /\ 0 <= B2R (@fmul N x y) <= bpow radix2 60.
Proof.
  intros Fx Fy Hx Hy. assert (P : 0 <= B2R x * B2R y <= bpow radix2 60).
  { split; [nra|]. change (bpow radix2 60) with (IZR (2 ^ 60)). replace (IZR (2 ^ 60)) with (B30 * B30) by (unfold B30; rewrite <- mult_IZR; reflexivity).
    apply Rmult_le_compat; lra. }
  destruct (mul_ok lm x y Fx Fy) as [F V].
  { rewrite Rabs_pos_eq by lra. apply Rle_trans with (1 := proj2 P). apply bpow_le. lia. }
  split; [exact F|]. split; [exact V|]. rewrite V. split; [apply rnd_ge_fmt; [apply fmt_0|lra]|apply rnd_le_fmt; [apply fmt_bpow; lia|lra]].
Qed.
Lemma range_nth s i : rangeF B30 s -> (i < 400)%nat -> fin (sref N s i) /\ 0 <= B2R (sref N s i) <= B30.
Proof. intros [L F] H. rewrite Forall_forall in F. apply F, nth_In. change (i < @length f32 s)%nat. rewrite L. exact H. Qed.
Lemma mulS_nth a b i : rangeF B30 a -> rangeF B30 b -> (i < 400)%nat ->
  fin (sref N (S_mul N a b) i) /\ B2R (sref N (S_mul N a b) i) = rnd (B2R (sref N a i) * B2R (sref N b i)) /\
  0 <= B2R (sref N (S_mul N a b) i) <= bpow radix2 60.
Proof. intros A B H. unfold S_mul. rewrite sref_tab by exact H. destruct (range_nth a i A H), (range_nth b i B H). now apply prod_fin. Qed.
Lemma mulS_ok a b : rangeF B30 a -> rangeF B30 b -> okS (S_mul N a b).
Proof.
  intros A B. split; [exact (tab_len N _)|]. apply Forall_forall. intros x I. destruct (In_nth _ _ (@fnan N) I) as (i & H & <-).
  change (length (S_mul N a b)) with 400%nat in H. destruct (mulS_nth a b i A B H) as (F & _ & P). split; [exact F|]. apply P.
Qed.
Lemma range_okS s : rangeF B30 s -> okS s.
Proof. intros [L F]. split; [exact L|]. revert F. apply Forall_impl. intros x [? ?]. split; [assumption|lra]. Qed.
Lemma mulS_below r r' l : rangeF B30 r -> rangeF B30 r' -> rangeF B30 l -> belowS r r' -> belowS (S_mul N r l) (S_mul N r' l).
Proof.
  intros A A' L H i I. change (B2R (sref N (S_mul N r l) i) <= B2R (sref N (S_mul N r' l) i)).
  destruct (mulS_nth r l i A L I) as (_ & -> & _). destruct (mulS_nth r' l i A' L I) as (_ & -> & _). apply rnd_le.
  apply Rmult_le_compat_r; [apply (range_nth l i L I)|apply (H i I)].
Qed.
(** a bounded dot product is finite. *)
Lemma dot_bound a x n : okS a -> rangeF B30 x -> (forall i, (i < 400)%nat -> B2R (sref N a i) <= bpow radix2 60) -> (n < 400)%nat ->
  fin (dotHelper N a x n) /\ 0 <= B2R (dotHelper N a x n) <= IZR (Z.of_nat (S n)) * bpow radix2 91.
Proof.
  intros A X U. assert (P : forall i, (i < 400)%nat -> fin (@fmul N (sref N a i) (sref N x i)) /\ 0 <= B2R (@fmul N (sref N a i) (sref N x i)) <= bpow radix2 90).
  { intros i H. destruct (ok_nth a i A H) as [Fa Pa], (range_nth x i X H) as [Fx Px]. specialize (U i H).
    assert (Q : 0 <= B2R (sref N a i) * B2R (sref N x i) <= bpow radix2 90).
    { split; [nra|]. change (bpow radix2 90) with (bpow radix2 (60 + 30)). rewrite bpow_plus. apply Rmult_le_compat; try lra.
      change (bpow radix2 30) with B30. lra. }
    destruct (mul_ok lm _ _ Fa Fx) as [F V].
    { rewrite Rabs_pos_eq by lra. apply Rle_trans with (1 := proj2 Q). apply bpow_le. lia. }
    split; [exact F|]. rewrite V. split; [apply rnd_ge_fmt; [apply fmt_0|lra]|apply rnd_le_fmt; [apply fmt_bpow; lia|lra]]. }
  assert (E91 : bpow radix2 91 = 2 * bpow radix2 90) by (change 91%Z with (1 + 90)%Z; rewrite bpow_plus; reflexivity).
  pose proof (bpow_gt_0 radix2 90) as G.
  induction n as [|n IH]; intros H; cbn [dotHelper].
  - destruct (P 0%nat H) as [F Q]. split; [exact F|]. change (IZR (Z.of_nat 1)) with 1. lra.
  - destruct (IH ltac:(lia)) as [F0 Q0]. destruct (P (S n) H) as [F1 Q1].
    assert (I1 : 0 <= IZR (Z.of_nat (S n)) <= 400) by (split; apply IZR_le; lia).
    rewrite (Nat2Z.inj_succ (S n)), succ_IZR. set (k := IZR (Z.of_nat (S n))) in *.
    set (p := B2R (@fmul N (sref N a (S n)) (sref N x (S n)))) in *. set (d := B2R (dotHelper N a x n)) in *.
    assert (S0 : 0 <= p + d <= (k + 1) * bpow radix2 91 - bpow radix2 90) by nra.
    destruct (add_ok lm _ _ F1 F0) as [F V].
    { rewrite Rabs_pos_eq by (fold p d; lra). fold p d. apply Rle_trans with (401 * bpow radix2 91); [nra|].
      apply Rle_trans with (bpow radix2 9 * bpow radix2 91); [|rewrite <- bpow_plus; apply bpow_le; lia].
      apply Rmult_le_compat_r; [apply bpow_ge_0|]. change (bpow radix2 9) with 512. lra. }
    split; [exact F|]. rewrite V. fold p d. split; [apply rnd_ge_fmt; [apply fmt_0|lra]|].
    pose proof (rnd_err_abs (p + d)) as R0. rewrite (Rabs_pos_eq (p + d)) in R0 by lra. apply Rabs_le_inv in R0.
    pose proof u_small. assert (eta <= / 16777216) by (change (/ 16777216) with (bpow radix2 (-24)); apply bpow_le; lia). pose proof F32.u_pos.
    assert (u * (p + d) <= / 16777216 * (802 * bpow radix2 90)) by (apply Rmult_le_compat; try lra; rewrite E91 in *; assert (k * bpow radix2 90 <= 400 * bpow radix2 90) by (apply Rmult_le_compat_r; lra); lra).
    assert (1 <= bpow radix2 90) by (change 1 with (bpow radix2 0); apply bpow_le; lia). lra.
Qed.

Lemma S_dot_bound a x : okS a -> rangeF B30 x -> (forall i, (i < 400)%nat -> B2R (sref N a i) <= bpow radix2 60) ->
  fin (S_dot N a x) /\ 0 <= B2R (S_dot N a x).
Proof.
  intros A X U. assert (G : forall n, (n < 400)%nat -> fin (dotHelper N a x n) /\ 0 <= B2R (dotHelper N a x n)).
  { intros n H. destruct (dot_bound a x n A X U H) as (F & P & _). split; assumption. }
  exact (G 399%nat (Nat.lt_succ_diag_r 399)).
Qed.
Definition okN (o : Observer N) : Prop := rangeF B30 (o_X o) /\ rangeF B30 (o_Y o) /\ rangeF B30 (o_Z o) /\
  allV (fun x : f32 => is_finite x = true /\ 0 <= B2R x) (o_normalize o).
Lemma one_comp X c r r' l : rangeF B30 X -> fin c -> 0 <= B2R c -> rangeF B30 r -> rangeF B30 r' -> rangeF B30 l -> belowS r r' ->
  le (@fmul N (S_dot N (S_mul N r l) X) c) (@fmul N (S_dot N (S_mul N r' l) X) c).
Proof.
  intros HX Fc Pc Hr Hr' Hl L.
  pose proof (C88_dot_l _ _ X (mulS_ok r l Hr Hl) (mulS_ok r' l Hr' Hl) (range_okS _ HX) (mulS_below _ _ _ Hr Hr' Hl L)) as D.
  destruct (S_dot_bound (S_mul N r l) X (mulS_ok r l Hr Hl) HX) as [F1 P1]; [intros i I; apply (mulS_nth r l i Hr Hl I)|].
  destruct (S_dot_bound (S_mul N r' l) X (mulS_ok r' l Hr' Hl) HX) as [F2 P2]; [intros i I; apply (mulS_nth r' l i Hr' Hl I)|].
  revert D F1 P1 F2 P2. generalize (S_dot N (S_mul N r l) X) (S_dot N (S_mul N r' l) X). intros d d' D F1 P1 F2 P2.
  rewrite leb_cases in D. destruct D as [(_ & _ & D)|[[E _]|[E _]]]; [|subst; discriminate|subst; discriminate].
  apply mul_mono; auto; lra.
Qed.
Lemma C88_l (o : Observer N) r r' l : okN o -> rangeF B30 r -> rangeF B30 r' -> rangeF B30 l -> belowS r r' ->
  let t := fromReflectanceAndLight N o r l in let t' := fromReflectanceAndLight N o r' l in
  le (v0 t) (v0 t') /\ le (v1 t) (v1 t') /\ le (v2 t) (v2 t').
Proof.
  intros (HX & HY & HZ & (Fx & Px) & (Fy & Py) & (Fz & Pz)) Hr Hr' Hl L. rewrite !C57_l.
  unfold fromSpectrum, SpectrumIntegrate, T_mul. cbn [v0 v1 v2]. repeat split; apply one_comp; assumption.
Qed.
End Mono.

(** ** The predefined observers are within the bounds. *)
Section Pre.
Context (lm : libm).
Notation N := (FN lm).
Lemma sum_bound x n : rangeF 3 x -> (n < 400)%nat ->
  fin (sumHelper N x n) /\ 0 <= B2R (sumHelper N x n) <= IZR (Z.of_nat (S n)) * 4 /\
  (forall i, (i <= n)%nat -> B2R (sref N x i) <= B2R (sumHelper N x n)).
Proof.
  intros X. assert (P : forall i, (i < 400)%nat -> fin (sref N x i) /\ 0 <= B2R (sref N x i) <= 3).
  { intros i H. destruct X as [L F]. rewrite Forall_forall in F. apply F, nth_In. change (i < @length f32 x)%nat. rewrite L. exact H. }
  induction n as [|n IH]; intros H; cbn [sumHelper].
  - destruct (P 0%nat H) as [F Q]. split; [exact F|]. change (IZR (Z.of_nat 1)) with 1. split; [lra|]. intros i I. replace i with 0%nat by lia. lra.
  - destruct (IH ltac:(lia)) as (F0 & Q0 & M0). destruct (P (S n) H) as [F1 Q1].
    assert (I1 : 0 <= IZR (Z.of_nat (S n)) <= 400) by (split; apply IZR_le; lia).
    rewrite (Nat2Z.inj_succ (S n)), succ_IZR. set (k := IZR (Z.of_nat (S n))) in *.
    set (p := B2R (sref N x (S n))) in *. set (d := B2R (sumHelper N x n)) in *.
    destruct (add_ok lm _ _ F0 F1) as [F V].
    { rewrite Rabs_pos_eq by (fold p d; lra). fold p d. apply Rle_trans with (bpow radix2 11); [change (bpow radix2 11) with 2048; lra|apply bpow_le; lia]. }
    assert (Gd : d <= rnd (d + p)) by (apply rnd_ge_fmt; [apply fmt_B2R|lra]).
    assert (Gp : p <= rnd (d + p)) by (apply rnd_ge_fmt; [apply fmt_B2R|lra]).
    split; [exact F|]. rewrite V. fold p d. split; [split; [lra|]|].
    + pose proof (rnd_err_abs (d + p)) as R0. rewrite (Rabs_pos_eq (d + p)) in R0 by lra. apply Rabs_le_inv in R0.
      pose proof u_small. assert (eta <= / 16777216) by (change (/ 16777216) with (bpow radix2 (-24)); apply bpow_le; lia). pose proof F32.u_pos.
      assert (u * (d + p) <= / 16777216 * 1603) by (apply Rmult_le_compat; lra). lra.
    + intros i I. destruct (Nat.eq_dec i (S n)) as [->|E]; [exact Gp|]. specialize (M0 i ltac:(lia)). lra.
Qed.
Lemma S_sum_bound x : rangeF 3 x -> fin (S_sum N x) /\ 0 <= B2R (S_sum N x) <= 1600 /\ B2R (sref N x 60) <= B2R (S_sum N x).
Proof.
  intros X. assert (G : forall n, (60 <= n < 400)%nat -> fin (sumHelper N x n) /\ 0 <= B2R (sumHelper N x n) <= 1600 /\ B2R (sref N x 60) <= B2R (sumHelper N x n)).
  { intros n [H0 H]. destruct (sum_bound x n X H) as (F & P & M). split; [exact F|]. split; [|apply M, H0].
    assert (IZR (Z.of_nat (S n)) <= 400) by (apply IZR_le; lia). lra. }
  apply (G 399%nat). split; [apply Nat.leb_le; reflexivity|apply Nat.lt_succ_diag_r].
Qed.
Lemma norm_bound x : rangeF 3 x -> / 128 <= B2R (sref N x 60) -> fin (@fdiv N (@flit N 1) (S_sum N x)) /\ 0 <= B2R (@fdiv N (@flit N 1) (S_sum N x)).
Proof.
  intros X H. destruct (S_sum_bound x X) as (F & P & M). revert F P M. generalize (S_sum N x). intros s F P M.
  assert (V1 : fin (@flit N 1) /\ B2R (@flit N 1) = 1) by f32_val. destruct V1 as [F1 V1].
  assert (Q : 0 <= 1 / B2R s <= 128).
  { split; [apply Rmult_le_pos; [lra|left; apply Rinv_0_lt_compat; lra]|]. unfold Rdiv. rewrite Rmult_1_l.
    replace 128 with (/ / 128) by lra. apply Rinv_le_contravar; lra. }
  destruct (div_ok lm (@flit N 1) s F1) as [Fd V]; [lra|rewrite V1, Rabs_pos_eq by lra; apply Rle_trans with (1 := proj2 Q); change 128 with (bpow radix2 7); apply bpow_le; lia|].
  split; [exact Fd|]. rewrite V, V1. apply rnd_ge_fmt; [apply fmt_0|lra].
Qed.
Lemma CMF_60 t : In t CMFs -> rangeF 3 (spectrum_of N t) /\ / 128 <= B2R (sref N (spectrum_of N t) 60).
Proof.
  intros I. pose proof (all_chk _ _ CMF_chk) as A. rewrite Forall_forall in A. specialize (A t I). split; [apply (chk_F lm 3); [lia|exact A]|].
  apply chk_ok in A as [L F]. assert (E : sref N (spectrum_of N t) 60 = @flit N (nth 60 t 0%dec)).
  { unfold sref, spectrum_of. rewrite nth_indep with (d' := @flit N 0%dec); [apply map_nth|]. rewrite map_length, L. apply Nat.leb_le. reflexivity. }
  rewrite E. assert (B : / 128 <= Rdec (nth 60 t 0%dec) <= 3).
  { cbn [In CMFs] in I. do 9 (destruct I as [<-|I]; [vm_compute nth; unfold Rdec; cbn [dm de]; change (Z.pow_pos 10 11) with 100000000000%Z; lra|]). destruct I. }
  destruct (lit_ok lm (nth 60 t 0%dec)) as [Fl Vl].
  { rewrite Rabs_pos_eq by lra. apply Rle_trans with (bpow radix2 2); [change (bpow radix2 2) with 4; lra|apply bpow_le; lia]. }
  rewrite Vl. apply rnd_ge_fmt; [|lra]. change (/ 128) with (bpow radix2 (-7)). apply fmt_bpow. lia.
Qed.
Lemma range_up lo hi s : lo <= hi -> rangeF lo s -> rangeF hi s.
Proof. intros H [L F]. split; [exact L|]. revert F. apply Forall_impl. intros x [? ?]. split; [assumption|lra]. Qed.
Lemma pre_okN : forall o, In o [CIE1931 N; CIE31JV N; CIE2012 N] -> okN lm o.
Proof.
  assert (G : forall X Y Z, In X CMFs -> In Y CMFs -> In Z CMFs -> okN lm (Observer_make N (spectrum_of N X) (spectrum_of N Y) (spectrum_of N Z))).
  { intros X Y Z A B C. destruct (CMF_60 X A) as [RX SX], (CMF_60 Y B) as [RY SY], (CMF_60 Z C) as [RZ SZ].
    assert (W : 3 <= B30) by (rewrite B30_val; lra).
    unfold okN, Observer_make. cbn [o_X o_Y o_Z o_normalize]. split; [exact (range_up _ _ _ W RX)|]. split; [exact (range_up _ _ _ W RY)|]. split; [exact (range_up _ _ _ W RZ)|].
    unfold allV. cbn [v0 v1 v2]. split; [|split]; apply norm_bound; assumption. }
  intros o [<-|[<-|[<-|[]]]]; apply G; cbn [In CMFs]; tauto.
Qed.

(** ** The grey patches. *)
Definition dle (a b : dec) : bool := ((de a <=? 0) && (de b <=? 0) && (dm a * 10 ^ (- de b) <=? dm b * 10 ^ (- de a)))%Z.
Lemma dle_ok a b : dle a b = true -> Rdec a <= Rdec b.
Proof.
  destruct a as [m e], b as [m' e']. unfold dle. cbn [dm de]. rewrite !andb_true_iff, !Z.leb_le. intros [[A B] C].
  assert (G : forall m e, (e <= 0)%Z -> Rdec (mkdec m e) = IZR m / IZR (10 ^ (- e))).
  { intros n f H. unfold Rdec. cbn [dm de]. destruct f as [|p|p]; [|lia|reflexivity]. change (10 ^ (- 0))%Z with 1%Z. field. }
  rewrite !G by assumption. assert (P : forall f, (f <= 0)%Z -> 0 < IZR (10 ^ (- f))) by (intros f H; apply (IZR_lt 0), Z.pow_pos_nonneg; lia).
  pose proof (P e A). pose proof (P e' B). apply IZR_le in C. rewrite !mult_IZR in C.
  apply Rmult_le_reg_r with (IZR (10 ^ (- e)) * IZR (10 ^ (- e'))); [nra|].
  replace (IZR m / IZR (10 ^ (- e)) * (IZR (10 ^ (- e)) * IZR (10 ^ (- e')))) with (IZR m * IZR (10 ^ (- e'))) by (field; lra).
  replace (IZR m' / IZR (10 ^ (- e')) * (IZR (10 ^ (- e)) * IZR (10 ^ (- e')))) with (IZR m' * IZR (10 ^ (- e))) by (field; lra). exact C.
Qed.
Definition grey (k : nat) : list dec := nth (18 + k) T_Patch [].
Definition tle (s t : list dec) : bool := forallb (fun i => dle (nth i s 0%dec) (nth i t 0%dec)) (seq 0 400).
Lemma grey_chk : forallb (fun k => tle (grey (S k)) (grey k)) (seq 0 5) = true. Proof. vm_compute. reflexivity. Qed.
Lemma grey_le k i : (k < 5)%nat -> (i < 400)%nat -> Rdec (nth i (grey (S k)) 0%dec) <= Rdec (nth i (grey k) 0%dec).
Proof.
  intros K I. pose proof grey_chk as A. rewrite forallb_forall in A. assert (Q : In k (seq 0 5)) by (apply in_seq; lia). specialize (A k Q).
  unfold tle in A. rewrite forallb_forall in A. assert (Q' : In i (seq 0 400)) by (apply in_seq; lia). exact (dle_ok _ _ (A i Q')).
Qed.
Lemma grey_in k : (k < 6)%nat -> In (grey k) T_Patch.
Proof. intros K. apply nth_In. change (length T_Patch) with 24%nat. lia. Qed.
Lemma grey_ok k : (k < 6)%nat -> chk 1 (grey k) = true.
Proof. intros K. pose proof (all_chk _ _ Patch_chk) as A. rewrite Forall_forall in A. apply A, grey_in, K. Qed.
Lemma grey_below k : (k < 5)%nat -> belowS (spectrum_of N (grey (S k))) (spectrum_of N (grey k)).
Proof.
  intros K i I. assert (G : forall j, (j < 6)%nat -> sref N (spectrum_of N (grey j)) i = @flit N (nth i (grey j) 0%dec) /\ 0 <= Rdec (nth i (grey j) 0%dec) <= 1).
  { intros j J. destruct (chk_ok _ _ (grey_ok j J)) as [L F]. rewrite Forall_forall in F. split.
    - unfold sref, spectrum_of. rewrite nth_indep with (d' := @flit N 0%dec); [apply map_nth|]. rewrite map_length, L. exact I.
    - apply F, nth_In. now rewrite L. }
  destruct (G (S k) ltac:(lia)) as [E1 B1], (G k ltac:(lia)) as [E2 B2]. change (B2R (sref N (spectrum_of N (grey (S k))) i) <= B2R (sref N (spectrum_of N (grey k)) i)). rewrite E1, E2.
  assert (BB : 1 <= bpow radix2 127) by (change 1 with (bpow radix2 0); apply bpow_le; lia).
  destruct (lit_ok lm (nth i (grey (S k)) 0%dec)) as [_ V1]; [rewrite Rabs_pos_eq; lra|].
  destruct (lit_ok lm (nth i (grey k) 0%dec)) as [_ V2]; [rewrite Rabs_pos_eq; lra|].
  rewrite V1, V2. apply rnd_le, grey_le; assumption.
Qed.
Lemma ref_nth (M : Num) (l : Spectrum M) (o : Observer M) k d : (k < 6)%nat ->
  nth (18 + k) (Macbeth_reference M (Macbeth_Patch M) l o) d = fromReflectanceAndLight M o (spectrum_of M (grey k)) l.
Proof. intros K. do 6 (destruct k as [|k]; [reflexivity|]). lia. Qed.
Lemma C89_float_l (o : Observer N) (l : list f32) k d : okN lm o -> rangeF B30 l -> (k < 5)%nat ->
  let p j := nth (18 + j) (Macbeth_reference N (Macbeth_Patch N) l o) d in
  @fleb N (v0 (p (S k))) (v0 (p k)) = true /\ @fleb N (v1 (p (S k))) (v1 (p k)) = true /\ @fleb N (v2 (p (S k))) (v2 (p k)) = true.
Proof.
  intros O L K. cbv beta zeta. rewrite !ref_nth by lia. assert (W : 1 <= B30) by (rewrite B30_val; lra).
  apply (C88_l lm o (spectrum_of N (grey (S k))) (spectrum_of N (grey k)) l O); [| |exact L|apply grey_below, K];
    apply (range_up 1 _ _ W), (chk_F lm 1); try lia; apply grey_ok; lia.
Qed.
End Pre.
Lemma C89_real_l X Y Z l k d : obs_ok X Y Z -> nonneg X -> nonneg Y -> nonneg Z -> spectrumR l -> nonneg l -> (k < 5)%nat ->
  let p j := nth (18 + j) (Macbeth_reference RN (Macbeth_Patch RN) (finS l) (observerR X Y Z)) d in
  exists t t', p (S k) = finV t /\ p k = finV t' /\ 0 <= v0 t <= v0 t' /\ 0 <= v1 t <= v1 t' /\ 0 <= v2 t <= v2 t'.
Proof.
  intros O PX PY PZ L PL K. cbv beta zeta. rewrite !ref_nth by lia. rewrite !C57_l, !spectrum_of_fin.
  assert (G : forall j, (j < 6)%nat -> spectrumR (tabR (grey j)) /\ nonneg (tabR (grey j))).
  { intros j J. destruct (chk_ok _ _ (grey_ok j J)) as [Lg F]. split; [unfold spectrumR, tabR; now rewrite map_length|].
    unfold nonneg, tabR. rewrite Forall_map. revert F. apply Forall_impl. intros; lra. }
  destruct (G (S k) ltac:(lia)) as [S1 N1], (G k ltac:(lia)) as [S2 N2]. rewrite !S_mul_fin by assumption.
  destruct (C55_mono_l X Y Z (mulS (tabR (grey (S k))) l) (mulS (tabR (grey k)) l) O PX PY PZ (pw_len _ _ _) (pw_len _ _ _)) as (t & t' & E & E' & H).
  { intros i I. unfold mulS. rewrite !smp_pw by exact I. apply Rmult_le_compat_r; [now apply nonneg_smp|].
    unfold smp, tabR. change 0 with (Rdec 0%dec) at 1 2. rewrite !map_nth. now apply grey_le. }
  destruct (C55_nonneg_l X Y Z (mulS (tabR (grey (S k))) l) O PX PY PZ (pw_len _ _ _)) as (t0 & E0 & H0).
  { unfold nonneg, mulS, pointwise. rewrite Forall_forall. intros x I. apply in_map_iff in I as (i & <- & I).
    apply Rmult_le_pos; now apply nonneg_smp. }
  rewrite E in E0. apply finV_inj in E0. subst t0. exists t, t'. split; [exact E|]. split; [exact E'|]. lra.
Qed.

(** ** Examples. *)
Lemma white_black i : (i < 400)%nat -> Rdec (nth i T_Macbeth36 0%dec) <= Rdec (nth i T_Macbeth31 0%dec).
Proof.
  intros I. apply Rle_trans with (2 := grey_le 0 i ltac:(lia) I). apply Rle_trans with (2 := grey_le 1 i ltac:(lia) I).
  apply Rle_trans with (2 := grey_le 2 i ltac:(lia) I). apply Rle_trans with (2 := grey_le 3 i ltac:(lia) I).
  exact (grey_le 4 i ltac:(lia) I).
Qed.
Lemma belowS_trans a b c : belowS a b -> belowS b c -> belowS a c.
Proof. intros A B i I. apply Rle_trans with (1 := A i I). apply (B i I). Qed.
Lemma C88_ex (lm : libm) : let a := spectrum_of (FN lm) T_Macbeth36 in let b := spectrum_of (FN lm) T_Macbeth31 in
  rangeF B30 a /\ rangeF B30 b /\ belowS a b /\ B2R (nth 100 a (B754_nan : f32)) < B2R (nth 100 b (B754_nan : f32)).
Proof.
  assert (W : 1 <= B30) by (rewrite B30_val; lra). cbv zeta.
  split; [apply (range_up 1 _ _ W), (chk_F lm 1); [lia|exact (grey_ok 5 ltac:(lia))]|].
  split; [apply (range_up 1 _ _ W), (chk_F lm 1); [lia|exact (grey_ok 0 ltac:(lia))]|].
  split.
  - apply belowS_trans with (1 := grey_below lm 4 ltac:(lia)). apply belowS_trans with (1 := grey_below lm 3 ltac:(lia)).
    apply belowS_trans with (1 := grey_below lm 2 ltac:(lia)). apply belowS_trans with (1 := grey_below lm 1 ltac:(lia)).
    exact (grey_below lm 0 ltac:(lia)).
  - assert (E : forall t, length t = 400%nat -> sref (FN lm) (spectrum_of (FN lm) t) 100 = @flit (FN lm) (nth 100 t 0%dec)).
    { intros t L. unfold sref, spectrum_of. rewrite nth_indep with (d' := @flit (FN lm) 0%dec); [apply map_nth|].
      rewrite map_length, L. apply Nat.leb_le. reflexivity. }
    change (B2R (sref (FN lm) (spectrum_of (FN lm) T_Macbeth36) 100) < B2R (sref (FN lm) (spectrum_of (FN lm) T_Macbeth31) 100)).
    rewrite (E T_Macbeth36 eq_refl), (E T_Macbeth31 eq_refl).
    assert (BB : 1 <= bpow radix2 127) by (change 1 with (bpow radix2 0); apply bpow_le; lia).
    assert (D1 : 0 <= Rdec (nth 100 T_Macbeth36 0%dec) <= / 8) by (vm_compute nth; unfold Rdec; cbn [dm de]; change (Z.pow_pos 10 9) with 1000000000%Z; lra).
    assert (D2 : / 2 <= Rdec (nth 100 T_Macbeth31 0%dec) <= 1) by (vm_compute nth; unfold Rdec; cbn [dm de]; change (Z.pow_pos 10 9) with 1000000000%Z; lra).
    destruct (lit_ok lm (nth 100 T_Macbeth36 0%dec)) as [_ V1]; [rewrite Rabs_pos_eq; lra|].
    destruct (lit_ok lm (nth 100 T_Macbeth31 0%dec)) as [_ V2]; [rewrite Rabs_pos_eq; lra|].
    rewrite V1, V2. apply Rle_lt_trans with (/ 8); [apply rnd_le_fmt; [change (/ 8) with (bpow radix2 (-3)); apply fmt_bpow; lia|lra]|].
    apply Rlt_le_trans with (/ 2); [lra|]. apply rnd_ge_fmt; [change (/ 2) with (bpow radix2 (-1)); apply fmt_bpow; lia|lra].
Qed.
Lemma C89_ex (lm : libm) : length (Macbeth_reference (FN lm) (Macbeth_Patch (FN lm)) (CIE_D65 (FN lm)) (CIE1931 (FN lm))) = 24%nat /\
  rangeF B30 (CIE_D65 (FN lm)).
Proof. split; [reflexivity|]. apply (range_up 200); [rewrite B30_val; lra|]. exact (chk_F lm 200 _ ltac:(lia) D65_chk). Qed.
