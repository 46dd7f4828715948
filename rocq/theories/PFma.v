(** * Error bounds that hold however multiplications and additions are fused. *)
From Coq Require Import ZArith Reals Lra Lia Psatz List.
From Flocq Require Import Core BinarySingleNaN.
From Verif Require Import Num NumF MVec MTri MSpectrum MFma F32 PMatF PVec PSpecF.
Import ListNotations.
Local Open Scope R_scope.

Section WithLibm.
Variable lm : libm.
Let N := FN lm.

Lemma plain_ev e : ev lm e (plain lm e).
Proof. induction e; cbn [plain]; now constructor. Qed.

Lemma fma_ok (x y z : f32) : fin x -> fin y -> fin z -> Rabs (B2R x * B2R y + B2R z) <= bpow radix2 127 ->
  fin (fma x y z) /\ B2R (fma x y z) = rnd (B2R x * B2R y + B2R z).
Proof.
  intros X Y Z B. pose proof (Bfma_correct 24 128 p24 p24e mode_NE x y z X Y Z) as H. cbv zeta in H.
  rewrite Rlt_bool_true in H by (apply rnd_lt_128; exact B). destruct H as (V & Fn & _). split; [exact Fn|exact V].
Qed.

(** ** Running error analysis: exact value, magnitude, error bound *)
Fixpoint ex (e : exp) : R :=
  match e with Val x => B2R x | Add a b => ex a + ex b | Sub a b => ex a - ex b | Mul a b => ex a * ex b | Neg a => - ex a | _ => 0 end.
Fixpoint mg (e : exp) : R :=
  match e with Val x => Rabs (B2R x) | Add a b | Sub a b => mg a + mg b | Mul a b => mg a * mg b | Neg a => mg a | _ => 0 end.
Fixpoint er (e : exp) : R :=
  match e with
  | Add a b | Sub a b => er a + er b + u * (mg a + er a + (mg b + er b))
  | Mul a b => (mg a + er a) * (mg b + er b) - mg a * mg b + (u * ((mg a + er a) * (mg b + er b)) + eta)
  | Neg a => er a | _ => 0 end.
Fixpoint safe (e : exp) : Prop :=
  match e with
  | Val x => fin x
  | Add a b | Sub a b => safe a /\ safe b /\ mg a + er a + (mg b + er b) <= bpow radix2 127
  | Mul a b => safe a /\ safe b /\ (mg a + er a) * (mg b + er b) <= bpow radix2 127
  | Neg a => safe a | _ => False end.
Lemma mg_er e : 0 <= mg e /\ 0 <= er e /\ Rabs (ex e) <= mg e.
Proof.
  pose proof u_pos as U. pose proof eta_pos as E. induction e as [x|a (A1 & A2 & A3) b (B1 & B2 & B3)|a (A1 & A2 & A3) b (B1 & B2 & B3)|a (A1 & A2 & A3) b (B1 & B2 & B3)|a (A1 & A2 & A3)| |]; cbn [mg er ex].
  - split; [apply Rabs_pos|]. split; lra.
  - split; [lra|]. split; [assert (0 <= u * (mg a + er a + (mg b + er b))) by (apply Rmult_le_pos; lra); lra|]. eapply Rle_trans; [apply Rabs_triang|]; lra.
  - split; [lra|]. split; [assert (0 <= u * (mg a + er a + (mg b + er b))) by (apply Rmult_le_pos; lra); lra|]. unfold Rminus. eapply Rle_trans; [apply Rabs_triang|]. rewrite Rabs_Ropp. lra.
  - split; [now apply Rmult_le_pos|]. split.
    + assert (0 <= u * ((mg a + er a) * (mg b + er b))) by (apply Rmult_le_pos; [lra|apply Rmult_le_pos; lra]). assert (0 <= mg a * er b) by now apply Rmult_le_pos. assert (0 <= er a * mg b) by now apply Rmult_le_pos. assert (0 <= er a * er b) by now apply Rmult_le_pos. lra.
    + rewrite Rabs_mult. apply Rmult_le_compat; try assumption; apply Rabs_pos.
  - rewrite Rabs_Ropp. tauto.
  - rewrite Rabs_R0. lra.
  - rewrite Rabs_R0. lra.
Qed.
Lemma prod_err x y a b ma mb ea eb : Rabs (x - a) <= ea -> Rabs (y - b) <= eb -> Rabs a <= ma -> Rabs b <= mb ->
  Rabs (x * y - a * b) <= (ma + ea) * (mb + eb) - ma * mb /\ Rabs (x * y) <= (ma + ea) * (mb + eb).
Proof.
  intros X Y A B. pose proof (Rabs_pos (x - a)). pose proof (Rabs_pos (y - b)). pose proof (Rabs_pos a). pose proof (Rabs_pos b). split.
  - replace (x * y - a * b) with ((x - a) * (y - b) + (a * (y - b) + (x - a) * b)) by ring.
    eapply Rle_trans; [apply Rabs_triang|]. pose proof (Rabs_triang (a * (y - b)) ((x - a) * b)) as T. rewrite !Rabs_mult in *.
    assert (Rabs (x - a) * Rabs (y - b) <= ea * eb) by (apply Rmult_le_compat; lra). assert (Rabs a * Rabs (y - b) <= ma * eb) by (apply Rmult_le_compat; lra).
    assert (Rabs (x - a) * Rabs b <= ea * mb) by (apply Rmult_le_compat; lra). lra.
  - rewrite Rabs_mult. apply Rmult_le_compat; try apply Rabs_pos.
    + replace x with ((x - a) + a) by ring. eapply Rle_trans; [apply Rabs_triang|]. lra.
    + replace y with ((y - b) + b) by ring. eapply Rle_trans; [apply Rabs_triang|]. lra.
Qed.
(** the two kinds of sum *)
Lemma sum_real x y a b ma mb ea eb r : Rabs (x - a) <= ea -> Rabs (y - b) <= eb -> Rabs a <= ma -> Rabs b <= mb ->
  Rabs (r - (x + y)) <= u * Rabs (x + y) -> Rabs (r - (a + b)) <= ea + eb + u * (ma + ea + (mb + eb)).
Proof.
  intros X Y A B Hr. pose proof u_pos as U.
  assert (S : Rabs (x + y) <= ma + ea + (mb + eb)).
  { replace (x + y) with ((x - a) + a + ((y - b) + b)) by ring. pose proof (Rabs_triang ((x - a) + a) ((y - b) + b)). pose proof (Rabs_triang (x - a) a). pose proof (Rabs_triang (y - b) b). lra. }
  assert (u * Rabs (x + y) <= u * (ma + ea + (mb + eb))) by (apply Rmult_le_compat_l; lra).
  replace (r - (a + b)) with ((r - (x + y)) + ((x - a) + (y - b))) by ring. pose proof (Rabs_triang (r - (x + y)) ((x - a) + (y - b))). pose proof (Rabs_triang (x - a) (y - b)). lra.
Qed.
Lemma fma_real p z a c mp mc E P ec r : Rabs (p - a) <= E -> Rabs p <= P -> Rabs (z - c) <= ec -> Rabs c <= mc -> P = mp + E ->
  Rabs (r - (p + z)) <= u * Rabs (p + z) + eta -> Rabs (r - (a + c)) <= E + (u * P + eta) + ec + u * (mp + (E + (u * P + eta)) + (mc + ec)).
Proof.
  intros A Pp Z C HP Hr. pose proof u_pos as U. pose proof eta_pos as Et. pose proof (Rabs_pos p).
  assert (S : Rabs (p + z) <= P + (mc + ec)).
  { replace (p + z) with (p + ((z - c) + c)) by ring. pose proof (Rabs_triang p ((z - c) + c)). pose proof (Rabs_triang (z - c) c). lra. }
  assert (Q : u * Rabs (p + z) <= u * (P + (mc + ec))) by (apply Rmult_le_compat_l; lra).
  assert (0 <= u * (u * P + eta)). { apply Rmult_le_pos; [lra|]. assert (0 <= u * P) by (apply Rmult_le_pos; lra). lra. }
  assert (0 <= u * P) by (apply Rmult_le_pos; lra).
  replace (r - (a + c)) with ((r - (p + z)) + ((p - a) + (z - c))) by ring. pose proof (Rabs_triang (r - (p + z)) ((p - a) + (z - c))). pose proof (Rabs_triang (p - a) (z - c)).
  replace (mp + (E + (u * P + eta)) + (mc + ec)) with (P + (mc + ec) + (u * P + eta)) by lra. rewrite Rmult_plus_distr_l. lra.
Qed.
Lemma fused x y z a b c : fin x /\ Rabs (B2R x - ex a) <= er a -> fin y /\ Rabs (B2R y - ex b) <= er b -> fin z /\ Rabs (B2R z - ex c) <= er c ->
  safe (Add (Mul a b) c) -> fin (fma x y z) /\ Rabs (B2R (fma x y z) - (ex a * ex b + ex c)) <= er (Add (Mul a b) c).
Proof.
  intros (Fx & X) (Fy & Y) (Fz & Z) ((_ & _ & S1) & _ & S2). cbn [mg er] in *. destruct (mg_er a) as (A1 & A2 & A3), (mg_er b) as (B1 & B2 & B3), (mg_er c) as (C1 & C2 & C3).
  destruct (prod_err _ _ _ _ _ _ _ _ X Y A3 B3) as (P1 & P2). pose proof u_pos as U. pose proof eta_pos as Et.
  set (P := (mg a + er a) * (mg b + er b)) in *. assert (PP : 0 <= u * P) by (apply Rmult_le_pos; [lra|pose proof (Rabs_pos (B2R x * B2R y)); lra]).
  assert (ZB : Rabs (B2R z) <= mg c + er c) by (replace (B2R z) with ((B2R z - ex c) + ex c) by ring; eapply Rle_trans; [apply Rabs_triang|]; lra).
  destruct (fma_ok x y z Fx Fy Fz) as (Fr & V). { eapply Rle_trans; [apply Rabs_triang|]. lra. }
  split; [exact Fr|]. rewrite V. apply (fma_real (B2R x * B2R y) (B2R z)); try assumption; [unfold P; ring|]. apply rnd_err_abs.
Qed.
Lemma fneg x a : fin x /\ Rabs (B2R x - ex a) <= er a -> fin (@fopp N x) /\ Rabs (B2R (@fopp N x) - ex (Neg a)) <= er (Neg a).
Proof.
  intros (Fx & X). destruct (opp_ok lm x Fx) as (Fo & V). split; [exact Fo|]. fold N in V. rewrite V. cbn [ex er]. replace (- B2R x - - ex a) with (- (B2R x - ex a)) by ring. now rewrite Rabs_Ropp.
Qed.
Lemma ev_error e r : ev lm e r -> safe e -> fin r /\ Rabs (B2R r - ex e) <= er e.
Proof.
  assert (OK : forall a (x : f32), Rabs (B2R x - ex a) <= er a -> Rabs (B2R x) <= mg a + er a).
  { intros a x X. destruct (mg_er a) as (_ & _ & M). replace (B2R x) with ((B2R x - ex a) + ex a) by ring. eapply Rle_trans; [apply Rabs_triang|]. lra. }
  induction 1 as [x|a b x y _ IA _ IB|a b x y _ IA _ IB|a b x y _ IA _ IB|a x _ IA| |  |a b c x y z _ IA _ IB _ IC|a b c x y z _ IA _ IB _ IC|a b c x y z _ IA _ IB _ IC|a b c x y z _ IA _ IB _ IC]; intros S.
  - split; [exact S|]. cbn [ex er]. rewrite Rminus_diag_eq, Rabs_R0 by reflexivity. lra.
  - destruct S as (SA & SB & S). destruct (IA SA) as (FA & A), (IB SB) as (FB & B). destruct (mg_er a) as (_ & _ & MA), (mg_er b) as (_ & _ & MB).
    destruct (add_ok lm x y FA FB) as (Fr & V). { eapply Rle_trans; [apply Rabs_triang|]. pose proof (OK _ _ A). pose proof (OK _ _ B). lra. }
    split; [exact Fr|]. rewrite V. cbn [ex er]. apply (sum_real (B2R x) (B2R y)); try assumption. apply rnd_add_err; apply fmt_B2R.
  - destruct S as (SA & SB & S). destruct (IA SA) as (FA & A), (IB SB) as (FB & B). destruct (mg_er a) as (_ & _ & MA), (mg_er b) as (_ & _ & MB).
    destruct (sub_ok lm x y FA FB) as (Fr & V). { unfold Rminus. eapply Rle_trans; [apply Rabs_triang|]. rewrite Rabs_Ropp. pose proof (OK _ _ A). pose proof (OK _ _ B). lra. }
    split; [exact Fr|]. rewrite V. cbn [ex er]. change (ex a - ex b) with (ex a + - ex b). apply (sum_real (B2R x) (- B2R y)); try assumption.
    + replace (- B2R y - - ex b) with (- (B2R y - ex b)) by ring. now rewrite Rabs_Ropp.
    + now rewrite Rabs_Ropp.
    + change (B2R x - B2R y) with (B2R x + - B2R y). apply rnd_add_err; [apply fmt_B2R|apply fmt_opp, fmt_B2R].
  - destruct S as (SA & SB & S). destruct (IA SA) as (FA & A), (IB SB) as (FB & B). destruct (mg_er a) as (_ & _ & MA), (mg_er b) as (_ & _ & MB).
    destruct (prod_err _ _ _ _ _ _ _ _ A B MA MB) as (P1 & P2). destruct (mul_ok lm x y FA FB) as (Fr & V); [lra|]. split; [exact Fr|]. rewrite V. cbn [ex er].
    pose proof (rnd_err_abs (B2R x * B2R y)) as E. pose proof u_pos. assert (u * Rabs (B2R x * B2R y) <= u * ((mg a + er a) * (mg b + er b))) by (apply Rmult_le_compat_l; lra).
    replace (rnd (B2R x * B2R y) - ex a * ex b) with ((rnd (B2R x * B2R y) - B2R x * B2R y) + (B2R x * B2R y - ex a * ex b)) by ring. eapply Rle_trans; [apply Rabs_triang|]. lra.
  - apply fneg. exact (IA S).
  - destruct S.
  - destruct S.
  - pose proof S as ((SA & SB & _) & SC & _). exact (fused x y z a b c (IA SA) (IB SB) (IC SC) S).
  - pose proof S as (SC & (SA & SB & S1) & S2). destruct (fused x y z a b c (IA SA) (IB SB) (IC SC)) as (Fr & E).
    { split; [exact (conj SA (conj SB S1))|]. split; [exact SC|]. rewrite (Rplus_comm (mg (Mul a b) + _)). exact S2. }
    split; [exact Fr|]. cbn [ex er] in *. rewrite (Rplus_comm (ex c)). eapply Rle_trans; [exact E|]. right. cbn [mg]. ring.
  - pose proof S as ((SA & SB & S1) & SC & S2). destruct (fused x y (@fopp N z) a b (Neg c) (IA SA) (IB SB) (fneg z c (IC SC))) as (Fr & E).
    { split; [exact (conj SA (conj SB S1))|]. split; [exact SC|]. exact S2. }
    split; [exact Fr|]. exact E.
  - pose proof S as (SC & (SA & SB & S1) & S2). destruct (fused (@fopp N x) y z (Neg a) b c (fneg x a (IA SA)) (IB SB) (IC SC)) as (Fr & E).
    { split; [exact (conj SA (conj SB S1))|]. split; [exact SC|]. rewrite (Rplus_comm (mg (Mul (Neg a) b) + _)). exact S2. }
    split; [exact Fr|]. cbn [ex er mg] in *. replace (ex c - ex a * ex b) with (- ex a * ex b + ex c) by ring. eapply Rle_trans; [exact E|]. right. ring.
Qed.
End WithLibm.
