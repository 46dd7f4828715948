(** * Integer polynomials: evaluation, arithmetic and a positivity check on an interval. *)
From Coq Require Import ZArith Reals Lra Lia List Bool Psatz.
Import ListNotations.
Local Open Scope R_scope.

Fixpoint pe (p : list Z) (x : R) : R := match p with [] => 0 | a :: q => IZR a + x * pe q x end.
Fixpoint padd (p q : list Z) : list Z :=
  match p, q with [], _ => q | _, [] => p | a :: p', b :: q' => (a + b)%Z :: padd p' q' end.
Definition pscale (k : Z) (p : list Z) : list Z := map (Z.mul k) p.
Fixpoint pmul (p q : list Z) : list Z := match p with [] => [] | a :: p' => padd (pscale a q) (0%Z :: pmul p' q) end.
Fixpoint pder (p : list Z) : list Z := match p with [] => [] | _ :: q => padd q (0%Z :: pder q) end.
(** [p] of [a + b x]. *)
Fixpoint psub (p : list Z) (a b : Z) : list Z :=
  match p with [] => [] | c :: q => let r := psub q a b in padd [c] (padd (pscale a r) (0%Z :: pscale b r)) end.

Lemma pe_add p q x : pe (padd p q) x = pe p x + pe q x.
Proof. revert q. induction p as [|a p IH]; intros [|b q]; cbn [padd pe]; try lra. rewrite IH, plus_IZR. ring. Qed.
Lemma pe_scale k p x : pe (pscale k p) x = IZR k * pe p x.
Proof. induction p as [|a p IH]; cbn; [ring|]. fold (pscale k p). rewrite IH, mult_IZR. ring. Qed.
Lemma pe_mul p q x : pe (pmul p q) x = pe p x * pe q x.
Proof. induction p as [|a p IH]; cbn [pmul pe]; [ring|]. rewrite pe_add, pe_scale. cbn [pe]. rewrite IH. ring. Qed.
Lemma pe_sub p a b x : pe (psub p a b) x = pe p (IZR a + IZR b * x).
Proof. induction p as [|c p IH]; cbn [psub pe]; [reflexivity|]. rewrite pe_add, pe_add, pe_scale. cbn [pe]. rewrite pe_scale, IH. ring. Qed.
Lemma pe_der p x : derivable_pt_lim (pe p) x (pe (pder p) x).
Proof.
  induction p as [|a p IH].
  - apply derivable_pt_lim_const.
  - cbn [pder]. rewrite pe_add. cbn [pe].
    replace (pe p x + (0 + x * pe (pder p) x)) with (0 + (1 * pe p x + id x * pe (pder p) x)) by (unfold id; ring).
    apply (derivable_pt_lim_plus (fct_cte (IZR a)) (id * pe p)%F).
    + apply derivable_pt_lim_const.
    + apply derivable_pt_lim_mult; [apply derivable_pt_lim_id|exact IH].
Qed.
Lemma pe_mono p a b : (forall x, a <= x <= b -> 0 < pe (pder p) x) -> a < b -> pe p a < pe p b.
Proof.
  intros H L. destruct (MVT_cor2 (pe p) (pe (pder p)) a b L) as (c & E & Hc); [intros; apply pe_der|].
  specialize (H c). nra.
Qed.

(** all prefix sums positive: the polynomial is positive on [0,1]. *)
Fixpoint prefix (s : Z) (p : list Z) : bool := match p with [] => (0 <? s)%Z | a :: q => (0 <? s)%Z && prefix (s + a) q end.
Fixpoint phalf (p : list Z) : list Z :=   (* 2^n p (x/2), n the length *)
  match p with [] => [] | a :: q => (a * 2 ^ Z.of_nat (length p))%Z :: phalf q end.
Fixpoint pos (n : nat) (p : list Z) : bool :=
  match p with [] => false | a :: q =>
    if prefix a q then true else
    match n with
    | O => false
    | S n => let h := phalf p in if pos n h then pos n (psub h 1 1) else false
    end
  end.
Lemma prefix_ok q : forall s x, prefix s q = true -> 0 <= x <= 1 -> 0 < IZR s + x * pe q x.
Proof.
  induction q as [|a q IH]; intros s x H Hx; cbn [prefix] in H.
  - apply Z.ltb_lt, IZR_lt in H. cbn [pe]. lra.
  - apply andb_prop in H. destruct H as [H1 H2]. apply Z.ltb_lt, IZR_lt in H1. specialize (IH _ x H2 Hx). rewrite plus_IZR in IH.
    cbn [pe]. replace (IZR s + x * (IZR a + x * pe q x)) with ((1 - x) * IZR s + x * (IZR s + IZR a + x * pe q x)) by ring.
    destruct (Req_dec x 0) as [->|X0]; [lra|]. pose proof (Rmult_lt_0_compat x _ ltac:(lra) IH).
    pose proof (Rmult_le_pos (1 - x) (IZR s) ltac:(lra) ltac:(lra)). lra.
Qed.
Lemma phalf_ok p x : pe (phalf p) x = 2 ^ length p * pe p (x / 2).
Proof.
  induction p as [|a p IH]; [cbn; ring|]. cbn [phalf pe]. rewrite IH, mult_IZR.
  replace (IZR (2 ^ Z.of_nat (length (a :: p)))) with (2 ^ length (a :: p)) by (rewrite pow_IZR; reflexivity).
  cbn [length pow]. field.
Qed.
Lemma pos_ok n : forall p x, pos n p = true -> 0 <= x <= 1 -> 0 < pe p x.
Proof.
  induction n as [|n IH]; intros [|a q] x H Hx; try discriminate.
  - cbn [pos] in H. destruct (prefix a q) eqn:P; [|discriminate]. cbn [pe]. now apply prefix_ok.
  - cbn [pos] in H. destruct (prefix a q) eqn:Q; [cbn [pe]; now apply prefix_ok|].
    cbv zeta in H. destruct (pos n (phalf (a :: q))) eqn:H1; [|discriminate]. rename H into H2.
    assert (P : 0 < 2 ^ length (a :: q)) by (apply pow_lt; lra).
    destruct (Rle_dec x (/ 2)) as [L|L].
    + assert (B : 0 < pe (phalf (a :: q)) (2 * x)) by (apply IH; [exact H1|lra]).
      rewrite phalf_ok in B. replace (2 * x / 2) with x in B by lra. nra.
    + assert (B : 0 < pe (psub (phalf (a :: q)) 1 1) (2 * x - 1)) by (apply IH; [exact H2|lra]).
      rewrite pe_sub, phalf_ok in B. replace ((1 + 1 * (2 * x - 1)) / 2) with x in B by lra. nra.
Qed.
(** on [a, a + w]. *)
Lemma pos_on n p a w : pos n (psub p a w) = true -> (0 < w)%Z -> forall x, IZR a <= x <= IZR a + IZR w -> 0 < pe p x.
Proof.
  intros H W x Hx. apply IZR_lt in W. assert (B : 0 < pe (psub p a w) ((x - IZR a) / IZR w)).
  { apply pos_ok with n; [exact H|]. split.
    - apply Rmult_le_pos; [lra|]. apply Rlt_le, Rinv_0_lt_compat; lra.
    - apply Rmult_le_reg_r with (IZR w); [lra|]. unfold Rdiv. rewrite Rmult_assoc, Rinv_l; lra. }
  rewrite pe_sub in B. replace (IZR a + IZR w * ((x - IZR a) / IZR w)) with x in B by (field; lra). exact B.
Qed.
(** on [a, infinity): all coefficients after the shift are nonnegative, the first positive. *)
Definition posinf (p : list Z) : bool := match p with [] => false | a :: q => (0 <? a)%Z && forallb (fun c => (0 <=? c)%Z) q end.
Lemma pe_nonneg q x : forallb (fun c => (0 <=? c)%Z) q = true -> 0 <= x -> 0 <= pe q x.
Proof.
  induction q as [|a q IH]; cbn [forallb pe]; intros H X; [lra|]. apply andb_prop in H. destruct H as [H1 H2].
  apply Z.leb_le, IZR_le in H1. specialize (IH H2 X). nra.
Qed.
Lemma pos_from p a : posinf (psub p a 1) = true -> forall x, IZR a <= x -> 0 < pe p x.
Proof.
  intros H x Hx. replace x with (IZR a + 1 * (x - IZR a)) by ring. rewrite <- pe_sub.
  destruct (psub p a 1) as [|c q]; [discriminate|]. cbn [posinf] in H. apply andb_prop in H. destruct H as [H1 H2].
  apply Z.ltb_lt, IZR_lt in H1. cbn [pe]. pose proof (pe_nonneg q (x - IZR a) H2 ltac:(lra)). nra.
Qed.
