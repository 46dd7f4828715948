(** * Finite values of [RN] and tactics to compute with them. *)
From Coq Require Import ZArith Reals Lra Bool.
From Flocq Require Import Core.Raux.
From Verif Require Import Num NumR MVec.
Local Open Scope R_scope.

#[global] Arguments IZR : simpl never.
#[global] Arguments Rdiv : simpl never.

(** Vectors and matrices of (finite) real numbers as values of the model. *)
Definition finV (v : Vector3 R) : Vector3 (F RN) :=
  V3 (Some (v0 v) : F RN) (Some (v1 v)) (Some (v2 v)).
Definition finM (m : Matrix3 R) : Matrix3 (F RN) :=
  M3 (Some (m0 m) : F RN) (Some (m1 m)) (Some (m2 m)) (Some (m3 m)) (Some (m4 m))
     (Some (m5 m)) (Some (m6 m)) (Some (m7 m)) (Some (m8 m)).

Lemma rdiv_ok x y : y <> 0 -> rx_div x y = Some (x / y).
Proof. intro H. unfold rx_div. rewrite Req_bool_false; auto. Qed.
Lemma rdiv_0 x y : y = 0 -> rx_div x y = None.
Proof. intros ->. unfold rx_div. rewrite Req_bool_true; auto. Qed.
Lemma rsqrt_ok x : 0 <= x -> rx_sqrt x = Some (sqrt x).
Proof. intro H. unfold rx_sqrt. rewrite Rlt_bool_false; auto. Qed.
Lemma rlog_ok x : 0 < x -> rx_log x = Some (ln x).
Proof. intro H. unfold rx_log. rewrite Rle_bool_false; auto. Qed.
Lemma rlog10_ok x : 0 < x -> rx_log10 x = Some (ln x / ln 10).
Proof. intro H. unfold rx_log10. rewrite Rle_bool_false; auto. Qed.
Lemma rpow_pos x y : 0 < x -> rx_pow x y = Some (Rpower x y).
Proof. intro H. unfold rx_pow. rewrite Rlt_bool_true; auto. Qed.
Lemma rpow_0 y : 0 < y -> rx_pow 0 y = Some 0.
Proof.
  intro H. unfold rx_pow. rewrite Rlt_bool_false by lra.
  rewrite Req_bool_false by lra. rewrite Req_bool_true by lra. rewrite Rlt_bool_true; auto.
Qed.

(** Unfold the operations of [RN] on known-finite values. *)
Ltac rn := cbn [F D fadd fsub fmul fdiv fopp ffabs fltb fleb feqb flit fofZ ftoint fltinf fnan
  fpi fsqrt fpow fexp flog flog10 fsin fcos fatan2 ffmod fcbrt dadd dsub dmul ddiv dopp dlit dofZ
  dpow dexp widen narrow RN rx1 rx2 rxb Rdec dm de
  Z.pow_pos Pos.iter Z.mul Pos.mul Pos.add Pos.succ Z.opp Z.add Z.sub Pos.sub
  vref mref v0 v1 v2 m0 m1 m2 m3 m4 m5 m6 m7 m8 M I finV finM bind of_option
  Z.leb Z.eqb Z.compare Pos.compare Pos.compare_cont Z.pos_sub Pos.pred_double andb orb negb].
Tactic Notation "rn" "in" hyp(H) := cbn [F D fadd fsub fmul fdiv fopp ffabs fltb fleb feqb flit fofZ ftoint fltinf fnan
  fpi fsqrt fpow fexp flog flog10 fsin fcos fatan2 ffmod fcbrt dadd dsub dmul ddiv dopp dlit dofZ
  dpow dexp widen narrow RN rx1 rx2 rxb Rdec dm de
  Z.pow_pos Pos.iter Z.mul Pos.mul Pos.add Pos.succ Z.opp Z.add Z.sub Pos.sub
  vref mref v0 v1 v2 m0 m1 m2 m3 m4 m5 m6 m7 m8 M I finV finM bind of_option
  Z.leb Z.eqb Z.compare Pos.compare Pos.compare_cont Z.pos_sub Pos.pred_double andb orb negb] in H.

Lemma M3_eq {A} (a b c d e f g h i a' b' c' d' e' f' g' h' i' : A) :
  a = a' -> b = b' -> c = c' -> d = d' -> e = e' -> f = f' -> g = g' -> h = h' -> i = i' ->
  M3 a b c d e f g h i = M3 a' b' c' d' e' f' g' h' i'.
Proof. intros; subst; reflexivity. Qed.
Lemma V3_eq {A} (a b c a' b' c' : A) : a = a' -> b = b' -> c = c' -> V3 a b c = V3 a' b' c'.
Proof. intros; subst; reflexivity. Qed.
Lemma Some_eq (x y : R) : x = y -> Some x = Some y.
Proof. intros; subst; reflexivity. Qed.
(** reduce an equality of finite values to equalities of reals. *)
Ltac fin_eq := lazymatch goal with
  | |- Ret _ = Ret _ => apply f_equal; fin_eq
  | |- M3 _ _ _ _ _ _ _ _ _ = M3 _ _ _ _ _ _ _ _ _ => apply M3_eq; fin_eq
  | |- V3 _ _ _ = V3 _ _ _ => apply V3_eq; fin_eq
  | |- Some _ = Some _ => apply Some_eq
  | _ => idtac
  end.

(** Like [rn] but literals stay folded (use before [qn] when they are long). *)
Ltac rl := cbn [F D fadd fsub fmul fdiv fopp ffabs fltb fleb feqb flit fofZ ftoint fltinf fnan
  fpi fsqrt fpow fexp flog flog10 fsin fcos fatan2 ffmod fcbrt dadd dsub dmul ddiv dopp dlit dofZ
  dpow dexp widen narrow RN rx1 rx2 rxb
  vref mref v0 v1 v2 m0 m1 m2 m3 m4 m5 m6 m7 m8 M I finV finM bind of_option andb orb negb].
(** Turn the literals of a goal into quotients of integer constants. *)
Ltac izr := repeat match goal with |- context [IZR ?z] =>
    lazymatch z with Zpos _ => idtac | Zneg _ => idtac | _ (_) => idtac | _ => fail end;
    let v := eval vm_compute in z in
    lazymatch v with Z0 => idtac | Zpos _ => idtac | Zneg _ => idtac end;
    tryif constr_eq z v then fail else change (IZR z) with (IZR v) end.
Ltac qn := unfold Rdec, Q2R; cbn [de dm QArith_base.Qnum QArith_base.Qden]; izr.
#[global] Arguments Rdec _%dec.
