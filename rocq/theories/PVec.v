(** * Index conventions of [Vector3]/[Matrix3], for every arithmetic. *)
From Coq Require Import ZArith Lia List.
From Verif Require Import Num MVec.
Local Open Scope Z_scope.

Lemma cases3 i : 0 <= i < 3 -> i = 0 \/ i = 1 \/ i = 2.
Proof. lia. Qed.

Lemma vref_in_range {A} (v : Vector3 A) i : 0 <= i < 3 -> V_index v i = Ret v.[i].
Proof. intros H. destruct (cases3 i H) as [->|[->| ->]]; reflexivity. Qed.
Lemma mref_in_range {A} (m : Matrix3 A) i : 0 <= i < 9 -> M_index m i = Ret m.@[i].
Proof.
  intros H.
  assert (C : i = 0 \/ i = 1 \/ i = 2 \/ i = 3 \/ i = 4 \/ i = 5 \/ i = 6 \/ i = 7 \/ i = 8) by lia.
  repeat destruct C as [-> | C]; try reflexivity. subst; reflexivity.
Qed.
Lemma V_index_out {A} (v : Vector3 A) i : ~ 0 <= i < 3 -> V_index v i = UB.
Proof.
  intros H. unfold V_index. destruct i as [|p|p]; [lia| |reflexivity].
  destruct p as [p|p|]; try lia; try reflexivity; destruct p; try reflexivity; lia.
Qed.
Lemma M_index_out {A} (m : Matrix3 A) i : ~ 0 <= i < 9 -> M_index m i = UB.
Proof.
  intros H. unfold M_index. destruct i as [|p|p]; [lia| |reflexivity].
  do 4 (destruct p as [p|p|]; try lia; try reflexivity).
Qed.

Lemma M_row_in {A} (m : Matrix3 A) i : 0 <= i < 3 ->
  M_row m i = Ret (V3 m.@[3 * i] m.@[3 * i + 1] m.@[3 * i + 2]).
Proof. intros H. destruct (cases3 i H) as [->|[->| ->]]; reflexivity. Qed.
Lemma M_col_in {A} (m : Matrix3 A) i : 0 <= i < 3 ->
  M_col m i = Ret (V3 m.@[i] m.@[i + 3] m.@[i + 6]).
Proof. intros H. destruct (cases3 i H) as [->|[->| ->]]; reflexivity. Qed.
Lemma M_row_out {A} (m : Matrix3 A) i : ~ 0 <= i < 3 -> M_row m i = UB.
Proof. intros H. unfold M_row. rewrite M_index_out; [reflexivity|]. unfold M. lia. Qed.
Lemma M_col_out {A} (m : Matrix3 A) i : ~ 0 <= i < 3 -> M_col m i = UB.
Proof.
  intros H. unfold M_col.
  destruct (Z_lt_dec i 0) as [L|L].
  - rewrite M_index_out; [reflexivity|]. unfold M. lia.
  - destruct (Z_lt_dec i 9) as [L9|L9].
    + rewrite mref_in_range by (unfold M; lia). cbn [bind].
      destruct (Z_lt_dec i 6) as [L6|L6].
      * rewrite mref_in_range by (unfold M; lia). cbn [bind].
        rewrite M_index_out; [reflexivity|]. unfold M. lia.
      * rewrite M_index_out; [reflexivity|]. unfold M. lia.
    + rewrite M_index_out; [reflexivity|]. unfold M. lia.
Qed.

Lemma M_row_spec {A} (m : Matrix3 A) i :
  (0 <= i < 3 -> exists a b c, M_row m i = Ret (V3 a b c) /\
     M_index m (3 * i) = Ret a /\ M_index m (3 * i + 1) = Ret b /\ M_index m (3 * i + 2) = Ret c) /\
  (~ 0 <= i < 3 -> M_row m i = UB).
Proof.
  split; [|apply M_row_out].
  intros H. rewrite M_row_in by assumption. do 3 eexists. split; [reflexivity|].
  repeat split; apply mref_in_range; lia.
Qed.
Lemma M_col_spec {A} (m : Matrix3 A) i :
  (0 <= i < 3 -> exists a b c, M_col m i = Ret (V3 a b c) /\
     M_index m i = Ret a /\ M_index m (3 + i) = Ret b /\ M_index m (6 + i) = Ret c) /\
  (~ 0 <= i < 3 -> M_col m i = UB).
Proof.
  split; [|apply M_col_out].
  intros H. rewrite M_col_in by assumption. rewrite (Z.add_comm 3), (Z.add_comm 6).
  do 3 eexists. split; [reflexivity|]. repeat split; apply mref_in_range; lia.
Qed.
Lemma M_index_spec {A} (m : Matrix3 A) i :
  (0 <= i < 9 <-> exists x, M_index m i = Ret x) /\ (~ 0 <= i < 9 <-> M_index m i = UB).
Proof.
  assert (H : 0 <= i < 9 \/ ~ 0 <= i < 9) by lia.
  destruct H as [H|H].
  - rewrite (mref_in_range _ _ H). split; split; intros; eauto; try discriminate. contradiction.
  - rewrite (M_index_out _ _ H). split; split; intros K; auto; try contradiction.
    destruct K; discriminate.
Qed.
Lemma V_index_spec {A} (v : Vector3 A) i :
  (0 <= i < 3 <-> exists x, V_index v i = Ret x) /\ (~ 0 <= i < 3 <-> V_index v i = UB).
Proof.
  assert (H : 0 <= i < 3 \/ ~ 0 <= i < 3) by lia.
  destruct H as [H|H].
  - rewrite (vref_in_range _ _ H). split; split; intros; eauto; try discriminate. contradiction.
  - rewrite (V_index_out _ _ H). split; split; intros K; auto; try contradiction.
    destruct K; discriminate.
Qed.
Lemma transpose_row_col {A} (m : Matrix3 A) i :
  M_row (M_transpose m) i = M_col m i /\ M_col (M_transpose m) i = M_row m i.
Proof.
  assert (H : 0 <= i < 3 \/ ~ 0 <= i < 3) by lia. destruct H as [H|H].
  - rewrite !M_row_in, !M_col_in by assumption.
    destruct (cases3 i H) as [->|[->| ->]]; split; reflexivity.
  - rewrite !M_row_out, !M_col_out by assumption. split; reflexivity.
Qed.
Lemma transpose_involutive {A} (m : Matrix3 A) : M_transpose (M_transpose m) = m.
Proof. destruct m; reflexivity. Qed.
Lemma fromArray_spec {A} (p : list A) :
  (forall m, M_fromArray p = Ret m <->
     (9 <= length p)%nat /\ forall i, 0 <= i < 9 -> exists x,
        M_index m i = Ret x /\ nth_error p (Z.to_nat i) = Some x) /\
  ((length p < 9)%nat -> M_fromArray p = UB).
Proof.
  split.
  - intros m. split.
    + do 9 (destruct p as [|? p]; [discriminate|]). intros E. injection E as <-.
      split; [cbn; lia|]. intros i H. rewrite mref_in_range by lia. eexists; split; [reflexivity|].
      assert (C : i = 0 \/ i = 1 \/ i = 2 \/ i = 3 \/ i = 4 \/ i = 5 \/ i = 6 \/ i = 7 \/ i = 8) by lia.
      repeat destruct C as [-> | C]; try reflexivity. subst; reflexivity.
    + intros [L H]. do 9 (destruct p as [|? p]; [cbn in L; lia|]).
      destruct m. cbn.
      pose proof (H 0 ltac:(lia)) as (? & E0 & F0). pose proof (H 1 ltac:(lia)) as (? & E1 & F1).
      pose proof (H 2 ltac:(lia)) as (? & E2 & F2). pose proof (H 3 ltac:(lia)) as (? & E3 & F3).
      pose proof (H 4 ltac:(lia)) as (? & E4 & F4). pose proof (H 5 ltac:(lia)) as (? & E5 & F5).
      pose proof (H 6 ltac:(lia)) as (? & E6 & F6). pose proof (H 7 ltac:(lia)) as (? & E7 & F7).
      pose proof (H 8 ltac:(lia)) as (? & E8 & F8).
      vm_compute in E0, E1, E2, E3, E4, E5, E6, E7, E8, F0, F1, F2, F3, F4, F5, F6, F7, F8.
      congruence.
  - intros L. do 9 (destruct p as [|? p]; [reflexivity|]). cbn in L; lia.
Qed.

Lemma M_mul_entry (N : Num) (a b : Matrix3 (F N)) i j : 0 <= i < 3 -> 0 <= j < 3 ->
  exists r c, M_row a i = Ret r /\ M_col b j = Ret c /\
    M_index (M_mul N a b) (3 * i + j) = Ret (V_dot N r c).
Proof.
  intros Hi Hj. rewrite M_row_in, M_col_in by assumption. do 2 eexists.
  split; [reflexivity|]. split; [reflexivity|].
  destruct (cases3 i Hi) as [->|[->| ->]]; destruct (cases3 j Hj) as [->|[->| ->]]; reflexivity.
Qed.
Lemma M_apply_entry (N : Num) (m : Matrix3 (F N)) v i : 0 <= i < 3 ->
  exists r, M_row m i = Ret r /\ V_index (M_apply N m v) i = Ret (V_dot N r v).
Proof.
  intros Hi. rewrite M_row_in by assumption. eexists. split; [reflexivity|].
  destruct (cases3 i Hi) as [->|[->| ->]]; reflexivity.
Qed.
