(** * Streams: end of file, reading everything, following pointers, re-initialisation. *)
From Coq Require Import ZArith List Bool Lia.
From Verif Require Import Num MStream SpecStream PStream PStream2 LStream.
Import ListNotations.
Local Open Scope Z_scope.

(** the client's loop [while (!s.feof()) out.push_back(s.getUint8());] *)
Fixpoint drain (fuel : nat) : ST (list Z) :=
  match fuel with
  | O => fun _ => Timeout
  | Datatypes.S f => let* e := feof in if e then ret [] else let* b := getUint8 in let* r := drain f in ret (b :: r)
  end.
Lemma feof_l s : wf s -> small s -> feof s = Ret (true, s) /\ at_end s \/ feof s = Ret (false, s) /\ ptr s < size s.
Proof.
  intros W S. unfold feof. rewrite ptr64 by assumption. unfold at_end. destruct W as [W _].
  destruct (Z.leb_spec (size s) (ptr s)); [left|right]; (split; [reflexivity|lia]).
Qed.
Lemma drain_l k : forall s, wf s -> small s -> length (ahead s) = k -> forall n, (k < n)%nat ->
  drain n s = Ret (ahead s, set_ptr s (size s)).
Proof.
  induction k as [|k IH]; intros s W S L n Hn; (destruct n as [|n]; [lia|]); cbn [drain]; unfold stbind at 1.
  - destruct (feof_l s W S) as [[E A]|[E A]].
    + rewrite E. cbn [bind]. unfold ret. destruct (ahead s); [|discriminate]. unfold at_end in A. rewrite <- A. destruct s; reflexivity.
    + exfalso. unfold ahead in L. rewrite skipn_length in L. destruct W as [W _]. unfold size in A. lia.
  - destruct (feof_l s W S) as [[E A]|[E A]].
    + exfalso. unfold ahead in L. rewrite skipn_length in L. unfold at_end, size in A. lia.
    + rewrite E. cbn [bind]. pose proof W as W0. destruct W as [W B].
      assert (LT : (Z.to_nat (ptr s) < length (buf s))%nat) by (unfold size in *; lia).
      destruct (nth_error (buf s) (Z.to_nat (ptr s))) as [x|] eqn:X; [|apply nth_error_None in X; lia].
      unfold stbind at 1. rewrite (get1_ok s x W0 S X). cbn [bind]. unfold stbind.
      assert (AH : ahead s = x :: ahead (set_ptr s (ptr s + 1))).
      { unfold ahead. cbn [ptr buf set_ptr]. rewrite (skipn_nth _ _ _ X). do 2 f_equal. lia. }
      rewrite (IH (set_ptr s (ptr s + 1))); [|split; [unfold size in *; cbn; lia|exact B]|exact S|rewrite AH in L; cbn in L; lia|lia].
      cbn [bind]. unfold ret. rewrite AH. reflexivity.
Qed.
Lemma drain_all s : wf s -> small s -> terminates_with (fun n => drain n s) (Ret (ahead s, set_ptr s (size s))).
Proof.
  intros W S. exists (Datatypes.S (length (ahead s))). intros m Hm. split; [|discriminate]. apply (drain_l _ s W S eq_refl). lia.
Qed.

(** Following a back-patched pointer. *)
Lemma follow32_l s : wf s -> at_end s -> size s + 4 < 2 ^ 31 ->
  exists s1, putPointer32 s = Ret (ptr s, s1) /\
  forall s2 d, buf s2 = buf s1 ++ d -> Forall byte d -> size s2 < 2 ^ 31 -> rE s2 = wE s2 -> 
    exists s3 s4, (let* _ := adjustPointer32 (ptr s) in let* _ := seekTo (ptr s) in getPointer32) s2 = Ret (size s2, s3) /\
      seekTo (size s2) s3 = Ret (size s2, s4) /\ at_end s4 /\ buf s4 = buf s ++ wire (wE s2) 4 (size s2) ++ d.
Proof.
  intros W A L. destruct (C46_l s W A L) as (s1 & E1 & B1 & A1 & WE & H). exists s1. split; [exact E1|].
  intros s2 d E2 D S2 RE. specialize (H s2 d E2).
  pose proof (size_nonneg s) as NN. unfold at_end in A.
  set (bb := buf s ++ wire (wE s2) 4 (size s2) ++ d).
  assert (LB : Z.of_nat (length bb) = size s2).
  { unfold bb. rewrite !app_length, wire_len. unfold size. rewrite E2, B1, !app_length. cbn [length]. lia. }
  assert (LE : ptr s + 4 <= size s2) by (rewrite <- LB; unfold bb; rewrite !app_length, wire_len, A; unfold size; lia).
  assert (W' : Forall byte bb).
  { unfold bb. apply Forall_app. split; [apply W|]. apply Forall_app. split; [apply wire_byte|exact D]. }
  assert (SZ : forall p, size (set_ptr (set_buf s2 bb) p) = size s2) by (intros p; unfold size at 1; exact LB).
  assert (G : (let* _ := adjustPointer32 (ptr s) in let* _ := seekTo (ptr s) in getPointer32) s2 = Ret (size s2, set_ptr (set_buf s2 bb) (ptr s + 4))).
  { unfold stbind. rewrite H. cbn [bind]. fold bb. rewrite seekTo_ok; [|unfold size; cbn [buf set_buf]; rewrite LB; lia|unfold small, size; cbn [buf set_buf]; rewrite LB; lia].
    cbn [bind]. unfold getPointer32. pose proof (get_ok TU32 (set_ptr (set_buf s2 bb) (ptr s))) as G. cbn [get width] in G. rewrite G.
    - unfold ahead. rewrite (SZ (ptr s)). cbn [ptr buf rE set_ptr set_buf]. rewrite Z.min_l by lia. apply (f_equal (fun x => Ret (x, _))).
      unfold bb. replace (Z.to_nat (ptr s)) with (length (buf s)) by (rewrite A; unfold size; lia). rewrite skipn_app, skipn_all, Nat.sub_diag. cbn [app skipn].
      unfold padded. rewrite <- app_assoc, firstn_app, wire_len, Nat.sub_diag, firstn_O, app_nil_r, firstn_all2 by (rewrite wire_len; lia).
      rewrite RE. apply (decode_wire TU32). cbn. lia.
    - split; [|exact W']. rewrite SZ. cbn [ptr set_ptr]. lia.
    - unfold small. rewrite SZ. exact S2. }
  exists (set_ptr (set_buf s2 bb) (ptr s + 4)), (set_ptr (set_buf s2 bb) (size s2)). split; [exact G|]. split; [|split].
  - rewrite seekTo_ok; [reflexivity| |unfold small; rewrite SZ; exact S2]. rewrite SZ. lia.
  - unfold at_end. rewrite SZ. reflexivity.
  - reflexivity.
Qed.
Lemma follow64_l s : wf s -> at_end s -> size s + 8 < 2 ^ 31 ->
  exists s1, putPointer64 s = Ret (ptr s, s1) /\
  forall s2 d, buf s2 = buf s1 ++ d -> Forall byte d -> size s2 < 2 ^ 31 -> rE s2 = wE s2 -> 
    exists s3 s4, (let* _ := adjustPointer64 (ptr s) in let* _ := seekTo (ptr s) in getPointer64) s2 = Ret (size s2, s3) /\
      seekTo (size s2) s3 = Ret (size s2, s4) /\ at_end s4 /\ buf s4 = buf s ++ wire (wE s2) 8 (size s2) ++ d.
Proof.
  intros W A L. destruct (C46_64_l s W A L) as (s1 & E1 & B1 & A1 & WE & H). exists s1. split; [exact E1|].
  intros s2 d E2 D S2 RE. specialize (H s2 d E2 ltac:(lia)).
  pose proof (size_nonneg s) as NN. unfold at_end in A.
  set (bb := buf s ++ wire (wE s2) 8 (size s2) ++ d).
  assert (LB : Z.of_nat (length bb) = size s2).
  { unfold bb. rewrite !app_length, wire_len. unfold size. rewrite E2, B1, !app_length. cbn [length]. lia. }
  assert (LE : ptr s + 8 <= size s2) by (rewrite <- LB; unfold bb; rewrite !app_length, wire_len, A; unfold size; lia).
  assert (W' : Forall byte bb).
  { unfold bb. apply Forall_app. split; [apply W|]. apply Forall_app. split; [apply wire_byte|exact D]. }
  assert (SZ : forall p, size (set_ptr (set_buf s2 bb) p) = size s2) by (intros p; unfold size at 1; exact LB).
  assert (G : (let* _ := adjustPointer64 (ptr s) in let* _ := seekTo (ptr s) in getPointer64) s2 = Ret (size s2, set_ptr (set_buf s2 bb) (ptr s + 8))).
  { unfold stbind. rewrite H. cbn [bind]. fold bb. rewrite seekTo_ok; [|unfold size; cbn [buf set_buf]; rewrite LB; lia|unfold small, size; cbn [buf set_buf]; rewrite LB; lia].
    cbn [bind]. unfold getPointer64. pose proof (get_ok TU64 (set_ptr (set_buf s2 bb) (ptr s))) as G. cbn [get width] in G. rewrite G.
    - unfold ahead. rewrite (SZ (ptr s)). cbn [ptr buf rE set_ptr set_buf]. rewrite Z.min_l by lia. apply (f_equal (fun x => Ret (x, _))).
      unfold bb. replace (Z.to_nat (ptr s)) with (length (buf s)) by (rewrite A; unfold size; lia). rewrite skipn_app, skipn_all, Nat.sub_diag. cbn [app skipn].
      unfold padded. rewrite <- app_assoc, firstn_app, wire_len, Nat.sub_diag, firstn_O, app_nil_r, firstn_all2 by (rewrite wire_len; lia).
      rewrite RE. apply (decode_wire TU64). cbn. lia.
    - split; [|exact W']. rewrite SZ. cbn [ptr set_ptr]. lia.
    - unfold small. rewrite SZ. exact S2. }
  exists (set_ptr (set_buf s2 bb) (ptr s + 8)), (set_ptr (set_buf s2 bb) (size s2)). split; [exact G|]. split; [|split].
  - rewrite seekTo_ok; [reflexivity| |unfold small; rewrite SZ; exact S2]. rewrite SZ. lia.
  - unfold at_end. rewrite SZ. reflexivity.
  - reflexivity.
Qed.

(** Initialising. *)
Lemma init_null_new n : init_null MS_new n = mkStream (repeat 0 n) 0 LITTLE LITTLE.
Proof. unfold init_null, resize. cbn [buf MS_new length]. rewrite firstn_nil, Nat.sub_0_r. reflexivity. Qed.
Lemma init_null_l s n : Forall byte (buf s) -> let s' := init_null s n in
  wf s' /\ size s' = Z.of_nat n /\ ptr s' = 0 /\ rE s' = LITTLE /\ wE s' = LITTLE /\
  forall i, (i < n)%nat -> nth i (buf s') 0 = nth i (buf s) 0.
Proof.
  intros B. cbn zeta. unfold init_null. cbn [buf ptr rE wE].
  assert (SZ : size (mkStream (resize (buf s) n) 0 LITTLE LITTLE) = Z.of_nat n) by (unfold size; cbn [buf]; rewrite resize_len; reflexivity).
  split; [split; [rewrite SZ; cbn; lia|cbn [buf]]|].
  - unfold resize. apply Forall_app. split; [|apply Forall_forall; intros x X; apply repeat_spec in X; subst; unfold byte; lia].
    rewrite Forall_forall in *. intros x X. apply B. rewrite <- (firstn_skipn n (buf s)). apply in_or_app. now left.
  - rewrite SZ. repeat split. intros i I. unfold resize.
    destruct (Nat.lt_ge_cases i (length (buf s))) as [L|L].
    + rewrite app_nth1 by (rewrite firstn_length; lia). rewrite <- (firstn_skipn n (buf s)) at 2. rewrite app_nth1 by (rewrite firstn_length; lia). reflexivity.
    + rewrite app_nth2 by (rewrite firstn_length; lia). rewrite nth_repeat. rewrite nth_overflow by exact L. reflexivity.
Qed.
(** a stream re-initialised without data keeps what it held: the constructor's "fresh buffer" is not what [init] gives. *)
Lemma init_null_dirty : exists s n, wf s /\ buf (init_null s n) <> repeat 0 n.
Proof. exists (mkStream [7; 8] 2 LITTLE LITTLE), 2%nat. split; [split; [cbn; lia|repeat constructor; unfold byte; lia]|]. cbn. discriminate. Qed.
Lemma init_data_l d : d <> [] -> Forall byte d -> exists s, init_data d = Ret s /\ wf s /\ buf s = d /\ ptr s = 0.
Proof. destruct d as [|x d]; [contradiction|]. intros _ B. eexists. split; [reflexivity|]. split; [split; [cbn; lia|exact B]|]. split; reflexivity. Qed.
