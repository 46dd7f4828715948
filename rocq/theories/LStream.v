(** * Byte streams: the statements of C42-C51. *)
From Coq Require Import ZArith List Bool Lia.
From Verif Require Import Num MStream SpecStream PStream PStream2.
Import ListNotations.
Local Open Scope Z_scope.

(** ** C42: the invariant. *)
Definition inv (s : stream) : Prop := wf s /\ ptr s < 2 ^ 31.
(** [keeps m]: from a state satisfying the invariant, [m] does not abort and leads to such states. *)
Definition keeps {A} (m : ST A) : Prop := forall s, inv s -> m s <> Abort /\ forall a s', m s = Ret (a, s') -> inv s'.
Lemma keeps_bind {A B} (m : ST A) (k : A -> ST B) : keeps m -> (forall a, keeps (k a)) -> keeps (stbind m k).
Proof.
  intros M K s I. unfold stbind. destruct (M s I) as [N M']. destruct (m s) as [[a s1]| | |]; cbn [bind]; try (split; [discriminate|intros; discriminate]); [|congruence].
  apply K. apply (M' a). reflexivity.
Qed.
Lemma keeps_bind' {A B} (P : A -> Prop) (m : ST A) (k : A -> ST B) : keeps m -> (forall s a s', inv s -> m s = Ret (a, s') -> P a) ->
  (forall a, P a -> keeps (k a)) -> keeps (stbind m k).
Proof.
  intros M Q K s I. unfold stbind. destruct (M s I) as [N M']. destruct (m s) as [[a s1]| | |] eqn:E; cbn [bind]; try (split; [discriminate|intros; discriminate]); [|congruence].
  apply K; [|apply (M' a); reflexivity]. apply (Q s a s1 I E).
Qed.
Lemma keeps_ret {A} (a : A) : keeps (ret a).
Proof. intros s I. split; [discriminate|]. intros b s' E. injection E as _ <-. exact I. Qed.
Lemma inv_u64 s : inv s -> u64 (ptr s) = ptr s.
Proof. intros [[W _] P]. apply u64_id. lia. Qed.
Lemma Forall_list_set (l : list Z) : forall i v, Forall byte l -> byte v -> Forall byte (list_set l i v).
Proof. induction l as [|h l IH]; intros [|i] v H V; cbn [list_set]; inversion H; subst; constructor; auto. Qed.
Lemma vec_set_inv l i v b : vec_set l i v = Ret b -> b = list_set l (Z.to_nat i) v.
Proof. unfold vec_set. destruct (_ && _); [|discriminate]. congruence. Qed.
Lemma keeps_putU8 v : byte v -> keeps (putUint8 v).
Proof.
  intros V s I. pose proof (inv_u64 s I) as U. destruct I as [[W B] P]. unfold putUint8. rewrite U.
  destruct (Z.ltb_spec (ptr s) (size s)).
  - split.
    + unfold vec_set. destruct (_ && _); discriminate.
    + intros a s' E. apply bind_inv in E. destruct E as (b & E1 & E2). injection E2 as _ <-. apply vec_set_inv in E1. subst b.
      split; [split|exact P]; unfold size in *; cbn [ptr buf set_buf]; [rewrite list_set_len; exact W|]. apply Forall_list_set; assumption.
  - rewrite (proj2 (Z.eqb_eq _ _)) by lia. split.
    + unfold int_result. destruct (_ && _); discriminate.
    + intros a s' E. apply bind_inv in E. destruct E as (b & E1 & E2). injection E2 as _ <-. apply int_inv in E1. destruct E1 as [-> E1].
      split; [split|]; cbn [ptr buf set_buf set_ptr]; [|apply Forall_app; split; [exact B|constructor; [exact V|constructor]]|lia].
      unfold size in *. cbn [buf set_ptr set_buf]. rewrite app_length. cbn [length]. lia.
Qed.
Lemma keeps_put_list l : Forall byte l -> keeps (put_list l).
Proof.
  induction 1 as [|b l H _ IH]; [apply keeps_ret|]. cbn [put_list]. apply keeps_bind; [apply keeps_putU8, H|]. intros _. exact IH.
Qed.
Lemma keeps_put t v : in_range t v -> keeps (put t v).
Proof.
  intros R s I. rewrite put_wire by exact R. apply keeps_put_list; [apply wire_byte|exact I].
Qed.
Lemma keeps_getU8 : keeps getUint8.
Proof.
  intros s I. pose proof (inv_u64 s I) as U. destruct I as [[W B] P]. unfold getUint8. rewrite U.
  destruct (Z.ltb_spec (ptr s) (size s)).
  - split.
    + unfold vec_get. destruct (_ && _); [|discriminate]. destruct (nth_error _ _); [|discriminate]. cbn [bind].
      unfold int_result. destruct (_ && _); discriminate.
    + intros a s' E. apply bind_inv in E. destruct E as (b & _ & E). apply bind_inv in E. destruct E as (p & E1 & E2). injection E2 as _ <-.
      apply int_inv in E1. destruct E1 as [-> E1]. split; [split; [unfold size in *; cbn [ptr buf set_ptr]; lia|exact B]|]. cbn [ptr set_ptr]. lia.
  - split; [discriminate|]. intros a s' E. injection E as _ <-. split; [split|]; assumption.
Qed.
Lemma keeps_get_bytes k : keeps (get_bytes k).
Proof.
  induction k as [|k IH]; [apply keeps_ret|]. cbn [get_bytes]. apply keeps_bind; [apply keeps_getU8|]. intros c. apply keeps_bind; [exact IH|].
  intros l. apply keeps_ret.
Qed.
Lemma keeps_get t : keeps (get t).
Proof.
  intros s I. pose proof (get_gets t s (proj2 (proj1 I))) as G. rewrite !G. destruct (keeps_get_bytes (width t) s I) as [N K].
  destruct (get_bytes (width t) s) as [[l s1]| | |] eqn:E0; cbn [bind]; try (split; [discriminate|intros; discriminate]); [|congruence].
  split; [discriminate|]. intros a s' E. injection E as _ <-. apply (K l). reflexivity.
Qed.
Lemma keeps_read_at n p : keeps (read_at n p).
Proof.
  intros s I. unfold read_at, int_result. destruct (_ && _); cbn [bind]; [|split; [discriminate|intros; discriminate]].
  destruct (_ <? 0); [split; [discriminate|]; intros a s' E; injection E as _ <-; exact I|].
  destruct (negb _); [split; [discriminate|intros; discriminate]|].
  destruct (negb _); [split; [discriminate|intros; discriminate]|].
  split; [discriminate|]. intros a s' E. injection E as _ <-. exact I.
Qed.
Lemma s32_le x : 0 <= x -> s32 x <= x.
Proof.
  intros H. unfold s32, sgn. pose proof (Z.mod_le (x + 2 ^ (32 - 1)) (2 ^ 32)). lia.
Qed.
Lemma s32_id x : - 2 ^ 31 <= x < 2 ^ 31 -> s32 x = x. Proof. intros. apply sgn_id; [lia|]. exact H. Qed.
Lemma keeps_read n : is_size n -> keeps (read n).
Proof.
  intros Hn s I. pose proof (inv_u64 s I) as U. unfold read. rewrite U. destruct I as [[W B] P].
  unfold read_at. rewrite (s32_id (ptr s)) by lia. pose proof (s32_le (size s) ltac:(unfold size; lia)) as S.
  destruct (int_result _) as [r| | |] eqn:R; unfold int_result in R; try (destruct (_ && _) in R; discriminate); cbn [bind]; [|split; [discriminate|intros; discriminate]].
  apply int_inv in R. destruct R as [-> R].
  destruct (Z.ltb_spec (s32 (size s) - ptr s) 0).
  - cbn [bind length]. rewrite int_ok by (cbn; lia). cbn [bind]. split; [discriminate|]. intros a s' E. injection E as _ <-.
    cbn. rewrite Z.add_0_r. split; [split|]; assumption.
  - destruct (negb _); [split; [discriminate|intros; discriminate]|].
    destruct (negb _); [split; [discriminate|intros; discriminate]|]. cbn [bind].
    set (rem := if n <? _ then n else _). set (l := firstn _ _).
    assert (0 <= rem <= s32 (size s) - ptr s) by (unfold rem, is_size in *; destruct (Z.ltb_spec n (s32 (size s) - ptr s)); lia).
    assert (Z.of_nat (length l) <= rem) by (unfold l; rewrite firstn_length; lia).
    rewrite (s32_id (Z.of_nat (length l))) by lia.
    destruct (int_result _) as [q| | |] eqn:Q; unfold int_result in Q; try (destruct (_ && _) in Q; discriminate); cbn [bind]; [|split; [discriminate|intros; discriminate]].
    apply int_inv in Q. destruct Q as [-> Q]. split; [discriminate|]. intros a s' E. injection E as _ <-.
    split; [split|]; cbn [ptr buf set_ptr]; [unfold size in *; cbn [buf set_ptr]; lia|exact B|lia].
Qed.
Lemma Forall_resize l n : Forall byte l -> Forall byte (resize l n).
Proof.
  intros H. unfold resize. apply Forall_app. split.
  - rewrite <- (firstn_skipn n l) in H. apply Forall_app in H. apply H.
  - apply Forall_forall. intros x Hx. apply repeat_spec in Hx. subst. unfold byte. lia.
Qed.
Lemma write_at_len d p s n s' : Forall byte d -> Forall byte (buf s) -> 0 <= p -> write_at d p s = Ret (n, s') ->
  n = Z.of_nat (length d) /\ size s <= size s' /\ p + Z.of_nat (length d) <= size s' /\ ptr s' = ptr s /\ Forall byte (buf s').
Proof.
  intros D B P H. unfold write_at in H.
  set (b := if size s <? u64 (p + Z.of_nat (length d)) then _ else _) in *.
  assert (Lb : size s <= Z.of_nat (length b)).
  { unfold b. destruct (Z.ltb_spec (size s) (u64 (p + Z.of_nat (length d)))); [|unfold size; lia]. rewrite resize_len. lia. }
  assert (Bb : Forall byte b) by (unfold b; destruct (_ <? _); [apply Forall_resize|]; exact B).
  destruct (negb (addr_ok b p)) eqn:A; [discriminate|]. destruct (negb _) eqn:C in H; [discriminate|].
  apply negb_false_iff, Z.leb_le in C. injection H as <- <-. unfold size at 2 3. cbn [buf ptr set_buf].
  rewrite !app_length, firstn_length, skipn_length. repeat split; try lia.
  apply Forall_app. split; [|apply Forall_app; split; [exact D|]].
  - rewrite <- (firstn_skipn (Z.to_nat p) b) in Bb. apply Forall_app in Bb. apply Bb.
  - rewrite <- (firstn_skipn (Z.to_nat p + length d) b) in Bb. apply Forall_app in Bb. apply Bb.
Qed.
Lemma write_at_noabort d p s : write_at d p s <> Abort.
Proof. unfold write_at. destruct (negb _); [discriminate|]. destruct (negb _); discriminate. Qed.
Lemma keeps_write_at d p : Forall byte d -> is_size p -> keeps (write_at d p).
Proof.
  intros D P s [[W B] L]. split; [apply write_at_noabort|]. intros n s' H. destruct (write_at_len d p s n s' D B (proj1 P) H) as (_ & A1 & _ & A3 & A4).
  split; [split|]; rewrite ?A3; [lia|exact A4|exact L].
Qed.
Lemma keeps_write d : Forall byte d -> Z.of_nat (length d) < 2 ^ 31 -> keeps (write d).
Proof.
  intros D N s I. pose proof (inv_u64 s I) as U. destruct I as [[W B] L]. unfold write. rewrite U.
  pose proof (write_at_noabort d (ptr s) s) as NA. destruct (write_at d (ptr s) s) as [[n s1]| | |] eqn:E; cbn [bind]; try (split; [discriminate|intros; discriminate]); [|congruence].
  destruct (write_at_len d (ptr s) s n s1 D B (proj1 W) E) as (-> & A1 & A2 & A3 & A4). rewrite A3, s32_id by lia.
  destruct (int_result _) as [q| | |] eqn:Q; unfold int_result in Q; try (destruct (_ && _) in Q; discriminate); cbn [bind]; [|split; [discriminate|intros; discriminate]].
  apply int_inv in Q. destruct Q as [-> Q]. split; [discriminate|]. intros a s' E'. injection E' as _ <-.
  split; [split|]; cbn [ptr buf set_ptr]; [unfold size in *; cbn [buf set_ptr]; lia|exact A4|lia].
Qed.
Lemma put_at_UB i v s : 0 <= i -> put_at i v s = UB.
Proof.
  intros H. unfold put_at. rewrite vec_set_oob; [reflexivity|]. destruct (Z.ltb_spec i (size s)); [|unfold size in *; assumption].
  rewrite resize_len. lia.
Qed.
Lemma set_bytes_len bs : forall l p b, set_bytes l p bs = Ret b -> length b = length l /\ (Forall byte l -> Forall byte bs -> Forall byte b).
Proof.
  induction bs as [|x bs IH]; intros l p b H; cbn [set_bytes] in H.
  - injection H as <-. auto.
  - apply bind_inv in H. destruct H as (l' & H1 & H2). apply vec_set_inv in H1. subst l'. apply IH in H2. destruct H2 as [H2 H3].
    rewrite list_set_len in H2. split; [exact H2|]. intros Bl Bs. inversion Bs; subst. apply H3; [|assumption]. apply Forall_list_set; assumption.
Qed.
Lemma set_bytes_noabort bs : forall l p, set_bytes l p bs <> Abort.
Proof.
  induction bs as [|x bs IH]; intros l p; cbn [set_bytes]; [discriminate|]. unfold vec_set. destruct (_ && _); [|discriminate]. cbn [bind]. apply IH.
Qed.
Lemma u8_byte x : byte (u8 x). Proof. unfold byte, u8. apply Z.mod_pos_bound. lia. Qed.
Lemma keeps_set_bytes (f : stream -> list Z) p : (forall s, Forall byte (f s)) ->
  keeps (fun s => let! b := set_bytes (buf s) p (f s) in Ret (tt, set_buf s b)).
Proof.
  intros F s [[W B] L]. pose proof (set_bytes_noabort (f s) (buf s) p). destruct (set_bytes _ _ _) as [b| | |] eqn:E; cbn [bind]; try (split; [discriminate|intros; discriminate]); [|congruence].
  destruct (set_bytes_len _ _ _ _ E) as [A1 A2]. split; [discriminate|]. intros a s' K. injection K as _ <-.
  split; [split|]; unfold size in *; cbn [ptr buf set_buf]; [rewrite A1; exact W|apply A2; [exact B|apply F]|exact L].
Qed.
Lemma keeps_adjust32 p : keeps (adjustPointer32 p).
Proof.
  apply (keeps_set_bytes (fun s => if is_big (wE s) then _ else _)). intros s. destruct (is_big (wE s)); repeat constructor; apply u8_byte.
Qed.
Lemma keeps_adjust64 p : keeps (adjustPointer64 p).
Proof.
  apply (keeps_set_bytes (fun s => if is_big (wE s) then _ else _)). intros s. destruct (is_big (wE s)); repeat constructor; apply u8_byte.
Qed.
Lemma keeps_lift {A} (o : outcome A) : o <> Abort -> keeps (lift o).
Proof. intros H s I. unfold lift. destruct o; cbn [bind]; (split; [congruence|]); intros b s' E; try discriminate. injection E as _ <-. exact I. Qed.
Lemma keeps_getSubstr n : keeps (getSubstr n).
Proof.
  unfold getSubstr. apply keeps_bind; [apply keeps_lift; unfold int_result; destruct (_ && _); discriminate|]. intros k.
  apply keeps_bind; [apply keeps_get_bytes|]. intros l. apply keeps_bind; [destruct (0 <? n); [apply keeps_getU8|apply keeps_ret]|]. intros _. apply keeps_ret.
Qed.
Lemma keeps_get_string : keeps get_string.
Proof.
  unfold get_string. apply keeps_bind; [apply (keeps_get TU32)|]. intros n. cbv zeta. destruct (0 <? s32 n); [apply keeps_getSubstr|apply keeps_ret].
Qed.
Lemma keeps_put_chars str : Forall byte str -> forall n i, keeps (put_chars str n i).
Proof.
  intros B n. induction n as [|n IH]; intros i; cbn [put_chars]; [apply keeps_ret|].
  apply (keeps_bind' byte).
  - apply keeps_lift. unfold str_get. destruct (Nat.leb _ _); discriminate.
  - intros s a s' _ E. unfold lift, str_get in E. destruct (Nat.leb _ _); [|discriminate]. cbn [bind] in E. injection E as <- _.
    destruct (Nat.ltb_spec i (length str)); [|rewrite nth_overflow by lia; unfold byte; lia].
    rewrite Forall_forall in B. apply B, nth_In. assumption.
  - intros c C. apply keeps_bind; [apply keeps_putU8, C|]. intros _. apply IH.
Qed.
Lemma keeps_putSubstr str n : Forall byte str -> keeps (putSubstr str n).
Proof.
  intros B. unfold putSubstr. cbv zeta. apply keeps_bind; [apply keeps_put_chars, B|]. intros _.
  destruct (0 <? n); [apply keeps_putU8; unfold byte; lia|apply keeps_ret].
Qed.
Lemma fseek_inv x c s q s' : is_int x -> inv s -> fseek x c s = Ret (q, s') -> inv s' /\ buf s' = buf s /\ q = ptr s'.
Proof.
  intros X [[W B] L] H. unfold fseek in H. apply bind_inv in H. destruct H as (p & H1 & H2).
  assert (P : is_int p).
  { unfold is_int in *. destruct c; [injection H1 as <-; lia|apply int_inv in H1; lia|]. apply bind_inv in H1. destruct H1 as (a & _ & H1). apply int_inv in H1. lia. }
  unfold is_int in P. destruct (Z.leb_spec 0 p); cbn [negb] in H2; [|discriminate]. rewrite u64_id in H2 by lia.
  destruct (Z.leb_spec p (size s)); cbn [negb] in H2; [|discriminate]. injection H2 as <- <-.
  split; [split; [split|]|split; reflexivity]; cbn [ptr buf set_ptr]; [unfold size in *; cbn [buf set_ptr]; lia|exact B|lia].
Qed.
Lemma s32_int x : is_int (s32 x).
Proof. unfold is_int, s32, sgn. pose proof (Z.mod_pos_bound (x + 2 ^ (32 - 1)) (2 ^ 32)). lia. Qed.
Lemma keeps_void {A} (m : ST A) s : keeps m -> inv s -> void m s <> Abort /\ forall s', void m s = Ret s' -> inv s'.
Proof.
  intros K I. destruct (K s I) as [N K']. unfold void. destruct (m s) as [[a s1]| | |]; cbn [bind]; try (split; [discriminate|intros; discriminate]); [|congruence].
  split; [discriminate|]. intros s' E. injection E as <-. apply (K' a). reflexivity.
Qed.
Lemma op_inv o s : op_ok o -> inv s -> (moves o = false -> do_op o s <> Abort) /\ forall s', do_op o s = Ret s' -> inv s'.
Proof.
  intros O I.
  assert (V : forall A (m : ST A), keeps m -> (moves o = false -> void m s <> Abort) /\ forall s', void m s = Ret s' -> inv s').
  { intros A m K. destruct (keeps_void m s K I). auto. }
  destruct o; cbn [do_op op_ok moves] in *.
  - apply V, keeps_put, O.
  - apply V, keeps_get.
  - apply V, keeps_read, O.
  - apply V, keeps_write; apply O.
  - apply V, keeps_read_at.
  - apply V, keeps_write_at; apply O.
  - split; [discriminate|]. intros s' E. unfold void in E. apply bind_inv in E. destruct E as ([q s1] & E & E'). injection E' as <-. apply (fseek_inv _ _ _ _ _ O I E).
  - split; [discriminate|]. intros s' E. unfold void in E. apply bind_inv in E. destruct E as ([q s1] & E & E'). injection E' as <-. apply (fseek_inv (s32 p) TOP s q s1 (s32_int p) I E).
  - split; [discriminate|]. intros s' E. unfold void in E. apply bind_inv in E. destruct E as ([q s1] & E & E'). injection E' as <-.
    unfold align, stbind in E. cbn [bind ftell] in E. destruct (_ =? 0); [discriminate|]. apply bind_inv in E. destruct E as ([r s2] & E1 & E2). injection E2 as _ <-.
    apply (fseek_inv _ _ _ _ _ (s32_int _) I E1).
  - apply V. intros t J. unfold get_at. destruct (_ <? _).
    + split.
      * unfold vec_get. destruct (_ && _); [|discriminate]. destruct (nth_error _ _); discriminate.
      * intros a s' E. apply bind_inv in E. destruct E as (b & _ & E). injection E as _ <-. exact J.
    + split; [discriminate|]. intros a s' E. injection E as _ <-. exact J.
  - unfold void. rewrite put_at_UB by apply O. split; [discriminate|intros; discriminate].
  - apply V. apply keeps_bind; [|intros p; apply keeps_bind; [apply (keeps_put TU32); unfold in_range; cbn; lia|intros _; apply keeps_ret]].
    intros t J. split; [discriminate|]. intros a s' E. injection E as _ <-. exact J.
  - apply V. apply keeps_bind; [|intros p; apply keeps_bind; [apply (keeps_put TU64); unfold in_range; cbn; lia|intros _; apply keeps_ret]].
    intros t J. split; [discriminate|]. intros a s' E. injection E as _ <-. exact J.
  - apply V, keeps_adjust32.
  - apply V, keeps_adjust64.
  - apply V, keeps_getSubstr.
  - apply V, keeps_get_string.
  - apply V, keeps_putSubstr, O.
  - apply V, keeps_putSubstr, O.
  - split; [discriminate|]. intros s' E. injection E as <-. exact I.
  - split; [discriminate|]. intros s' E. injection E as <-. exact I.
Qed.
Lemma C42_l (l : list op) (s s' : stream) : Forall op_ok l -> wf s -> ptr s < 2 ^ 31 -> run l s = Ret s' -> wf s' /\ ptr s' < 2 ^ 31.
Proof.
  intros H W P. revert s W P. induction H as [|o l O _ IH]; intros s W P R; cbn [run] in R.
  - injection R as <-. auto.
  - apply bind_inv in R. destruct R as (s1 & R1 & R2). destruct (op_inv o s O (conj W P)) as [_ K]. destruct (K s1 R1) as [W1 P1]. apply (IH s1); assumption.
Qed.
Lemma C42_abort_l (o : op) (s : stream) : op_ok o -> wf s -> ptr s < 2 ^ 31 -> moves o = false -> do_op o s <> Abort.
Proof. intros O W P M. destruct (op_inv o s O (conj W P)) as [K _]. apply K, M. Qed.
Lemma C42_start_l : wf MS_new /\ ptr MS_new = 0 /\
  forall d s, Forall byte d -> init_data d = Ret s -> wf s /\ ptr s = 0 /\ buf s = d.
Proof.
  split; [split; [cbn; lia|constructor]|]. split; [reflexivity|]. intros d s D E. destruct d as [|b d]; [discriminate|]. cbn [init_data] in E. injection E as <-.
  split; [split; [cbn [ptr]; unfold size; lia|exact D]|]. split; reflexivity.
Qed.

(** ** C43, C44 *)
Definition enc (e : ENDIAN) (l : list (ty * Z)) : list Z := concat (map (fun '(t, v) => wire e (width t) v) l).
Lemma put_all_end l : forall s, Forall (fun '(t, v) => in_range t v) l -> at_end s -> size s + Z.of_nat (length (enc (wE s) l)) < 2 ^ 31 ->
  put_all l s = Ret (tt, mkStream (buf s ++ enc (wE s) l) (ptr s + Z.of_nat (length (enc (wE s) l))) (rE s) (wE s)).
Proof.
  induction l as [|[t v] l IH]; intros s R A S.
  - unfold enc. cbn [put_all map concat length]. rewrite app_nil_r, Z.add_0_r. destruct s; reflexivity.
  - inversion R; subst. cbn [put_all]. unfold enc in *. cbn [map concat] in *. rewrite app_length, wire_len in *. unfold stbind.
    rewrite put_wire by assumption. rewrite put_list_end by (rewrite ?wire_len; try exact A; lia). rewrite wire_len. cbn [bind].
    rewrite IH.
    + cbn [buf ptr rE wE]. rewrite <- app_assoc. do 3 f_equal. lia.
    + assumption.
    + unfold at_end, size in *. cbn [buf ptr]. rewrite app_length, wire_len. lia.
    + unfold size in *. cbn [buf wE]. rewrite app_length, wire_len. lia.
Qed.
Lemma padded_pre k a b : length a = k -> padded k (a ++ b) = a.
Proof. intros L. unfold padded. rewrite <- app_assoc, firstn_app, L, Nat.sub_diag, firstn_all2 by lia. cbn [firstn]. apply app_nil_r. Qed.
Lemma skipn_skipn {A} (l : list A) : forall a b, skipn a (skipn b l) = skipn (a + b) l.
Proof.
  intros a b. revert l. induction b as [|b IH]; intros l; [rewrite Nat.add_0_r; reflexivity|].
  rewrite Nat.add_succ_r. destruct l as [|x l]; cbn [skipn]; [apply skipn_nil|apply IH].
Qed.
Lemma ahead_split s a b : ahead s = a ++ b -> wf s -> ptr s + Z.of_nat (length a) <= size s /\ ahead (set_ptr s (ptr s + Z.of_nat (length a))) = b.
Proof.
  intros E [W _]. unfold ahead in *. cbn [ptr buf set_ptr]. split.
  - pose proof (skipn_length (Z.to_nat (ptr s)) (buf s)) as L. rewrite E, app_length in L. unfold size in *. lia.
  - replace (Z.to_nat (ptr s + Z.of_nat (length a))) with (length a + Z.to_nat (ptr s))%nat by lia.
    rewrite <- (skipn_skipn _ (length a)), E. rewrite skipn_app, Nat.sub_diag, skipn_all. reflexivity.
Qed.
Lemma get_ok t s : wf s -> small s -> get t s =
  Ret (decode t (rE s) (padded (width t) (ahead s)), set_ptr s (Z.min (ptr s + Z.of_nat (width t)) (size s))).
Proof. intros W S. rewrite (get_gets t) by apply W. rewrite get_bytes_ok by assumption. reflexivity. Qed.
Lemma get_all_ok l : forall s rest, Forall (fun '(t, v) => in_range t v) l -> wf s -> small s -> ahead s = enc (rE s) l ++ rest ->
  get_all (map fst l) s = Ret (map snd l, set_ptr s (ptr s + Z.of_nat (length (enc (rE s) l)))).
Proof.
  induction l as [|[t v] l IH]; intros s rest R W S A.
  - unfold enc. cbn [get_all map concat length]. rewrite Z.add_0_r. destruct s; reflexivity.
  - inversion R; subst. unfold enc in *. cbn [get_all map concat fst snd] in *. rewrite <- app_assoc in A.
    destruct (ahead_split _ _ _ A W) as [L A']. rewrite wire_len in L, A'.
    unfold stbind at 1. rewrite get_ok by assumption. rewrite A, padded_pre by apply wire_len. rewrite decode_wire by assumption. cbn [bind].
    rewrite Z.min_l by lia. unfold stbind. rewrite (IH (set_ptr s (ptr s + Z.of_nat (width t))) rest).
    + cbn [bind]. unfold ret, set_ptr. cbn [buf ptr rE wE]. rewrite app_length, wire_len. do 3 f_equal. lia.
    + assumption.
    + apply wf_set_ptr; [exact W|]. destruct W as [W _]. lia.
    + exact S.
    + exact A'.
Qed.
Lemma seekTo_ok p s : 0 <= p <= size s -> small s -> seekTo p s = Ret (p, set_ptr s p).
Proof.
  intros P S. unfold small in S. unfold seekTo, fseek. rewrite s32_id by lia. cbn [bind]. rewrite u64_id by lia.
  rewrite (proj2 (Z.leb_le 0 p)), (proj2 (Z.leb_le p _)) by lia. reflexivity.
Qed.
Lemma enc_byte e l : Forall byte (enc e l).
Proof.
  unfold enc. induction l as [|[t v] l IH]; cbn [map concat]; [constructor|]. apply Forall_app. split; [apply wire_byte|exact IH].
Qed.
(** write everything, go back, read everything. *)
Lemma C43_l (s : stream) (l : list (ty * Z)) (e : ENDIAN) :
  wf s -> at_end s -> Forall (fun '(t, v) => in_range t v) l ->
  size s + Z.of_nat (fold_right (fun tv n => width (fst tv) + n)%nat O l) < 2 ^ 31 ->
  exists s1 s2,
    (let* _ := setWriteEndian e in put_all l) s = Ret (tt, s1) /\
    (let* _ := setReadEndian e in let* _ := seekTo (ptr s) in get_all (map fst l)) s1 = Ret (map snd l, s2) /\
    at_end s1 /\ at_end s2 /\ buf s2 = buf s1 /\ firstn (length (buf s)) (buf s1) = buf s.
Proof.
  intros W A R S. assert (L : forall e, length (enc e l) = fold_right (fun tv n => width (fst tv) + n)%nat O l).
  { intros e'. clear. unfold enc. induction l as [|[t v] l IH]; [reflexivity|]. cbn [map concat fold_right fst]. rewrite app_length, wire_len, IH. reflexivity. }
  set (s0 := mkStream (buf s) (ptr s) (rE s) e).
  assert (P : put_all l s0 = Ret (tt, mkStream (buf s ++ enc e l) (ptr s + Z.of_nat (length (enc e l))) (rE s) e)).
  { apply (put_all_end l s0 R A). cbn [wE s0]. rewrite L. exact S. }
  set (s1 := mkStream (buf s ++ enc e l) (ptr s + Z.of_nat (length (enc e l))) (rE s) e) in *.
  set (s2 := mkStream (buf s ++ enc e l) (ptr s) e e).
  assert (Z1 : size s2 = size s + Z.of_nat (length (enc e l))) by (unfold size; cbn [buf s2]; rewrite app_length; lia).
  assert (W2 : wf s2).
  { split; [|cbn [buf s2]; apply Forall_app; split; [apply W|apply enc_byte]]. rewrite Z1. cbn [ptr s2]. destruct W as [W _]. lia. }
  assert (S2 : small s2) by (unfold small; rewrite Z1, L; exact S).
  exists s1, (set_ptr s2 (ptr s + Z.of_nat (length (enc e l)))). split; [|split; [|split; [|split; [|split]]]].
  - exact P.
  - unfold stbind, setReadEndian. cbn [bind]. rewrite seekTo_ok.
    + cbn [bind]. change (set_ptr _ (ptr s)) with s2. apply (get_all_ok l s2 []); try assumption.
      rewrite app_nil_r. unfold ahead. cbn [ptr buf s2 rE]. rewrite skipn_app. unfold at_end, size in A.
      replace (Z.to_nat (ptr s)) with (length (buf s)) by lia. rewrite skipn_all, Nat.sub_diag. reflexivity.
    + cbn [buf rE wE s1]. change (0 <= ptr s <= size s2). rewrite Z1. destruct W as [W _]. lia.
    + exact S2.
  - unfold at_end, size in *. cbn [ptr buf s1]. rewrite app_length. lia.
  - unfold at_end, size in *. cbn [ptr buf s2 set_ptr]. rewrite app_length. lia.
  - reflexivity.
  - cbn [buf s1]. rewrite firstn_app, Nat.sub_diag, firstn_all. cbn [firstn]. apply app_nil_r.
Qed.
Lemma C44_l (s : stream) (t : ty) (v : Z) : at_end s -> in_range t v -> size s + Z.of_nat (width t) < 2 ^ 31 ->
  put t v s = Ret (tt, mkStream (buf s ++ match wE s with BIG => rev (le_bytes (width t) v) | LITTLE => le_bytes (width t) v end)
    (ptr s + Z.of_nat (width t)) (rE s) (wE s)).
Proof.
  intros A R S. rewrite put_wire by exact R. rewrite put_list_end by (rewrite ?wire_len; assumption). rewrite wire_len. destruct (wE s); reflexivity.
Qed.
Lemma C44_orders_l (s : stream) (t : ty) (v : Z) (e : ENDIAN) : at_end s -> in_range t v -> size s + Z.of_nat (width t) < 2 ^ 31 ->
  (let* _ := setReadEndian e in put t v) s = Ret (tt, mkStream (buf s ++ wire (wE s) (width t) v) (ptr s + Z.of_nat (width t)) e (wE s)) /\
  (let* _ := setWriteEndian e in put t v) s = Ret (tt, mkStream (buf s ++ wire e (width t) v) (ptr s + Z.of_nat (width t)) (rE s) e).
Proof.
  intros A R S. split.
  - exact (C44_l (mkStream (buf s) (ptr s) e (wE s)) t v A R S).
  - exact (C44_l (mkStream (buf s) (ptr s) (rE s) e) t v A R S).
Qed.
Lemma C44_orders_get_l (s : stream) (t : ty) (e : ENDIAN) : wf s -> small s ->
  (let* _ := setReadEndian e in get t) s =
    Ret (decode t e (padded (width t) (ahead s)), mkStream (buf s) (Z.min (ptr s + Z.of_nat (width t)) (size s)) e (wE s)) /\
  (let* _ := setWriteEndian e in get t) s =
    Ret (decode t (rE s) (padded (width t) (ahead s)), mkStream (buf s) (Z.min (ptr s + Z.of_nat (width t)) (size s)) (rE s) e).
Proof.
  intros W S. split.
  - exact (get_ok t (mkStream (buf s) (ptr s) e (wE s)) W S).
  - exact (get_ok t (mkStream (buf s) (ptr s) (rE s) e) W S).
Qed.
Lemma le_bytes_value l : Forall byte l -> le_bytes (length l) (le_value l) = l.
Proof.
  induction 1 as [|b l B _ IH]; [reflexivity|]. cbn [length le_bytes le_value]. unfold byte in B.
  rewrite Z.mul_comm, Z.mod_add, Z.div_add, Z.mod_small, Z.div_small by lia. rewrite Z.add_0_l, IH. reflexivity.
Qed.
Lemma decode_range t e l : length l = width t -> Forall byte l -> in_range t (decode t e l) /\ wire e (width t) (decode t e l) = l.
Proof.
  intros L B. pose proof (unwire_bound e l B) as U. rewrite L, pow256 in U. unfold in_range, decode.
  set (w := 8 * Z.of_nat (width t)) in *. assert (W : 0 < w) by (unfold w; destruct t; cbn; lia).
  assert (E : 2 ^ w = 2 * 2 ^ (w - 1)) by (rewrite <- Z.pow_succ_r by lia; f_equal; lia).
  assert (X : wire e (width t) (unwire e l) = l).
  { rewrite <- L. destruct e; unfold wire, unwire; [apply le_bytes_value, B|]. rewrite <- (rev_length l), le_bytes_value by (apply Forall_rev, B). apply rev_involutive. }
  destruct (signed t); [|split; [exact U|exact X]]. split.
  - unfold to_signed. destruct (Z.ltb_spec (unwire e l) (2 ^ (w - 1))); lia.
  - rewrite <- X at 2. apply wire_cong. rewrite pow256. fold w. rewrite <- sgn_signed by assumption. apply sgn_mod, W.
Qed.
Lemma C44_swap_l (s : stream) (t : ty) (v : Z) (e e' : ENDIAN) (q : list Z) : wf s -> small s -> e <> e' ->
  ahead s = wire e (width t) v ++ q -> rE s = e' ->
  exists r, get t s = Ret (r, set_ptr s (ptr s + Z.of_nat (width t))) /\ in_range t r /\
    le_bytes (width t) r = rev (le_bytes (width t) v).
Proof.
  intros W S N A R. destruct (ahead_split _ _ _ A W) as [L _]. rewrite wire_len in L.
  rewrite get_ok by assumption. rewrite A, padded_pre by apply wire_len. rewrite Z.min_l by lia.
  eexists. split; [reflexivity|]. destruct (decode_range t (rE s) (wire e (width t) v) (wire_len _ _ _) (wire_byte _ _ _)) as [D1 D2].
  split; [exact D1|]. rewrite R in *. destruct e, e'; try congruence; cbn [wire] in D2 |- *.
  - rewrite <- D2 at 2. rewrite rev_involutive. reflexivity.
  - exact D2.
Qed.

(** ** C45 *)
Lemma C45_partial_l (s : stream) (t : ty) (v : Z) : wf s -> small s -> ptr s < size s -> in_range t v ->
  put t v s = Ret (tt, set_buf s (list_set (buf s) (Z.to_nat (ptr s)) (last (wire (wE s) (width t) v) 0))).
Proof.
  intros [W _] S P R. rewrite put_wire by exact R. apply put_list_mid; [|lia|exact S].
  intros E. apply (f_equal (@length Z)) in E. rewrite wire_len in E. destruct t; discriminate.
Qed.

(** ** C46 *)
Lemma set_bytes_ok bs : forall a old d, length old = length bs -> set_bytes (a ++ old ++ d) (Z.of_nat (length a)) bs = Ret (a ++ bs ++ d).
Proof.
  induction bs as [|x bs IH]; intros a old d L; destruct old as [|y old]; try discriminate; [reflexivity|].
  cbn [set_bytes app]. rewrite vec_set_split. cbn [bind].
  replace (a ++ x :: old ++ d) with ((a ++ [x]) ++ old ++ d) by (rewrite <- app_assoc; reflexivity).
  replace (Z.of_nat (length a) + 1) with (Z.of_nat (length (a ++ [x]))) by (rewrite app_length; cbn [length]; lia).
  rewrite IH by (injection L; auto). rewrite <- app_assoc. reflexivity.
Qed.
Lemma u8_digit x i : u8 (Z.land (Z.shiftr x (8 * Z.of_nat i)) 255) = x / 256 ^ Z.of_nat i mod 256.
Proof. rewrite u8_land, Z.shiftr_div_pow2 by lia. rewrite pow256. reflexivity. Qed.
Lemma adjust_bytes32 s p : adjustPointer32 p s = bind (set_bytes (buf s) p (wire (wE s) 4 (size s))) (fun b => Ret (tt, set_buf s b)).
Proof.
  unfold adjustPointer32. rewrite !Z.shiftr_shiftr by lia. cbv zeta.
  assert (E : wire (wE s) 4 (size s) = wire (wE s) 4 (u32 (size s))) by (symmetry; apply (wire_mod _ 4)). rewrite E.
  set (u := u32 (size s)). do 2 f_equal.
  change (8 + 8) with 16. change (16 + 8) with 24.
  rewrite !u8_land, !Z.shiftr_div_pow2 by lia.
  assert (D : le_bytes 4 u = [u mod 256; u / 2 ^ 8 mod 256; u / 2 ^ 16 mod 256; u / 2 ^ 24 mod 256]).
  { cbn [le_bytes]. rewrite !Zdiv_Zdiv by lia. reflexivity. }
  destruct (wE s); unfold wire; rewrite D; reflexivity.
Qed.
Lemma adjust_bytes64 s p : size s < 2 ^ 64 -> adjustPointer64 p s = bind (set_bytes (buf s) p (wire (wE s) 8 (size s))) (fun b => Ret (tt, set_buf s b)).
Proof.
  intros S. unfold adjustPointer64. rewrite !Z.shiftr_shiftr by lia. cbv zeta. rewrite (u64_id (size s)) by (unfold size in *; lia).
  set (u := size s). do 2 f_equal.
  rewrite !u8_land, !Z.shiftr_div_pow2 by lia.
  assert (D : le_bytes 8 u = [u mod 256; u / 2 ^ 8 mod 256; u / 2 ^ (8 + 8) mod 256; u / 2 ^ (8 + 8 + 8) mod 256;
    u / 2 ^ (8 + 8 + 8 + 8) mod 256; u / 2 ^ (8 + 8 + 8 + 8 + 8) mod 256; u / 2 ^ (8 + 8 + 8 + 8 + 8 + 8) mod 256; u / 2 ^ (8 + 8 + 8 + 8 + 8 + 8 + 8) mod 256]).
  { cbn [le_bytes]. rewrite !Zdiv_Zdiv by lia. reflexivity. }
  destruct (wE s); unfold wire; rewrite D; reflexivity.
Qed.
Lemma C46_l (s : stream) : wf s -> at_end s -> size s + 4 < 2 ^ 31 ->
  exists s1, putPointer32 s = Ret (ptr s, s1) /\ buf s1 = buf s ++ [0; 0; 0; 0] /\ at_end s1 /\ wE s1 = wE s /\
  forall s2 d, buf s2 = buf s1 ++ d ->
    adjustPointer32 (ptr s) s2 = Ret (tt, set_buf s2 (buf s ++ wire (wE s2) 4 (size s2) ++ d)).
Proof.
  intros W A S. eexists. split; [|split; [|split; [|split]]].
  - unfold putPointer32, mark, ftell, stbind. cbn [bind]. rewrite putU32_wire. rewrite put_list_end by (rewrite ?wire_len; try exact A; lia).
    rewrite wire_len. cbn [bind]. unfold ret. rewrite u64_id by (destruct W as [W _]; unfold at_end in A; lia). reflexivity.
  - cbn [buf]. destruct (wE s); reflexivity.
  - unfold at_end, size in *. cbn [buf ptr]. rewrite app_length, wire_len. lia.
  - reflexivity.
  - cbn [buf]. intros s2 d B. rewrite adjust_bytes32, B. rewrite <- app_assoc. unfold at_end, size in A. rewrite A.
    rewrite set_bytes_ok by (rewrite !wire_len; reflexivity). reflexivity.
Qed.
Lemma C46_64_l (s : stream) : wf s -> at_end s -> size s + 8 < 2 ^ 31 ->
  exists s1, putPointer64 s = Ret (ptr s, s1) /\ buf s1 = buf s ++ [0; 0; 0; 0; 0; 0; 0; 0] /\ at_end s1 /\ wE s1 = wE s /\
  forall s2 d, buf s2 = buf s1 ++ d -> size s2 < 2 ^ 64 ->
    adjustPointer64 (ptr s) s2 = Ret (tt, set_buf s2 (buf s ++ wire (wE s2) 8 (size s2) ++ d)).
Proof.
  intros W A S. eexists. split; [|split; [|split; [|split]]].
  - unfold putPointer64, mark, ftell, stbind. cbn [bind]. rewrite putU64_wire. rewrite put_list_end by (rewrite ?wire_len; try exact A; lia).
    rewrite wire_len. cbn [bind]. unfold ret. rewrite u64_id by (destruct W as [W _]; unfold at_end in A; lia). reflexivity.
  - cbn [buf]. destruct (wE s); reflexivity.
  - unfold at_end, size in *. cbn [buf ptr]. rewrite app_length, wire_len. lia.
  - reflexivity.
  - cbn [buf]. intros s2 d B K. rewrite adjust_bytes64, B by exact K. rewrite <- app_assoc. unfold at_end, size in A. rewrite A.
    rewrite set_bytes_ok by (rewrite !wire_len; reflexivity). reflexivity.
Qed.

(** ** C47 *)
Lemma C47_l (s : stream) (a n : Z) : wf s -> small s -> 0 < a < 2 ^ 31 -> (exists q, n = a * q) -> ptr s <= n < ptr s + a ->
  (n <= size s -> align a s = Ret (tt, set_ptr s n)) /\
  (size s < n < 2 ^ 31 -> align a s = Abort) /\ (2 ^ 31 <= n -> align a s = UB).
Proof.
  intros W S A [q Q] N. pose proof (ptr64 s W S) as U. destruct W as [W _]. unfold small in S.
  assert (E : s32 (u64 (u64 a - (u64 (ptr s) mod u64 a)) mod u64 a) = n - ptr s).
  { rewrite U, (u64_id a) by lia. pose proof (Z.mod_pos_bound (ptr s) a ltac:(lia)) as M. rewrite u64_id by lia.
    pose proof (Z.div_mod (ptr s) a ltac:(lia)) as D.
    assert (n - ptr s = (a - ptr s mod a) mod a).
    { destruct (Z.eq_dec (ptr s mod a) 0) as [Z0|Z0].
      - rewrite Z0, Z.sub_0_r, Z.mod_same by lia. assert (q = ptr s / a) by nia. subst q. lia.
      - rewrite Z.mod_small by lia. assert (q = ptr s / a + 1) by nia. subst q. lia. }
    rewrite <- H. apply s32_id. lia. }
  assert (G : align a s = bind (fseek (n - ptr s) CURRENT s) (fun '(_, s') => Ret (tt, s'))).
  { unfold align, stbind, ftell. cbn [bind]. rewrite E. rewrite (u64_id a) by lia. rewrite (proj2 (Z.eqb_neq _ _)) by lia. reflexivity. }
  rewrite G. unfold fseek. replace (ptr s + (n - ptr s)) with n by lia.
  split; [|split]; intros K.
  - rewrite int_ok by lia. cbn [bind]. rewrite u64_id by lia. rewrite (proj2 (Z.leb_le 0 n)), (proj2 (Z.leb_le n _)) by lia. reflexivity.
  - rewrite int_ok by lia. cbn [bind]. rewrite u64_id by lia. rewrite (proj2 (Z.leb_le 0 n)), (proj2 (Z.leb_gt n _)) by lia. reflexivity.
  - unfold int_result. rewrite (proj2 (Z.ltb_ge _ _)) by lia. rewrite andb_false_r. reflexivity.
Qed.
Lemma C47_zero_l (s : stream) : align 0 s = UB.
Proof. reflexivity. Qed.

(** ** C48 *)
Lemma C48_end_l (s : stream) (t : ty) : wf s -> small s -> at_end s -> get t s = Ret (0, s).
Proof.
  intros W S A. rewrite get_ok by assumption. unfold ahead. rewrite skipn_all2 by (unfold at_end, size in A; lia). rewrite padded_0.
  unfold at_end in A. rewrite Z.min_r by lia. rewrite <- A. do 2 f_equal; [|destruct s; reflexivity].
  destruct t, (rE s); reflexivity.
Qed.

(** ** C49 *)
Lemma put_chars_end str : forall n i s, (i + n <= length str)%nat -> at_end s -> size s + Z.of_nat n < 2 ^ 31 ->
  put_chars str n i s = Ret (tt, mkStream (buf s ++ firstn n (skipn i str)) (ptr s + Z.of_nat n) (rE s) (wE s)).
Proof.
  induction n as [|n IH]; intros i s L A S.
  - cbn [put_chars firstn Z.of_nat]. rewrite app_nil_r, Z.add_0_r. destruct s; reflexivity.
  - cbn [put_chars]. unfold lift, stbind, str_get. rewrite (proj2 (Nat.leb_le _ _)) by lia. cbn [bind].
    rewrite put1_end by (try exact A; lia). cbn [bind]. rewrite IH.
    + cbn [buf ptr rE wE]. rewrite <- app_assoc.
      assert (E : nth_error str i = Some (nth i str 0)) by (apply nth_error_nth'; lia).
      rewrite (skipn_nth _ _ _ E). cbn [firstn app]. do 3 f_equal. lia.
    + lia.
    + unfold at_end, size in *. cbn [buf ptr]. rewrite app_length. cbn [length]. lia.
    + unfold size in *. cbn [buf]. rewrite app_length. cbn [length]. lia.
Qed.
Lemma putSubstr_end str n s : (0 < n <= length str + 1)%nat -> at_end s -> size s + Z.of_nat n < 2 ^ 31 ->
  putSubstr str (Z.of_nat n) s = Ret (tt, mkStream (buf s ++ firstn (n - 1) str ++ [0]) (ptr s + Z.of_nat n) (rE s) (wE s)).
Proof.
  intros N A S. pose proof (size_nonneg s). unfold putSubstr. cbv zeta. rewrite u64_id by lia. rewrite Z.min_l by lia. unfold stbind.
  replace (Z.to_nat (Z.of_nat n - 1)) with (n - 1)%nat by lia.
  rewrite put_chars_end by (try exact A; lia). cbn [bind skipn]. rewrite (proj2 (Z.ltb_lt 0 _)) by lia.
  rewrite put1_end.
  - cbn [buf ptr rE wE]. rewrite <- app_assoc. do 3 f_equal. lia.
  - unfold at_end, size in *. cbn [buf ptr]. rewrite app_length, firstn_length. lia.
  - unfold size in *. cbn [buf]. rewrite app_length, firstn_length. lia.
Qed.
Lemma removelast_firstn' {A} (l : list A) : removelast l = firstn (length l - 1) l.
Proof.
  induction l as [|x [|y l] IH]; try reflexivity. change (removelast (x :: y :: l)) with (x :: removelast (y :: l)). rewrite IH. cbn [length]. rewrite !Nat.sub_succ, !Nat.sub_0_r. reflexivity.
Qed.
Lemma C49_l : exists str s1 r s2, Forall byte str /\ str <> [] /\
  putString str MS_new = Ret (tt, s1) /\ (let* _ := seekTo 0 in get_string) s1 = Ret (r, s2) /\ r <> str.
Proof.
  exists [97; 98]. eexists _, _, _. split; [repeat constructor; unfold byte; lia|]. split; [discriminate|].
  split; [vm_compute; reflexivity|]. split; [vm_compute; reflexivity|]. discriminate.
Qed.
Lemma C49_empty_l : forall s, wf s -> small s -> putString [] s = UB.
Proof.
  intros s W S. unfold putString, putSubstr. cbv zeta. cbn [length]. change (u64 (Z.of_nat 0 - 1)) with (2 ^ 64 - 1). cbn [Z.of_nat Z.add].
  change (Z.to_nat (Z.min (2 ^ 64 - 1) 2)) with 2%nat. unfold stbind at 1. cbn [put_chars]. unfold stbind, lift, str_get. cbn [Nat.leb length nth bind].
  destruct (Z.eq_dec (ptr s) (size s)) as [A|A].
  - destruct (Z.ltb_spec (size s + 1) (2 ^ 31)) as [L|L].
    + rewrite put1_end by assumption. reflexivity.
    + unfold putUint8. rewrite (ptr64 s W S). rewrite (proj2 (Z.ltb_ge _ _)), (proj2 (Z.eqb_eq _ _)) by lia.
      unfold int_result. rewrite (proj2 (Z.ltb_ge (ptr s + 1) _)) by lia. rewrite andb_false_r. reflexivity.
  - destruct W as [W _]. rewrite put1_mid by (try exact S; lia). reflexivity.
Qed.
Lemma C49_stored_l (str : list Z) (s : stream) : str <> [] -> at_end s -> size s + Z.of_nat (length str) < 2 ^ 31 ->
  putString str s = Ret (tt, mkStream (buf s ++ removelast str ++ [0]) (ptr s + Z.of_nat (length str)) (rE s) (wE s)).
Proof.
  intros N A S. unfold putString. rewrite putSubstr_end; [|destruct str; [congruence|cbn [length]; lia]|exact A|exact S].
  rewrite removelast_firstn'. reflexivity.
Qed.
Lemma C49_substr_l (str : list Z) (s : stream) : Forall byte str -> wf s -> at_end s -> size s + Z.of_nat (length str) + 1 < 2 ^ 31 ->
  exists s1 s2, putSubstr str (Z.of_nat (length str) + 1) s = Ret (tt, s1) /\
    (let* _ := seekTo (ptr s) in getSubstr (Z.of_nat (length str) + 1)) s1 = Ret (str, s2) /\ at_end s1 /\ at_end s2.
Proof.
  intros B W A S. replace (Z.of_nat (length str) + 1) with (Z.of_nat (length str + 1)) by lia.
  rewrite putSubstr_end by (try exact A; lia). replace (length str + 1 - 1)%nat with (length str) by lia. rewrite firstn_all.
  set (s1 := mkStream _ _ _ _). assert (Z1 : size s1 = size s + Z.of_nat (length str) + 1).
  { unfold size, s1. cbn [buf]. rewrite !app_length. cbn [length]. lia. }
  set (s1' := set_ptr s1 (ptr s)).
  assert (W1 : wf s1').
  { split.
    - change (0 <= ptr s <= size s1). rewrite Z1. destruct W as [W _]. lia.
    - cbn [buf s1' s1 set_ptr]. apply Forall_app. split; [apply W|]. apply Forall_app. split; [exact B|]. constructor; [unfold byte; lia|constructor]. }
  assert (S1 : small s1') by (unfold small; change (size s1 < 2 ^ 31); lia).
  assert (A1 : ahead s1' = str ++ [0]).
  { unfold ahead. cbn [buf ptr s1' s1 set_ptr]. unfold at_end, size in A. rewrite skipn_app. replace (Z.to_nat (ptr s)) with (length (buf s)) by lia.
    rewrite skipn_all, Nat.sub_diag. reflexivity. }
  destruct (ahead_split _ _ _ A1 W1) as [L1 A1'].
  set (s2 := set_ptr s1' (ptr s1' + Z.of_nat (length str))) in *.
  assert (W2 : wf s2) by (apply wf_set_ptr; [exact W1|]; destruct W1 as [W1 _]; lia).
  exists s1, (set_ptr s2 (ptr s2 + 1)). split; [reflexivity|]. split; [|split].
  - unfold stbind at 1. rewrite seekTo_ok by (try exact S1; rewrite ?Z1; destruct W as [W _]; lia). cbn [bind]. fold s1'.
    unfold getSubstr. unfold stbind, lift. rewrite int_ok by (pose proof (size_nonneg s); lia). cbn [bind].
    replace (Z.to_nat (Z.of_nat (length str + 1) - 1)) with (length str) by lia.
    rewrite get_bytes_ok by assumption. cbn [bind]. rewrite A1, padded_pre by reflexivity. rewrite Z.min_l by lia. fold s2.
    rewrite (proj2 (Z.ltb_lt 0 _)) by lia. rewrite (get1_ok s2 0 W2 S1).
    + reflexivity.
    + unfold ahead in A1'. destruct (nth_error (buf s2) (Z.to_nat (ptr s2))) as [x|] eqn:E.
      * apply skipn_nth in E. rewrite E in A1'. injection A1' as -> _. reflexivity.
      * apply nth_error_None in E. apply skipn_all2 in E. rewrite E in A1'. discriminate.
  - unfold at_end. rewrite Z1. unfold s1. cbn [ptr]. unfold at_end in A. lia.
  - unfold at_end. change (size (set_ptr s2 (ptr s2 + 1))) with (size s1). rewrite Z1. cbn [ptr set_ptr s2 s1']. unfold at_end in A. lia.
Qed.

(** ** C50 *)
Lemma C50_l : forall s i v, 0 <= i -> put_at i v s = UB.
Proof. intros. apply put_at_UB. assumption. Qed.
Lemma C50_partial_l (s : stream) (i : Z) : 0 <= i -> get_at i s = Ret (nth (Z.to_nat i) (buf s) 0, s).
Proof.
  intros H. unfold get_at. unfold size. destruct (Z.ltb_spec i (Z.of_nat (length (buf s)))).
  - destruct (vec_get_ok (buf s) i) as (x & -> & E); [lia|]. cbn [bind]. rewrite (nth_error_nth _ _ _ E). reflexivity.
  - rewrite nth_overflow by lia. reflexivity.
Qed.

(** ** C51 *)
Lemma firstn_resize l n p : (p <= length l)%nat -> (length l <= n)%nat -> firstn p (resize l n) = firstn p l.
Proof.
  intros P N. unfold resize. rewrite (firstn_all2 (n := n)) by lia. rewrite firstn_app. replace (p - length l)%nat with 0%nat by lia. cbn [firstn]. apply app_nil_r.
Qed.
Lemma C51_write_l (s : stream) (d : list Z) : wf s -> small s -> d <> [] -> ptr s + Z.of_nat (length d) < 2 ^ 31 ->
  write d s = Ret (Z.of_nat (length d),
    mkStream (firstn (Z.to_nat (ptr s)) (buf s) ++ d ++ skipn (Z.to_nat (ptr s) + length d) (buf s))
      (ptr s + Z.of_nat (length d)) (rE s) (wE s)).
Proof.
  intros W S D L. pose proof (ptr64 s W S) as U. destruct W as [W _]. unfold small in S.
  assert (D' : (0 < length d)%nat) by (destruct d; [congruence|cbn [length]; lia]).
  unfold write. rewrite U. unfold write_at. rewrite (u64_id (_ + _)) by lia.
  destruct (Z.ltb_spec (size s) (ptr s + Z.of_nat (length d))).
  - unfold addr_ok. rewrite resize_len. rewrite (proj2 (Z.leb_le 0 _)), (proj2 (Z.ltb_lt (ptr s) _)) by lia. cbn [andb negb].
    rewrite (proj2 (Z.leb_le (ptr s + Z.of_nat (length d)) _)) by lia. cbn [negb bind ptr set_buf].
    rewrite s32_id by lia. rewrite int_ok by lia. cbn [bind]. unfold set_ptr. cbn [buf set_buf rE wE]. do 3 f_equal.
    unfold size in *. rewrite firstn_resize by lia. f_equal. f_equal. rewrite !skipn_all2; [reflexivity|lia|rewrite resize_len; lia].
  - unfold size in *. unfold addr_ok. rewrite (proj2 (Z.leb_le 0 _)), (proj2 (Z.ltb_lt (ptr s) _)) by lia. cbn [andb negb].
    rewrite (proj2 (Z.leb_le (ptr s + Z.of_nat (length d)) _)) by lia. cbn [negb bind ptr set_buf].
    rewrite s32_id by lia. rewrite int_ok by lia. cbn [bind]. reflexivity.
Qed.
Lemma C51_read_l (s : stream) (n : Z) : wf s -> small s -> ptr s < size s -> 0 <= n ->
  read n s = Ret (firstn (Z.to_nat n) (ahead s), set_ptr s (Z.min (ptr s + n) (size s))).
Proof.
  intros W S P N. pose proof (ptr64 s W S) as U. destruct W as [W _]. unfold small in S.
  unfold read. rewrite U. unfold read_at. rewrite !s32_id by lia. rewrite int_ok by lia. cbn [bind].
  rewrite (proj2 (Z.ltb_ge (size s - ptr s) 0)) by lia. unfold addr_ok. fold (size s).
  rewrite (proj2 (Z.leb_le 0 _)), (proj2 (Z.ltb_lt (ptr s) _)) by lia. cbn [andb negb].
  set (r := if n <? size s - ptr s then n else size s - ptr s).
  assert (R : r = Z.min n (size s - ptr s)) by (unfold r; destruct (Z.ltb_spec n (size s - ptr s)); lia).
  rewrite (proj2 (Z.leb_le (ptr s + r) _)) by lia. cbn [negb bind].
  assert (F : firstn (Z.to_nat r) (skipn (Z.to_nat (ptr s)) (buf s)) = firstn (Z.to_nat n) (ahead s)).
  { unfold ahead. destruct (Z.leb_spec n (size s - ptr s)); [f_equal; lia|].
    rewrite !firstn_all2; [reflexivity| |]; rewrite skipn_length; unfold size in *; lia. }
  assert (FL : Z.of_nat (length (firstn (Z.to_nat n) (ahead s))) = r).
  { rewrite firstn_length. unfold ahead. rewrite skipn_length. unfold size in *. lia. }
  rewrite F, FL. rewrite s32_id by lia. rewrite int_ok by lia. cbn [bind]. do 3 f_equal. lia.
Qed.
Lemma C51_end_l (s : stream) (n : Z) : wf s -> small s -> at_end s -> read n s = UB.
Proof.
  intros W S A. pose proof (ptr64 s W S) as U. destruct W as [W _]. unfold small, at_end in *.
  unfold read. rewrite U. unfold read_at. rewrite !s32_id by lia. rewrite int_ok by lia. cbn [bind].
  rewrite (proj2 (Z.ltb_ge (size s - ptr s) 0)) by lia. unfold addr_ok. fold (size s).
  rewrite (proj2 (Z.ltb_ge (ptr s) _)) by lia. rewrite andb_false_r. reflexivity.
Qed.
Lemma C51_l (s : stream) (d : list Z) : wf s -> small s -> Forall byte d -> d <> [] -> ptr s + Z.of_nat (length d) < 2 ^ 31 ->
  exists s1 s2, write d s = Ret (Z.of_nat (length d), s1) /\
    (let* _ := seekTo (ptr s) in read (Z.of_nat (length d))) s1 = Ret (d, s2) /\ ptr s2 = ptr s1.
Proof.
  intros W S B D L. rewrite C51_write_l by assumption. eexists. eexists. split; [reflexivity|].
  set (s1 := mkStream _ _ _ _). destruct W as [W B0].
  assert (D' : (0 < length d)%nat) by (destruct d; [congruence|cbn [length]; lia]).
  assert (Z1 : size s1 = Z.max (size s) (ptr s + Z.of_nat (length d))).
  { unfold size, s1 in *. cbn [buf]. rewrite !app_length, firstn_length, skipn_length. lia. }
  assert (S1 : small s1) by (unfold small in *; lia).
  assert (W1 : wf (set_ptr s1 (ptr s))).
  { split; [change (0 <= ptr s <= size s1); lia|]. cbn [buf s1 set_ptr].
    apply Forall_app. split; [rewrite <- (firstn_skipn (Z.to_nat (ptr s)) (buf s)) in B0; apply Forall_app in B0; apply B0|].
    apply Forall_app. split; [exact B|]. rewrite <- (firstn_skipn (Z.to_nat (ptr s) + length d) (buf s)) in B0; apply Forall_app in B0; apply B0. }
  split.
  - unfold stbind. rewrite seekTo_ok by (try exact S1; lia). cbn [bind]. rewrite C51_read_l; [|exact W1|exact S1|cbn [ptr set_ptr]; change (size (set_ptr s1 (ptr s))) with (size s1); lia|lia].
    f_equal. f_equal. unfold ahead. cbn [ptr buf set_ptr s1]. rewrite Nat2Z.id.
    assert (X : length (firstn (Z.to_nat (ptr s)) (buf s)) = Z.to_nat (ptr s)) by (rewrite firstn_length; unfold size in *; lia).
    rewrite skipn_app, X, Nat.sub_diag. rewrite skipn_all2 by lia. cbn [skipn app].
    rewrite firstn_app, Nat.sub_diag, firstn_all. cbn [firstn]. apply app_nil_r.
  - cbn [ptr set_ptr]. match goal with |- Z.min _ ?z = _ => change z with (size s1) end. rewrite Z1. unfold s1. cbn [ptr]. lia.
Qed.

(** ** C67: seeking. *)
Definition target (s : stream) (x : Z) (c : CURSOR) : Z :=
  match c with TOP => x | CURRENT => ptr s + x | END_ => size s - 1 - x end.
Lemma C67_seek_l (s : stream) (x : Z) (c : CURSOR) : wf s -> size s + 1 < 2 ^ 31 -> is_int x ->
  let p := target s x c in
  (0 <= p <= size s -> fseek x c s = Ret (p, set_ptr s p)) /\
  (is_int (size s - x) -> is_int p -> ~ 0 <= p <= size s -> fseek x c s = Abort) /\
  (~ is_int p -> fseek x c s = UB).
Proof.
  intros [W _] S X p. unfold is_int, small in *. pose proof (size_nonneg s).
  assert (F : fseek x c s = bind (match c with TOP => Ret x | CURRENT => int_result (ptr s + x) | END_ => let! a := int_result (size s - x) in int_result (a - 1) end)
    (fun p => if negb (0 <=? p) then Abort else if negb (u64 p <=? size s) then Abort else Ret (p, set_ptr s p))).
  { unfold fseek. rewrite s32_id by lia. reflexivity. }
  rewrite F.
  assert (T : (- 2 ^ 31 <= p < 2 ^ 31 -> (- 2 ^ 31 <= size s - x < 2 ^ 31) -> match c with TOP => Ret x | CURRENT => int_result (ptr s + x) | END_ => let! a := int_result (size s - x) in int_result (a - 1) end = Ret p)
    /\ (~ - 2 ^ 31 <= p < 2 ^ 31 -> match c with TOP => Ret x | CURRENT => int_result (ptr s + x) | END_ => let! a := int_result (size s - x) in int_result (a - 1) end = UB)).
  { split.
    - intros P Q. subst p. destruct c; cbn [target] in P |- *; [reflexivity|apply int_ok; lia|]. rewrite int_ok by lia. cbn [bind]. rewrite int_ok by lia. f_equal. lia.
    - intros P. subst p. destruct c; cbn [target] in P; [lia| |].
      + destruct (int_result _) as [q| | |] eqn:R; unfold int_result in R; try (destruct (_ && _) in R; discriminate); [|reflexivity]. apply int_inv in R. lia.
      + destruct (int_result _) as [q| | |] eqn:R; unfold int_result in R; try (destruct (_ && _) in R; discriminate); [|reflexivity]. apply int_inv in R. destruct R as [-> R]. cbn [bind].
        destruct (int_result _) as [q| | |] eqn:R2; unfold int_result in R2; try (destruct (_ && _) in R2; discriminate); [|reflexivity]. apply int_inv in R2. lia. }
  destruct T as [T1 T2].
  assert (T3 : 0 <= p <= size s -> match c with TOP => Ret x | CURRENT => int_result (ptr s + x) | END_ => let! a := int_result (size s - x) in int_result (a - 1) end = Ret p).
  { intros P. subst p. destruct c; cbn [target] in P |- *; [reflexivity|apply int_ok; lia|]. rewrite int_ok by lia. cbn [bind]. rewrite int_ok by lia. f_equal. lia. }
  split; [|split].
  - intros P. rewrite T3 by exact P. cbn [bind]. rewrite u64_id by lia. rewrite (proj2 (Z.leb_le 0 p)), (proj2 (Z.leb_le p _)) by lia. reflexivity.
  - intros Q P N. rewrite T1 by assumption. cbn [bind]. destruct (Z.leb_spec 0 p); cbn [negb]; [|reflexivity]. rewrite u64_id by lia.
    destruct (Z.leb_spec p (size s)); cbn [negb]; [lia|reflexivity].
  - intros P. rewrite T2 by exact P. reflexivity.
Qed.
Lemma C67_l : (exists s, wf s /\ ~ at_end s /\ fseek 0 END_ s = Ret (ptr s, s)) /\ fseek 0 END_ MS_new = Abort.
Proof.
  split; [|reflexivity]. exists (mkStream [1; 2; 3] 2 LITTLE LITTLE). split; [split; [cbn; lia|repeat constructor; unfold byte; lia]|].
  split; [discriminate|]. vm_compute. reflexivity.
Qed.
Lemma C45_l : exists s s', wf s /\ ptr s + 2 <= size s /\ putUint16 0x0102 s = Ret (tt, s') /\
  ptr s' <> ptr s + 2 /\ buf s' <> firstn (Z.to_nat (ptr s)) (buf s) ++ wire (wE s) 2 0x0102 ++ skipn (Z.to_nat (ptr s) + 2) (buf s).
Proof.
  exists (mkStream [10; 11; 12; 13] 1 LITTLE LITTLE). eexists. split; [split; [cbn; lia|repeat constructor; unfold byte; lia]|].
  split; [cbn; lia|]. split; [vm_compute; reflexivity|]. split; [cbn; lia|]. cbn. discriminate.
Qed.
