(** * Streams compiled without assertions. *)
From Coq Require Import ZArith List Bool Lia.
From Verif Require Import Num MStream SpecStream MStreamNd SpecStreamNd PStream PStream2 LStream.
Import ListNotations.
Local Open Scope Z_scope.

(** the transcription with the asserting byte writer is the one of MStream.v. *)
Lemma gput_debug t v : gput putUint8 t v = put t v. Proof. destruct t; reflexivity. Qed.
Lemma gput_substr_debug str n : gputSubstr putUint8 str n = putSubstr str n. Proof. reflexivity. Qed.
Lemma size_nonneg s : 0 <= size s. Proof. unfold size. lia. Qed.
Lemma u64_out s : is_int (ptr s) -> small s -> outside s -> (u64 (ptr s) <? size s) = false /\ (u64 (ptr s) =? size s) = false.
Proof.
  intros I S O. unfold is_int, small, outside in *. pose proof (size_nonneg s).
  assert (E : 0 <= ptr s /\ u64 (ptr s) = ptr s \/ u64 (ptr s) = ptr s + 2 ^ 64).
  { unfold u64. destruct (Z_lt_le_dec (ptr s) 0); [right; symmetry; apply Z.mod_unique with (-1); lia|left; split; [lia|apply Z.mod_small; lia]]. }
  split; [apply Z.ltb_ge|apply Z.eqb_neq]; destruct E as [[? E]|E]; rewrite E; destruct O; lia.
Qed.
Lemma put8_out v s : is_int (ptr s) -> small s -> outside s -> putUint8_nd v s = Ret (tt, s).
Proof. intros I S O. unfold putUint8_nd. destruct (u64_out s I S O) as [-> ->]. reflexivity. Qed.
Lemma get8_out s : is_int (ptr s) -> small s -> outside s -> getUint8 s = Ret (0, s).
Proof. intros I S O. unfold getUint8. destruct (u64_out s I S O) as [-> _]. reflexivity. Qed.
Lemma stb {A B} (m : ST A) (k : A -> ST B) s a s' : m s = Ret (a, s') -> stbind m k s = k a s'.
Proof. intros E. unfold stbind. rewrite E. reflexivity. Qed.

Lemma put_out t v s : is_int (ptr s) -> small s -> outside s -> put_nd t v s = Ret (tt, s).
Proof.
  intros I S O. pose proof (fun v => put8_out v s I S O) as P. unfold put_nd. set (p := putUint8_nd) in *. clearbody p.
  assert (W : get_wE s = Ret (wE s, s)) by reflexivity.
  assert (U16 : forall v, gputUint16 p v s = Ret (tt, s)). { intros w. unfold gputUint16. rewrite (stb _ _ _ _ _ W). destruct (is_big _); rewrite (stb _ _ _ _ _ (P _)); apply P. }
  assert (I16 : forall v, gputInt16 p v s = Ret (tt, s)). { intros w. unfold gputInt16, gputInt8. rewrite (stb _ _ _ _ _ W). destruct (is_big _); rewrite (stb _ _ _ _ _ (P _)); apply P. }
  assert (U32 : forall v, gputUint32 p v s = Ret (tt, s)). { intros w. unfold gputUint32. rewrite (stb _ _ _ _ _ W). destruct (is_big _); rewrite (stb _ _ _ _ _ (U16 _)); apply U16. }
  assert (I32 : forall v, gputInt32 p v s = Ret (tt, s)). { intros w. unfold gputInt32. rewrite (stb _ _ _ _ _ W). destruct (is_big _); [rewrite (stb _ _ _ _ _ (I16 _)); apply U16|rewrite (stb _ _ _ _ _ (U16 _)); apply I16]. }
  assert (U64 : forall v, gputUint64 p v s = Ret (tt, s)). { intros w. unfold gputUint64. rewrite (stb _ _ _ _ _ W). destruct (is_big _); rewrite (stb _ _ _ _ _ (U32 _)); apply U32. }
  assert (I64 : forall v, gputInt64 p v s = Ret (tt, s)). { intros w. unfold gputInt64. rewrite (stb _ _ _ _ _ W). destruct (is_big _); [rewrite (stb _ _ _ _ _ (I32 _)); apply U32|rewrite (stb _ _ _ _ _ (U32 _)); apply I32]. }
  destruct t; cbn [gput]; unfold gputInt8, gputFloat, gputDouble; auto.
Qed.
Lemma get_out t s : is_int (ptr s) -> small s -> outside s -> get t s = Ret (0, s).
Proof.
  intros I S O. pose proof (get8_out s I S O) as P. assert (W : get_rE s = Ret (rE s, s)) by reflexivity.
  assert (U16 : getUint16 s = Ret (0, s)). { unfold getUint16. rewrite (stb _ _ _ _ _ P), (stb _ _ _ _ _ P), (stb _ _ _ _ _ W). destruct (is_big _); reflexivity. }
  assert (I16 : getInt16 s = Ret (0, s)). { unfold getInt16. rewrite (stb _ _ _ _ _ P), (stb _ _ _ _ _ P), (stb _ _ _ _ _ W). destruct (is_big _); reflexivity. }
  assert (U32 : getUint32 s = Ret (0, s)). { unfold getUint32. rewrite (stb _ _ _ _ _ U16), (stb _ _ _ _ _ U16), (stb _ _ _ _ _ W). destruct (is_big _); reflexivity. }
  assert (I32 : getInt32 s = Ret (0, s)). { unfold getInt32. rewrite (stb _ _ _ _ _ U16), (stb _ _ _ _ _ U16), (stb _ _ _ _ _ W). destruct (is_big _); reflexivity. }
  assert (U64 : getUint64 s = Ret (0, s)).
  { unfold getUint64. rewrite (stb _ _ _ _ _ W). assert (Q : (if is_big (rE s) then let* hi := getUint32 in let* lo := getUint32 in ret (lo, hi) else let* lo := getUint32 in let* hi := getUint32 in ret (lo, hi)) s = Ret ((0, 0), s)).
    { destruct (is_big _); rewrite (stb _ _ _ _ _ U32), (stb _ _ _ _ _ U32); reflexivity. } rewrite (stb _ _ _ _ _ Q). reflexivity. }
  assert (I64 : getInt64 s = Ret (0, s)).
  { unfold getInt64. rewrite (stb _ _ _ _ _ W). assert (Q : (if is_big (rE s) then let* hi := getInt32 in let* lo := getUint32 in ret (lo, hi) else let* lo := getUint32 in let* hi := getInt32 in ret (lo, hi)) s = Ret ((0, 0), s)).
    { destruct (is_big _); [rewrite (stb _ _ _ _ _ I32), (stb _ _ _ _ _ U32)|rewrite (stb _ _ _ _ _ U32), (stb _ _ _ _ _ I32)]; reflexivity. } rewrite (stb _ _ _ _ _ Q). reflexivity. }
  destruct t; cbn [get]; unfold getFloat, getDouble; auto. unfold getInt8. rewrite (stb _ _ _ _ _ P). reflexivity.
Qed.

(** inside the buffer the assertions make no difference. *)
Definition inn (s : stream) : Prop := 0 <= ptr s <= size s /\ ptr s < 2 ^ 31.
Definition agree {A} (m m' : ST A) : Prop := forall s, inn s -> m s = m' s /\ forall a s', m' s = Ret (a, s') -> inn s'.
Lemma agree_bind {A B} (m m' : ST A) (k k' : A -> ST B) : agree m m' -> (forall a, agree (k a) (k' a)) -> agree (stbind m k) (stbind m' k').
Proof.
  intros M K s I. destruct (M s I) as [E J]. unfold stbind. rewrite E. destruct (m' s) as [[a s1]| | |]; cbn [bind]; try (split; [reflexivity|intros; discriminate]).
  apply K. apply (J a). reflexivity.
Qed.
Lemma agree_wE : agree get_wE get_wE.
Proof. intros s I. split; [reflexivity|]. intros a s' E. injection E as _ <-. exact I. Qed.
Lemma agree_ret {A} (a : A) : agree (ret a) (ret a).
Proof. intros s I. split; [reflexivity|]. intros b s' E. injection E as _ <-. exact I. Qed.
Lemma agree_mark : agree mark mark.
Proof. intros s I. split; [reflexivity|]. intros b s' E. injection E as _ <-. exact I. Qed.
Lemma agree_if {A} (b : bool) (m m' n n' : ST A) : agree m m' -> agree n n' -> agree (if b then m else n) (if b then m' else n').
Proof. now destruct b. Qed.
Lemma agree_put8 v : agree (putUint8_nd v) (putUint8 v).
Proof.
  intros s [I J]. unfold putUint8_nd, putUint8. rewrite u64_id by lia.
  destruct (ptr s <? size s) eqn:L; [|destruct (ptr s =? size s) eqn:E].
  - split; [reflexivity|]. intros a s' Q. destruct (vec_set _ _ _) as [b| | |] eqn:V; try discriminate. injection Q as _ <-.
    apply vec_set_inv in V. subst b. unfold inn, size, set_buf in *. cbn [buf ptr]. rewrite list_set_len. lia.
  - split; [reflexivity|]. intros a s' Q. unfold int_result in Q. destruct (_ && _)%bool eqn:R; [|discriminate]. injection Q as _ <-.
    apply andb_prop in R. unfold inn, size, set_ptr, set_buf in *. cbn [buf ptr]. rewrite app_length. cbn [length]. lia.
  - apply Z.ltb_ge in L. apply Z.eqb_neq in E. lia.
Qed.
Lemma agree_put t v : agree (put_nd t v) (put t v).
Proof.
  rewrite <- gput_debug. unfold put_nd. pose proof agree_put8 as P. pose proof agree_wE as W. set (p := putUint8_nd) in *. set (q := putUint8) in *. clearbody p q.
  assert (U16 : forall v, agree (gputUint16 p v) (gputUint16 q v)). { intros w. apply agree_bind; [exact W|]. intros e. apply agree_if; (apply agree_bind; [apply P|intros; apply P]). }
  assert (I16 : forall v, agree (gputInt16 p v) (gputInt16 q v)). { intros w. apply agree_bind; [exact W|]. intros e. apply agree_if; (apply agree_bind; [apply P|intros; apply P]). }
  assert (U32 : forall v, agree (gputUint32 p v) (gputUint32 q v)). { intros w. apply agree_bind; [exact W|]. intros e. apply agree_if; (apply agree_bind; [apply U16|intros; apply U16]). }
  assert (I32 : forall v, agree (gputInt32 p v) (gputInt32 q v)). { intros w. apply agree_bind; [exact W|]. intros e. apply agree_if; (apply agree_bind; [auto|intros; auto]). }
  assert (U64 : forall v, agree (gputUint64 p v) (gputUint64 q v)). { intros w. apply agree_bind; [exact W|]. intros e. apply agree_if; (apply agree_bind; [auto|intros; auto]). }
  assert (I64 : forall v, agree (gputInt64 p v) (gputInt64 q v)). { intros w. apply agree_bind; [exact W|]. intros e. apply agree_if; (apply agree_bind; [auto|intros; auto]). }
  destruct t; cbn [gput]; unfold gputInt8, gputFloat, gputDouble; auto.
Qed.

Lemma loose_cases s : loose s -> outside s \/ wf s.
Proof. intros (I & S & B). unfold outside, wf. destruct (Z_lt_le_dec (ptr s) 0), (Z_lt_le_dec (size s) (ptr s)); auto; right; split; auto. Qed.
Lemma wf_loose s : wf s -> small s -> loose s.
Proof. intros [W B] S. unfold loose, is_int, small in *. repeat split; try assumption; lia. Qed.
Lemma put_safe t v s : in_range t v -> loose s -> size s + 8 < 2 ^ 31 -> exists s', put_nd t v s = Ret (tt, s') /\ loose s' /\ size s' <= size s + 8.
Proof.
  intros R L Q. destruct (loose_cases s L) as [O|W].
  - destruct L as (I & S & B). exists s. rewrite put_out by assumption. split; [reflexivity|]. split; [split; [exact I|split; assumption]|lia].
  - assert (S : small s) by (unfold small; lia). assert (Wi : (width t <= 8)%nat) by (destruct t; cbn; lia).
    assert (I : inn s) by (destruct W; unfold inn, small in *; lia). destruct (agree_put t v s I) as [-> J].
    assert (E : exists s', put t v s = Ret (tt, s') /\ size s' <= size s + 8).
    { destruct (Z_lt_le_dec (ptr s) (size s)) as [P|P].
      - eexists. split; [apply C45_partial_l; assumption|]. unfold size, set_buf. cbn [buf]. rewrite list_set_len. lia.
      - eexists. split; [apply C44_l; [unfold at_end; destruct W; lia|assumption|lia]|]. unfold size at 1. cbn [buf]. rewrite app_length, Nat2Z.inj_add. fold (size s).
        assert (length match wE s with LITTLE => le_bytes (width t) v | BIG => rev (le_bytes (width t) v) end = width t) by (pose proof (wire_len (wE s) (width t) v) as K; unfold wire in K; exact K). lia. }
    destruct E as (s' & E & Z). exists s'. split; [exact E|]. split; [|exact Z].
    assert (K : inv s) by (split; [exact W|apply I]). destruct (keeps_put t v R s K) as [_ K']. destruct (K' _ _ E) as [W' _]. apply wf_loose; [exact W'|unfold small; lia].
Qed.
Lemma get_safe t s : loose s -> exists v s', get t s = Ret (v, s') /\ loose s' /\ buf s' = buf s.
Proof.
  intros L. destruct (loose_cases s L) as [O|W].
  - destruct L as (I & S & B). exists 0, s. rewrite get_out by assumption. split; [reflexivity|]. split; [split; [exact I|split; assumption]|reflexivity].
  - destruct L as (I & S & B). rewrite get_ok by assumption. do 2 eexists. split; [reflexivity|]. split; [|reflexivity]. destruct W as [W _]. unfold loose, is_int, small, set_ptr, size in *. cbn [ptr buf]. repeat split; try assumption; lia.
Qed.
Lemma get_bytes_safe n : forall s, loose s -> exists l s', get_bytes n s = Ret (l, s') /\ loose s' /\ buf s' = buf s.
Proof.
  induction n as [|n IH]; intros s L; [exists [], s; repeat split; apply L|]. cbn [get_bytes].
  destruct (get_safe TU8 s L) as (v & s1 & E & L1 & B1). change (get TU8) with getUint8 in E. rewrite (stb _ _ _ _ _ E).
  destruct (IH s1 L1) as (l & s2 & E2 & L2 & B2). rewrite (stb _ _ _ _ _ E2). do 2 eexists. split; [reflexivity|]. split; [exact L2|congruence].
Qed.
Lemma get_string_safe s : loose s -> exists l s', get_string s = Ret (l, s') /\ loose s' /\ buf s' = buf s.
Proof.
  intros L. unfold get_string. destruct (get_safe TU32 s L) as (n & s1 & E & L1 & B1). change (get TU32) with getUint32 in E. rewrite (stb _ _ _ _ _ E). cbv zeta.
  destruct (0 <? s32 n) eqn:P; [|exists [], s1; repeat split; try apply L1; exact B1]. apply Z.ltb_lt in P.
  unfold getSubstr. assert (R : lift (int_result (s32 n - 1)) s1 = Ret (s32 n - 1, s1)).
  { pose proof (s32_int n) as I. unfold is_int in I. unfold lift, int_result. replace ((- 2 ^ 31 <=? s32 n - 1) && (s32 n - 1 <? 2 ^ 31))%bool with true; [reflexivity|]. symmetry. apply andb_true_intro. lia. }
  rewrite (stb _ _ _ _ _ R). destruct (get_bytes_safe (Z.to_nat (s32 n - 1)) s1 L1) as (l & s2 & E2 & L2 & B2). rewrite (stb _ _ _ _ _ E2).
  assert (P' : (0 <? s32 n) = true) by now apply Z.ltb_lt. rewrite P'. destruct (get_safe TU8 s2 L2) as (v & s3 & E3 & L3 & B3). change (get TU8) with getUint8 in E3. rewrite (stb _ _ _ _ _ E3).
  do 2 eexists. split; [reflexivity|]. split; [exact L3|congruence].
Qed.
Lemma loose_ptr s p : loose s -> is_int p -> loose (set_ptr s p).
Proof. intros (I & S & B) P. repeat split; try apply P; assumption. Qed.
Lemma void_ok {A} (m : ST A) s a s' : m s = Ret (a, s') -> void m s = Ret s'.
Proof. intros E. unfold void. rewrite E. reflexivity. Qed.
Lemma step_safe o s : typed o -> loose s -> size s + 8 < 2 ^ 31 -> exists s', do_op_nd o s = Ret s' /\ loose s' /\ size s' <= size s + 8.
Proof.
  intros T L Q. pose proof (size_nonneg s) as N0.
  destruct o as [t v|t|n|d|n p|d p|x c|p|a|i|i v| | |p|p|n| |str n|str|e|e]; try contradiction; cbn [do_op_nd do_op].
  - destruct (put_safe t v s T L Q) as (s' & E & L' & Z). exists s'. rewrite (void_ok _ _ _ _ E). auto.
  - destruct (get_safe t s L) as (v & s' & E & L' & B). exists s'. rewrite (void_ok _ _ _ _ E). unfold size. rewrite B. fold (size s). repeat split; try apply L'. lia.
  - destruct c; try contradiction.
    + exists (set_ptr s x). repeat split; try apply L; try apply T. unfold size, set_ptr. cbn [buf]. fold (size s). lia.
    + destruct T as [T X]. assert (S : s32 (size s) = size s) by (apply s32_id; destruct L as (_ & S & _); unfold small in S; lia).
      assert (R : forall y, is_int y -> int_result y = Ret y). { intros y [Y1 Y2]. unfold int_result. replace ((- 2 ^ 31 <=? y) && (y <? 2 ^ 31))%bool with true; [reflexivity|]. symmetry. apply andb_true_intro. lia. }
      exists (set_ptr s (size s - x - 1)). unfold is_int in T. assert (K : is_int (size s - x - 1)) by (unfold is_int; lia).
      unfold void, fseek_nd. rewrite S, R by (unfold is_int; lia). cbn [bind]. rewrite R by exact K. cbn [bind].
      split; [reflexivity|]. split; [apply loose_ptr; assumption|]. unfold size, set_ptr. cbn [buf]. fold (size s). lia.
  - exists (set_ptr s (s32 p)). split; [reflexivity|]. split; [apply loose_ptr; [exact L|apply s32_int]|]. unfold size, set_ptr. cbn [buf]. fold (size s). lia.
  - exists s. rewrite (void_ok _ _ _ _ (C50_partial_l s i (proj1 T))). repeat split; try apply L. lia.
  - destruct (put_safe TU32 0 s ltac:(cbv; split; congruence) L Q) as (s' & E & L' & Z). exists s'. split; [|auto]. unfold gputPointer32. apply (void_ok _ _ (u64 (ptr s))).
    rewrite (stb mark _ s (u64 (ptr s)) s eq_refl). change (put_nd TU32 0) with (gputUint32 putUint8_nd 0) in E. rewrite (stb _ _ _ _ _ E). reflexivity.
  - destruct (put_safe TU64 0 s ltac:(cbv; split; congruence) L Q) as (s' & E & L' & Z). exists s'. split; [|auto]. unfold gputPointer64. apply (void_ok _ _ (u64 (ptr s))).
    rewrite (stb mark _ s (u64 (ptr s)) s eq_refl). change (put_nd TU64 0) with (gputUint64 putUint8_nd 0) in E. rewrite (stb _ _ _ _ _ E). reflexivity.
  - destruct (get_string_safe s L) as (l & s' & E & L' & B). exists s'. rewrite (void_ok _ _ _ _ E). unfold size. rewrite B. fold (size s). repeat split; try apply L'. lia.
  - eexists. split; [reflexivity|]. split; [repeat split; apply L|]. unfold size. cbn [buf]. fold (size s). lia.
  - eexists. split; [reflexivity|]. split; [repeat split; apply L|]. unfold size. cbn [buf]. fold (size s). lia.
Qed.
Lemma C144_safe_l l : forall s, Forall typed l -> loose s -> size s + 8 * Z.of_nat (length l) < 2 ^ 31 -> exists s', run_nd l s = Ret s' /\ loose s'.
Proof.
  induction l as [|o l IH]; intros s T L Q; [exists s; auto|]. inversion T; subst. cbn [length] in Q.
  destruct (step_safe o s) as (s1 & E & L1 & Z); [assumption|assumption|lia|]. cbn [run_nd]. rewrite E. cbn [bind]. apply IH; [assumption|assumption|lia].
Qed.

Lemma int_ok y : is_int y -> int_result y = Ret y.
Proof. intros [A B]. unfold int_result. replace ((- 2 ^ 31 <=? y) && (y <? 2 ^ 31))%bool with true; [reflexivity|]. symmetry. apply andb_true_intro. lia. Qed.
Lemma u64_neg p : is_int p -> p < 0 -> u64 p = 2 ^ 64 + p.
Proof. intros [A B] N. unfold u64. rewrite <- (Z.mod_add p 1 (2 ^ 64)) by lia. rewrite Z.mod_small; lia. Qed.
Lemma read_neg n s : is_int (ptr s) -> small s -> ptr s < 0 -> read n s = UB.
Proof.
  intros I S N. unfold read, read_at. rewrite u64_neg by assumption. pose proof (size_nonneg s) as Z0. unfold small in S.
  rewrite (s32_id (size s)) by lia. assert (E : s32 (2 ^ 64 + ptr s) = ptr s).
  { unfold s32, sgn. replace (2 ^ 64 + ptr s + 2 ^ (32 - 1)) with (ptr s + 2 ^ 31 + 2 ^ 32 * 2 ^ 32) by (change (32 - 1) with 31; lia). rewrite Z.mod_add by lia. unfold is_int in I. change (32 - 1) with 31. rewrite Z.mod_small by lia. lia. }
  rewrite E. unfold int_result at 1. destruct ((- 2 ^ 31 <=? size s - ptr s) && (size s - ptr s <? 2 ^ 31))%bool; [|reflexivity]. cbn [bind].
  replace (size s - ptr s <? 0) with false by (symmetry; apply Z.ltb_ge; lia). cbv zeta.
  replace (addr_ok (buf s) (2 ^ 64 + ptr s)) with false; [reflexivity|]. symmetry. unfold addr_ok. fold (size s). apply andb_false_intro2. apply Z.ltb_ge. unfold is_int in I. lia.
Qed.
Lemma read_past n s : is_int (ptr s) -> size s < ptr s -> read n s = Ret ([], s).
Proof.
  intros I N. pose proof (size_nonneg s) as Z0. unfold is_int in I. unfold read, read_at. rewrite u64_id by lia. rewrite !s32_id by lia.
  rewrite int_ok by (unfold is_int; lia). cbn [bind]. replace (size s - ptr s <? 0) with true by (symmetry; apply Z.ltb_lt; lia). cbn [bind length].
  change (s32 (Z.of_nat 0)) with 0. rewrite Z.add_0_r, int_ok by exact I. cbn [bind]. destruct s; reflexivity.
Qed.
Lemma write_past d s : (0 < length d)%nat -> size s <= ptr s -> ptr s + Z.of_nat (length d) < 2 ^ 31 ->
  write d s = Ret (Z.of_nat (length d), mkStream (buf s ++ repeat 0 (Z.to_nat (ptr s - size s)) ++ d) (ptr s + Z.of_nat (length d)) (rE s) (wE s)).
Proof.
  intros D P Q. pose proof (size_nonneg s) as Z0. unfold write, write_at. cbv zeta. rewrite (u64_id (ptr s)) by lia. rewrite u64_id by lia.
  replace (size s <? ptr s + Z.of_nat (length d)) with true by (symmetry; apply Z.ltb_lt; lia). unfold resize.
  assert (Zs : size s = Z.of_nat (length (buf s))) by reflexivity.
  rewrite firstn_all2 by lia. set (k := (Z.to_nat (ptr s + Z.of_nat (length d)) - length (buf s))%nat).
  assert (K : k = (Z.to_nat (ptr s - size s) + length d)%nat) by (unfold k; lia).
  assert (L : Z.of_nat (length (buf s ++ repeat 0 k)) = ptr s + Z.of_nat (length d)) by (rewrite app_length, repeat_length; lia).
  unfold addr_ok. rewrite L. replace ((0 <=? ptr s) && (ptr s <? ptr s + Z.of_nat (length d)))%bool with true by (symmetry; apply andb_true_intro; lia).
  rewrite Z.leb_refl. cbn [negb bind]. rewrite s32_id by lia. cbn [set_buf ptr]. rewrite int_ok by (unfold is_int; lia). cbn [bind]. unfold set_ptr, set_buf. cbn [buf rE wE].
  do 3 f_equal. set (z := repeat 0 (Z.to_nat (ptr s - size s))). assert (Lz : length z = Z.to_nat (ptr s - size s)) by apply repeat_length.
  assert (F : firstn (Z.to_nat (ptr s)) (buf s ++ repeat 0 k) = buf s ++ z).
  { rewrite K, repeat_app. fold z. rewrite app_assoc, firstn_app, firstn_all2 by (rewrite app_length; lia). rewrite app_length. replace (Z.to_nat (ptr s) - (length (buf s) + length z))%nat with 0%nat by lia. apply app_nil_r. }
  rewrite F, skipn_all2 by (rewrite app_length, repeat_length; lia). rewrite app_nil_r, <- app_assoc. reflexivity.
Qed.
Lemma write_neg d s : is_int (ptr s) -> small s -> ptr s < 0 -> - ptr s <= Z.of_nat (length d) < 2 ^ 32 -> write d s = UB.
Proof.
  intros I S N Q. pose proof (size_nonneg s) as Z0. unfold is_int, small in *. unfold write, write_at. cbv zeta. rewrite (u64_neg (ptr s)) by (unfold is_int; lia).
  assert (E : u64 (2 ^ 64 + ptr s + Z.of_nat (length d)) = ptr s + Z.of_nat (length d)).
  { unfold u64. replace (2 ^ 64 + ptr s + Z.of_nat (length d)) with (ptr s + Z.of_nat (length d) + 1 * 2 ^ 64) by lia. rewrite Z.mod_add by lia. apply Z.mod_small. lia. }
  rewrite E. set (b := if size s <? ptr s + Z.of_nat (length d) then resize (buf s) (Z.to_nat (ptr s + Z.of_nat (length d))) else buf s). assert (L : Z.of_nat (length b) < 2 ^ 33).
  { unfold b. destruct (size s <? _); [|fold (size s); lia]. unfold resize. rewrite app_length, firstn_length, repeat_length.
    assert (Zs : size s = Z.of_nat (length (buf s))) by reflexivity. lia. }
  replace (addr_ok b (2 ^ 64 + ptr s)) with false; [reflexivity|]. symmetry. unfold addr_ok. apply andb_false_intro2. apply Z.ltb_ge. lia.
Qed.
Lemma seek_nd_top x s : is_int x -> fseek_nd x TOP s = Ret (x, set_ptr s x).
Proof. reflexivity. Qed.
Lemma seek_nd_cur x s : is_int (ptr s + x) -> fseek_nd x CURRENT s = Ret (ptr s + x, set_ptr s (ptr s + x)).
Proof. intros I. unfold fseek_nd. rewrite int_ok by exact I. reflexivity. Qed.
Lemma seek_nd_end x s : is_int x -> 0 <= x -> small s -> fseek_nd x END_ s = Ret (size s - x - 1, set_ptr s (size s - x - 1)).
Proof.
  intros I P S. pose proof (size_nonneg s). unfold small, is_int in *. unfold fseek_nd. rewrite s32_id by lia. rewrite int_ok by (unfold is_int; lia). cbn [bind]. rewrite int_ok by (unfold is_int; lia). reflexivity.
Qed.
(** the debug build stops where the release build carries on. *)
Lemma put8_abort v s : is_int (ptr s) -> small s -> outside s -> putUint8 v s = Abort.
Proof.
  intros I S O. destruct (u64_out s I S O) as (A & B). unfold putUint8. rewrite A, B. reflexivity.
Qed.
Lemma put_abort t v s : is_int (ptr s) -> small s -> outside s -> put t v s = Abort.
Proof.
  intros I S O. assert (P : forall w, putUint8 w s = Abort) by (intros; apply put8_abort; assumption).
  assert (B : forall A (m : ST unit) (k : unit -> ST A), m s = Abort -> stbind m k s = Abort) by (intros A m k E; unfold stbind; rewrite E; reflexivity).
  assert (U16 : forall w, putUint16 w s = Abort) by (intros w; unfold putUint16, get_wE, stbind at 1; cbn [bind]; destruct (is_big (wE s)); apply B, P).
  assert (I8 : forall w, putInt8 w s = Abort) by (intros w; apply P).
  assert (I16 : forall w, putInt16 w s = Abort) by (intros w; unfold putInt16, get_wE, stbind at 1; cbn [bind]; destruct (is_big (wE s)); apply B; auto).
  assert (U32 : forall w, putUint32 w s = Abort) by (intros w; unfold putUint32, get_wE, stbind at 1; cbn [bind]; destruct (is_big (wE s)); apply B; auto).
  assert (I32 : forall w, putInt32 w s = Abort) by (intros w; unfold putInt32, get_wE, stbind at 1; cbn [bind]; destruct (is_big (wE s)); apply B; auto).
  destruct t; cbn [put]; auto; unfold putUint64, putInt64, putFloat, putDouble; try apply U32; try unfold putUint64; unfold get_wE, stbind at 1; cbn [bind]; destruct (is_big (wE s)); apply B; auto.
Qed.

(** ** Raw access. *)
Lemma ptr_load_ok p i s : 0 <= p < size s -> 0 <= p + i < size s -> ptr_load p i s = Ret (nth (Z.to_nat (p + i)) (buf s) 0, s).
Proof.
  intros P Q. unfold ptr_load, addr_ok. fold (size s). replace ((0 <=? p) && (p <? size s))%bool with true by (symmetry; apply andb_true_intro; lia). cbn [negb].
  unfold vec_get. fold (size s). replace ((0 <=? p + i) && (p + i <? size s))%bool with true by (symmetry; apply andb_true_intro; lia).
  rewrite (nth_error_nth' (buf s) 0) by (unfold size in *; lia). reflexivity.
Qed.
Lemma ptr_load_bad p i s : ~ (0 <= p < size s /\ 0 <= p + i < size s) -> ptr_load p i s = UB.
Proof.
  intros N. unfold ptr_load, addr_ok. fold (size s). destruct ((0 <=? p) && (p <? size s))%bool eqn:E; [|reflexivity]. cbn [negb]. apply andb_prop in E.
  unfold vec_get. fold (size s). destruct ((0 <=? p + i) && (p + i <? size s))%bool eqn:F; [|reflexivity]. apply andb_prop in F. exfalso. apply N. lia.
Qed.
Lemma ptr_store_ok p i v s : 0 <= p < size s -> 0 <= p + i < size s -> ptr_store p i v s = Ret (tt, set_buf s (list_set (buf s) (Z.to_nat (p + i)) v)).
Proof.
  intros P Q. unfold ptr_store, addr_ok. fold (size s). replace ((0 <=? p) && (p <? size s))%bool with true by (symmetry; apply andb_true_intro; lia). cbn [negb].
  unfold vec_set. fold (size s). replace ((0 <=? p + i) && (p + i <? size s))%bool with true by (symmetry; apply andb_true_intro; lia). reflexivity.
Qed.
Lemma ptr_store_bad p i v s : ~ (0 <= p < size s /\ 0 <= p + i < size s) -> ptr_store p i v s = UB.
Proof.
  intros N. unfold ptr_store, addr_ok. fold (size s). destruct ((0 <=? p) && (p <? size s))%bool eqn:E; [|reflexivity]. cbn [negb]. apply andb_prop in E.
  unfold vec_set. fold (size s). destruct ((0 <=? p + i) && (p + i <? size s))%bool eqn:F; [|reflexivity]. apply andb_prop in F. exfalso. apply N. lia.
Qed.
Lemma nth_list_set (l : list Z) i j v : (i < length l)%nat -> nth j (list_set l i v) 0 = if Nat.eqb j i then v else nth j l 0.
Proof. revert i j. induction l as [|x l IH]; intros [|i] [|j] L; cbn in *; try lia; try reflexivity. apply IH. lia. Qed.

(** ** Assertions that do not fire make no difference. *)
Definition same {A} (m' m : ST A) : Prop := forall s, m s <> Abort -> m' s = m s.
Lemma same_refl {A} (m : ST A) : same m m. Proof. intros s _. reflexivity. Qed.
Lemma same_bind {A B} (m m' : ST A) (k k' : A -> ST B) : same m' m -> (forall a, same (k' a) (k a)) -> same (stbind m' k') (stbind m k).
Proof.
  intros M K s N. unfold stbind in *. assert (E : m' s = m s) by (apply M; intros E; rewrite E in N; apply N; reflexivity).
  rewrite E. destruct (m s) as [[a s1]| | |]; cbn [bind] in *; try reflexivity. apply K. exact N.
Qed.
Lemma same_if {A} (b : bool) (m m' n n' : ST A) : same m' m -> same n' n -> same (if b then m' else n') (if b then m else n).
Proof. now destruct b. Qed.
Lemma same_put8 v : same (putUint8_nd v) (putUint8 v).
Proof. intros s N. unfold putUint8_nd, putUint8 in *. destruct (u64 (ptr s) <? size s); [reflexivity|]. destruct (u64 (ptr s) =? size s); [reflexivity|]. now elim N. Qed.
Lemma same_seek x c : same (fseek_nd x c) (fseek x c).
Proof.
  intros s N. unfold fseek_nd, fseek in *. destruct (match c with TOP => _ | CURRENT => _ | END_ => _ end) as [p| | |]; cbn [bind] in *; try reflexivity.
  destruct (negb (0 <=? p)); [now elim N|]. destruct (negb (u64 p <=? size s)); [now elim N|reflexivity].
Qed.
Lemma same_put t v : same (put_nd t v) (put t v).
Proof.
  rewrite <- gput_debug. unfold put_nd. pose proof same_put8 as P. pose proof (same_refl get_wE) as W. set (p := putUint8_nd) in *. set (q := putUint8) in *. clearbody p q.
  assert (U16 : forall v, same (gputUint16 p v) (gputUint16 q v)). { intros w. apply same_bind; [exact W|]. intros e. apply same_if; (apply same_bind; [auto|intros; auto]). }
  assert (I16 : forall v, same (gputInt16 p v) (gputInt16 q v)). { intros w. unfold gputInt16, gputInt8. apply same_bind; [exact W|]. intros e. apply same_if; (apply same_bind; [auto|intros; auto]). }
  assert (U32 : forall v, same (gputUint32 p v) (gputUint32 q v)). { intros w. apply same_bind; [exact W|]. intros e. apply same_if; (apply same_bind; [auto|intros; auto]). }
  assert (I32 : forall v, same (gputInt32 p v) (gputInt32 q v)). { intros w. apply same_bind; [exact W|]. intros e. apply same_if; (apply same_bind; [auto|intros; auto]). }
  assert (U64 : forall v, same (gputUint64 p v) (gputUint64 q v)). { intros w. apply same_bind; [exact W|]. intros e. apply same_if; (apply same_bind; [auto|intros; auto]). }
  assert (I64 : forall v, same (gputInt64 p v) (gputInt64 q v)). { intros w. apply same_bind; [exact W|]. intros e. apply same_if; (apply same_bind; [auto|intros; auto]). }
  destruct t; cbn [gput]; unfold gputInt8, gputFloat, gputDouble; auto.
Qed.
Lemma same_chars str n : forall i, same (gput_chars putUint8_nd str n i) (put_chars str n i).
Proof.
  induction n as [|n IH]; intros i; [apply same_refl|]. cbn [gput_chars put_chars]. apply same_bind; [apply same_refl|]. intros c. apply same_bind; [apply same_put8|]. intros _. apply IH.
Qed.
Lemma same_substr str n : same (gputSubstr putUint8_nd str n) (putSubstr str n).
Proof. unfold gputSubstr, putSubstr. cbv zeta. apply same_bind; [apply same_chars|]. intros _. apply same_if; [apply same_put8|apply same_refl]. Qed.
Lemma same_align a : same (align_nd a) (align a).
Proof. unfold align_nd, align. apply same_bind; [apply same_refl|]. intros x. apply same_if; [apply same_refl|]. cbv zeta. apply same_bind; [apply same_seek|intros; apply same_refl]. Qed.
Lemma same_void {A} (m' m : ST A) s : same m' m -> void m s <> Abort -> void m' s = void m s.
Proof. intros M N. unfold void in *. rewrite M; [reflexivity|]. intros E. rewrite E in N. now apply N. Qed.
Lemma same_op o s : do_op o s <> Abort -> do_op_nd o s = do_op o s.
Proof.
  intros N. destruct o; cbn [do_op_nd]; try reflexivity; cbn [do_op] in *; (apply same_void; [|exact N]).
  - apply same_put.
  - apply same_seek.
  - apply same_seek.
  - apply same_align.
  - apply same_bind; [apply same_refl|]. intros q. apply same_bind; [apply (same_put TU32)|intros; apply same_refl].
  - apply same_bind; [apply same_refl|]. intros q. apply same_bind; [apply (same_put TU64)|intros; apply same_refl].
  - apply same_substr.
  - apply same_substr.
Qed.
Lemma C144_same_l l : forall s, run l s <> Abort -> run_nd l s = run l s.
Proof.
  induction l as [|o l IH]; intros s N; [reflexivity|]. cbn [run run_nd] in *.
  assert (E : do_op_nd o s = do_op o s) by (apply same_op; intros E; rewrite E in N; now apply N). rewrite E. destruct (do_op o s) as [s1| | |]; cbn [bind] in *; try reflexivity. apply IH, N.
Qed.

Lemma C144_unsafe_l : exists s l, loose s /\ Forall op_ok l /\ run_nd l s = UB /\ run l s = Abort.
Proof.
  exists (mkStream [1; 2; 3] 0 LITTLE LITTLE), [OSeek (-1) TOP; ORead 1]. split; [|split; [|split; vm_compute; reflexivity]].
  - repeat split; try (cbn; lia). repeat constructor; cbv; congruence.
  - repeat constructor; cbn; unfold is_int, is_size; lia.
Qed.
Lemma C145_store_l p i v s : 0 <= p < size s -> 0 <= p + i < size s -> exists s', ptr_store p i v s = Ret (tt, s') /\
  ptr s' = ptr s /\ rE s' = rE s /\ wE s' = wE s /\ size s' = size s /\
  forall j, 0 <= j < size s -> ptr_load j 0 s' = Ret (if j =? p + i then v else nth (Z.to_nat j) (buf s) 0, s').
Proof.
  intros P Q. eexists. split; [apply ptr_store_ok; assumption|]. repeat split; try reflexivity; [unfold size, set_buf; cbn [buf]; now rewrite list_set_len|].
  intros j J. assert (Z : size (set_buf s (list_set (buf s) (Z.to_nat (p + i)) v)) = size s) by (unfold size, set_buf; cbn [buf]; now rewrite list_set_len).
  rewrite ptr_load_ok by (rewrite Z; lia). rewrite Z.add_0_r. cbn [set_buf buf]. rewrite nth_list_set by (unfold size in *; lia). do 2 f_equal.
  destruct (j =? p + i) eqn:E; [apply Z.eqb_eq in E; subst; now rewrite Nat.eqb_refl|]. apply Z.eqb_neq in E. replace (Nat.eqb (Z.to_nat j) (Z.to_nat (p + i))) with false; [reflexivity|]. symmetry. apply Nat.eqb_neq. lia.
Qed.
Lemma C145_cur_l i v s : wf s -> small s -> cur_load i s = ptr_load (ptr s) i s /\ cur_store i v s = ptr_store (ptr s) i v s /\ (at_end s -> cur_load i s = UB /\ cur_store i v s = UB).
Proof.
  intros [W B] S. unfold small in S. unfold cur_load, cur_store. rewrite u64_id by lia. split; [reflexivity|]. split; [reflexivity|]. intros E. unfold at_end in E.
  rewrite ptr_load_bad, ptr_store_bad by lia. auto.
Qed.
(** the byte under the cursor is the one the next read returns. *)
Lemma C145_next_l s : wf s -> small s -> ptr s < size s -> exists b, cur_load 0 s = Ret (b, s) /\ getUint8 s = Ret (b, set_ptr s (ptr s + 1)) /\ get_at (ptr s) s = Ret (b, s).
Proof.
  intros [W B] S L. unfold small in S. exists (nth (Z.to_nat (ptr s)) (buf s) 0). unfold cur_load. rewrite u64_id by lia. rewrite ptr_load_ok by lia. rewrite Z.add_0_r. split; [reflexivity|].
  split; [|apply C50_partial_l; lia]. unfold getUint8. rewrite u64_id by lia. replace (ptr s <? size s) with true by (symmetry; apply Z.ltb_lt; lia).
  unfold vec_get. fold (size s). replace ((0 <=? ptr s) && (ptr s <? size s))%bool with true by (symmetry; apply andb_true_intro; lia). rewrite (nth_error_nth' (buf s) 0) by (unfold size in *; lia).
  cbn [bind]. rewrite int_ok by (unfold is_int; lia). reflexivity.
Qed.
(** a store under the cursor is what [put_at] was meant to be. *)
Lemma C145_visible_l p i v s : 0 <= p < size s -> 0 <= p + i < size s -> (let* _ := ptr_store p i v in get_at (p + i)) s = Ret (v, set_buf s (list_set (buf s) (Z.to_nat (p + i)) v)).
Proof.
  intros P Q. rewrite (stb _ _ _ _ _ (ptr_store_ok p i v s P Q)), C50_partial_l by lia. cbn [set_buf buf]. rewrite nth_list_set by (unfold size in *; lia). now rewrite Nat.eqb_refl.
Qed.
(** shrinking the vector through [buffer()]. *)
Lemma C145_shrink_l l t v n s : wf s -> small s -> Z.of_nat (length l) < ptr s -> exists s', buffer_set l s = Ret (tt, s') /\ buffer_get s' = Ret (l, s') /\
  get t s' = Ret (0, s') /\ read n s' = Ret ([], s') /\ put t v s' = Abort /\ put_nd t v s' = Ret (tt, s').
Proof.
  intros [W B] S L. unfold small in S. exists (set_buf s l). split; [reflexivity|]. split; [reflexivity|].
  assert (I : is_int (ptr (set_buf s l))) by (cbn [ptr set_buf]; unfold is_int; lia). assert (S' : small (set_buf s l)) by (unfold small, size, set_buf; cbn [buf]; lia).
  assert (O : size (set_buf s l) < ptr (set_buf s l)) by exact L. assert (O' : outside (set_buf s l)) by (right; exact O).
  split; [apply get_out; assumption|]. split; [apply read_past; assumption|]. split; [apply put_abort; assumption|apply put_out; assumption].
Qed.
