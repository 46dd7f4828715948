(** * Byte streams: basic lemmas. *)
From Coq Require Import ZArith List Bool Lia.
From Verif Require Import Num MStream SpecStream.
Import ListNotations.
Local Open Scope Z_scope.

(** ** Bits. *)
Lemma lor_add n a b : 0 <= n -> 0 <= b < 2 ^ n -> Z.lor (Z.shiftl a n) b = a * 2 ^ n + b.
Proof.
  intros Hn Hb. rewrite <- Z.shiftl_mul_pow2 by exact Hn.
  assert (L : Z.land (Z.shiftl a n) b = 0).
  { apply Z.bits_inj'. intros i Hi. rewrite Z.land_spec, Z.bits_0. destruct (Z.ltb_spec i n).
    - rewrite Z.shiftl_spec_low by assumption. reflexivity.
    - rewrite <- (Z.mod_small b (2 ^ n)) by exact Hb. rewrite Z.mod_pow2_bits_high by lia. apply andb_false_r. }
  rewrite Z.add_nocarry_lxor by exact L. rewrite Z.lxor_lor by exact L. reflexivity.
Qed.
Lemma u8_land x : u8 (Z.land x 255) = x mod 256.
Proof. change 255 with (Z.ones 8). unfold u8. rewrite Z.land_ones by lia. change (2 ^ 8) with 256. apply Z.mod_mod. lia. Qed.
Lemma u16_land x : u16 (Z.land x 65535) = x mod 65536.
Proof. change 65535 with (Z.ones 16). unfold u16. rewrite Z.land_ones by lia. change (2 ^ 16) with 65536. apply Z.mod_mod. lia. Qed.
Lemma u32_land x : u32 (Z.land x 4294967295) = x mod 4294967296.
Proof. change 4294967295 with (Z.ones 32). unfold u32. rewrite Z.land_ones by lia. change (2 ^ 32) with 4294967296. apply Z.mod_mod. lia. Qed.
Lemma sgn_mod w x : 0 < w -> sgn w x mod 2 ^ w = x mod 2 ^ w.
Proof.
  intros H. unfold sgn. assert (0 < 2 ^ w) by (apply Z.pow_pos_nonneg; lia).
  rewrite Zminus_mod_idemp_l. f_equal. lia.
Qed.
Lemma sgn_id w x : 0 < w -> - 2 ^ (w - 1) <= x < 2 ^ (w - 1) -> sgn w x = x.
Proof.
  intros H K. unfold sgn. assert (2 ^ w = 2 * 2 ^ (w - 1)).
  { rewrite <- Z.pow_succ_r by lia. f_equal. lia. }
  rewrite Z.mod_small by lia. lia.
Qed.
Lemma sgn_signed w x : 0 < w -> 0 <= x < 2 ^ w -> sgn w x = to_signed w x.
Proof.
  intros H K. unfold sgn, to_signed. assert (E : 2 ^ w = 2 * 2 ^ (w - 1)).
  { rewrite <- Z.pow_succ_r by lia. f_equal. lia. }
  destruct (Z.ltb_spec x (2 ^ (w - 1))).
  - rewrite Z.mod_small by lia. lia.
  - replace (x + 2 ^ (w - 1)) with (x - 2 ^ (w - 1) + 1 * 2 ^ w) by lia. rewrite Z.mod_add by lia. rewrite Z.mod_small by lia. lia.
Qed.
Lemma sgn_add w x y : 0 < w -> x mod 2 ^ w = y mod 2 ^ w -> sgn w x = sgn w y.
Proof.
  intros H E. unfold sgn. f_equal. rewrite <- (Zplus_mod_idemp_l x), <- (Zplus_mod_idemp_l y), E. reflexivity.
Qed.
Lemma u64_id x : 0 <= x < 2 ^ 64 -> u64 x = x. Proof. intros. apply Z.mod_small. assumption. Qed.

(** ** Digits. *)
Lemma le_bytes_len k v : length (le_bytes k v) = k.
Proof. revert v. induction k as [|k IH]; intros v; [reflexivity|]. cbn [le_bytes length]. rewrite IH. reflexivity. Qed.
Lemma wire_len e k v : length (wire e k v) = k.
Proof. destruct e; unfold wire; rewrite ?rev_length; apply le_bytes_len. Qed.
Lemma le_bytes_byte k v : Forall byte (le_bytes k v).
Proof.
  revert v. induction k as [|k IH]; intros v; [constructor|]. cbn [le_bytes]. constructor; [|apply IH].
  unfold byte. apply Z.mod_pos_bound. lia.
Qed.
Lemma wire_byte e k v : Forall byte (wire e k v).
Proof. destruct e; unfold wire; [apply le_bytes_byte|]. apply Forall_rev, le_bytes_byte. Qed.
Lemma le_bytes_app a b v : le_bytes (a + b) v = le_bytes a v ++ le_bytes b (v / 256 ^ Z.of_nat a).
Proof.
  revert v. induction a as [|a IH]; intros v.
  - cbn. rewrite Z.div_1_r. reflexivity.
  - cbn [le_bytes Nat.add app]. rewrite IH. rewrite Zdiv_Zdiv by lia. do 3 f_equal.
    rewrite Nat2Z.inj_succ, Z.pow_succ_r by lia. reflexivity.
Qed.
Lemma le_bytes_mod k m v : Z.of_nat k <= m -> le_bytes k (v mod 256 ^ m) = le_bytes k v.
Proof.
  revert m v. induction k as [|k IH]; intros m v H; [reflexivity|]. cbn [le_bytes].
  assert (E : 256 ^ m = 256 * 256 ^ (m - 1)). { rewrite <- Z.pow_succ_r by lia. f_equal. lia. }
  assert (0 < 256 ^ (m - 1)) by (apply Z.pow_pos_nonneg; lia).
  f_equal.
  - rewrite E, Z.rem_mul_r by lia. rewrite Z.mul_comm, Z.mod_add by lia. apply Z.mod_mod. lia.
  - rewrite E, Z.rem_mul_r by lia. rewrite Z.mul_comm, Z.div_add by lia.
    rewrite (Z.div_small (v mod 256)) by (apply Z.mod_pos_bound; lia). rewrite Z.add_0_l. apply IH. lia.
Qed.
Lemma le_value_app a b : le_value (a ++ b) = le_value a + 256 ^ Z.of_nat (length a) * le_value b.
Proof.
  induction a as [|x a IH]; [cbn [le_value app length]; rewrite Z.pow_0_r; lia|].
  cbn [le_value app length]. rewrite IH. rewrite Nat2Z.inj_succ, Z.pow_succ_r by lia. lia.
Qed.
Lemma le_value_bound l : Forall byte l -> 0 <= le_value l < 256 ^ Z.of_nat (length l).
Proof.
  induction 1 as [|x l H _ IH]; [cbn; lia|]. cbn [le_value length]. rewrite Nat2Z.inj_succ, Z.pow_succ_r by lia. unfold byte in H. lia.
Qed.
Lemma unwire_bound e l : Forall byte l -> 0 <= unwire e l < 256 ^ Z.of_nat (length l).
Proof. intros H. destruct e; unfold unwire; [apply le_value_bound, H|]. rewrite <- (rev_length l). apply le_value_bound, Forall_rev, H. Qed.
Lemma le_value_bytes k v : le_value (le_bytes k v) = v mod 256 ^ Z.of_nat k.
Proof.
  revert v. induction k as [|k IH]; intros v; [cbn; rewrite Z.mod_1_r; reflexivity|].
  cbn [le_bytes le_value]. rewrite IH, Nat2Z.inj_succ, Z.pow_succ_r by lia. rewrite Z.rem_mul_r; [reflexivity|lia|apply Z.pow_pos_nonneg; lia].
Qed.
Lemma unwire_wire e k v : unwire e (wire e k v) = v mod 256 ^ Z.of_nat k.
Proof. destruct e; unfold unwire, wire; rewrite ?rev_involutive; apply le_value_bytes. Qed.
Lemma pow256 k : 256 ^ Z.of_nat k = 2 ^ (8 * Z.of_nat k).
Proof. change 256 with (2 ^ 8). rewrite <- Z.pow_mul_r by lia. reflexivity. Qed.
Lemma decode_wire t e v : in_range t v -> decode t e (wire e (width t) v) = v.
Proof.
  unfold in_range, decode. rewrite unwire_wire, pow256.
  set (w := 8 * Z.of_nat (width t)). assert (W : 0 < w) by (unfold w; destruct t; cbn; lia).
  destruct (signed t); intros H; [|apply Z.mod_small, H].
  assert (P : 0 < 2 ^ w) by (apply Z.pow_pos_nonneg; lia).
  rewrite <- sgn_signed by (try exact W; apply Z.mod_pos_bound; exact P).
  rewrite (sgn_add w _ v W); [apply sgn_id; assumption|]. apply Z.mod_mod. lia.
Qed.

(** ** Vectors. *)
Lemma vec_get_ok l i : 0 <= i < Z.of_nat (length l) -> exists x, vec_get l i = Ret x /\ nth_error l (Z.to_nat i) = Some x.
Proof.
  intros H. unfold vec_get. rewrite (proj2 (Z.leb_le 0 i)), (proj2 (Z.ltb_lt i _)) by lia. cbn [andb].
  destruct (nth_error l (Z.to_nat i)) eqn:E; [eauto|]. apply nth_error_None in E. lia.
Qed.
Lemma list_set_split {A} (a b : list A) x y : list_set (a ++ x :: b) (length a) y = a ++ y :: b.
Proof. induction a as [|h a IH]; [reflexivity|]. cbn [app length list_set]. rewrite IH. reflexivity. Qed.
Lemma list_set_len {A} (l : list A) i y : length (list_set l i y) = length l.
Proof. revert i. induction l as [|h l IH]; intros [|i]; cbn [list_set length]; [reflexivity..|]. rewrite IH. reflexivity. Qed.
Lemma vec_set_split a b x y : vec_set (a ++ x :: b) (Z.of_nat (length a)) y = Ret (a ++ y :: b).
Proof.
  unfold vec_set. rewrite app_length. cbn [length]. rewrite (proj2 (Z.leb_le _ _)), (proj2 (Z.ltb_lt _ _)) by lia. cbn [andb].
  rewrite Nat2Z.id, list_set_split. reflexivity.
Qed.
Lemma vec_set_oob l i y : Z.of_nat (length l) <= i -> vec_set l i y = UB.
Proof. intros H. unfold vec_set. rewrite (proj2 (Z.ltb_ge _ _)) by lia. rewrite andb_false_r. reflexivity. Qed.
Lemma resize_len l n : length (resize l n) = n.
Proof. unfold resize. rewrite app_length, firstn_length, repeat_length. lia. Qed.
Lemma size_nonneg s : 0 <= size s. Proof. unfold size. lia. Qed.
Lemma int_ok x : - 2 ^ 31 <= x < 2 ^ 31 -> int_result x = Ret x.
Proof. intros H. unfold int_result. rewrite (proj2 (Z.leb_le _ _)), (proj2 (Z.ltb_lt _ _)) by lia. reflexivity. Qed.
Lemma int_inv x y : int_result x = Ret y -> y = x /\ - 2 ^ 31 <= x < 2 ^ 31.
Proof.
  unfold int_result. destruct (Z.leb_spec (- 2 ^ 31) x); [|discriminate]. destruct (Z.ltb_spec x (2 ^ 31)); [|discriminate].
  cbn [andb]. intros E. injection E. lia.
Qed.
Lemma bind_inv {A B} (m : outcome A) (k : A -> outcome B) b : bind m k = Ret b -> exists a, m = Ret a /\ k a = Ret b.
Proof. destruct m; try discriminate. eauto. Qed.

(** ** Single bytes. *)
Lemma ptr64 s : wf s -> small s -> u64 (ptr s) = ptr s.
Proof. intros [H _] K. unfold small in K. apply u64_id. lia. Qed.
Lemma get1_ok s b : wf s -> small s -> nth_error (buf s) (Z.to_nat (ptr s)) = Some b ->
  getUint8 s = Ret (b, set_ptr s (ptr s + 1)).
Proof.
  intros W S E. pose proof (ptr64 s W S) as P. destruct W as [[W1 W2] _]. unfold getUint8. rewrite P.
  assert (Z.to_nat (ptr s) < length (buf s))%nat by (apply nth_error_Some; rewrite E; discriminate).
  unfold small, size in *.
  rewrite (proj2 (Z.ltb_lt _ _)) by lia. destruct (vec_get_ok (buf s) (ptr s)) as (x & -> & Ex); [lia|].
  rewrite E in Ex. injection Ex as <-. cbn [bind]. rewrite int_ok by lia. reflexivity.
Qed.
Lemma get1_end s : at_end s -> small s -> getUint8 s = Ret (0, s).
Proof.
  intros E S. unfold getUint8, at_end, small in *. pose proof (size_nonneg s). rewrite u64_id by lia.
  rewrite (proj2 (Z.ltb_ge _ _)) by lia. reflexivity.
Qed.
Lemma put1_end s v : at_end s -> size s + 1 < 2 ^ 31 -> putUint8 v s = Ret (tt, mkStream (buf s ++ [v]) (ptr s + 1) (rE s) (wE s)).
Proof.
  intros E S. unfold putUint8, at_end in *. pose proof (size_nonneg s). rewrite u64_id by lia.
  rewrite (proj2 (Z.ltb_ge _ _)), (proj2 (Z.eqb_eq _ _)) by lia. rewrite int_ok by lia. reflexivity.
Qed.
Lemma put1_mid s v : 0 <= ptr s < size s -> small s ->
  putUint8 v s = Ret (tt, set_buf s (list_set (buf s) (Z.to_nat (ptr s)) v)).
Proof.
  intros E S. unfold putUint8, small in *. rewrite u64_id by lia. rewrite (proj2 (Z.ltb_lt _ _)) by lia.
  unfold vec_set. unfold size in *. rewrite (proj2 (Z.leb_le _ _)), (proj2 (Z.ltb_lt _ _)) by lia. reflexivity.
Qed.

(** ** Sequences of bytes. *)
Fixpoint put_list (l : list Z) : ST unit :=
  match l with [] => ret tt | b :: t => let* _ := putUint8 b in put_list t end.
Lemma putU8_endian v s x s' : putUint8 v s = Ret (x, s') -> wE s' = wE s /\ rE s' = rE s.
Proof.
  unfold putUint8. destruct (_ <? _).
  - intros H. apply bind_inv in H. destruct H as (b & _ & H). injection H as _ <-. auto.
  - destruct (_ =? _); [|discriminate]. intros H. apply bind_inv in H. destruct H as (b & _ & H). injection H as _ <-. auto.
Qed.
Lemma put_list_endian l : forall s x s', put_list l s = Ret (x, s') -> wE s' = wE s /\ rE s' = rE s.
Proof.
  induction l as [|b l IH]; intros s x s' H; cbn [put_list] in H.
  - injection H as _ <-. auto.
  - unfold stbind in H. apply bind_inv in H. destruct H as ([u s1] & H1 & H2). apply IH in H2. apply putU8_endian in H1.
    destruct H1 as [-> ->] in H2. exact H2.
Qed.
Lemma put_list_app a b s : put_list (a ++ b) s = bind (put_list a s) (fun '(_, s') => put_list b s').
Proof.
  revert s. induction a as [|x a IH]; intros s; [reflexivity|]. cbn [app put_list]. unfold stbind.
  destruct (putUint8 x s) as [[[] s1]| | |]; cbn [bind]; try reflexivity. apply IH.
Qed.
Lemma put_list_1 v s : put_list [v] s = putUint8 v s.
Proof. cbn [put_list]. unfold stbind, ret. destruct (putUint8 v s) as [[[] s1]| | |]; reflexivity. Qed.
Lemma put_list_end l : forall s, at_end s -> size s + Z.of_nat (length l) < 2 ^ 31 ->
  put_list l s = Ret (tt, mkStream (buf s ++ l) (ptr s + Z.of_nat (length l)) (rE s) (wE s)).
Proof.
  induction l as [|b l IH]; intros s E S.
  - cbn [put_list length]. rewrite app_nil_r, Z.add_0_r. destruct s; reflexivity.
  - cbn [put_list length] in *. unfold stbind. rewrite put1_end by (try exact E; lia). cbn [bind].
    rewrite IH.
    + cbn [buf ptr rE wE]. rewrite <- app_assoc. do 3 f_equal. lia.
    + unfold at_end, size in *. cbn [buf ptr]. rewrite app_length. cbn [length]. lia.
    + unfold size in *. cbn [buf]. rewrite app_length. cbn [length]. lia.
Qed.
(** overwriting: only the last byte of [l] is stored, and the cursor stays. *)
Lemma list_set_set {A} (l : list A) i x y : list_set (list_set l i x) i y = list_set l i y.
Proof. revert i. induction l as [|h l IH]; intros [|i]; cbn [list_set]; [reflexivity..|]. rewrite IH. reflexivity. Qed.
Lemma put_list_mid l : forall s, l <> [] -> 0 <= ptr s < size s -> small s ->
  put_list l s = Ret (tt, set_buf s (list_set (buf s) (Z.to_nat (ptr s)) (last l 0))).
Proof.
  induction l as [|b l IH]; intros s N P S; [congruence|].
  cbn [put_list]. unfold stbind. rewrite put1_mid by assumption. cbn [bind]. destruct l as [|c l].
  - reflexivity.
  - rewrite IH.
    + cbn [buf ptr set_buf]. rewrite list_set_set. reflexivity.
    + discriminate.
    + unfold size in *. cbn [buf ptr set_buf]. rewrite list_set_len. exact P.
    + unfold small, size in *. cbn [buf set_buf]. rewrite list_set_len. exact S.
Qed.

(** ** Reading bytes. *)
Lemma getU8_endian s x s' : getUint8 s = Ret (x, s') -> rE s' = rE s /\ wE s' = wE s /\ buf s' = buf s.
Proof.
  unfold getUint8. destruct (_ <? _).
  - intros H. apply bind_inv in H. destruct H as (b & _ & H). apply bind_inv in H. destruct H as (p & _ & H). injection H as _ <-. auto.
  - intros H. injection H as _ <-. auto.
Qed.
Lemma skipn_nth {A} (l : list A) i x : nth_error l i = Some x -> skipn i l = x :: skipn (S i) l.
Proof. revert i. induction l as [|h l IH]; intros [|i] H; try discriminate; cbn [nth_error skipn] in *; [congruence|]. rewrite (IH _ H). reflexivity. Qed.
Lemma padded_S k x l : padded (S k) (x :: l) = x :: padded k l.
Proof.
  unfold padded. cbn [app firstn]. f_equal. replace (S k) with (k + 1)%nat by lia. rewrite repeat_app, app_assoc.
  rewrite firstn_app. replace (k - length (l ++ repeat 0%Z k))%nat with 0%nat by (rewrite app_length, repeat_length; lia). cbn [firstn].
  rewrite app_nil_r. reflexivity.
Qed.
Lemma padded_0 k : padded k [] = repeat 0 k.
Proof. unfold padded. cbn [app]. rewrite firstn_all2; [reflexivity|]. rewrite repeat_length. lia. Qed.
Lemma padded_len k l : length (padded k l) = k.
Proof. unfold padded. rewrite firstn_length, app_length, repeat_length. lia. Qed.
Lemma wf_set_ptr s p : wf s -> 0 <= p <= size s -> wf (set_ptr s p).
Proof. intros [_ B] H. split; assumption. Qed.
Lemma get_bytes_ok k : forall s, wf s -> small s ->
  get_bytes k s = Ret (padded k (ahead s), set_ptr s (Z.min (ptr s + Z.of_nat k) (size s))).
Proof.
  induction k as [|k IH]; intros s W S.
  - unfold padded. cbn [get_bytes firstn]. unfold ret. do 2 f_equal. destruct W as [W _]. rewrite Z.add_0_r, Z.min_l by lia. destruct s; reflexivity.
  - cbn [get_bytes]. unfold stbind at 1. destruct (nth_error (buf s) (Z.to_nat (ptr s))) as [b|] eqn:E.
    + assert (L : (Z.to_nat (ptr s) < length (buf s))%nat) by (apply nth_error_Some; rewrite E; discriminate).
      assert (P : 0 <= ptr s /\ 0 <= ptr s + 1 <= size s) by (destruct W as [W _]; unfold size; lia). destruct P as [P0 P].
      rewrite (get1_ok s b W S E). cbn [bind]. unfold stbind. rewrite IH; [|apply wf_set_ptr; assumption|exact S]. cbn [bind].
      unfold ret. unfold ahead. cbn [ptr buf set_ptr]. rewrite (skipn_nth _ _ _ E), padded_S.
      replace (Z.to_nat (ptr s + 1)) with (Datatypes.S (Z.to_nat (ptr s))) by lia.
      unfold set_ptr, size. cbn [buf ptr rE wE]. replace (ptr s + Z.of_nat (Datatypes.S k)) with (ptr s + 1 + Z.of_nat k) by lia. reflexivity.
    + apply nth_error_None in E. assert (A : at_end s) by (destruct W as [W _]; unfold at_end, size in *; lia).
      rewrite (get1_end s A S). cbn [bind]. unfold stbind. rewrite IH by assumption. cbn [bind]. unfold ret.
      unfold ahead. rewrite skipn_all2 by exact E. rewrite !padded_0. cbn [repeat]. do 3 f_equal. unfold at_end in A. lia.
Qed.
Lemma ahead_byte s : wf s -> Forall byte (ahead s).
Proof.
  intros [_ B]. unfold ahead. rewrite <- (firstn_skipn (Z.to_nat (ptr s)) (buf s)) in B. apply Forall_app in B. apply B.
Qed.
Lemma padded_byte k l : Forall byte l -> Forall byte (padded k l).
Proof.
  intros H. unfold padded. assert (K : Forall byte (l ++ repeat 0 k)).
  { apply Forall_app. split; [exact H|]. apply Forall_forall. intros x Hx. apply repeat_spec in Hx. subst. unfold byte. lia. }
  rewrite <- (firstn_skipn k (l ++ repeat 0 k)) in K. apply Forall_app in K. apply K.
Qed.
