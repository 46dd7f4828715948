(** * Byte streams: typed values. *)
From Coq Require Import ZArith List Bool Lia.
From Verif Require Import Num MStream SpecStream PStream.
Import ListNotations.
Local Open Scope Z_scope.

(** ** Every typed put is a sequence of single-byte puts of the wire format. *)
Lemma wire_1 e v : wire e 1 v = [v mod 256]. Proof. destruct e; reflexivity. Qed.
Lemma wire_split e k v : wire e (k + k) v =
  match e with LITTLE => wire e k v ++ wire e k (v / 256 ^ Z.of_nat k) | BIG => wire e k (v / 256 ^ Z.of_nat k) ++ wire e k v end.
Proof. destruct e; unfold wire; rewrite le_bytes_app; [reflexivity|]. apply rev_app_distr. Qed.
Lemma wire_mod e k v : wire e k (v mod 256 ^ Z.of_nat k) = wire e k v.
Proof. destruct e; unfold wire; rewrite le_bytes_mod by lia; reflexivity. Qed.
Lemma wire_cong e k v w : v mod 256 ^ Z.of_nat k = w mod 256 ^ Z.of_nat k -> wire e k v = wire e k w.
Proof. intros H. rewrite <- (wire_mod e k v), <- (wire_mod e k w), H. reflexivity. Qed.

Lemma putU8_wire v s : byte v -> putUint8 v s = put_list (wire (wE s) 1 v) s.
Proof. intros H. rewrite wire_1, put_list_1, Z.mod_small by exact H. reflexivity. Qed.
Lemma putI8_wire v s : putInt8 v s = put_list (wire (wE s) 1 v) s.
Proof. rewrite wire_1, put_list_1. reflexivity. Qed.
(** two halves, each written with the byte order of the stream it finds. *)
Lemma halves (p q : ST unit) s a b :
  p s = put_list a s -> (forall s', wE s' = wE s -> q s' = put_list b s') ->
  (let* _ := p in q) s = put_list (a ++ b) s.
Proof.
  intros P Q. rewrite put_list_app. unfold stbind. rewrite P. destruct (put_list a s) as [[[] s1]| | |] eqn:E; cbn [bind]; try reflexivity.
  apply Q. apply (put_list_endian _ _ _ _ E).
Qed.
Lemma get_wE_bind {A} (k : ENDIAN -> ST A) s : stbind get_wE k s = k (wE s) s. Proof. reflexivity. Qed.
Lemma get_rE_bind {A} (k : ENDIAN -> ST A) s : stbind get_rE k s = k (rE s) s. Proof. reflexivity. Qed.
Lemma div256 u : Z.shiftr u 8 = u / 256 ^ Z.of_nat 1. Proof. rewrite Z.shiftr_div_pow2 by lia. reflexivity. Qed.
Lemma div65536 u : Z.shiftr u 16 = u / 256 ^ Z.of_nat 2. Proof. rewrite Z.shiftr_div_pow2 by lia. reflexivity. Qed.
Lemma div2p32 u : Z.shiftr u 32 = u / 256 ^ Z.of_nat 4. Proof. rewrite Z.shiftr_div_pow2 by lia. reflexivity. Qed.
Lemma put_byte v s : putUint8 (u8 (Z.land v 255)) s = put_list (wire (wE s) 1 v) s.
Proof. rewrite u8_land, wire_1, put_list_1. reflexivity. Qed.
Lemma u8_s8 v : u8 (s8 v) = u8 v. Proof. unfold u8, s8. apply (sgn_mod 8). lia. Qed.
Lemma put_sbyte v s : putInt8 (s8 (Z.land v 255)) s = put_list (wire (wE s) 1 v) s.
Proof. unfold putInt8. rewrite u8_s8. apply put_byte. Qed.
Lemma putU16_wire v s : putUint16 v s = put_list (wire (wE s) 2 v) s.
Proof.
  unfold putUint16. rewrite get_wE_bind. rewrite (wire_split _ 1). rewrite !div256.
  destruct (wE s) eqn:E; cbn [is_big]; apply halves; rewrite <- ?E; try (apply put_byte); intros s' H; rewrite <- H; apply put_byte.
Qed.
Lemma putI16_wire v s : putInt16 v s = put_list (wire (wE s) 2 v) s.
Proof.
  unfold putInt16. rewrite get_wE_bind. rewrite (wire_split _ 1). rewrite !div256.
  destruct (wE s) eqn:E; cbn [is_big]; apply halves; rewrite <- ?E; try (apply put_byte); try (apply put_sbyte); intros s' H; rewrite <- H; try apply put_byte; apply put_sbyte.
Qed.
Lemma put_u16 v s : putUint16 (u16 (Z.land v 65535)) s = put_list (wire (wE s) 2 v) s.
Proof. rewrite putU16_wire, u16_land. f_equal. apply (wire_mod _ 2). Qed.
Lemma put_s16 v s : putInt16 (s16 (Z.land v 65535)) s = put_list (wire (wE s) 2 v) s.
Proof.
  rewrite putI16_wire. f_equal. apply wire_cong. change (256 ^ Z.of_nat 2) with (2 ^ 16). unfold s16. rewrite sgn_mod by lia.
  change 65535 with (Z.ones 16). rewrite Z.land_ones by lia. apply Z.mod_mod. lia.
Qed.
Lemma putU32_wire v s : putUint32 v s = put_list (wire (wE s) 4 v) s.
Proof.
  unfold putUint32. rewrite get_wE_bind. rewrite (wire_split _ 2). rewrite !div65536.
  destruct (wE s) eqn:E; cbn [is_big]; apply halves; rewrite <- ?E; try (apply put_u16); intros s' H; rewrite <- H; apply put_u16.
Qed.
Lemma putI32_wire v s : putInt32 v s = put_list (wire (wE s) 4 v) s.
Proof.
  unfold putInt32. rewrite get_wE_bind. rewrite (wire_split _ 2). rewrite !div65536.
  destruct (wE s) eqn:E; cbn [is_big]; apply halves; rewrite <- ?E; try (apply put_u16); try (apply put_s16); intros s' H; rewrite <- H; try apply put_u16; apply put_s16.
Qed.
Lemma put_u32 v s : putUint32 (u32 (Z.land v 4294967295)) s = put_list (wire (wE s) 4 v) s.
Proof. rewrite putU32_wire, u32_land. f_equal. apply (wire_mod _ 4). Qed.
Lemma put_u32' v s : putUint32 (u32 v) s = put_list (wire (wE s) 4 v) s.
Proof. rewrite putU32_wire. f_equal. apply (wire_mod _ 4). Qed.
Lemma put_s32' v s : putInt32 (s32 v) s = put_list (wire (wE s) 4 v) s.
Proof. rewrite putI32_wire. f_equal. apply wire_cong. change (256 ^ Z.of_nat 4) with (2 ^ 32). apply sgn_mod. lia. Qed.
Lemma putU64_wire v s : putUint64 v s = put_list (wire (wE s) 8 v) s.
Proof.
  unfold putUint64. rewrite get_wE_bind. rewrite (wire_split _ 4). rewrite !div2p32.
  destruct (wE s) eqn:E; cbn [is_big]; apply halves; rewrite <- ?E.
  - rewrite put_u32. reflexivity.
  - intros s' H. rewrite put_u32', H. reflexivity.
  - rewrite put_u32'. reflexivity.
  - intros s' H. rewrite put_u32, H. reflexivity.
Qed.
Lemma putI64_wire v s : putInt64 v s = put_list (wire (wE s) 8 v) s.
Proof.
  unfold putInt64. rewrite get_wE_bind. rewrite (wire_split _ 4). rewrite !div2p32.
  destruct (wE s) eqn:E; cbn [is_big]; apply halves; rewrite <- ?E.
  - rewrite put_u32. reflexivity.
  - intros s' H. rewrite put_s32', H. reflexivity.
  - rewrite put_s32'. reflexivity.
  - intros s' H. rewrite put_u32, H. reflexivity.
Qed.
Lemma put_wire t v s : in_range t v -> put t v s = put_list (wire (wE s) (width t) v) s.
Proof.
  intros H. destruct t; cbn [put width]; unfold putFloat, putDouble;
    [apply putU8_wire; exact H|apply putI8_wire|apply putU16_wire|apply putI16_wire|apply putU32_wire|apply putI32_wire|apply putU64_wire|apply putI64_wire|apply putU32_wire|apply putU64_wire].
Qed.

(** ** Every typed get decodes the next bytes. *)
Lemma get_bytes_endian k : forall s l s', get_bytes k s = Ret (l, s') -> rE s' = rE s /\ wE s' = wE s /\ buf s' = buf s.
Proof.
  induction k as [|k IH]; intros s l s' H; cbn [get_bytes] in H.
  - injection H as _ <-. auto.
  - unfold stbind in H. apply bind_inv in H. destruct H as ([u s1] & H1 & H). apply bind_inv in H. destruct H as ([l2 s2] & H2 & H).
    injection H as _ <-. apply IH in H2. apply getU8_endian in H1. destruct H1 as (<- & <- & <-). exact H2.
Qed.
Lemma get_bytes_app a b s : get_bytes (a + b) s =
  bind (get_bytes a s) (fun '(l, s') => bind (get_bytes b s') (fun '(m, s'') => Ret (l ++ m, s''))).
Proof.
  revert s. induction a as [|a IH]; intros s.
  - cbn [Nat.add get_bytes]. unfold ret. cbn [bind app]. destruct (get_bytes b s) as [[m s2]| | |]; reflexivity.
  - cbn [Nat.add get_bytes]. unfold stbind. destruct (getUint8 s) as [[c s1]| | |]; cbn [bind]; try reflexivity. rewrite IH.
    destruct (get_bytes a s1) as [[l s2]| | |]; cbn [bind]; try reflexivity.
    unfold ret. cbn [bind]. destruct (get_bytes b s2) as [[m s3]| | |]; reflexivity.
Qed.
Lemma get_bytes_1 s : get_bytes 1 s = bind (getUint8 s) (fun '(c, s') => Ret ([c], s')).
Proof. cbn [get_bytes]. unfold stbind, ret. destruct (getUint8 s) as [[c s1]| | |]; reflexivity. Qed.
Lemma get_bytes_byte k : forall s l s', Forall byte (buf s) -> get_bytes k s = Ret (l, s') -> Forall byte l /\ length l = k.
Proof.
  induction k as [|k IH]; intros s l s' B H; cbn [get_bytes] in H.
  - injection H as <- _. split; [constructor|reflexivity].
  - unfold stbind in H. apply bind_inv in H. destruct H as ([u s1] & H1 & H). apply bind_inv in H. destruct H as ([l2 s2] & H2 & H).
    injection H as <- _. pose proof (getU8_endian _ _ _ H1) as (_ & _ & E).
    apply IH in H2; [|rewrite E; exact B]. destruct H2 as [H2 L]. split; [|cbn [length]; rewrite L; reflexivity]. constructor; [|exact H2].
    unfold getUint8 in H1. destruct (_ <? _).
    + apply bind_inv in H1. destruct H1 as (c & H1 & H3). apply bind_inv in H3. destruct H3 as (p & _ & H3). injection H3 as <- _.
      unfold vec_get in H1. destruct (_ && _); [|discriminate]. destruct (nth_error _ _) as [z|] eqn:Ez; [|discriminate]. injection H1 as <-.
      rewrite Forall_forall in B. apply B. apply nth_error_In with (1 := Ez).
    + injection H1 as <- _. unfold byte. lia.
Qed.
(** [gets s m k f]: reading with [m] is reading [k] bytes and applying [f]. *)
Definition gets (m : ST Z) (k : nat) (f : ENDIAN -> list Z -> Z) : Prop :=
  forall s, Forall byte (buf s) -> m s = bind (get_bytes k s) (fun '(l, s') => Ret (f (rE s) l, s')).
(** from two halves. *)
Lemma gets_halves (p q : ST Z) k f g (h : Z -> Z -> Z) F s :
  gets p k f -> gets q k g -> Forall byte (buf s) ->
  (forall a b, length a = k -> length b = k -> Forall byte a -> Forall byte b -> h (f (rE s) a) (g (rE s) b) = F (rE s) (a ++ b)) ->
  bind (p s) (fun '(a, s1) => bind (q s1) (fun '(b, s2) => Ret (h a b, s2))) =
  bind (get_bytes (k + k) s) (fun '(l, s') => Ret (F (rE s) l, s')).
Proof.
  intros P Q B H. rewrite get_bytes_app, P by exact B.
  destruct (get_bytes k s) as [[a s1]| | |] eqn:E1; cbn [bind]; try reflexivity.
  pose proof (get_bytes_endian _ _ _ _ E1) as (R1 & _ & B1). destruct (get_bytes_byte _ _ _ _ B E1) as (Ba & La).
  rewrite Q by (rewrite B1; exact B).
  destruct (get_bytes k s1) as [[b s2]| | |] eqn:E2; cbn [bind]; try reflexivity.
  assert (B' : Forall byte (buf s1)) by (rewrite B1; exact B).
  destruct (get_bytes_byte _ _ _ _ B' E2) as (Bb & Lb). rewrite R1. rewrite H by assumption. reflexivity.
Qed.
Lemma unwire_1 e b : unwire e [b] = b. Proof. destruct e; cbn; lia. Qed.
Lemma unwire_app e a b : length a = length b -> unwire e (a ++ b) =
  match e with LITTLE => unwire e b * 256 ^ Z.of_nat (length a) + unwire e a
             | BIG => unwire e a * 256 ^ Z.of_nat (length a) + unwire e b end.
Proof.
  intros L. destruct e; unfold unwire; rewrite ?rev_app_distr, le_value_app, ?rev_length, ?L; lia.
Qed.
Lemma getU8_gets : gets getUint8 1 unwire.
Proof.
  intros s B. rewrite get_bytes_1. destruct (getUint8 s) as [[c s1]| | |]; cbn [bind]; try reflexivity. rewrite unwire_1. reflexivity.
Qed.
Lemma getI8_gets : gets getInt8 1 (decode TI8).
Proof.
  intros s B. unfold getInt8, stbind, ret. rewrite getU8_gets by exact B.
  destruct (get_bytes 1 s) as [[l s1]| | |] eqn:E; cbn [bind]; try reflexivity.
  destruct (get_bytes_byte _ _ _ _ B E) as (Bl & Ll). unfold decode. cbn [signed width]. change (8 * Z.of_nat 1) with 8.
  unfold s8. rewrite sgn_signed; [reflexivity|lia|]. pose proof (unwire_bound (rE s) l Bl). rewrite Ll in H. exact H.
Qed.
(** the byte order is looked up last, in a stream with the same byte order. *)
Lemma endian_last (p q : ST Z) k f g (h : ENDIAN -> Z -> Z -> Z) s : gets p k f -> gets q k g -> Forall byte (buf s) ->
  (let* a := p in let* b := q in let* e := get_rE in ret (h e a b)) s =
  bind (p s) (fun '(a, s1) => bind (q s1) (fun '(b, s2) => Ret (h (rE s) a b, s2))).
Proof.
  intros P Q B. unfold stbind. rewrite P by exact B.
  destruct (get_bytes k s) as [[a s1]| | |] eqn:E1; cbn [bind]; try reflexivity.
  pose proof (get_bytes_endian _ _ _ _ E1) as (R1 & _ & B1).
  rewrite Q by (rewrite B1; exact B).
  destruct (get_bytes k s1) as [[b s2]| | |] eqn:E2; cbn [bind]; try reflexivity.
  pose proof (get_bytes_endian _ _ _ _ E2) as (R2 & _ & B2). unfold get_rE, ret. cbn [bind]. rewrite R2, R1. reflexivity.
Qed.
Ltac bnd e a Ba La := let K := fresh in pose proof (unwire_bound e a Ba) as K; rewrite La in K;
  match type of K with _ <= _ < 256 ^ Z.of_nat ?k => let c := eval vm_compute in (256 ^ Z.of_nat k) in change (256 ^ Z.of_nat k) with c in K end.
Lemma pick {A} (e : ENDIAN) (x y : A) : (if is_big e then x else y) = match e with BIG => x | LITTLE => y end.
Proof. destruct e; reflexivity. Qed.
Lemma getU16_gets : gets getUint16 2 unwire.
Proof.
  intros s B. unfold getUint16.
  rewrite (endian_last _ _ 1 unwire unwire (fun e a b => u16 (if is_big e then Z.lor (Z.shiftl a 8) b else Z.lor (Z.shiftl b 8) a)) s getU8_gets getU8_gets B).
  apply (gets_halves _ _ 1 unwire unwire _ unwire s getU8_gets getU8_gets B).
  intros a b La Lb Ba Bb. set (e := rE s) in *. clearbody e. rewrite unwire_app by congruence. bnd e a Ba La. bnd e b Bb Lb. rewrite La. change (256 ^ Z.of_nat 1) with (2 ^ 8).
  destruct e; cbn [is_big]; rewrite lor_add by lia; apply Z.mod_small; lia.
Qed.
Lemma getI16_gets : gets getInt16 2 (decode TI16).
Proof.
  intros s B. unfold getInt16.
  rewrite (endian_last _ _ 1 unwire unwire (fun e a b => s16 (if is_big e then Z.lor (Z.shiftl (s8 a) 8) b else Z.lor (Z.shiftl (s8 b) 8) a)) s getU8_gets getU8_gets B).
  apply (gets_halves _ _ 1 unwire unwire _ (decode TI16) s getU8_gets getU8_gets B).
  intros a b La Lb Ba Bb. set (e := rE s) in *. clearbody e. unfold decode. cbn [signed width]. change (8 * Z.of_nat 2) with 16.
  rewrite unwire_app by congruence. bnd e a Ba La. bnd e b Bb Lb. rewrite La. change (256 ^ Z.of_nat 1) with (2 ^ 8).
  destruct e; cbn [is_big]; rewrite lor_add by lia; rewrite <- sgn_signed by lia; unfold s16; apply sgn_add; try lia;
    rewrite <- Zplus_mod_idemp_l, <- (Zplus_mod_idemp_l (_ * _)); do 2 f_equal; change (2 ^ 16) with (2 ^ 8 * 2 ^ 8);
    rewrite !Z.mul_mod_distr_r by lia; f_equal; apply (sgn_mod 8); lia.
Qed.
Lemma getU32_gets : gets getUint32 4 unwire.
Proof.
  intros s B. unfold getUint32.
  rewrite (endian_last _ _ 2 unwire unwire (fun e a b => u32 (if is_big e then Z.lor (s32 (Z.shiftl a 16)) b else Z.lor (s32 (Z.shiftl b 16)) a)) s getU16_gets getU16_gets B).
  apply (gets_halves _ _ 2 unwire unwire _ unwire s getU16_gets getU16_gets B).
  assert (K : forall x y, 0 <= x < 65536 -> 0 <= y < 65536 -> u32 (Z.lor (s32 (Z.shiftl x 16)) y) = x * 65536 + y).
  { intros x y Hx Hy. assert (E : s32 (Z.shiftl x 16) = Z.shiftl (s16 x) 16).
    { rewrite !Z.shiftl_mul_pow2 by lia. unfold s32, s16. rewrite !sgn_signed by lia. unfold to_signed.
      destruct (Z.ltb_spec (x * 2 ^ 16) (2 ^ (32 - 1))); destruct (Z.ltb_spec x (2 ^ (16 - 1))); lia. }
    rewrite E, lor_add by lia. unfold u32. rewrite <- Zplus_mod_idemp_l. change (2 ^ 32) with (2 ^ 16 * 2 ^ 16) at 1.
    rewrite Z.mul_mod_distr_r by lia. unfold s16. rewrite sgn_mod by lia. rewrite (Z.mod_small x) by lia. apply Z.mod_small. lia. }
  intros a b La Lb Ba Bb. set (e := rE s) in *. clearbody e. rewrite unwire_app by congruence. bnd e a Ba La. bnd e b Bb Lb. rewrite La. change (256 ^ Z.of_nat 2) with 65536.
  destruct e; cbn [is_big]; apply K; assumption.
Qed.
Lemma getI32_gets : gets getInt32 4 (decode TI32).
Proof.
  intros s B. unfold getInt32.
  rewrite (endian_last _ _ 2 unwire unwire (fun e a b => s32 (if is_big e then Z.lor (Z.shiftl (s16 a) 16) b else Z.lor (Z.shiftl (s16 b) 16) a)) s getU16_gets getU16_gets B).
  apply (gets_halves _ _ 2 unwire unwire _ (decode TI32) s getU16_gets getU16_gets B).
  intros a b La Lb Ba Bb. set (e := rE s) in *. clearbody e. unfold decode. cbn [signed width]. change (8 * Z.of_nat 4) with 32.
  rewrite unwire_app by congruence. bnd e a Ba La. bnd e b Bb Lb. rewrite La. change (256 ^ Z.of_nat 2) with (2 ^ 16).
  destruct e; cbn [is_big]; rewrite lor_add by lia; rewrite <- sgn_signed by lia; unfold s32; apply sgn_add; try lia;
    rewrite <- Zplus_mod_idemp_l, <- (Zplus_mod_idemp_l (_ * _)); do 2 f_equal; change (2 ^ 32) with (2 ^ 16 * 2 ^ 16);
    rewrite !Z.mul_mod_distr_r by lia; f_equal; apply (sgn_mod 16); lia.
Qed.
(** 64 bits: the byte order is looked up first. *)
Lemma lor_hi lo hi : 0 <= lo < 2 ^ 32 -> Z.lor lo (u64 (Z.shiftl hi 32)) = (hi mod 2 ^ 32) * 2 ^ 32 + lo.
Proof.
  intros H. unfold u64. rewrite Z.shiftl_mul_pow2 by lia. change (2 ^ 64) with (2 ^ 32 * 2 ^ 32). rewrite Z.mul_mod_distr_r by lia.
  rewrite <- Z.shiftl_mul_pow2 by lia. rewrite Z.lor_comm. rewrite lor_add by lia. rewrite Z.shiftl_mul_pow2 by lia. reflexivity.
Qed.
Lemma getU64_gets : gets getUint64 8 unwire.
Proof.
  intros s B. unfold getUint64. rewrite get_rE_bind.
  transitivity (bind (getUint32 s) (fun '(a, s1) => bind (getUint32 s1) (fun '(b, s2) =>
    Ret ((fun x y => match rE s with BIG => Z.lor y (u64 (Z.shiftl x 32)) | LITTLE => Z.lor x (u64 (Z.shiftl y 32)) end) a b, s2)))).
  { unfold stbind, ret. destruct (rE s); cbn [is_big]; destruct (getUint32 s) as [[a s1]| | |]; cbn [bind]; try reflexivity;
    destruct (getUint32 s1) as [[b s2]| | |]; reflexivity. }
  apply (gets_halves _ _ 4 unwire unwire _ unwire s getU32_gets getU32_gets B).
  intros a b La Lb Ba Bb. set (e := rE s) in *. clearbody e.
  rewrite unwire_app by congruence. bnd e a Ba La. bnd e b Bb Lb. rewrite La. change (256 ^ Z.of_nat 4) with (2 ^ 32).
  destruct e; rewrite lor_hi by lia; rewrite Z.mod_small by lia; reflexivity.
Qed.
Lemma getI64_gets : gets getInt64 8 (decode TI64).
Proof.
  intros s B. unfold getInt64. rewrite get_rE_bind.
  assert (I : forall x, 0 <= x < 2 ^ 32 -> to_signed 32 x mod 2 ^ 32 = x).
  { intros x Hx. rewrite <- sgn_signed by lia. rewrite sgn_mod by lia. apply Z.mod_small, Hx. }
  destruct (rE s) eqn:R; cbn [is_big].
  - transitivity (bind (getUint32 s) (fun '(a, s1) => bind (getInt32 s1) (fun '(b, s2) => Ret ((fun x y => s64 (Z.lor x (u64 (Z.shiftl y 32)))) a b, s2)))).
    { unfold stbind, ret. destruct (getUint32 s) as [[a s1]| | |]; cbn [bind]; try reflexivity.
      destruct (getInt32 s1) as [[b s2]| | |]; reflexivity. }
    rewrite <- R. apply (gets_halves _ _ 4 unwire (decode TI32) _ (decode TI64) s getU32_gets getI32_gets B).
    intros a b La Lb Ba Bb. rewrite R. bnd LITTLE a Ba La. bnd LITTLE b Bb Lb.
    unfold decode. cbn [signed width]. change (8 * Z.of_nat 8) with 64. change (8 * Z.of_nat 4) with 32.
    rewrite lor_hi by lia. rewrite I by lia. rewrite unwire_app by congruence. rewrite La. change (256 ^ Z.of_nat 4) with (2 ^ 32).
    apply sgn_signed; lia.
  - transitivity (bind (getInt32 s) (fun '(a, s1) => bind (getUint32 s1) (fun '(b, s2) => Ret ((fun x y => s64 (Z.lor y (u64 (Z.shiftl x 32)))) a b, s2)))).
    { unfold stbind, ret. destruct (getInt32 s) as [[a s1]| | |]; cbn [bind]; try reflexivity.
      destruct (getUint32 s1) as [[b s2]| | |]; reflexivity. }
    rewrite <- R. apply (gets_halves _ _ 4 (decode TI32) unwire _ (decode TI64) s getI32_gets getU32_gets B).
    intros a b La Lb Ba Bb. rewrite R. bnd BIG a Ba La. bnd BIG b Bb Lb.
    unfold decode. cbn [signed width]. change (8 * Z.of_nat 8) with 64. change (8 * Z.of_nat 4) with 32.
    rewrite lor_hi by lia. rewrite I by lia. rewrite unwire_app by congruence. rewrite La. change (256 ^ Z.of_nat 4) with (2 ^ 32).
    apply sgn_signed; lia.
Qed.
Lemma get_gets t : gets (get t) (width t) (decode t).
Proof.
  destruct t; cbn [get width]; [exact getU8_gets|exact getI8_gets|exact getU16_gets|exact getI16_gets|exact getU32_gets|exact getI32_gets|exact getU64_gets|exact getI64_gets|exact getU32_gets|exact getU64_gets].
Qed.
