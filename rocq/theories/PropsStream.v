(** * Properties C42-C51, C67: byte streams.
    Vocabulary ([wf], [small], [at_end], [ahead], [put], [get], [wire], ...) is in SpecStream.v. *)
From Coq Require Import ZArith List Bool Lia.
From Verif Require Import Num MStream SpecStream LStream.
Import ListNotations.
Local Open Scope Z_scope.

(** C42 *)
Theorem C42_invariant (l : list op) (s s' : stream) :
  Forall op_ok l -> wf s -> ptr s < 2 ^ 31 -> run l s = Ret s' -> wf s' /\ ptr s' < 2 ^ 31.
Proof. exact (C42_l l s s'). Qed.
Print Assumptions C42_invariant.
Theorem C42_start : wf MS_new /\ ptr MS_new = 0 /\
  forall d s, Forall byte d -> init_data d = Ret s -> wf s /\ ptr s = 0 /\ buf s = d.
Proof. exact C42_start_l. Qed.
Print Assumptions C42_start.
(** only seeking and aligning can fail an assertion. *)
Theorem C42_no_abort (o : op) (s : stream) :
  op_ok o -> wf s -> ptr s < 2 ^ 31 -> moves o = false -> do_op o s <> Abort.
Proof. exact (C42_abort_l o s). Qed.
Print Assumptions C42_no_abort.
Example C42_case : exists s',
  run [OSetWrite BIG; OPut TI16 (-2); OSeekTo 1; OGet TU8; OAlign 2; OWrite [7; 8]; OSeek 1 TOP; OPut TU32 9] MS_new = Ret s' /\
  buf s' = [255; 9; 7; 8] /\ ptr s' = 1.
Proof. eexists. vm_compute. auto. Qed.

(** C43 *)
Theorem C43_round_trip (s : stream) (l : list (ty * Z)) (e : ENDIAN) :
  wf s -> at_end s -> Forall (fun '(t, v) => in_range t v) l ->
  size s + Z.of_nat (fold_right (fun tv n => width (fst tv) + n)%nat O l) < 2 ^ 31 ->
  exists s1 s2,
    (let* _ := setWriteEndian e in put_all l) s = Ret (tt, s1) /\
    (let* _ := setReadEndian e in let* _ := seekTo (ptr s) in get_all (map fst l)) s1 = Ret (map snd l, s2) /\
    at_end s1 /\ at_end s2 /\ buf s2 = buf s1 /\ firstn (length (buf s)) (buf s1) = buf s.
Proof. exact (C43_l s l e). Qed.
Print Assumptions C43_round_trip.
Example C43_case : wf (mkStream [1; 2; 3] 3 LITTLE BIG) /\ at_end (mkStream [1; 2; 3] 3 LITTLE BIG) /\
  Forall (fun '(t, v) => in_range t v) [(TI64, -5); (TU16, 65535); (TF32, 1065353216)].
Proof. split; [split; [cbn; lia|repeat constructor; unfold byte; lia]|]. split; [reflexivity|]. repeat constructor; unfold in_range; cbn; lia. Qed.

(** C44 *)
Theorem C44_wire (s : stream) (t : ty) (v : Z) : at_end s -> in_range t v -> size s + Z.of_nat (width t) < 2 ^ 31 ->
  put t v s = Ret (tt, mkStream
    (buf s ++ match wE s with BIG => rev (le_bytes (width t) v) | LITTLE => le_bytes (width t) v end)
    (ptr s + Z.of_nat (width t)) (rE s) (wE s)).
Proof. exact (C44_l s t v). Qed.
Print Assumptions C44_wire.
Theorem C44_swapped (s : stream) (t : ty) (v : Z) (e e' : ENDIAN) (q : list Z) : wf s -> small s -> e <> e' ->
  ahead s = wire e (width t) v ++ q -> rE s = e' ->
  exists r, get t s = Ret (r, set_ptr s (ptr s + Z.of_nat (width t))) /\ in_range t r /\
    le_bytes (width t) r = rev (le_bytes (width t) v).
Proof. exact (C44_swap_l s t v e e' q). Qed.
Print Assumptions C44_swapped.
(** the two byte orders are set independently of each other *)
Theorem C44_orders_write (s : stream) (t : ty) (v : Z) (e : ENDIAN) : at_end s -> in_range t v -> size s + Z.of_nat (width t) < 2 ^ 31 ->
  (let* _ := setReadEndian e in put t v) s = Ret (tt, mkStream (buf s ++ wire (wE s) (width t) v) (ptr s + Z.of_nat (width t)) e (wE s)) /\
  (let* _ := setWriteEndian e in put t v) s = Ret (tt, mkStream (buf s ++ wire e (width t) v) (ptr s + Z.of_nat (width t)) (rE s) e).
Proof. exact (C44_orders_l s t v e). Qed.
Print Assumptions C44_orders_write.
Theorem C44_orders_read (s : stream) (t : ty) (e : ENDIAN) : wf s -> small s ->
  (let* _ := setReadEndian e in get t) s =
    Ret (decode t e (padded (width t) (ahead s)), mkStream (buf s) (Z.min (ptr s + Z.of_nat (width t)) (size s)) e (wE s)) /\
  (let* _ := setWriteEndian e in get t) s =
    Ret (decode t (rE s) (padded (width t) (ahead s)), mkStream (buf s) (Z.min (ptr s + Z.of_nat (width t)) (size s)) (rE s) e).
Proof. exact (C44_orders_get_l s t e). Qed.
Print Assumptions C44_orders_read.
Example C44_case : get TU32 (mkStream (wire BIG 4 0x01020304 ++ [9]) 0 LITTLE LITTLE) =
  Ret (0x04030201, mkStream [1; 2; 3; 4; 9] 4 LITTLE LITTLE).
Proof. vm_compute. reflexivity. Qed.

(** C45: false; the cursor does not advance when bytes already exist. *)
Theorem C45_overwrite_refuted : exists s s', wf s /\ ptr s + 2 <= size s /\ putUint16 0x0102 s = Ret (tt, s') /\
  ptr s' <> ptr s + 2 /\ buf s' <> firstn (Z.to_nat (ptr s)) (buf s) ++ wire (wE s) 2 0x0102 ++ skipn (Z.to_nat (ptr s) + 2) (buf s).
Proof. exact C45_l. Qed.
Print Assumptions C45_overwrite_refuted.
(** what happens instead, for every stream, type and value: the last byte on the wire is
    stored at the cursor, the other bytes are lost and the cursor stays. *)
Theorem C45_overwrite_partial (s : stream) (t : ty) (v : Z) : wf s -> small s -> ptr s < size s -> in_range t v ->
  put t v s = Ret (tt, set_buf s (list_set (buf s) (Z.to_nat (ptr s)) (last (wire (wE s) (width t) v) 0))).
Proof. exact (C45_partial_l s t v). Qed.
Print Assumptions C45_overwrite_partial.
Example C45_case : let s := mkStream [10; 11; 12; 13] 1 LITTLE LITTLE in wf s /\ small s /\ ptr s < size s.
Proof. split; [split; [cbn; lia|repeat constructor; unfold byte; lia]|]. cbv. auto. Qed.

(** C46 *)
Theorem C46_back_patch32 (s : stream) : wf s -> at_end s -> size s + 4 < 2 ^ 31 ->
  exists s1, putPointer32 s = Ret (ptr s, s1) /\ buf s1 = buf s ++ [0; 0; 0; 0] /\ at_end s1 /\ wE s1 = wE s /\
  forall s2 d, buf s2 = buf s1 ++ d ->
    adjustPointer32 (ptr s) s2 = Ret (tt, set_buf s2 (buf s ++ wire (wE s2) 4 (size s2) ++ d)).
Proof. exact (C46_l s). Qed.
Print Assumptions C46_back_patch32.
Theorem C46_back_patch64 (s : stream) : wf s -> at_end s -> size s + 8 < 2 ^ 31 ->
  exists s1, putPointer64 s = Ret (ptr s, s1) /\ buf s1 = buf s ++ [0; 0; 0; 0; 0; 0; 0; 0] /\ at_end s1 /\ wE s1 = wE s /\
  forall s2 d, buf s2 = buf s1 ++ d -> size s2 < 2 ^ 64 ->
    adjustPointer64 (ptr s) s2 = Ret (tt, set_buf s2 (buf s ++ wire (wE s2) 8 (size s2) ++ d)).
Proof. exact (C46_64_l s). Qed.
Print Assumptions C46_back_patch64.
Example C46_case : (let* p := putPointer32 in let* _ := putUint8 77 in adjustPointer32 p) (mkStream [1] 1 LITTLE BIG) =
  Ret (tt, mkStream [1; 0; 0; 0; 6; 77] 6 LITTLE BIG).
Proof. vm_compute. reflexivity. Qed.

(** C47: [n] is the next multiple of [a]. *)
Theorem C47_align (s : stream) (a n : Z) : wf s -> small s -> 0 < a < 2 ^ 31 -> (exists q, n = a * q) -> ptr s <= n < ptr s + a ->
  (n <= size s -> align a s = Ret (tt, set_ptr s n)) /\
  (size s < n < 2 ^ 31 -> align a s = Abort) /\ (2 ^ 31 <= n -> align a s = UB).
Proof. exact (C47_l s a n). Qed.
Print Assumptions C47_align.
Theorem C47_align_zero (s : stream) : align 0 s = UB.
Proof. exact (C47_zero_l s). Qed.
Print Assumptions C47_align_zero.
Example C47_case : align 4 (mkStream [1; 2; 3; 4; 5] 3 LITTLE LITTLE) = Ret (tt, mkStream [1; 2; 3; 4; 5] 4 LITTLE LITTLE).
Proof. vm_compute. reflexivity. Qed.

(** C48 *)
Theorem C48_reading (s : stream) (t : ty) : wf s -> small s -> get t s =
  Ret (decode t (rE s) (padded (width t) (ahead s)), set_ptr s (Z.min (ptr s + Z.of_nat (width t)) (size s))).
Proof. exact (get_ok t s). Qed.
Print Assumptions C48_reading.
Theorem C48_at_end (s : stream) (t : ty) : wf s -> small s -> at_end s -> get t s = Ret (0, s).
Proof. exact (C48_end_l s t). Qed.
Print Assumptions C48_at_end.
Example C48_case : get TU32 (mkStream [1; 2; 3] 1 BIG LITTLE) = Ret (0x02030000, mkStream [1; 2; 3] 3 BIG LITTLE).
Proof. vm_compute. reflexivity. Qed.

(** C49: false; no length is stored and the last character is dropped. *)
Theorem C49_string_refuted : exists str s1 r s2, Forall byte str /\ str <> [] /\
  putString str MS_new = Ret (tt, s1) /\ (let* _ := seekTo 0 in get_string) s1 = Ret (r, s2) /\ r <> str.
Proof. exact C49_l. Qed.
Print Assumptions C49_string_refuted.
Theorem C49_empty_string_refuted : forall s, wf s -> small s -> putString [] s = UB.
Proof. exact C49_empty_l. Qed.
Print Assumptions C49_empty_string_refuted.
(** what is stored; and what does round-trip. *)
Theorem C49_stored_partial (str : list Z) (s : stream) : str <> [] -> at_end s -> size s + Z.of_nat (length str) < 2 ^ 31 ->
  putString str s = Ret (tt, mkStream (buf s ++ removelast str ++ [0]) (ptr s + Z.of_nat (length str)) (rE s) (wE s)).
Proof. exact (C49_stored_l str s). Qed.
Print Assumptions C49_stored_partial.
Theorem C49_substr_partial (str : list Z) (s : stream) :
  Forall byte str -> wf s -> at_end s -> size s + Z.of_nat (length str) + 1 < 2 ^ 31 ->
  exists s1 s2, putSubstr str (Z.of_nat (length str) + 1) s = Ret (tt, s1) /\
    (let* _ := seekTo (ptr s) in getSubstr (Z.of_nat (length str) + 1)) s1 = Ret (str, s2) /\ at_end s1 /\ at_end s2.
Proof. exact (C49_substr_l str s). Qed.
Print Assumptions C49_substr_partial.
Example C49_case : putString [104; 105] MS_new = Ret (tt, mkStream [104; 0] 2 LITTLE LITTLE).
Proof. vm_compute. reflexivity. Qed.

(** C50: false for every stream, position and value. *)
Theorem C50_put_at_refuted : forall s i v, 0 <= i -> put_at i v s = UB.
Proof. exact C50_l. Qed.
Print Assumptions C50_put_at_refuted.
Theorem C50_get_at_partial (s : stream) (i : Z) : 0 <= i -> get_at i s = Ret (nth (Z.to_nat i) (buf s) 0, s).
Proof. exact (C50_partial_l s i). Qed.
Print Assumptions C50_get_at_partial.
Example C50_case : get_at 1 (mkStream [10; 11] 0 LITTLE LITTLE) = Ret (11, mkStream [10; 11] 0 LITTLE LITTLE) /\
  put_at 1 5 (mkStream [10; 11] 0 LITTLE LITTLE) = UB.
Proof. vm_compute. auto. Qed.

(** C51 *)
Theorem C51_write (s : stream) (d : list Z) : wf s -> small s -> d <> [] -> ptr s + Z.of_nat (length d) < 2 ^ 31 ->
  write d s = Ret (Z.of_nat (length d),
    mkStream (firstn (Z.to_nat (ptr s)) (buf s) ++ d ++ skipn (Z.to_nat (ptr s) + length d) (buf s))
      (ptr s + Z.of_nat (length d)) (rE s) (wE s)).
Proof. exact (C51_write_l s d). Qed.
Print Assumptions C51_write.
Theorem C51_read (s : stream) (n : Z) : wf s -> small s -> ptr s < size s -> 0 <= n ->
  read n s = Ret (firstn (Z.to_nat n) (ahead s), set_ptr s (Z.min (ptr s + n) (size s))).
Proof. exact (C51_read_l s n). Qed.
Print Assumptions C51_read.
(** at the end even a read of nothing forms a reference past the buffer. *)
Theorem C51_read_at_end (s : stream) (n : Z) : wf s -> small s -> at_end s -> read n s = UB.
Proof. exact (C51_end_l s n). Qed.
Print Assumptions C51_read_at_end.
Theorem C51_round_trip (s : stream) (d : list Z) :
  wf s -> small s -> Forall byte d -> d <> [] -> ptr s + Z.of_nat (length d) < 2 ^ 31 ->
  exists s1 s2, write d s = Ret (Z.of_nat (length d), s1) /\
    (let* _ := seekTo (ptr s) in read (Z.of_nat (length d))) s1 = Ret (d, s2) /\ ptr s2 = ptr s1.
Proof. exact (C51_l s d). Qed.
Print Assumptions C51_round_trip.
Example C51_case : write [8; 9; 10] (mkStream [1; 2; 3] 2 LITTLE LITTLE) = Ret (3, mkStream [1; 2; 8; 9; 10] 5 LITTLE LITTLE).
Proof. vm_compute. reflexivity. Qed.

(** C67: false; seeking to offset 0 from the end stops one byte short, and aborts when empty. *)
Theorem C67_seek_end_refuted : (exists s, wf s /\ ~ at_end s /\ fseek 0 END_ s = Ret (ptr s, s)) /\
  fseek 0 END_ MS_new = Abort.
Proof. exact C67_l. Qed.
Print Assumptions C67_seek_end_refuted.
(** the position each kind of seek goes to ([target]), when it lies in the stream. *)
Theorem C67_seek_partial (s : stream) (x : Z) (c : CURSOR) : wf s -> size s + 1 < 2 ^ 31 -> is_int x ->
  let p := match c with TOP => x | CURRENT => ptr s + x | END_ => size s - 1 - x end in
  (0 <= p <= size s -> fseek x c s = Ret (p, set_ptr s p)) /\
  (is_int (size s - x) -> is_int p -> ~ 0 <= p <= size s -> fseek x c s = Abort) /\
  (~ is_int p -> fseek x c s = UB).
Proof. exact (C67_seek_l s x c). Qed.
Print Assumptions C67_seek_partial.
Example C67_case : fseek 0 END_ (mkStream [1; 2; 3] 0 LITTLE LITTLE) = Ret (2, mkStream [1; 2; 3] 2 LITTLE LITTLE).
Proof. vm_compute. reflexivity. Qed.
