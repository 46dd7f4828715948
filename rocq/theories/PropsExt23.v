(** * Properties C144, C145: streams compiled without assertions, and raw access to a stream's bytes. *)
From Coq Require Import ZArith List.
From Verif Require Import Num MStream SpecStream MStreamNd SpecStreamNd PStream PStreamNd.
Import ListNotations.
Local Open Scope Z_scope.

(** C144: [run] executes a list of calls with the assertions, [run_nd] without them ([NDEBUG]).  [loose]: any int cursor over
    a buffer below 2^31 bytes; [outside]: the cursor lies before or beyond the buffer.  The claim that no sequence of calls reaches undefined behaviour
    where the asserting build stops is false: a bulk read with a negative cursor. *)
Theorem C144_refuted : exists s l, loose s /\ Forall op_ok l /\ run_nd l s = UB /\ run l s = Abort.
Proof. exact C144_unsafe_l. Qed.
Print Assumptions C144_refuted.
Theorem C144_bulk_read_refuted (n : Z) (s : stream) : is_int (ptr s) -> small s -> ptr s < 0 -> read n s = UB.
Proof. exact (read_neg n s). Qed.
Print Assumptions C144_bulk_read_refuted.
Theorem C144_bulk_write_refuted (d : list Z) (s : stream) : is_int (ptr s) -> small s -> ptr s < 0 -> - ptr s <= Z.of_nat (length d) < 2 ^ 32 -> write d s = UB.
Proof. exact (write_neg d s). Qed.
Print Assumptions C144_bulk_write_refuted.
(** a run that trips no assertion is the same without them. *)
Theorem C144_same_partial (l : list op) (s : stream) : run l s <> Abort -> run_nd l s = run l s.
Proof. exact (C144_same_l l s). Qed.
Print Assumptions C144_same_partial.
(** typed reads and writes, strings read and seeks are safe wherever the cursor is. *)
Theorem C144_safe_partial (l : list op) (s : stream) : Forall typed l -> loose s -> size s + 8 * Z.of_nat (length l) < 2 ^ 31 -> exists s', run_nd l s = Ret s' /\ loose s'.
Proof. exact (C144_safe_l l s). Qed.
Print Assumptions C144_safe_partial.
(** outside the buffer typed reads give zero and typed writes are lost without notice, where the asserting build stops. *)
Theorem C144_read_outside_partial (t : ty) (s : stream) : is_int (ptr s) -> small s -> outside s -> get t s = Ret (0, s).
Proof. exact (get_out t s). Qed.
Print Assumptions C144_read_outside_partial.
Theorem C144_write_lost_partial (t : ty) (v : Z) (s : stream) : is_int (ptr s) -> small s -> outside s -> put_nd t v s = Ret (tt, s).
Proof. exact (put_out t v s). Qed.
Print Assumptions C144_write_lost_partial.
Theorem C144_write_stops_partial (t : ty) (v : Z) (s : stream) : is_int (ptr s) -> small s -> outside s -> put t v s = Abort.
Proof. exact (put_abort t v s). Qed.
Print Assumptions C144_write_stops_partial.
(** beyond the end a bulk read returns nothing, and a bulk write fills the gap with zero bytes. *)
Theorem C144_bulk_read_past_partial (n : Z) (s : stream) : is_int (ptr s) -> size s < ptr s -> read n s = Ret ([], s).
Proof. exact (read_past n s). Qed.
Print Assumptions C144_bulk_read_past_partial.
Theorem C144_bulk_write_past_partial (d : list Z) (s : stream) : (0 < length d)%nat -> size s <= ptr s -> ptr s + Z.of_nat (length d) < 2 ^ 31 ->
  write d s = Ret (Z.of_nat (length d), mkStream (buf s ++ repeat 0 (Z.to_nat (ptr s - size s)) ++ d) (ptr s + Z.of_nat (length d)) (rE s) (wE s)).
Proof. exact (write_past d s). Qed.
Print Assumptions C144_bulk_write_past_partial.
(** seeks go where they are told. *)
Theorem C144_seek_top_partial (x : Z) (s : stream) : is_int x -> fseek_nd x TOP s = Ret (x, set_ptr s x).
Proof. exact (seek_nd_top x s). Qed.
Print Assumptions C144_seek_top_partial.
Theorem C144_seek_current_partial (x : Z) (s : stream) : is_int (ptr s + x) -> fseek_nd x CURRENT s = Ret (ptr s + x, set_ptr s (ptr s + x)).
Proof. exact (seek_nd_cur x s). Qed.
Print Assumptions C144_seek_current_partial.
Theorem C144_seek_end_partial (x : Z) (s : stream) : is_int x -> 0 <= x -> small s -> fseek_nd x END_ s = Ret (size s - x - 1, set_ptr s (size s - x - 1)).
Proof. exact (seek_nd_end x s). Qed.
Print Assumptions C144_seek_end_partial.
Example C144_case : run_nd [OSeek 5 TOP; OPut TU32 7; OWrite [9]; OSeek (-3) TOP; OPut TU8 4; OGet TU64] (mkStream [1; 2; 3] 0 LITTLE LITTLE) = Ret (mkStream [1; 2; 3; 0; 0; 9] (-3) LITTLE LITTLE) /\
  run [OSeek 5 TOP] (mkStream [1; 2; 3] 0 LITTLE LITTLE) = Abort.
Proof. vm_compute. auto. Qed.
Example C144_typed_case : Forall typed [OSeek 5 TOP; OPut TU32 7; OSeek 4 END_; OGet TI64; OGetString] /\ outside (mkStream [1; 2; 3] (-3) LITTLE LITTLE) /\ outside (mkStream [1; 2; 3] 5 LITTLE LITTLE).
Proof. split; [repeat constructor; cbv; congruence|]. split; [left|right]; reflexivity. Qed.

(** C145: [ptr_load p i], [ptr_store p i v] use byte [i] from the address [ptr(p)]; [cur_load], [cur_store] from [ptr()]. *)
Theorem C145_load (p i : Z) (s : stream) : 0 <= p < size s -> 0 <= p + i < size s -> ptr_load p i s = Ret (nth (Z.to_nat (p + i)) (buf s) 0, s).
Proof. exact (ptr_load_ok p i s). Qed.
Print Assumptions C145_load.
Theorem C145_load_undefined (p i : Z) (s : stream) : ~ (0 <= p < size s /\ 0 <= p + i < size s) -> ptr_load p i s = UB.
Proof. exact (ptr_load_bad p i s). Qed.
Print Assumptions C145_load_undefined.
Theorem C145_store_undefined (p i v : Z) (s : stream) : ~ (0 <= p < size s /\ 0 <= p + i < size s) -> ptr_store p i v s = UB.
Proof. exact (ptr_store_bad p i v s). Qed.
Print Assumptions C145_store_undefined.
(** a store changes that byte only. *)
Theorem C145_store (p i v : Z) (s : stream) : 0 <= p < size s -> 0 <= p + i < size s -> exists s', ptr_store p i v s = Ret (tt, s') /\
  ptr s' = ptr s /\ rE s' = rE s /\ wE s' = wE s /\ size s' = size s /\
  forall j, 0 <= j < size s -> ptr_load j 0 s' = Ret (if j =? p + i then v else nth (Z.to_nat j) (buf s) 0, s').
Proof. exact (C145_store_l p i v s). Qed.
Print Assumptions C145_store.
Theorem C145_store_visible (p i v : Z) (s : stream) : 0 <= p < size s -> 0 <= p + i < size s ->
  (let* _ := ptr_store p i v in get_at (p + i)) s = Ret (v, set_buf s (list_set (buf s) (Z.to_nat (p + i)) v)).
Proof. exact (C145_visible_l p i v s). Qed.
Print Assumptions C145_store_visible.
(** [ptr()] is [ptr(tell)], undefined at the end of the stream. *)
Theorem C145_cursor (i v : Z) (s : stream) : wf s -> small s ->
  cur_load i s = ptr_load (ptr s) i s /\ cur_store i v s = ptr_store (ptr s) i v s /\ (at_end s -> cur_load i s = UB /\ cur_store i v s = UB).
Proof. exact (C145_cur_l i v s). Qed.
Print Assumptions C145_cursor.
Theorem C145_next (s : stream) : wf s -> small s -> ptr s < size s ->
  exists b, cur_load 0 s = Ret (b, s) /\ getUint8 s = Ret (b, set_ptr s (ptr s + 1)) /\ get_at (ptr s) s = Ret (b, s).
Proof. exact (C145_next_l s). Qed.
Print Assumptions C145_next.
(** [buffer()] assigned a vector that ends before the cursor. *)
Theorem C145_shrink (l : list Z) (t : ty) (v n : Z) (s : stream) : wf s -> small s -> Z.of_nat (length l) < ptr s ->
  exists s', buffer_set l s = Ret (tt, s') /\ buffer_get s' = Ret (l, s') /\
    get t s' = Ret (0, s') /\ read n s' = Ret ([], s') /\ put t v s' = Abort /\ put_nd t v s' = Ret (tt, s').
Proof. exact (C145_shrink_l l t v n s). Qed.
Print Assumptions C145_shrink.
Example C145_case : (let* _ := ptr_store 1 1 7 in cur_load 2) (mkStream [1; 2; 3] 0 BIG LITTLE) = Ret (7, mkStream [1; 2; 7] 0 BIG LITTLE) /\
  cur_load 0 MS_new = UB /\ wf (mkStream [1; 2; 3] 3 BIG LITTLE) /\ small (mkStream [1; 2; 3] 3 BIG LITTLE) /\ Z.of_nat (length [5]) < ptr (mkStream [1; 2; 3] 3 BIG LITTLE).
Proof. repeat split; try (vm_compute; congruence). repeat constructor; cbv; congruence. Qed.
