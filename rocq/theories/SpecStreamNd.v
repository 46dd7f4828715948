(** * Specification vocabulary for streams compiled without assertions. *)
From Coq Require Import ZArith List Bool Lia.
From Verif Require Import Num MStream SpecStream MStreamNd.
Import ListNotations.
Local Open Scope Z_scope.

(** the writing methods for each type, over a byte writer. *)
Definition gput (put8 : Z -> ST unit) (t : ty) (v : Z) : ST unit :=
  match t with
  | TU8 => put8 v | TI8 => gputInt8 put8 v | TU16 => gputUint16 put8 v | TI16 => gputInt16 put8 v
  | TU32 => gputUint32 put8 v | TI32 => gputInt32 put8 v | TU64 => gputUint64 put8 v | TI64 => gputInt64 put8 v
  | TF32 => gputFloat put8 v | TF64 => gputDouble put8 v
  end.
Definition put_nd : ty -> Z -> ST unit := gput putUint8_nd.
Definition do_op_nd (o : op) : stream -> outcome stream :=
  match o with
  | OPut t v => void (put_nd t v)
  | OSeek x c => void (fseek_nd x c) | OSeekTo p => void (seekTo_nd p) | OAlign a => void (align_nd a)
  | OPutPointer32 => void (gputPointer32 putUint8_nd) | OPutPointer64 => void (gputPointer64 putUint8_nd)
  | OPutSubstr str n => void (gputSubstr putUint8_nd str n) | OPutString str => void (gputString putUint8_nd str)
  | _ => do_op o
  end.
Fixpoint run_nd (l : list op) (s : stream) : outcome stream :=
  match l with [] => Ret s | o :: l' => bind (do_op_nd o s) (run_nd l') end.
(** the cursor is an int and the buffer small, nothing else. *)
Definition loose (s : stream) : Prop := is_int (ptr s) /\ small s /\ Forall byte (buf s).
Definition outside (s : stream) : Prop := ptr s < 0 \/ size s < ptr s.
(** typed reads and writes, absolute seeks, seeks back from the end, byte reads. *)
Definition typed (o : op) : Prop :=
  match o with
  | OPut t v => in_range t v
  | OGet _ => True
  | OSeek x TOP => is_int x
  | OSeek x END_ => is_int x /\ 0 <= x
  | OSeekTo p => is_size p
  | OGetAt p => is_size p
  | OGetString | OSetRead _ | OSetWrite _ | OPutPointer32 | OPutPointer64 => True
  | _ => False
  end.
