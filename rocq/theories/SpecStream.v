(** * Specification vocabulary for byte streams, independent of the model's operations. *)
From Coq Require Import ZArith List Bool Lia.
From Verif Require Import Num MStream.
Import ListNotations.
Local Open Scope Z_scope.

Definition byte (b : Z) : Prop := 0 <= b < 256.

(** base-256 digits (two's complement for negative numbers), least significant first. *)
Fixpoint le_bytes (k : nat) (v : Z) : list Z :=
  match k with O => [] | S k' => v mod 256 :: le_bytes k' (v / 256) end.
Definition wire (e : ENDIAN) (k : nat) (v : Z) : list Z :=
  match e with LITTLE => le_bytes k v | BIG => rev (le_bytes k v) end.
(** the number written with the given digits. *)
Fixpoint le_value (l : list Z) : Z :=
  match l with [] => 0 | b :: t => b + 256 * le_value t end.
Definition unwire (e : ENDIAN) (l : list Z) : Z :=
  match e with LITTLE => le_value l | BIG => le_value (rev l) end.
(** an unsigned [w]-bit number read as two's complement. *)
Definition to_signed (w x : Z) : Z := if x <? 2 ^ (w - 1) then x else x - 2 ^ w.

(** A stream object is well formed when the cursor lies in the buffer and the buffer
    holds bytes. *)
Definition wf (s : stream) : Prop := 0 <= ptr s <= size s /\ Forall byte (buf s).
(** small enough for the [int] cursor. *)
Definition small (s : stream) : Prop := size s < 2 ^ 31.
(** the bytes from the cursor to the end. *)
Definition ahead (s : stream) : list Z := skipn (Z.to_nat (ptr s)) (buf s).
Definition at_end (s : stream) : Prop := ptr s = size s.

(** The typed values a stream can carry (floats by their bit patterns). *)
Inductive ty := TU8 | TI8 | TU16 | TI16 | TU32 | TI32 | TU64 | TI64 | TF32 | TF64.
Definition width (t : ty) : nat :=
  match t with
  | TU8 | TI8 => 1 | TU16 | TI16 => 2 | TU32 | TI32 | TF32 => 4 | TU64 | TI64 | TF64 => 8
  end.
Definition signed (t : ty) : bool :=
  match t with TI8 | TI16 | TI32 | TI64 => true | _ => false end.
Definition in_range (t : ty) (v : Z) : Prop :=
  let w := 8 * Z.of_nat (width t) in
  if signed t then - 2 ^ (w - 1) <= v < 2 ^ (w - 1) else 0 <= v < 2 ^ w.
(** the methods for each type. *)
Definition put (t : ty) (v : Z) : ST unit :=
  match t with
  | TU8 => putUint8 v | TI8 => putInt8 v | TU16 => putUint16 v | TI16 => putInt16 v
  | TU32 => putUint32 v | TI32 => putInt32 v | TU64 => putUint64 v | TI64 => putInt64 v
  | TF32 => putFloat v | TF64 => putDouble v
  end.
Definition get (t : ty) : ST Z :=
  match t with
  | TU8 => getUint8 | TI8 => getInt8 | TU16 => getUint16 | TI16 => getInt16
  | TU32 => getUint32 | TI32 => getInt32 | TU64 => getUint64 | TI64 => getInt64
  | TF32 => getFloat | TF64 => getDouble
  end.
Fixpoint put_all (l : list (ty * Z)) : ST unit :=
  match l with [] => ret tt | (t, v) :: l' => let* _ := put t v in put_all l' end.
Fixpoint get_all (l : list ty) : ST (list Z) :=
  match l with [] => ret [] | t :: l' => let* v := get t in let* r := get_all l' in ret (v :: r) end.
(** the value of [k] bytes, as a value of type [t]. *)
Definition decode (t : ty) (e : ENDIAN) (l : list Z) : Z :=
  if signed t then to_signed (8 * Z.of_nat (width t)) (unwire e l) else unwire e l.
(** the first [k] bytes of [l], completed with zeros. *)
Definition padded (k : nat) (l : list Z) : list Z := firstn k (l ++ repeat 0 k).

(** ** Calls on a stream. *)
Inductive op :=
| OPut (t : ty) (v : Z) | OGet (t : ty)
| ORead (n : Z) | OWrite (data : list Z) | OReadAt (n p : Z) | OWriteAt (data : list Z) (p : Z)
| OSeek (offs : Z) (c : CURSOR) | OSeekTo (p : Z) | OAlign (a : Z)
| OGetAt (i : Z) | OPutAt (i v : Z)
| OPutPointer32 | OPutPointer64 | OAdjust32 (p : Z) | OAdjust64 (p : Z)
| OGetSubstr (len : Z) | OGetString | OPutSubstr (str : list Z) (len : Z) | OPutString (str : list Z)
| OSetRead (e : ENDIAN) | OSetWrite (e : ENDIAN).
Definition is_int (x : Z) : Prop := - 2 ^ 31 <= x < 2 ^ 31.
Definition is_size (x : Z) : Prop := 0 <= x < 2 ^ 64.
(** the arguments have their C types; bulk writes are shorter than 2 GiB. *)
Definition op_ok (o : op) : Prop :=
  match o with
  | OPut t v => in_range t v
  | OWrite d => Forall byte d /\ Z.of_nat (length d) < 2 ^ 31
  | OWriteAt d p => Forall byte d /\ is_size p
  | ORead n => is_size n
  | OReadAt n p => is_size n /\ is_size p
  | OSeek x _ | OAlign x | OGetSubstr x => is_int x
  | OSeekTo p | OAdjust32 p | OAdjust64 p | OGetAt p => is_size p
  | OPutAt p v => is_size p /\ byte v
  | OPutSubstr str len => Forall byte str /\ is_int len
  | OPutString str => Forall byte str
  | _ => True
  end.
Definition void {A} (m : ST A) : stream -> outcome stream := fun s => bind (m s) (fun '(_, s') => Ret s').
Definition do_op (o : op) : stream -> outcome stream :=
  match o with
  | OPut t v => void (put t v) | OGet t => void (get t)
  | ORead n => void (read n) | OWrite d => void (write d)
  | OReadAt n p => void (read_at n p) | OWriteAt d p => void (write_at d p)
  | OSeek x c => void (fseek x c) | OSeekTo p => void (seekTo p) | OAlign a => void (align a)
  | OGetAt i => void (get_at i) | OPutAt i v => void (put_at i v)
  | OPutPointer32 => void putPointer32 | OPutPointer64 => void putPointer64
  | OAdjust32 p => void (adjustPointer32 p) | OAdjust64 p => void (adjustPointer64 p)
  | OGetSubstr n => void (getSubstr n) | OGetString => void get_string
  | OPutSubstr str n => void (putSubstr str n) | OPutString str => void (putString str)
  | OSetRead e => void (setReadEndian e) | OSetWrite e => void (setWriteEndian e)
  end.
Fixpoint run (l : list op) (s : stream) : outcome stream :=
  match l with [] => Ret s | o :: l' => bind (do_op o s) (run l') end.
(** the calls that contain the cursor assertions. *)
Definition moves (o : op) : bool :=
  match o with OSeek _ _ | OSeekTo _ | OAlign _ => true | _ => false end.
