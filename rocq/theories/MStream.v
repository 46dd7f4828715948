(** * Model of [class MemoryStream]  (include/colorsystem.hpp:788-1234).

    Bytes and fixed-width integers are [Z]s; every conversion the code performs
    is written out.  [int] is 32-bit, [size_t] 64-bit.  Signed overflow, indexing
    a [std::vector] at or past its size, and [memcpy] outside a buffer are [UB];
    a failing [assert] is [Abort].
    Simplifications: left shifts of negative values (formally undefined before
    C++20) have their two's-complement meaning; memory exhaustion is ignored;
    [buffer()] (a mutable reference to the vector) and the address-returning
    [ptr()] are in MStreamNd.v. *)
From Coq Require Import ZArith List Bool.
From Verif Require Import Num.
Import ListNotations.
Local Open Scope Z_scope.

(** hpp:803-807 *)
Inductive ENDIAN := LITTLE | BIG.
(** hpp:797-802 *)
Inductive CURSOR := TOP | CURRENT | END_.

(** hpp:812-817  the data members. *)
Record stream := mkStream { buf : list Z; ptr : Z; rE : ENDIAN; wE : ENDIAN }.

(** C integer conversions. *)
Definition u8 (x : Z) : Z := x mod 2 ^ 8.
Definition u16 (x : Z) : Z := x mod 2 ^ 16.
Definition u32 (x : Z) : Z := x mod 2 ^ 32.
Definition u64 (x : Z) : Z := x mod 2 ^ 64.
Definition sgn (w : Z) (x : Z) : Z := (x + 2 ^ (w - 1)) mod 2 ^ w - 2 ^ (w - 1).
Definition s8 := sgn 8.
Definition s16 := sgn 16.
Definition s32 := sgn 32.
Definition s64 := sgn 64.
(** result of an [int] operation: undefined when not representable. *)
Definition int_result (x : Z) : outcome Z :=
  if (- 2 ^ 31 <=? x) && (x <? 2 ^ 31) then Ret x else UB.

Definition is_big (e : ENDIAN) : bool := match e with BIG => true | LITTLE => false end.

(** [std::vector]: size, indexing, element assignment, [resize]. *)
Definition size (s : stream) : Z := Z.of_nat (length (buf s)).
Definition vec_get (l : list Z) (i : Z) : outcome Z :=
  if (0 <=? i) && (i <? Z.of_nat (length l))
  then match nth_error l (Z.to_nat i) with Some x => Ret x | None => UB end
  else UB.
Fixpoint list_set {A} (l : list A) (i : nat) (x : A) : list A :=
  match l, i with
  | [], _ => []
  | _ :: t, O => x :: t
  | h :: t, S i' => h :: list_set t i' x
  end.
Definition vec_set (l : list Z) (i : Z) (x : Z) : outcome (list Z) :=
  if (0 <=? i) && (i <? Z.of_nat (length l))
  then Ret (list_set l (Z.to_nat i) x)
  else UB.
Definition resize (l : list Z) (n : nat) : list Z :=
  firstn n l ++ repeat 0 (n - length l).

Definition set_buf (s : stream) (b : list Z) : stream := mkStream b (ptr s) (rE s) (wE s).
Definition set_ptr (s : stream) (p : Z) : stream := mkStream (buf s) p (rE s) (wE s).

(** hpp:810, 819-833  [MemoryStream()], i.e. [init(NULL, 0)] on an empty vector. *)
Definition MS_new : stream := mkStream [] 0 LITTLE LITTLE.
(** hpp:819-833  [init(NULL, sz)]. *)
Definition init_null (s : stream) (sz : nat) : stream :=
  mkStream (resize (buf s) sz) 0 LITTLE LITTLE.
(** hpp:811, 819-833  [init(data, sz)] with [data] non-null and pointing to the
    [sz] bytes [data]; [buffer_.front()] of an empty vector is undefined. *)
Definition init_data (data : list Z) : outcome stream :=
  match data with
  | [] => UB
  | _ => Ret (mkStream data 0 LITTLE LITTLE)
  end.

(** A method: state in, value and state out. *)
Definition ST (A : Type) := stream -> outcome (A * stream).
Definition ret {A} (a : A) : ST A := fun s => Ret (a, s).
Definition stbind {A B} (m : ST A) (k : A -> ST B) : ST B :=
  fun s => bind (m s) (fun '(a, s') => k a s').
Notation "'let*' x ':=' c 'in' k" := (stbind c (fun x => k))
  (at level 200, x pattern, c at level 100, k at level 200, right associativity).
Definition lift {A} (o : outcome A) : ST A := fun s => bind o (fun a => Ret (a, s)).

(** hpp:835-836  [ftell], [mark]: [(size_t)ptr_]. *)
Definition ftell : ST Z := fun s => Ret (u64 (ptr s), s).
Definition mark : ST Z := ftell.

(** hpp:837-859  [fseek]; [(int)buffer_.size()] wraps. *)
Definition fseek (offs : Z) (cursor : CURSOR) : ST Z := fun s =>
  let! p :=
    match cursor with
    | TOP => Ret offs
    | CURRENT => int_result (ptr s + offs)
    | END_ => let! a := int_result (s32 (size s) - offs) in int_result (a - 1)
    end in
  if negb (0 <=? p) then Abort
  else if negb (u64 p <=? size s) then Abort
  else Ret (p, set_ptr s p).

(** hpp:860  [seekTo]: the pointer is converted to int. *)
Definition seekTo (p : Z) : ST Z := fseek (s32 p) TOP.

(** hpp:864  [feof]: signed/unsigned comparison. *)
Definition feof : ST bool := fun s => Ret (size s <=? u64 (ptr s), s).

(** hpp:867-872  [get_at]. *)
Definition get_at (abs : Z) : ST Z := fun s =>
  if abs <? size s then let! b := vec_get (buf s) abs in Ret (b, s) else Ret (0, s).

(** hpp:873-878  [put_at]. *)
Definition put_at (abs val : Z) : ST unit := fun s =>
  let b := if abs <? size s then resize (buf s) (Z.to_nat abs) else buf s in
  let! b := vec_set b abs val in
  Ret (tt, set_buf s b).

(** hpp:863  [&buffer_[p]] *)
Definition addr_ok (b : list Z) (p : Z) : bool := (0 <=? p) && (p <? Z.of_nat (length b)).

(** hpp:879-887  [read_at(buffer, s, p)]; returns the bytes copied. *)
Definition read_at (n p : Z) : ST (list Z) := fun s =>
  let! r := int_result (s32 (size s) - s32 p) in
  if r <? 0 then Ret ([], s)
  else
    let remain := if n <? r then n else r in
    if negb (addr_ok (buf s) p) then UB
    else if negb (p + remain <=? size s) then UB
    else Ret (firstn (Z.to_nat remain) (skipn (Z.to_nat p) (buf s)), s).

(** hpp:888-896  [write_at(buffer, s, p)] of the bytes [data]. *)
Definition write_at (data : list Z) (p : Z) : ST Z := fun s =>
  let n := Z.of_nat (length data) in
  let s1 := size s in
  let s2 := u64 (p + n) in
  let b := if s1 <? s2 then resize (buf s) (Z.to_nat s2) else buf s in
  if negb (addr_ok b p) then UB
  else if negb (p + n <=? Z.of_nat (length b)) then UB
  else Ret (n, set_buf s (firstn (Z.to_nat p) b ++ data ++
                          skipn (Z.to_nat p + length data) b)).

(** hpp:897-902  [read]. *)
Definition read (n : Z) : ST (list Z) := fun s =>
  let! (l, s') := read_at n (u64 (ptr s)) s in
  let! p := int_result (ptr s' + s32 (Z.of_nat (length l))) in
  Ret (l, set_ptr s' p).
(** hpp:903-909  [write]. *)
Definition write (data : list Z) : ST Z := fun s =>
  let! (n, s') := write_at data (u64 (ptr s)) s in
  let! p := int_result (ptr s' + s32 n) in
  Ret (n, set_ptr s' p).

(** hpp:910-919  [getUint8]. *)
Definition getUint8 : ST Z := fun s =>
  if u64 (ptr s) <? size s then
    let! c := vec_get (buf s) (u64 (ptr s)) in
    let! p := int_result (ptr s + 1) in
    Ret (c, set_ptr s p)
  else Ret (0, s).

(** hpp:920-935  [putUint8]. *)
Definition putUint8 (uc : Z) : ST unit := fun s =>
  if u64 (ptr s) <? size s then
    let! b := vec_set (buf s) (u64 (ptr s)) uc in
    Ret (tt, set_buf s b)
  else if u64 (ptr s) =? size s then
    let! p := int_result (ptr s + 1) in
    Ret (tt, set_ptr (set_buf s (buf s ++ [uc])) p)
  else Abort.

(** hpp:936-937 *)
Definition setReadEndian (e : ENDIAN) : ST unit := fun s =>
  Ret (tt, mkStream (buf s) (ptr s) e (wE s)).
Definition setWriteEndian (e : ENDIAN) : ST unit := fun s =>
  Ret (tt, mkStream (buf s) (ptr s) (rE s) e).
Definition get_rE : ST ENDIAN := fun s => Ret (rE s, s).
Definition get_wE : ST ENDIAN := fun s => Ret (wE s, s).

(** hpp:938-942 *)
Definition getInt8 : ST Z := let* uc := getUint8 in ret (s8 uc).
(** hpp:943-948 *)
Definition getUint16 : ST Z :=
  let* a := getUint8 in
  let* b := getUint8 in
  let* e := get_rE in
  ret (u16 (if is_big e then Z.lor (Z.shiftl a 8) b else Z.lor (Z.shiftl b 8) a)).
(** hpp:949-954 *)
Definition getInt16 : ST Z :=
  let* a := getUint8 in
  let* b := getUint8 in
  let* e := get_rE in
  ret (s16 (if is_big e then Z.lor (Z.shiftl (s8 a) 8) b else Z.lor (Z.shiftl (s8 b) 8) a)).
(** hpp:955-960; [a << 16] is an int, the result is converted to uint32_t. *)
Definition getUint32 : ST Z :=
  let* a := getUint16 in
  let* b := getUint16 in
  let* e := get_rE in
  ret (u32 (if is_big e then Z.lor (s32 (Z.shiftl a 16)) b else Z.lor (s32 (Z.shiftl b 16)) a)).
(** hpp:961-966 *)
Definition getInt32 : ST Z :=
  let* a := getUint16 in
  let* b := getUint16 in
  let* e := get_rE in
  ret (s32 (if is_big e then Z.lor (Z.shiftl (s16 a) 16) b else Z.lor (Z.shiftl (s16 b) 16) a)).
(** hpp:967-981 *)
Definition getUint64 : ST Z :=
  let* e := get_rE in
  let* (lo, hi) :=
    (if is_big e then
       let* hi := getUint32 in
       let* lo := getUint32 in ret (lo, hi)
     else
       let* lo := getUint32 in
       let* hi := getUint32 in ret (lo, hi)) in
  ret (Z.lor lo (u64 (Z.shiftl hi 32))).
(** hpp:982-997 *)
Definition getInt64 : ST Z :=
  let* e := get_rE in
  let* (lo, hi) :=
    (if is_big e then
       let* hi := getInt32 in
       let* lo := getUint32 in ret (lo, hi)
     else
       let* lo := getUint32 in
       let* hi := getInt32 in ret (lo, hi)) in
  ret (s64 (Z.lor lo (u64 (Z.shiftl hi 32)))).
(** hpp:998-1007, 1008-1017  [getFloat], [getDouble]: the bit pattern. *)
Definition getFloat : ST Z := getUint32.
Definition getDouble : ST Z := getUint64.

(** hpp:1018-1029  [getSubstr]: a std::string is its list of bytes. *)
Fixpoint get_bytes (n : nat) : ST (list Z) :=
  match n with
  | O => ret []
  | S n' => let* c := getUint8 in let* l := get_bytes n' in ret (c :: l)
  end.
Definition getSubstr (len : Z) : ST (list Z) :=
  let* k := lift (int_result (len - 1)) in
  let* str := get_bytes (Z.to_nat k) in
  let* _ := (if 0 <? len then getUint8 else ret 0) in
  ret str.
(** hpp:1030-1036  [get_string]. *)
Definition get_string : ST (list Z) :=
  let* n := getUint32 in
  let len := s32 n in
  if 0 <? len then getSubstr len else ret [].

(** hpp:1038-1043  [align]: computed in size_t, then converted to int. *)
Definition align (a : Z) : ST unit :=
  let* s := ftell in
  if u64 a =? 0 then lift UB
  else
    let m := s32 (u64 (u64 a - (s mod u64 a)) mod u64 a) in
    let* _ := fseek m CURRENT in ret tt.

(** hpp:1134  [putInt8]. *)
Definition putInt8 (v : Z) : ST unit := putUint8 (u8 v).
(** hpp:1135-1148 *)
Definition putUint16 (u : Z) : ST unit :=
  let* e := get_wE in
  if is_big e then
    let* _ := putUint8 (u8 (Z.land (Z.shiftr u 8) 255)) in putUint8 (u8 (Z.land u 255))
  else
    let* _ := putUint8 (u8 (Z.land u 255)) in putUint8 (u8 (Z.land (Z.shiftr u 8) 255)).
(** hpp:1149-1162 *)
Definition putInt16 (u : Z) : ST unit :=
  let* e := get_wE in
  if is_big e then
    let* _ := putInt8 (s8 (Z.land (Z.shiftr u 8) 255)) in putUint8 (u8 (Z.land u 255))
  else
    let* _ := putUint8 (u8 (Z.land u 255)) in putInt8 (s8 (Z.land (Z.shiftr u 8) 255)).
(** hpp:1163-1175 *)
Definition putUint32 (u : Z) : ST unit :=
  let* e := get_wE in
  if is_big e then
    let* _ := putUint16 (u16 (Z.land (Z.shiftr u 16) 65535)) in
    putUint16 (u16 (Z.land u 65535))
  else
    let* _ := putUint16 (u16 (Z.land u 65535)) in
    putUint16 (u16 (Z.land (Z.shiftr u 16) 65535)).
(** hpp:1176-1188 *)
Definition putInt32 (u : Z) : ST unit :=
  let* e := get_wE in
  if is_big e then
    let* _ := putInt16 (s16 (Z.land (Z.shiftr u 16) 65535)) in
    putUint16 (u16 (Z.land u 65535))
  else
    let* _ := putUint16 (u16 (Z.land u 65535)) in
    putInt16 (s16 (Z.land (Z.shiftr u 16) 65535)).
(** hpp:1190-1202 *)
Definition putUint64 (v : Z) : ST unit :=
  let* e := get_wE in
  if is_big e then
    let* _ := putUint32 (u32 (Z.shiftr v 32)) in
    putUint32 (u32 (Z.land v 4294967295))
  else
    let* _ := putUint32 (u32 (Z.land v 4294967295)) in
    putUint32 (u32 (Z.shiftr v 32)).
(** hpp:1203-1215 *)
Definition putInt64 (v : Z) : ST unit :=
  let* e := get_wE in
  if is_big e then
    let* _ := putInt32 (s32 (Z.shiftr v 32)) in
    putUint32 (u32 (Z.land v 4294967295))
  else
    let* _ := putUint32 (u32 (Z.land v 4294967295)) in
    putInt32 (s32 (Z.shiftr v 32)).
(** hpp:1216-1217  [putFloat], [putDouble] of a bit pattern. *)
Definition putFloat (v : Z) : ST unit := putUint32 v.
Definition putDouble (v : Z) : ST unit := putUint64 v.

(** hpp:1218-1226  [putSubstr]: [len - 1] is computed in size_t; reading
    [str[i]] is defined for [i <= str.size()] (0 at [str.size()]).
    The loop body runs [n] times from index [i]. *)
Definition str_get (str : list Z) (i : nat) : outcome Z :=
  if Nat.leb i (length str) then Ret (nth i str 0) else UB.
Fixpoint put_chars (str : list Z) (n i : nat) : ST unit :=
  match n with
  | O => ret tt
  | S n' =>
      let* c := lift (str_get str i) in
      let* _ := putUint8 c in
      put_chars str n' (S i)
  end.
(** The loop is cut after [length str + 2] rounds: by then [str[i]] has been
    read out of bounds, so the outcome is already [UB] (or [Abort]). *)
Definition putSubstr (str : list Z) (len : Z) : ST unit :=
  let rounds := Z.min (u64 (len - 1)) (Z.of_nat (length str) + 2) in
  let* _ := put_chars str (Z.to_nat rounds) 0 in
  if 0 <? len then putUint8 0 else ret tt.
(** hpp:1227  [putString]. *)
Definition putString (str : list Z) : ST unit := putSubstr str (Z.of_nat (length str)).

(** hpp:1044-1065  [getPointer32] .. [putPointer64]. *)
Definition getPointer32 : ST Z := getUint32.
Definition putPointer32 : ST Z := let* p := mark in let* _ := putUint32 0 in ret p.
Definition getPointer64 : ST Z := getUint64.
Definition putPointer64 : ST Z := let* p := mark in let* _ := putUint64 0 in ret p.

Fixpoint set_bytes (l : list Z) (p : Z) (bs : list Z) : outcome (list Z) :=
  match bs with
  | [] => Ret l
  | b :: bs' => let! l' := vec_set l p b in set_bytes l' (p + 1) bs'
  end.
(** hpp:1067-1091  [adjustPointer32]. *)
Definition adjustPointer32 (p : Z) : ST unit := fun s =>
  let ui := u32 (size s) in
  let uc0 := u8 (Z.land ui 255) in
  let ui := Z.shiftr ui 8 in
  let uc1 := u8 (Z.land ui 255) in
  let ui := Z.shiftr ui 8 in
  let uc2 := u8 (Z.land ui 255) in
  let ui := Z.shiftr ui 8 in
  let uc3 := u8 (Z.land ui 255) in
  let! b := set_bytes (buf s) p
              (if is_big (wE s) then [uc3; uc2; uc1; uc0] else [uc0; uc1; uc2; uc3]) in
  Ret (tt, set_buf s b).
(** hpp:1092-1132  [adjustPointer64]. *)
Definition adjustPointer64 (p : Z) : ST unit := fun s =>
  let ui := u64 (size s) in
  let uc0 := u8 (Z.land ui 255) in
  let ui := Z.shiftr ui 8 in
  let uc1 := u8 (Z.land ui 255) in
  let ui := Z.shiftr ui 8 in
  let uc2 := u8 (Z.land ui 255) in
  let ui := Z.shiftr ui 8 in
  let uc3 := u8 (Z.land ui 255) in
  let ui := Z.shiftr ui 8 in
  let uc4 := u8 (Z.land ui 255) in
  let ui := Z.shiftr ui 8 in
  let uc5 := u8 (Z.land ui 255) in
  let ui := Z.shiftr ui 8 in
  let uc6 := u8 (Z.land ui 255) in
  let ui := Z.shiftr ui 8 in
  let uc7 := u8 (Z.land ui 255) in
  let! b := set_bytes (buf s) p
              (if is_big (wE s)
               then [uc7; uc6; uc5; uc4; uc3; uc2; uc1; uc0]
               else [uc0; uc1; uc2; uc3; uc4; uc5; uc6; uc7]) in
  Ret (tt, set_buf s b).
