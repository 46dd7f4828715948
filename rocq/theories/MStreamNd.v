(** * [class MemoryStream] compiled without assertions, and raw access to its bytes
    (include/colorsystem.hpp:788-1234).

    With [NDEBUG] defined [assert] does nothing, so a cursor outside the buffer can
    arise and be used.  The methods that contain an assertion or call one that does are
    transcribed again here; all others are those of MStream.v. *)
From Coq Require Import ZArith List Bool.
From Verif Require Import Num MStream.
Import ListNotations.
Local Open Scope Z_scope.

(** The typed writers over the byte writer they call. *)
Section Put.
Context (put8 : Z -> ST unit).
(** hpp:1134  [putInt8]. *)
Definition gputInt8 (v : Z) : ST unit := put8 (u8 v).
(** hpp:1135-1148 *)
Definition gputUint16 (u : Z) : ST unit :=
  let* e := get_wE in
  if is_big e then
    let* _ := put8 (u8 (Z.land (Z.shiftr u 8) 255)) in put8 (u8 (Z.land u 255))
  else
    let* _ := put8 (u8 (Z.land u 255)) in put8 (u8 (Z.land (Z.shiftr u 8) 255)).
(** hpp:1149-1162 *)
Definition gputInt16 (u : Z) : ST unit :=
  let* e := get_wE in
  if is_big e then
    let* _ := gputInt8 (s8 (Z.land (Z.shiftr u 8) 255)) in put8 (u8 (Z.land u 255))
  else
    let* _ := put8 (u8 (Z.land u 255)) in gputInt8 (s8 (Z.land (Z.shiftr u 8) 255)).
(** hpp:1163-1175 *)
Definition gputUint32 (u : Z) : ST unit :=
  let* e := get_wE in
  if is_big e then
    let* _ := gputUint16 (u16 (Z.land (Z.shiftr u 16) 65535)) in
    gputUint16 (u16 (Z.land u 65535))
  else
    let* _ := gputUint16 (u16 (Z.land u 65535)) in
    gputUint16 (u16 (Z.land (Z.shiftr u 16) 65535)).
(** hpp:1176-1188 *)
Definition gputInt32 (u : Z) : ST unit :=
  let* e := get_wE in
  if is_big e then
    let* _ := gputInt16 (s16 (Z.land (Z.shiftr u 16) 65535)) in
    gputUint16 (u16 (Z.land u 65535))
  else
    let* _ := gputUint16 (u16 (Z.land u 65535)) in
    gputInt16 (s16 (Z.land (Z.shiftr u 16) 65535)).
(** hpp:1190-1202 *)
Definition gputUint64 (v : Z) : ST unit :=
  let* e := get_wE in
  if is_big e then
    let* _ := gputUint32 (u32 (Z.shiftr v 32)) in
    gputUint32 (u32 (Z.land v 4294967295))
  else
    let* _ := gputUint32 (u32 (Z.land v 4294967295)) in
    gputUint32 (u32 (Z.shiftr v 32)).
(** hpp:1203-1215 *)
Definition gputInt64 (v : Z) : ST unit :=
  let* e := get_wE in
  if is_big e then
    let* _ := gputInt32 (s32 (Z.shiftr v 32)) in
    gputUint32 (u32 (Z.land v 4294967295))
  else
    let* _ := gputUint32 (u32 (Z.land v 4294967295)) in
    gputInt32 (s32 (Z.shiftr v 32)).
(** hpp:1216-1217  [putFloat], [putDouble] of a bit pattern. *)
Definition gputFloat (v : Z) : ST unit := gputUint32 v.
Definition gputDouble (v : Z) : ST unit := gputUint64 v.

Fixpoint gput_chars (str : list Z) (n i : nat) : ST unit :=
  match n with
  | O => ret tt
  | S n' =>
      let* c := lift (str_get str i) in
      let* _ := put8 c in
      gput_chars str n' (S i)
  end.
(** The loop is cut after [length str + 2] rounds: by then [str[i]] has been
    read out of bounds, so the outcome is already [UB] (or [Abort]). *)
Definition gputSubstr (str : list Z) (len : Z) : ST unit :=
  let rounds := Z.min (u64 (len - 1)) (Z.of_nat (length str) + 2) in
  let* _ := gput_chars str (Z.to_nat rounds) 0 in
  if 0 <? len then put8 0 else ret tt.
(** hpp:1227  [putString]. *)
Definition gputString (str : list Z) : ST unit := gputSubstr str (Z.of_nat (length str)).

(** hpp:1044-1065 *)
Definition gputPointer32 : ST Z := let* p := mark in let* _ := gputUint32 0 in ret p.
Definition gputPointer64 : ST Z := let* p := mark in let* _ := gputUint64 0 in ret p.
End Put.

(** hpp:920-935  [putUint8] without [assert(false)]. *)
Definition putUint8_nd (uc : Z) : ST unit := fun s =>
  if u64 (ptr s) <? size s then
    let! b := vec_set (buf s) (u64 (ptr s)) uc in
    Ret (tt, set_buf s b)
  else if u64 (ptr s) =? size s then
    let! p := int_result (ptr s + 1) in
    Ret (tt, set_ptr (set_buf s (buf s ++ [uc])) p)
  else Ret (tt, s).
(** hpp:837-859  [fseek] without its two assertions. *)
Definition fseek_nd (offs : Z) (cursor : CURSOR) : ST Z := fun s =>
  let! p :=
    match cursor with
    | TOP => Ret offs
    | CURRENT => int_result (ptr s + offs)
    | END_ => let! a := int_result (s32 (size s) - offs) in int_result (a - 1)
    end in
  Ret (p, set_ptr s p).
(** hpp:860 *)
Definition seekTo_nd (p : Z) : ST Z := fseek_nd (s32 p) TOP.
(** hpp:1038-1043 *)
Definition align_nd (a : Z) : ST unit :=
  let* s := ftell in
  if u64 a =? 0 then lift UB
  else
    let m := s32 (u64 (u64 a - (s mod u64 a)) mod u64 a) in
    let* _ := fseek_nd m CURRENT in ret tt.

(** ** Raw access.
    hpp:862-863  [ptr()] and [ptr(p)] form [&buffer_[p]], which is undefined unless
    [p < buffer_.size()]; the client then reads or writes byte [i] from there, which must
    lie in the vector. *)
Definition ptr_load (p i : Z) : ST Z := fun s =>
  if negb (addr_ok (buf s) p) then UB else let! b := vec_get (buf s) (p + i) in Ret (b, s).
Definition ptr_store (p i v : Z) : ST unit := fun s =>
  if negb (addr_ok (buf s) p) then UB else let! b := vec_set (buf s) (p + i) v in Ret (tt, set_buf s b).
Definition cur_load (i : Z) : ST Z := fun s => ptr_load (u64 (ptr s)) i s.
Definition cur_store (i v : Z) : ST unit := fun s => ptr_store (u64 (ptr s)) i v s.
(** hpp:813  [buffer()] read, and assigned through the reference. *)
Definition buffer_get : ST (list Z) := fun s => Ret (buf s, s).
Definition buffer_set (l : list Z) : ST unit := fun s => Ret (tt, set_buf s l).
