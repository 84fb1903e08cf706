(** Model of src/bytearray.c. *)
From Verif Require Import Base CMem.

(** src/bytearray.c:8-14 struct byte_array; [data] is the content of the block
    it points to. [errno] is the thread's errno, kept here for convenience
    (0: not set). The data arguments of the operations are blocks outside the
    array (no aliasing). *)
Record byte_array := BA
  { data : list Z; cursor : Z; max_size : Z; size : Z; ref_count : Z; errno : Z }.

Definition ENOSPC : Z := 28.

(** src/bytearray.c:16-28 make_byte_array *)
Definition make_byte_array (junk : nat -> Z) (max_size : Z) : res byte_array :=
  let size := if 128 >? max_size then max_size else 128 in
  d <- wr (fresh_block junk size) 0 0 ;;
  Ok (BA d 0 max_size size 1 0).

(** src/bytearray.c:30-34 share_byte_array *)
Definition share_byte_array (a : byte_array) : byte_array :=
  BA (data a) (cursor a) (max_size a) (size a) (u32 (ref_count a + 1)) (errno a).

(** src/bytearray.c:36-42 destroy_byte_array; None: both blocks were freed. *)
Definition destroy_byte_array (a : byte_array) : option byte_array :=
  let r := u32 (ref_count a - 1) in
  if truth r then Some (BA (data a) (cursor a) (max_size a) (size a) r (errno a)) else None.

(** src/bytearray.c:56-63: the rounding loop. *)
Fixpoint round_loop (fuel : nat) (target n : Z) : res Z :=
  match fuel with
  | O => NoFuel
  | S fuel =>
      if n <? target then
        if n >? SIZE_MAX / 2 then Ok SIZE_MAX
        else round_loop fuel target (u64 (Z.shiftl n 1))
      else Ok n
  end.

(** src/bytearray.c:44-69 ensure_space *)
Definition ensure_space (junk : nat -> Z) (a : byte_array) (len : Z) : res (byte_array * bool) :=
  if len >=? u64 (max_size a - cursor a) then
    Ok (BA (data a) (cursor a) (max_size a) (size a) (ref_count a) ENOSPC, false)
  else if len >=? u64 (size a - cursor a) then
    n <- round_loop 66 (u64 (cursor a + len + 1)) 1 ;;
    Ok (BA (realloc junk (data a) n) (cursor a) (max_size a) n (ref_count a) (errno a), true)
  else Ok (a, true).

(** Lines 87, 104, 132, 151: new cursor, and NUL behind it. *)
Definition set_cursor (a : byte_array) (d : list Z) (c : Z) : res byte_array :=
  d <- wr d c 0 ;;
  Ok (BA d c (max_size a) (size a) (ref_count a) (errno a)).
Definition set_data (a : byte_array) (d : list Z) : byte_array :=
  BA d (cursor a) (max_size a) (size a) (ref_count a) (errno a).

(** src/bytearray.c:71-90 byte_array_copy; [src] is the source block, [len] the
    number of bytes to take from it. *)
Definition byte_array_copy (junk : nat -> Z) (a : byte_array) (pos : Z) (src : list Z) (len : Z)
  : res (byte_array * bool) :=
  if pos >? cursor a then Ok (a, false)
  else
    '(a, ok) <- (if len >? u64 (cursor a - pos) then ensure_space junk a (u64 (pos + len - cursor a))
                 else Ok (a, true)) ;;
    if negb ok then Ok (a, false)
    else if len >? zlen src then UB
    else
      d <- blit (data a) pos (firstn (Z.to_nat len) src) ;;
      if len >? u64 (cursor a - pos) then
        a <- set_cursor a d (u64 (pos + len)) ;; Ok (a, true)
      else Ok (set_data a d, true).

(** src/bytearray.c:92-95 byte_array_copy_string *)
Definition byte_array_copy_string (junk : nat -> Z) (a : byte_array) (pos : Z) (str : list Z)
  : res (byte_array * bool) :=
  n <- strlen str ;; byte_array_copy junk a pos str n.

(** src/bytearray.c:97-106 byte_array_append *)
Definition byte_array_append (junk : nat -> Z) (a : byte_array) (src : list Z) (len : Z)
  : res (byte_array * bool) :=
  '(a, ok) <- ensure_space junk a len ;;
  if negb ok then Ok (a, false)
  else if len >? zlen src then UB
  else
    d <- blit (data a) (cursor a) (firstn (Z.to_nat len) src) ;;
    a <- set_cursor a d (u64 (cursor a + len)) ;;
    Ok (a, true).

(** src/bytearray.c:108-111 byte_array_append_string *)
Definition byte_array_append_string (junk : nat -> Z) (a : byte_array) (str : list Z)
  : res (byte_array * bool) :=
  n <- strlen str ;; byte_array_append junk a str n.

(** The read callback (include/bytearray.h:25): given the number of bytes
    asked for, the bytes it stores at the beginning of the buffer, the value it
    returns (ssize_t) and the errno it leaves. *)
Definition read_cb := Z -> list Z * Z * Z.

(** src/bytearray.c:113-135 byte_array_append_stream. The second component of
    the result is the length passed to the callback (None: not called). *)
Definition byte_array_append_stream (junk : nat -> Z) (a : byte_array) (cb : read_cb) (len : Z)
  : res (byte_array * option Z * Z) :=
  let available := u64 (max_size a - cursor a) in
  if (len >=? available) && (available =? 1) then
    Ok (BA (data a) (cursor a) (max_size a) (size a) (ref_count a) ENOSPC, None, -1)
  else
    let len := if len >=? available then u64 (available - 1) else len in
    '(a, ok) <- ensure_space junk a len ;;
    if negb ok then Ok (a, None, -1)
    else
      let '(w, count, e) := cb len in
      d <- blit (data a) (cursor a) w ;;
      let a := BA d (cursor a) (max_size a) (size a) (ref_count a) e in
      if count >? 0 then
        a <- set_cursor a d (u64 (cursor a + count)) ;; Ok (a, Some len, count)
      else Ok (a, Some len, count).

(** src/bytearray.c:137-141 byte_array_clear *)
Definition byte_array_clear (a : byte_array) : res byte_array := set_cursor a (data a) 0.

(** src/bytearray.c:143-153 byte_array_resize *)
Definition byte_array_resize (junk : nat -> Z) (a : byte_array) (n c : Z) : res (byte_array * bool) :=
  '(a, ok) <- (if n >? cursor a then
                 '(a, ok) <- ensure_space junk a (u64 (n - cursor a)) ;;
                 if ok then
                   d <- blit (data a) (cursor a) (repeat c (Z.to_nat (u64 (n - cursor a)))) ;;
                   Ok (set_data a d, true)
                 else Ok (a, false)
               else Ok (a, true)) ;;
  if negb ok then Ok (a, false)
  else a <- set_cursor a (data a) n ;; Ok (a, true).

(** src/bytearray.c:155-158 byte_array_data: the block *)
Definition byte_array_data (a : byte_array) : list Z := data a.

(** src/bytearray.c:160-163 byte_array_size *)
Definition byte_array_size (a : byte_array) : Z := cursor a.
