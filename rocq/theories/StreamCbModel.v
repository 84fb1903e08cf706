(** Model of byte_array_append_stream with a read callback that uses byte arrays itself: the
    function is cut at the call of the callback. ByteMemModel.v has it with callbacks that only
    write to the buffer they are given. *)
From Verif Require Import Base CMem ByteArrayModel ByteMemModel ByteMemSpec.

(** src/bytearray.c:118-129 byte_array_append_stream up to the call: the arguments [buf] and
    [count] of the callback, or [None] for the return value -1. *)
Definition p_stream_begin (junk : nat -> Z) (m : mem) (x len : Z) : res (option (ptr * Z) * mem) :=
  a <- the_arr m x ;;
  let available := u64 (p_max_size a - p_cursor a) in
  if (len >=? available) && (available =? 1) then Ok (None, set_errno m ENOSPC)
  else
    let len := if len >=? available then u64 (available - 1) else len in
    '(ok, m) <- p_ensure_space junk m x len ;;
    if negb ok then Ok (None, m)
    else
      a <- the_arr m x ;;
      Ok (Some ((p_data a, p_cursor a), len), m).
(** src/bytearray.c:130-134: after the call. The fields of the array are read again. *)
Definition p_stream_end (m : mem) (x count : Z) : res mem :=
  if count >? 0 then a <- the_arr m x ;; p_set_cursor m x (u64 (p_cursor a + count)) else Ok m.

(** src/bytearray.c:113-135 byte_array_append_stream for the array [k] of a program (see
    ByteMemSpec.v). A callback changes the state of the program and returns a number. *)
Definition callback : Type := state -> ptr -> Z -> res (state * Z).
Definition stream_with (junk : nat -> Z) (st : state) (k : nat) (read_cb : callback) (len : Z) : res (state * Z) :=
  x <- the (made st) k ;;
  '(call, m) <- p_stream_begin junk (memory st) x len ;;
  match call with
  | None => Ok (keep st m, -1)
  | Some (buf, n) =>
      '(st, count) <- read_cb (keep st m) buf n ;;
      m <- p_stream_end (memory st) x count ;;
      Ok (keep st m, count)
  end.

(** A callback as in ByteArrayModel.v. *)
Definition simple (cb : read_cb) : callback := fun st buf n =>
  let '(d, count, e) := cb n in
  m <- store (memory st) buf d ;;
  Ok (keep st (set_errno m e), count).
(** A callback that carries out commands, then stores [d] in its buffer and returns [count]. *)
Definition busy (junk : nat -> nat -> Z) (cs : list cmd) (d : list Z) (count : Z) : callback := fun st buf n =>
  '(st, _) <- exec_all junk st cs ;;
  m <- store (memory st) buf d ;;
  Ok (keep st m, count).
