(** Model of src/bytearray.c with its pointers: every array is an object of its
    own, its bytes are in a block of their own, and a block is given up when it
    is reallocated or freed. Sources are pointers, so they may point anywhere,
    also into the array that is changed. ByteArrayModel.v is the same code with
    the blocks as values. *)
From Verif Require Import Base CMem ByteArrayModel.

(** src/bytearray.c:8-14 struct byte_array; [p_data] is the number of a block. *)
Record arr := Arr { p_data : Z; p_cursor : Z; p_max_size : Z; p_size : Z; p_ref_count : Z }.

(** The memory: the byte arrays by address, the blocks of bytes by number, the
    next address or number nobody has used. [p_errno] is the thread's errno.
    [moved] lists the calls of fsrealloc, the latest first: for which
    array, bytes before and after (it is no part of the program, the code never reads it). *)
Record mem := Mem
  { arrays : Z -> option arr; blocks : Z -> option (list Z); next : Z; p_errno : Z;
    moved : list (Z * (Z * Z)) }.

(** A pointer to a byte: block and offset. *)
Definition ptr : Type := Z * Z.

(** [f] with [v] at [x]. *)
Definition put {A} (f : Z -> option A) (x : Z) (v : option A) : Z -> option A :=
  fun y => if y =? x then v else f y.

Definition set_arr (m : mem) (x : Z) (a : option arr) : mem :=
  Mem (put (arrays m) x a) (blocks m) (next m) (p_errno m) (moved m).
Definition set_block (m : mem) (b : Z) (l : option (list Z)) : mem :=
  Mem (arrays m) (put (blocks m) b l) (next m) (p_errno m) (moved m).
Definition set_errno (m : mem) (e : Z) : mem :=
  Mem (arrays m) (blocks m) (next m) e (moved m).

(** Access through a pointer to the structure, and to a block: undefined when
    it has been freed. *)
Definition the_arr (m : mem) (x : Z) : res arr :=
  match arrays m x with Some a => Ok a | None => UB end.
Definition the_block (m : mem) (b : Z) : res (list Z) :=
  match blocks m b with Some l => Ok l | None => UB end.

(** fsalloc of a block of [n] bytes (src/fsalloc.c; running out of memory
    aborts there). *)
Definition new_block (m : mem) (l : list Z) : Z * mem :=
  (next m, Mem (arrays m) (put (blocks m) (next m) (Some l)) (next m + 1) (p_errno m) (moved m)).
(** fsalloc of a structure. *)
Definition new_arr (m : mem) (a : arr) : Z * mem :=
  (next m, Mem (put (arrays m) (next m) (Some a)) (blocks m) (next m + 1) (p_errno m) (moved m)).
(** fsfree of a block and of a structure: freeing twice is undefined. *)
Definition free_block (m : mem) (b : Z) : res mem :=
  _ <- the_block m b ;; Ok (set_block m b None).
Definition free_arr (m : mem) (x : Z) : res mem :=
  _ <- the_arr m x ;; Ok (set_arr m x None).
(** fsrealloc: the old block is given up, even where the new one happens to be
    at the same place. *)
Definition realloc_block (junk : nat -> Z) (m : mem) (x b n : Z) : res (Z * mem) :=
  l <- the_block m b ;;
  m <- free_block m b ;;
  let '(b', m) := new_block m (realloc junk l n) in
  Ok (b', Mem (arrays m) (blocks m) (next m) (p_errno m) ((x, (zlen l, n)) :: moved m)).

(** The bytes behind a pointer. *)
Definition behind (m : mem) (p : ptr) : res (list Z) :=
  l <- the_block m (fst p) ;;
  if (0 <=? snd p) && (snd p <=? zlen l) then Ok (skipn (Z.to_nat (snd p)) l) else UB.
(** The [len] bytes behind a pointer. *)
Definition load (m : mem) (p : ptr) (len : Z) : res (list Z) :=
  l <- behind m p ;;
  if len >? zlen l then UB else Ok (firstn (Z.to_nat len) l).
(** Bytes stored behind a pointer. *)
Definition store (m : mem) (p : ptr) (d : list Z) : res mem :=
  l <- the_block m (fst p) ;;
  l <- blit l (snd p) d ;;
  Ok (set_block m (fst p) (Some l)).
(** memmove: the source is read before anything is written. *)
Definition memmove (m : mem) (dst src : ptr) (len : Z) : res mem :=
  d <- load m src len ;; store m dst d.
(** memcpy: undefined when the two ranges overlap. *)
Definition memcpy (m : mem) (dst src : ptr) (len : Z) : res mem :=
  if (fst dst =? fst src) && (snd dst <? snd src + len) && (snd src <? snd dst + len) then UB
  else memmove m dst src len.
(** strlen of the string behind a pointer. *)
Definition strlen_at (m : mem) (p : ptr) : res Z := l <- behind m p ;; strlen l.

(** src/bytearray.c:16-28 make_byte_array *)
Definition p_make_byte_array (junk : nat -> Z) (m : mem) (max_size : Z) : res (Z * mem) :=
  let '(x, m) := new_arr m (Arr 0 0 0 0 0) in
  let size := if 128 >? max_size then max_size else 128 in
  let '(b, m) := new_block m (fresh_block junk size) in
  m <- store m (b, 0) [0] ;;
  Ok (x, set_arr m x (Some (Arr b 0 max_size size 1))).

(** src/bytearray.c:30-34 share_byte_array *)
Definition p_share_byte_array (m : mem) (x : Z) : res mem :=
  a <- the_arr m x ;;
  Ok (set_arr m x (Some (Arr (p_data a) (p_cursor a) (p_max_size a) (p_size a) (u32 (p_ref_count a + 1))))).

(** src/bytearray.c:36-42 destroy_byte_array *)
Definition p_destroy_byte_array (m : mem) (x : Z) : res mem :=
  a <- the_arr m x ;;
  let r := u32 (p_ref_count a - 1) in
  let m := set_arr m x (Some (Arr (p_data a) (p_cursor a) (p_max_size a) (p_size a) r)) in
  if truth r then Ok m
  else
    m <- free_block m (p_data a) ;;
    free_arr m x.

(** src/bytearray.c:44-69 ensure_space *)
Definition p_ensure_space (junk : nat -> Z) (m : mem) (x len : Z) : res (bool * mem) :=
  a <- the_arr m x ;;
  if len >=? u64 (p_max_size a - p_cursor a) then Ok (false, set_errno m ENOSPC)
  else if len >=? u64 (p_size a - p_cursor a) then
    n <- round_loop 66 (u64 (p_cursor a + len + 1)) 1 ;;
    '(b, m) <- realloc_block junk m x (p_data a) n ;;
    Ok (true, set_arr m x (Some (Arr b (p_cursor a) (p_max_size a) n (p_ref_count a))))
  else Ok (true, m).

(** Lines 86-87, 103-104, 131-132, 139-140, 150-151: new cursor, and NUL behind it. *)
Definition p_set_cursor (m : mem) (x c : Z) : res mem :=
  a <- the_arr m x ;;
  let m := set_arr m x (Some (Arr (p_data a) c (p_max_size a) (p_size a) (p_ref_count a))) in
  store m (p_data a, c) [0].

(** src/bytearray.c:71-90 byte_array_copy *)
Definition p_byte_array_copy (junk : nat -> Z) (m : mem) (x pos : Z) (src : ptr) (len : Z)
  : res (bool * mem) :=
  a <- the_arr m x ;;
  if pos >? p_cursor a then Ok (false, m)
  else
    '(ok, m) <- (if len >? u64 (p_cursor a - pos) then p_ensure_space junk m x (u64 (pos + len - p_cursor a))
                 else Ok (true, m)) ;;
    if negb ok then Ok (false, m)
    else
      a <- the_arr m x ;;
      m <- memmove m (p_data a, pos) src len ;;
      if len >? u64 (p_cursor a - pos) then
        m <- p_set_cursor m x (u64 (pos + len)) ;; Ok (true, m)
      else Ok (true, m).

(** src/bytearray.c:92-95 byte_array_copy_string *)
Definition p_byte_array_copy_string (junk : nat -> Z) (m : mem) (x pos : Z) (str : ptr)
  : res (bool * mem) :=
  n <- strlen_at m str ;; p_byte_array_copy junk m x pos str n.

(** src/bytearray.c:97-106 byte_array_append *)
Definition p_byte_array_append (junk : nat -> Z) (m : mem) (x : Z) (src : ptr) (len : Z)
  : res (bool * mem) :=
  '(ok, m) <- p_ensure_space junk m x len ;;
  if negb ok then Ok (false, m)
  else
    a <- the_arr m x ;;
    m <- memcpy m (p_data a, p_cursor a) src len ;;
    m <- p_set_cursor m x (u64 (p_cursor a + len)) ;;
    Ok (true, m).

(** src/bytearray.c:108-111 byte_array_append_string *)
Definition p_byte_array_append_string (junk : nat -> Z) (m : mem) (x : Z) (str : ptr)
  : res (bool * mem) :=
  n <- strlen_at m str ;; p_byte_array_append junk m x str n.

(** src/bytearray.c:113-135 byte_array_append_stream. The callback is the one of
    ByteArrayModel.v: it stores bytes at the beginning of the buffer it is
    given and touches nothing else. *)
Definition p_byte_array_append_stream (junk : nat -> Z) (m : mem) (x : Z) (cb : read_cb) (len : Z)
  : res (Z * mem) :=
  a <- the_arr m x ;;
  let available := u64 (p_max_size a - p_cursor a) in
  if (len >=? available) && (available =? 1) then Ok (-1, set_errno m ENOSPC)
  else
    let len := if len >=? available then u64 (available - 1) else len in
    '(ok, m) <- p_ensure_space junk m x len ;;
    if negb ok then Ok (-1, m)
    else
      a <- the_arr m x ;;
      let '(w, count, e) := cb len in
      m <- store m (p_data a, p_cursor a) w ;;
      let m := set_errno m e in
      if count >? 0 then
        m <- p_set_cursor m x (u64 (p_cursor a + count)) ;; Ok (count, m)
      else Ok (count, m).

(** src/bytearray.c:137-141 byte_array_clear *)
Definition p_byte_array_clear (m : mem) (x : Z) : res mem := p_set_cursor m x 0.

(** src/bytearray.c:143-153 byte_array_resize *)
Definition p_byte_array_resize (junk : nat -> Z) (m : mem) (x n c : Z) : res (bool * mem) :=
  a <- the_arr m x ;;
  '(ok, m) <- (if n >? p_cursor a then
                 '(ok, m) <- p_ensure_space junk m x (u64 (n - p_cursor a)) ;;
                 if ok then
                   a <- the_arr m x ;;
                   m <- store m (p_data a, p_cursor a) (repeat c (Z.to_nat (u64 (n - p_cursor a)))) ;;
                   Ok (true, m)
                 else Ok (false, m)
               else Ok (true, m)) ;;
  if negb ok then Ok (false, m)
  else m <- p_set_cursor m x n ;; Ok (true, m).

(** src/bytearray.c:155-158 byte_array_data *)
Definition p_byte_array_data (m : mem) (x : Z) : res ptr :=
  a <- the_arr m x ;; Ok (p_data a, 0).

(** src/bytearray.c:160-163 byte_array_size *)
Definition p_byte_array_size (m : mem) (x : Z) : res Z :=
  a <- the_arr m x ;; Ok (p_cursor a).
