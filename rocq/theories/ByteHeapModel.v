(** Byte arrays on the heap of Heap.v, field by field: which blocks they allocate, use, replace and
    free. ByteArrayModel.v describes one array as a value, ByteMemModel.v arrays in a memory of
    their own; here they can live with everything else. errno is left out. *)
From Verif Require Import Base CMem Heap ObjModel ByteArrayModel.

(** src/bytearray.c:8-14 struct byte_array: [data; cursor; max_size; size; ref_count]. *)
Definition BA_data : Z := 0.
Definition BA_cursor : Z := 1.
Definition BA_max : Z := 2.
Definition BA_size : Z := 3.
Definition BA_refs : Z := 4.

Section Arrays.
Context (junk : nat -> Z).

(** src/bytearray.c:16-28 make_byte_array *)
Definition h_make_byte_array (max_size : Z) : M Z :=
  let! a := alloc (CSlots (fresh_block junk 5)) in
  do! set_field a BA_cursor 0 in
  do! set_field a BA_max max_size in
  do! set_field a BA_size 128 in
  let! n := field a BA_size in
  do! (if n >? max_size then set_field a BA_size max_size else ret tt) in
  let! n := field a BA_size in
  let! d := alloc (CSlots (fresh_block junk n)) in
  do! set_field a BA_data d in
  let! d := field a BA_data in
  do! set_field d 0 0 in
  do! set_field a BA_refs 1 in
  ret a.

(** src/bytearray.c:30-34 share_byte_array *)
Definition h_share_byte_array (a : Z) : M Z :=
  let! r := field a BA_refs in
  do! set_field a BA_refs (u32 (r + 1)) in
  ret a.

(** src/bytearray.c:36-42 destroy_byte_array *)
Definition h_destroy_byte_array (a : Z) : M unit :=
  let! r := field a BA_refs in
  let r := u32 (r - 1) in
  do! set_field a BA_refs r in
  if truth r then ret tt
  else
    let! d := field a BA_data in
    do! fsfree d in
    fsfree a.

(** fsrealloc of a block of bytes (src/fsalloc.c, see C86): another block with the old content;
    the old one is gone. *)
Definition h_resize_block (d n : Z) : M Z :=
  let! b := ld_slots d in
  do! free d in
  alloc (CSlots (realloc junk b n)).

(** src/bytearray.c:44-69 ensure_space *)
Definition h_ensure_space (a len : Z) : M bool :=
  let! m := field a BA_max in
  let! c := field a BA_cursor in
  if len >=? u64 (m - c) then ret false
  else
    let! s := field a BA_size in
    if len >=? u64 (s - c) then
      let! n := lift (round_loop 66 (u64 (c + len + 1)) 1) in
      do! set_field a BA_size n in
      let! d := field a BA_data in
      let! n := field a BA_size in
      let! d := h_resize_block d n in
      do! set_field a BA_data d in
      ret true
    else ret true.

(** memcpy, memmove and memset: [bytes] to array->data + i. *)
Definition h_store (a i : Z) (bytes : list Z) : M unit :=
  let! d := field a BA_data in
  let! b := ld_slots d in
  let! b := lift (blit b i bytes) in
  st_slots d b.
(** array->cursor = c; array->data[array->cursor] = 0 *)
Definition h_set_cursor (a c : Z) : M unit :=
  do! set_field a BA_cursor c in
  let! d := field a BA_data in
  let! c := field a BA_cursor in
  set_field d c 0.

(** What the argument data points to, up to the end of its block: read when it is copied. *)
Definition source : Type := M (list Z).
Definition h_copy_from (a i : Z) (src : source) (len : Z) : M unit :=
  let! s := src in
  if len >? zlen s then fail else h_store a i (firstn (Z.to_nat len) s).

(** src/bytearray.c:71-90 byte_array_copy *)
Definition h_byte_array_copy (a pos : Z) (src : source) (len : Z) : M bool :=
  let! c := field a BA_cursor in
  if pos >? c then ret false
  else
    let! ok := (if len >? u64 (c - pos) then h_ensure_space a (u64 (pos + len - c)) else ret true) in
    if negb ok then ret false
    else
      do! h_copy_from a pos src len in
      let! c := field a BA_cursor in
      if len >? u64 (c - pos) then
        do! h_set_cursor a (u64 (pos + len)) in ret true
      else ret true.

(** src/bytearray.c:92-95 byte_array_copy_string *)
Definition h_byte_array_copy_string (a pos : Z) (src : source) : M bool :=
  let! s := src in
  let! n := lift (strlen s) in
  h_byte_array_copy a pos src n.

(** src/bytearray.c:97-106 byte_array_append *)
Definition h_byte_array_append (a : Z) (src : source) (len : Z) : M bool :=
  let! ok := h_ensure_space a len in
  if negb ok then ret false
  else
    let! c := field a BA_cursor in
    do! h_copy_from a c src len in
    let! c := field a BA_cursor in
    do! h_set_cursor a (u64 (c + len)) in
    ret true.

(** src/bytearray.c:108-111 byte_array_append_string *)
Definition h_byte_array_append_string (a : Z) (src : source) : M bool :=
  let! s := src in
  let! n := lift (strlen s) in
  h_byte_array_append a src n.

(** src/bytearray.c:113-135 byte_array_append_stream; also returns the length passed to the
    callback *)
Definition h_byte_array_append_stream (a : Z) (cb : read_cb) (len : Z) : M (option Z * Z) :=
  let! m := field a BA_max in
  let! c := field a BA_cursor in
  let available := u64 (m - c) in
  if (len >=? available) && (available =? 1) then ret (None, -1)
  else
    let len := if len >=? available then u64 (available - 1) else len in
    let! ok := h_ensure_space a len in
    if negb ok then ret (None, -1)
    else
      let! c := field a BA_cursor in
      let '(w, count, _) := cb len in
      do! h_store a c w in
      if count >? 0 then
        let! c := field a BA_cursor in
        do! h_set_cursor a (u64 (c + count)) in
        ret (Some len, count)
      else ret (Some len, count).

(** src/bytearray.c:137-141 byte_array_clear *)
Definition h_byte_array_clear (a : Z) : M unit :=
  do! set_field a BA_cursor 0 in
  let! d := field a BA_data in
  set_field d 0 0.

(** src/bytearray.c:143-153 byte_array_resize *)
Definition h_byte_array_resize (a n c : Z) : M bool :=
  let! k := field a BA_cursor in
  let! ok := (if n >? k then
                let! ok := h_ensure_space a (u64 (n - k)) in
                if ok then
                  let! k := field a BA_cursor in
                  do! h_store a k (repeat c (Z.to_nat (u64 (n - k)))) in
                  ret true
                else ret false
              else ret true) in
  if negb ok then ret false
  else do! h_set_cursor a n in ret true.

(** src/bytearray.c:155-158 byte_array_data *)
Definition h_byte_array_data (a : Z) : M Z := field a BA_data.

(** src/bytearray.c:160-163 byte_array_size *)
Definition h_byte_array_size (a : Z) : M Z := field a BA_cursor.
End Arrays.
