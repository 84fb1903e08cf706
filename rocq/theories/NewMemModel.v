(** The functions that return one new block of memory, on the heap of Heap.v; what they compute
    is in CharstrModel.v, Utf8Model.v, UrlModel.v and Base64Model.v. In each of them, the
    allocation comes after the last check that can fail, and nothing is read from the arguments
    that the function itself has written; so computing the content first and allocating a block
    with that content is the same. A pointer is the address of a block with an offset; 0 is NULL. *)
From Verif Require Import Base CMem Heap CharstrModel Utf8Model UrlModel Base64Model OwnModel.

(** src/charstr.c:326-331 charstr_dupstr *)
Definition h_dupstr (junk : nat -> Z) (a s : Z) : M Z :=
  if a =? 0 then new_string_or_null (charstr_dupstr junk None)
  else
    let! b := ld_slots a in
    new_string_or_null (charstr_dupstr junk (Some (suffix_at b s))).

(** src/charstr.c:333-342 charstr_dupsubstr; [end_]: the offset of the end in the same block, or
    None for NULL *)
Definition h_dupsubstr (junk : nat -> Z) (a s : Z) (end_ : option Z) : M Z :=
  if a =? 0 then new_string_or_null (charstr_dupsubstr junk None None)
  else
    let! b := ld_slots a in
    new_string_or_null (charstr_dupsubstr junk (Some (suffix_at b s)) (option_map (fun e => zlen b - e) end_)).

(** src/charstr.c:439-449 charstr_strip *)
Definition h_strip (junk : nat -> Z) (a s : Z) : M Z :=
  if a =? 0 then new_string_or_null (charstr_strip junk None)
  else
    let! b := ld_slots a in
    new_string_or_null (charstr_strip junk (Some (suffix_at b s))).

(** src/charstr.c:510-541 charstr_sanitize_utf8 *)
Definition h_sanitize_utf8 (junk : nat -> Z) (a s : Z) : M Z :=
  let! b := ld_slots a in
  new_string (charstr_sanitize_utf8 junk (suffix_at b s)).

(** A block and a size, which is stored only if there is a block. *)
Definition new_block_and_size (d : res (option (list Z * Z))) : M (Z * option Z) :=
  let! d := lift d in
  match d with
  | None => ret (0, None)
  | Some (d, size) =>
      let! p := alloc (CSlots d) in
      ret (p, Some size)
  end.

(** src/charstr.c:677-712 charstr_url_decode: the pointer returned, and *size *)
Definition h_url_decode (junk : nat -> Z) (a encoding : Z) (plus_is_space : bool) : M (Z * option Z) :=
  let! b := ld_slots a in
  new_block_and_size (charstr_url_decode junk (suffix_at b encoding) plus_is_space).

(** src/base64.c:123-132 base64_encode_simple *)
Definition h_base64_encode_simple (junk : nat -> Z) (a buffer size : Z) : M Z :=
  let! b := ld_slots a in
  new_string_or_null (base64_encode_simple junk (suffix_at b buffer) size).

(** src/base64.c:249-259 base64_decode_simple: the pointer returned, and *binary_size *)
Definition h_base64_decode_simple (junk : nat -> Z) (a encoding : Z) : M (Z * option Z) :=
  let! b := ld_slots a in
  new_block_and_size (base64_decode_simple junk (suffix_at b encoding)).
