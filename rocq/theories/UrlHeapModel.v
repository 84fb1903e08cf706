(** Model of the URL encoder objects of src/charstr.c on the heap of Heap.v, byte by byte: the
    table is one block of 256 * 4 bytes, and the encoder that charstr_url_encode uses is the
    static variable url_encoder, a block at the address [static_encoder]. Strings are blocks of
    bytes; a pointer is the address of a block with an offset. *)
From Verif Require Import Base CMem Heap CharstrTables CharstrModel UrlModel OwnModel.

(** Reading and writing one byte. *)
Definition ld_byte (a i : Z) : M Z :=
  let! b := ld_slots a in
  lift (rd b i).
Definition st_byte (a i x : Z) : M unit :=
  let! b := ld_slots a in
  let! b := lift (wr b i x) in
  st_slots a b.

(** src/charstr.c:566-568 struct charstr_url_encoder: sizeof table[i], sizeof *encoder and the
    offset of table[i] *)
Definition sizeof_entry : Z := 4.
Definition sizeof_encoder : Z := 1024.
Definition entry_offset (i : Z) : Z := sizeof_entry * i.

(** src/charstr.c:570-605 url_encoder, as bytes: a string literal that initializes a longer
    array is filled up with zeros. *)
Definition static_bytes : list Z :=
  flat_map (fun s => s ++ repeat 0 (Z.to_nat sizeof_entry - length s)) url_table.

(** snprintf(a + i, size, ...), where [s] is what the format stands for: at most size - 1 bytes
    of it and a NUL are stored. *)
Definition h_snprintf (a i size : Z) (s : list Z) : M unit :=
  let! b := ld_slots a in
  let! b := lift (blit b i (firstn (Z.to_nat (size - 1)) s ++ [0])) in
  st_slots a b.

(** src/charstr.c:614-617 *)
Fixpoint h_reserve_loop (fuel : nat) (encoder a p : Z) : M unit :=
  match fuel with
  | O => no_fuel
  | S fuel =>
      let! c := ld_byte a p in
      if truth c then
        do! h_snprintf encoder (entry_offset (u8 c)) sizeof_entry (percent (u8 c)) in
        h_reserve_loop fuel encoder a (p + 1)
      else ret tt
  end.
(** src/charstr.c:618-621 *)
Fixpoint h_unreserve_loop (fuel : nat) (encoder a p : Z) : M unit :=
  match fuel with
  | O => no_fuel
  | S fuel =>
      let! c := ld_byte a p in
      if truth c then
        do! h_snprintf encoder (entry_offset (u8 c)) sizeof_entry [u8 c] in
        h_unreserve_loop fuel encoder a (p + 1)
      else ret tt
  end.

(** The number of iterations of a loop over the bytes of a block is at most this. *)
Definition block_fuel (a : Z) : M nat := let! b := ld_slots a in ret (S (length b)).

(** src/charstr.c:607-623 charstr_create_url_encoder *)
Definition h_create_url_encoder (junk : nat -> Z) (static_encoder a reserve b unreserve : Z) : M Z :=
  let! encoder := alloc (CSlots (fresh_block junk sizeof_encoder)) in
  let! table := ld_slots static_encoder in
  let! mine := ld_slots encoder in
  let! mine := lift (blit mine 0 (firstn (Z.to_nat sizeof_encoder) table)) in
  do! st_slots encoder mine in
  let! n := block_fuel a in
  do! h_reserve_loop n encoder a reserve in
  let! n := block_fuel b in
  do! h_unreserve_loop n encoder b unreserve in
  ret encoder.

(** src/charstr.c:625-628 charstr_destroy_url_encoder *)
Definition h_destroy_url_encoder (encoder : Z) : M unit := free encoder.

(** src/charstr.c:630-634 charstr_url_custom_encode_byte: a pointer into the block of the encoder *)
Definition h_url_custom_encode_byte (encoder byte : Z) : Z * Z := (encoder, entry_offset (u8 byte)).
(** src/charstr.c:636-639 charstr_url_encode_byte *)
Definition h_url_encode_byte (static_encoder byte : Z) : Z * Z := h_url_custom_encode_byte static_encoder byte.

(** src/charstr.c:641-649 url_encoding_width *)
Definition h_url_encoding_width (encoder byte : Z) : M Z :=
  let '(a, i) := h_url_custom_encode_byte encoder byte in
  let! c := ld_byte a i in
  ret (if c =? 37 then 3 else 1).

(** src/charstr.c:656-657 *)
Fixpoint h_encoded_length (fuel : nat) (encoder a sp length : Z) : M Z :=
  match fuel with
  | O => no_fuel
  | S fuel =>
      let! c := ld_byte a sp in
      if truth c then
        let! w := h_url_encoding_width encoder c in
        h_encoded_length fuel encoder a (sp + 1) (u64 (length + w))
      else ret length
  end.

(** src/charstr.c:664-667: the inner loop; the result is the new value of ep *)
Fixpoint h_put_string (fuel : nat) (u urlp e ep : Z) : M Z :=
  match fuel with
  | O => no_fuel
  | S fuel =>
      let! c := ld_byte u urlp in
      if truth c then
        do! st_byte e ep c in
        h_put_string fuel u (urlp + 1) e (ep + 1)
      else ret ep
  end.

(** src/charstr.c:663-668 *)
Fixpoint h_encode_loop (fuel : nat) (encoder a sp e ep : Z) : M unit :=
  match fuel with
  | O => no_fuel
  | S fuel =>
      let! c := ld_byte a sp in
      if truth c then
        let '(u, urlp) := h_url_custom_encode_byte encoder c in
        let! n := block_fuel u in
        let! ep := h_put_string n u urlp e ep in
        h_encode_loop fuel encoder a (sp + 1) e ep
      else st_byte e ep 0
  end.

(** src/charstr.c:651-670 charstr_url_custom_encode (fsalloc succeeds) *)
Definition h_url_custom_encode (junk : nat -> Z) (encoder a string : Z) : M Z :=
  let! n := block_fuel a in
  let! length := h_encoded_length n encoder a string 0 in
  let! encoding := alloc (CSlots (fresh_block junk (u64 (length + 1)))) in
  let! n := block_fuel a in
  do! h_encode_loop n encoder a string encoding 0 in
  ret encoding.

(** src/charstr.c:672-675 charstr_url_encode *)
Definition h_url_encode (junk : nat -> Z) (static_encoder a string : Z) : M Z :=
  h_url_custom_encode junk static_encoder a string.
