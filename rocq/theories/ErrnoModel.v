(** Models of the decoders with errno and the place the size goes to: [errno] is what the thread has
    before the call; the last component of a result is what it has after it. *)
From Verif Require Import Base CMem CharstrModel UrlModel Base64Model.

(** The values on Linux (src/base64.c:211, 243, src/charstr.c:685). *)
Definition E_ILSEQ : Z := 84.
Definition E_OVERFLOW : Z := 75.

(** src/charstr.c:677-712 charstr_url_decode: the block or NULL, *size and errno. [size]: None if the
    argument is NULL, otherwise what is stored there before the call. *)
Definition url_decode (junk : nat -> Z) (errno : Z) (encoding : list Z) (plus_is_space : bool) (size : option Z)
  : res (option (list Z) * option Z * Z) :=
  length <- decoded_length encoding 0 ;;
  match length with
  | None => Ok (None, size, E_ILSEQ)
  | Some length =>
      decoding <- decode_loop plus_is_space encoding (fresh_block junk (u64 (length + 1))) 0 ;;
      Ok (Some decoding, match size with Some _ => Some length | None => None end, errno)
  end.

(** src/base64.c:192-247 base64_decode_buffer: what is returned, the buffer and errno. *)
Definition decode_buffer (errno : Z) (src : list Z) (source_size : Z) (dest : list Z) (dest_size pos62 pos63 : Z) (ignore_wsp : bool)
  : res (Z * list Z * Z) :=
  r <- base64_decode_buffer src source_size dest dest_size pos62 pos63 ignore_wsp ;;
  Ok match r with
     | DecOk count dest => (count, dest, errno)
     | DecFail EILSEQ dest => (-1, dest, E_ILSEQ)
     | DecFail EOVERFLOW dest => (-1, dest, E_OVERFLOW)
     end.

(** src/base64.c:249-259 base64_decode_simple: the block or NULL, *binary_size and errno. *)
Definition decode_simple (junk : nat -> Z) (errno : Z) (encoding : list Z) (binary_size : Z)
  : res (option (list Z) * Z * Z) :=
  '(count, _, errno) <- decode_buffer errno encoding (u64 (-1)) [] 0 (-1) (-1) true ;;
  if count <? 0 then Ok (None, binary_size, errno)
  else
    let result := fresh_block junk (u64 (count + 1)) in
    '(_, result, errno) <- decode_buffer errno encoding (u64 (-1)) result count (-1) (-1) true ;;
    result <- wr result count 0 ;;
    Ok (Some result, count, errno).
