(** Model of those functions of src/base64.c and src/hashtable.c whose behaviour depends on
    whether the type char is signed (as on x86) or unsigned (as on ARM), for either kind of
    platform: [sg] says whether it is signed. The other models are for signed char. *)
From Verif Require Import Base Base64Model IntegerModel.

(** Conversion of an integer to char. *)
Definition char_of (sg : bool) (x : Z) : Z := if sg then s8 x else u8 x.

(** src/base64.c:65-121 base64_encode_buffer. [src], [dest] are the memory
    blocks pointed to; result: final dest block and returned size. *)
Definition base64_encode_buffer_on (sg : bool) (src : list Z) (source_size : Z) (dest : list Z) (dest_size : Z)
           (pos62 pos63 : Z) : res (list Z * Z) :=
  let tail := source_size - source_size mod 3 in
  let pos62 := char_of sg pos62 in
  let pos63 := char_of sg pos63 in
  let pos62 := if pos62 =? -1 then 43 (* '+' *) else pos62 in
  let pos63 := if pos63 =? -1 then 47 (* '/' *) else pos63 in
  '(dest, q, i) <- encode_body (S (length src)) src dest 0 tail 0 (dest_size / 4) pos62 pos63 ;;
  '(dest, q, i) <-
     (if q <? tail then
        bits <- group3 src q ;;
        '(dest, i) <- put4 dest i dest_size
             (base64_char (Z.shiftr bits 18) pos62 pos63)
             (base64_char (Z.shiftr bits 12) pos62 pos63)
             (base64_char (Z.shiftr bits 6) pos62 pos63)
             (base64_char bits pos62 pos63) ;;
        Ok (dest, q + 3, i)
      else Ok (dest, q, i)) ;;
  let i := u64 (i + (tail - q) / 3 * 4) in
  let q := tail in
  '(dest, i) <-
     (if source_size mod 3 =? 0 then Ok (dest, i)
      else if source_size mod 3 =? 1 then
        a <- rd src q ;;
        let bits := Z.shiftl a 16 in
        put4 dest i dest_size
             (base64_char (Z.shiftr bits 18) pos62 pos63)
             (base64_char (Z.shiftr bits 12) pos62 pos63)
             61 61
      else
        a <- rd src q ;;
        b <- rd src (q + 1) ;;
        let bits := Z.lor (Z.shiftl a 16) (Z.shiftl b 8) in
        put4 dest i dest_size
             (base64_char (Z.shiftr bits 18) pos62 pos63)
             (base64_char (Z.shiftr bits 12) pos62 pos63)
             (base64_char (Z.shiftr bits 6) pos62 pos63)
             61) ;;
  dest <- (if i <? dest_size then wr dest i 0
           else if truth dest_size then wr dest (dest_size - 1) 0
           else Ok dest) ;;
  Ok (dest, i).

(** src/base64.c:123-132 base64_encode_simple: [None] is NULL; the returned
    block has encoding_size + 1 bytes. *)
Definition base64_encode_simple_on (sg : bool) (junk : nat -> Z) (buffer : list Z) (size : Z) : res (option (list Z)) :=
  let encoding_size := base64_encoding_size size in
  if encoding_size =? u64 (-1) then Ok None
  else
    let result := fresh_block junk (u64 (encoding_size + 1)) in
    '(result, _) <- base64_encode_buffer_on sg buffer size result (u64 (encoding_size + 1)) (-1) (-1) ;;
    Ok (Some result).

(** src/base64.c:172-190 get_bits. [c] is the byte read; it is compared with
    the chars pos62/pos63 as a char. *)
Definition get_bits_on (sg : bool) (c pos62 pos63 : Z) (ignore_wsp : bool) : Z :=
  if char_of sg c =? pos62 then 62
  else if char_of sg c =? pos63 then 63
  else
    let new_bits := decoding c in
    if (new_bits =? 62) || (new_bits =? 63) then BASE64_ILLEGAL_OTHER
    else if new_bits =? BASE64_ILLEGAL_WHITESPACE then
      if negb ignore_wsp then BASE64_ILLEGAL_OTHER else new_bits
    else new_bits.

(** src/base64.c:205-220 the storing loop. *)
Fixpoint decode_store_on (sg : bool) (fuel : nat) (src : list Z) (source_size dest_size pos62 pos63 : Z)
         (ignore_wsp : bool) (st : dec_state) : res loop_out :=
  match fuel with
  | O => NoFuel
  | S fuel =>
    let '(DecState si pi bits bit_count dest) := st in
    if (pi <? dest_size) && (si <? source_size) then
      c <- rd src si ;;
      if truth c && negb (c =? 61) then
        let new_bits := get_bits_on sg c pos62 pos63 ignore_wsp in
        if new_bits <? 0 then
          if new_bits =? BASE64_ILLEGAL_WHITESPACE then
            decode_store_on sg fuel src source_size dest_size pos62 pos63 ignore_wsp
                         (DecState (si + 1) pi bits bit_count dest)
          else Ok (LBad dest)
        else
          let bits := u32 (Z.lor (Z.shiftl bits 6) new_bits) in
          let bit_count := bit_count + 6 in
          if bit_count >=? 8 then
            let bit_count := bit_count - 8 in
            dest <- wr dest pi (Z.land (Z.shiftr bits bit_count) 255) ;;
            decode_store_on sg fuel src source_size dest_size pos62 pos63 ignore_wsp
                         (DecState (si + 1) (pi + 1) bits bit_count dest)
          else
            decode_store_on sg fuel src source_size dest_size pos62 pos63 ignore_wsp
                         (DecState (si + 1) pi bits bit_count dest)
      else Ok (LDone st)
    else Ok (LDone st)
  end.

(** src/base64.c:221-235 the counting loop. *)
Fixpoint decode_count_on (sg : bool) (fuel : nat) (src : list Z) (source_size pos62 pos63 : Z)
         (ignore_wsp : bool) (st : dec_state) : res loop_out :=
  match fuel with
  | O => NoFuel
  | S fuel =>
    let '(DecState si pi bits bit_count dest) := st in
    if si <? source_size then
      c <- rd src si ;;
      if truth c && negb (c =? 61) then
        let new_bits := get_bits_on sg c pos62 pos63 ignore_wsp in
        if new_bits <? 0 then
          if new_bits =? BASE64_ILLEGAL_WHITESPACE then
            decode_count_on sg fuel src source_size pos62 pos63 ignore_wsp
                         (DecState (si + 1) pi bits bit_count dest)
          else Ok (LBad dest)
        else
          let bits := u32 (Z.lor (Z.shiftl bits 6) new_bits) in
          let bit_count := bit_count + 6 in
          if bit_count >=? 8 then
            decode_count_on sg fuel src source_size pos62 pos63 ignore_wsp
                         (DecState (si + 1) (pi + 1) bits (bit_count - 8) dest)
          else
            decode_count_on sg fuel src source_size pos62 pos63 ignore_wsp
                         (DecState (si + 1) pi bits bit_count dest)
      else Ok (LDone st)
    else Ok (LDone st)
  end.

(** src/base64.c:192-247 base64_decode_buffer. *)
Definition base64_decode_buffer_on (sg : bool) (src : list Z) (source_size : Z) (dest : list Z) (dest_size : Z)
           (pos62 pos63 : Z) (ignore_wsp : bool) : res dec_result :=
  let pos62 := char_of sg pos62 in
  let pos63 := char_of sg pos63 in
  let pos62 := if pos62 =? -1 then 43 else pos62 in
  let pos63 := if pos63 =? -1 then 47 else pos63 in
  r <- decode_store_on sg (S (length src)) src source_size dest_size pos62 pos63 ignore_wsp
                    (DecState 0 0 0 0 dest) ;;
  match r with
  | LBad dest => Ok (DecFail EILSEQ dest)
  | LDone st =>
    r <- decode_count_on sg (S (length src)) src source_size pos62 pos63 ignore_wsp st ;;
    match r with
    | LBad dest => Ok (DecFail EILSEQ dest)
    | LDone (DecState si pi bits bit_count dest) =>
      if truth (Z.land bits (Z.ones bit_count)) (* bits & ~(~0U << bit_count) *)
      then Ok (DecFail EILSEQ dest)
      else
        g <- good_base64_tail src si (source_size - si) bit_count ignore_wsp ;;
        if negb g then Ok (DecFail EILSEQ dest)
        else if s64 pi <? 0 then Ok (DecFail EOVERFLOW dest)
        else Ok (DecOk pi dest)
    end
  end.

(** src/base64.c:249-259 base64_decode_simple: NULL or the returned block and
    *binary_size. [encoding] is the block holding the NUL-terminated string. *)
Definition base64_decode_simple_on (sg : bool) (junk : nat -> Z) (encoding : list Z) : res (option (list Z * Z)) :=
  r <- base64_decode_buffer_on sg encoding (u64 (-1)) [] 0 (-1) (-1) true ;;
  match r with
  | DecFail _ _ => Ok None
  | DecOk count _ =>
    let result := fresh_block junk (count + 1) in
    r <- base64_decode_buffer_on sg encoding (u64 (-1)) result count (-1) (-1) true ;;
    let result := match r with DecOk _ d => d | DecFail _ d => d end in
    result <- wr result count 0 ;;
    Ok (Some (result, count))
  end.

(** src/hashtable.c:203-209 hash_string *)
Fixpoint hash_string_loop_on (sg : bool) (fuel : nat) (s : list Z) (i hash : Z) : res Z :=
  match fuel with
  | O => NoFuel
  | S fuel =>
    c <- rd s i ;;
    if truth c then hash_string_loop_on sg fuel s (i + 1) (u64 (hash * 9973 + char_of sg c + 9999991))
    else Ok hash
  end.
Definition hash_string_on (sg : bool) (s : list Z) : res Z := hash_string_loop_on sg (S (length s)) s 0 0.
