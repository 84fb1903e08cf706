(** Model of src/base64.c. *)
From Verif Require Import Base.

(** src/base64.c:8-14 base64_encoding_size. All arithmetic in size_t. *)
Definition base64_encoding_size (binary_size : Z) : Z :=
  let encoding_size := u64 (u64 (binary_size + 2) / 3 * 4) in
  if encoding_size <? binary_size then u64 (-1) else encoding_size.

(** src/base64.c:16-17 base64_bitfield_encoding: ASCII codes of
    "A..Za..z0..9+/". *)
Definition base64_bitfield_encoding : list Z :=
  [65;66;67;68;69;70;71;72;73;74;75;76;77;78;79;80;81;82;83;84;85;86;87;88;89;90;
   97;98;99;100;101;102;103;104;105;106;107;108;109;110;111;112;113;114;115;116;
   117;118;119;120;121;122;
   48;49;50;51;52;53;54;55;56;57;43;47].

(** src/base64.c:19-36 base64_bitfield_decoding, transcribed row by row as the
    C compiler reads it: there is no comma at the end of line 27, so the last
    initializer of that line and the first one of line 28 form the single
    expression [-1 -1] = -2 (index 127), the table has 255 initializers, and
    the missing last one (index 255) is implicitly 0. *)
Definition base64_bitfield_decoding : list Z :=
  [-4; -1; -1; -1; -1; -1; -1; -1; -1; -2; -2; -1; -2; -2; -1; -1;
   -1; -1; -1; -1; -1; -1; -1; -1; -1; -1; -1; -1; -1; -1; -1; -1;
   -2; -1; -1; -1; -1; -1; -1; -1; -1; -1; -1; 62; -1; -1; -1; 63;
   52; 53; 54; 55; 56; 57; 58; 59; 60; 61; -1; -1; -1; -3; -1; -1;
   -1;  0;  1;  2;  3;  4;  5;  6;  7;  8;  9; 10; 11; 12; 13; 14;
   15; 16; 17; 18; 19; 20; 21; 22; 23; 24; 25; -1; -1; -1; -1; -1;
   -1; 26; 27; 28; 29; 30; 31; 32; 33; 34; 35; 36; 37; 38; 39; 40;
   41; 42; 43; 44; 45; 46; 47; 48; 49; 50; 51; -1; -1; -1; -1; -1
   -1; -1; -1; -1; -1; -1; -1; -1; -1; -1; -1; -1; -1; -1; -1; -1;
   -1; -1; -1; -1; -1; -1; -1; -1; -1; -1; -1; -1; -1; -1; -1; -1;
   -1; -1; -1; -1; -1; -1; -1; -1; -1; -1; -1; -1; -1; -1; -1; -1;
   -1; -1; -1; -1; -1; -1; -1; -1; -1; -1; -1; -1; -1; -1; -1; -1;
   -1; -1; -1; -1; -1; -1; -1; -1; -1; -1; -1; -1; -1; -1; -1; -1;
   -1; -1; -1; -1; -1; -1; -1; -1; -1; -1; -1; -1; -1; -1; -1; -1;
   -1; -1; -1; -1; -1; -1; -1; -1; -1; -1; -1; -1; -1; -1; -1; -1;
   -1; -1; -1; -1; -1; -1; -1; -1; -1; -1; -1; -1; -1; -1; -1; -1] ++ [0].

(** include/base64.h:70-75. *)
Definition BASE64_ILLEGAL_OTHER : Z := -1.
Definition BASE64_ILLEGAL_WHITESPACE : Z := -2.
Definition BASE64_ILLEGAL_TRAILER : Z := -3.
Definition BASE64_ILLEGAL_NUL : Z := -4.

(** src/base64.c:38-49 base64_char. [pos62], [pos63] are (signed) chars; the
    result is the byte stored. *)
Definition base64_char (bitfield pos62 pos63 : Z) : Z :=
  let bitfield := Z.land (u8 bitfield) 63 in
  if bitfield =? 62 then u8 pos62
  else if bitfield =? 63 then u8 pos63
  else nth (Z.to_nat bitfield) base64_bitfield_encoding 0.

(** src/base64.c:54-61: one step [if (i++ < size) p[i-1] = c]. *)
Definition put1 (st : list Z * Z) (size c : Z) : res (list Z * Z) :=
  let '(p, i) := st in
  if i <? size then p' <- wr p i c ;; Ok (p', u64 (i + 1)) else Ok (p, u64 (i + 1)).

(** src/base64.c:51-63 put4. *)
Definition put4 (p : list Z) (i size c0 c1 c2 c3 : Z) : res (list Z * Z) :=
  st <- put1 (p, i) size c0 ;;
  st <- put1 st size c1 ;;
  st <- put1 st size c2 ;;
  put1 st size c3.

(** src/base64.c:79, 87: [q[0] << 16 | q[1] << 8 | q[2]]. *)
Definition group3 (src : list Z) (q : Z) : res Z :=
  a <- rd src q ;;
  b <- rd src (q + 1) ;;
  c <- rd src (q + 2) ;;
  Ok (Z.lor (Z.lor (Z.shiftl a 16) (Z.shiftl b 8)) c).

(** src/base64.c:78-85: the body loop. [i] cannot wrap here since every step
    writes inside dest. *)
Fixpoint encode_body (fuel : nat) (src dest : list Z) (q tail i counter pos62 pos63 : Z)
  : res (list Z * Z * Z) :=
  match fuel with
  | O => NoFuel
  | S fuel =>
    if truth counter && (q <? tail) then
      bits <- group3 src q ;;
      dest <- wr dest i (base64_char (Z.shiftr bits 18) pos62 pos63) ;;
      dest <- wr dest (i + 1) (base64_char (Z.shiftr bits 12) pos62 pos63) ;;
      dest <- wr dest (i + 2) (base64_char (Z.shiftr bits 6) pos62 pos63) ;;
      dest <- wr dest (i + 3) (base64_char bits pos62 pos63) ;;
      encode_body fuel src dest (q + 3) tail (i + 4) (counter - 1) pos62 pos63
    else Ok (dest, q, i)
  end.

(** src/base64.c:65-121 base64_encode_buffer. [src], [dest] are the memory
    blocks pointed to; result: final dest block and returned size. *)
Definition base64_encode_buffer (src : list Z) (source_size : Z) (dest : list Z) (dest_size : Z)
           (pos62 pos63 : Z) : res (list Z * Z) :=
  let tail := source_size - source_size mod 3 in
  let pos62 := if pos62 =? -1 then 43 (* '+' *) else pos62 in
  let pos63 := if pos63 =? -1 then 47 (* '/' *) else pos63 in
  '(dest, q, i) <- encode_body (S (length src)) src dest 0 tail 0 (dest_size / 4) pos62 pos63 ;;
  '(dest, q, i) <-
     (if q <? tail then
        bits <- group3 src q ;;
        '(dest, i) <- put4 dest i dest_size
             (base64_char (Z.shiftr bits 18) pos62 pos63)
             (base64_char (Z.shiftr bits 12) pos62 pos63)
             (base64_char (Z.shiftr bits 6) pos62 pos63)
             (base64_char bits pos62 pos63) ;;
        Ok (dest, q + 3, i)
      else Ok (dest, q, i)) ;;
  let i := u64 (i + (tail - q) / 3 * 4) in
  let q := tail in
  '(dest, i) <-
     (if source_size mod 3 =? 0 then Ok (dest, i)
      else if source_size mod 3 =? 1 then
        a <- rd src q ;;
        let bits := Z.shiftl a 16 in
        put4 dest i dest_size
             (base64_char (Z.shiftr bits 18) pos62 pos63)
             (base64_char (Z.shiftr bits 12) pos62 pos63)
             61 61
      else
        a <- rd src q ;;
        b <- rd src (q + 1) ;;
        let bits := Z.lor (Z.shiftl a 16) (Z.shiftl b 8) in
        put4 dest i dest_size
             (base64_char (Z.shiftr bits 18) pos62 pos63)
             (base64_char (Z.shiftr bits 12) pos62 pos63)
             (base64_char (Z.shiftr bits 6) pos62 pos63)
             61) ;;
  dest <- (if i <? dest_size then wr dest i 0
           else if truth dest_size then wr dest (dest_size - 1) 0
           else Ok dest) ;;
  Ok (dest, i).

(** src/base64.c:123-132 base64_encode_simple: [None] is NULL; the returned
    block has encoding_size + 1 bytes. *)
Definition base64_encode_simple (junk : nat -> Z) (buffer : list Z) (size : Z) : res (option (list Z)) :=
  let encoding_size := base64_encoding_size size in
  if encoding_size =? u64 (-1) then Ok None
  else
    let result := fresh_block junk (u64 (encoding_size + 1)) in
    '(result, _) <- base64_encode_buffer buffer size result (u64 (encoding_size + 1)) (-1) (-1) ;;
    Ok (Some result).

(** src/base64.c:140, 178: [base64_bitfield_decoding[c & 0xff]] (c: the byte). *)
Definition decoding (c : Z) : Z := nth (Z.to_nat c) base64_bitfield_decoding 0.

(** src/base64.c:139-143: the whitespace loop of good_termination. *)
Fixpoint termination_loop (fuel : nat) (src : list Z) (r remainder_size : Z) : res bool :=
  match fuel with
  | O => NoFuel
  | S fuel =>
    if truth remainder_size then
      c <- rd src r ;;
      if truth c then
        if negb (decoding c =? BASE64_ILLEGAL_WHITESPACE) then Ok false
        else termination_loop fuel src (r + 1) (remainder_size - 1)
      else Ok true
    else Ok true
  end.

(** src/base64.c:134-144 good_termination ([remainder] = index [r] in src). *)
Definition good_termination (src : list Z) (r remainder_size : Z) (ignore_wsp : bool) : res bool :=
  if negb ignore_wsp then
    if remainder_size =? 0 then Ok true
    else c <- rd src r ;; Ok (negb (truth c))
  else termination_loop (S (length src)) src r remainder_size.

(** [!strncmp(tail, padding, strlen(padding))] (src/base64.c:167): compares
    until a difference; padding contains no NUL. *)
Fixpoint starts_with (src : list Z) (t : Z) (padding : list Z) : res bool :=
  match padding with
  | [] => Ok true
  | p :: padding =>
    c <- rd src t ;;
    if c =? p then starts_with src (t + 1) padding else Ok false
  end.

(** src/base64.c:146-170 good_base64_tail. *)
Definition good_base64_tail (src : list Z) (t tail_size bit_count : Z) (ignore_wsp : bool) : res bool :=
  if bit_count =? 6 then Ok false
  else
    padding <- (if bit_count =? 0 then Ok []
                else if bit_count =? 4 then Ok [61; 61]
                else if bit_count =? 2 then Ok [61]
                else Abort) ;;
    let padding_len := zlen padding in
    if tail_size >=? padding_len then
      m <- starts_with src t padding ;;
      if m : bool then good_termination src (t + padding_len) (tail_size - padding_len) ignore_wsp
      else Ok false
    else Ok false.

(** src/base64.c:172-190 get_bits. [c] is the byte read; it is compared with
    the (signed) chars pos62/pos63 as a signed char. *)
Definition get_bits (c pos62 pos63 : Z) (ignore_wsp : bool) : Z :=
  if s8 c =? pos62 then 62
  else if s8 c =? pos63 then 63
  else
    let new_bits := decoding c in
    if (new_bits =? 62) || (new_bits =? 63) then BASE64_ILLEGAL_OTHER
    else if new_bits =? BASE64_ILLEGAL_WHITESPACE then
      if negb ignore_wsp then BASE64_ILLEGAL_OTHER else new_bits
    else new_bits.

(** errno values used by base64.c. *)
Inductive b64_errno := EILSEQ | EOVERFLOW.

Record dec_state := DecState { d_si : Z; d_pi : Z; d_bits : Z; d_count : Z; d_dest : list Z }.

(** Outcome of a decoding loop: finished, or [return -1] with EILSEQ. *)
Inductive loop_out := LDone (st : dec_state) | LBad (dest : list Z).

(** src/base64.c:205-220 the storing loop. *)
Fixpoint decode_store (fuel : nat) (src : list Z) (source_size dest_size pos62 pos63 : Z)
         (ignore_wsp : bool) (st : dec_state) : res loop_out :=
  match fuel with
  | O => NoFuel
  | S fuel =>
    let '(DecState si pi bits bit_count dest) := st in
    if (pi <? dest_size) && (si <? source_size) then
      c <- rd src si ;;
      if truth c && negb (c =? 61) then
        let new_bits := get_bits c pos62 pos63 ignore_wsp in
        if new_bits <? 0 then
          if new_bits =? BASE64_ILLEGAL_WHITESPACE then
            decode_store fuel src source_size dest_size pos62 pos63 ignore_wsp
                         (DecState (si + 1) pi bits bit_count dest)
          else Ok (LBad dest)
        else
          let bits := u32 (Z.lor (Z.shiftl bits 6) new_bits) in
          let bit_count := bit_count + 6 in
          if bit_count >=? 8 then
            let bit_count := bit_count - 8 in
            dest <- wr dest pi (Z.land (Z.shiftr bits bit_count) 255) ;;
            decode_store fuel src source_size dest_size pos62 pos63 ignore_wsp
                         (DecState (si + 1) (pi + 1) bits bit_count dest)
          else
            decode_store fuel src source_size dest_size pos62 pos63 ignore_wsp
                         (DecState (si + 1) pi bits bit_count dest)
      else Ok (LDone st)
    else Ok (LDone st)
  end.

(** src/base64.c:221-235 the counting loop. *)
Fixpoint decode_count (fuel : nat) (src : list Z) (source_size pos62 pos63 : Z)
         (ignore_wsp : bool) (st : dec_state) : res loop_out :=
  match fuel with
  | O => NoFuel
  | S fuel =>
    let '(DecState si pi bits bit_count dest) := st in
    if si <? source_size then
      c <- rd src si ;;
      if truth c && negb (c =? 61) then
        let new_bits := get_bits c pos62 pos63 ignore_wsp in
        if new_bits <? 0 then
          if new_bits =? BASE64_ILLEGAL_WHITESPACE then
            decode_count fuel src source_size pos62 pos63 ignore_wsp
                         (DecState (si + 1) pi bits bit_count dest)
          else Ok (LBad dest)
        else
          let bits := u32 (Z.lor (Z.shiftl bits 6) new_bits) in
          let bit_count := bit_count + 6 in
          if bit_count >=? 8 then
            decode_count fuel src source_size pos62 pos63 ignore_wsp
                         (DecState (si + 1) (pi + 1) bits (bit_count - 8) dest)
          else
            decode_count fuel src source_size pos62 pos63 ignore_wsp
                         (DecState (si + 1) pi bits bit_count dest)
      else Ok (LDone st)
    else Ok (LDone st)
  end.

(** Result of base64_decode_buffer: the returned count, or -1 with errno; and
    the final content of dest. *)
Inductive dec_result :=
| DecOk (count : Z) (dest : list Z)
| DecFail (errno : b64_errno) (dest : list Z).

(** src/base64.c:192-247 base64_decode_buffer. *)
Definition base64_decode_buffer (src : list Z) (source_size : Z) (dest : list Z) (dest_size : Z)
           (pos62 pos63 : Z) (ignore_wsp : bool) : res dec_result :=
  let pos62 := if pos62 =? -1 then 43 else pos62 in
  let pos63 := if pos63 =? -1 then 47 else pos63 in
  r <- decode_store (S (length src)) src source_size dest_size pos62 pos63 ignore_wsp
                    (DecState 0 0 0 0 dest) ;;
  match r with
  | LBad dest => Ok (DecFail EILSEQ dest)
  | LDone st =>
    r <- decode_count (S (length src)) src source_size pos62 pos63 ignore_wsp st ;;
    match r with
    | LBad dest => Ok (DecFail EILSEQ dest)
    | LDone (DecState si pi bits bit_count dest) =>
      if truth (Z.land bits (Z.ones bit_count)) (* bits & ~(~0U << bit_count) *)
      then Ok (DecFail EILSEQ dest)
      else
        g <- good_base64_tail src si (source_size - si) bit_count ignore_wsp ;;
        if negb g then Ok (DecFail EILSEQ dest)
        else if s64 pi <? 0 then Ok (DecFail EOVERFLOW dest)
        else Ok (DecOk pi dest)
    end
  end.

(** src/base64.c:249-259 base64_decode_simple: NULL or the returned block and
    *binary_size. [encoding] is the block holding the NUL-terminated string. *)
Definition base64_decode_simple (junk : nat -> Z) (encoding : list Z) : res (option (list Z * Z)) :=
  r <- base64_decode_buffer encoding (u64 (-1)) [] 0 (-1) (-1) true ;;
  match r with
  | DecFail _ _ => Ok None
  | DecOk count _ =>
    let result := fresh_block junk (count + 1) in
    r <- base64_decode_buffer encoding (u64 (-1)) result count (-1) (-1) true ;;
    let result := match r with DecOk _ d => d | DecFail _ d => d end in
    result <- wr result count 0 ;;
    Ok (Some (result, count))
  end.
