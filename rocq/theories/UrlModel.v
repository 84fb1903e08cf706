(** Model of the URL encoding functions of src/charstr.c. *)
From Verif Require Import Base CMem CharstrTables CharstrModel.

(** src/charstr.c:566-568 struct charstr_url_encoder: each table entry is the
    string in the 4-byte array, without its NUL. *)
Definition url_encoder : Type := list (list Z).

(** src/charstr.c:570-605 url_encoder *)
Definition default_encoder : url_encoder := url_table.

(** A digit printed by %X. *)
Definition hex_digit (n : Z) : Z := if n <? 10 then 48 + n else 55 + n.
(** snprintf(..., "%%%02X", i) for i in 0..255 *)
Definition percent (i : Z) : list Z := [37; hex_digit (i / 16); hex_digit (i mod 16)].

(** src/charstr.c:614-617 *)
Fixpoint reserve_loop (table : url_encoder) (p : list Z) : res url_encoder :=
  match p with
  | [] => UB
  | c :: p => if truth c then table <- wr table (u8 c) (percent (u8 c)) ;; reserve_loop table p else Ok table
  end.
(** src/charstr.c:618-621 *)
Fixpoint unreserve_loop (table : url_encoder) (p : list Z) : res url_encoder :=
  match p with
  | [] => UB
  | c :: p => if truth c then table <- wr table (u8 c) [u8 c] ;; unreserve_loop table p else Ok table
  end.

(** src/charstr.c:607-623 charstr_create_url_encoder *)
Definition charstr_create_url_encoder (reserve unreserve : list Z) : res url_encoder :=
  table <- reserve_loop default_encoder reserve ;;
  unreserve_loop table unreserve.

(** src/charstr.c:630-634 charstr_url_custom_encode_byte *)
Definition charstr_url_custom_encode_byte (encoder : url_encoder) (byte : Z) : list Z :=
  nth (Z.to_nat (u8 byte)) encoder [].
(** src/charstr.c:636-639 charstr_url_encode_byte *)
Definition charstr_url_encode_byte (byte : Z) : list Z :=
  charstr_url_custom_encode_byte default_encoder byte.

(** src/charstr.c:641-649 url_encoding_width; the string may be empty: its first
    byte is then NUL. *)
Definition url_encoding_width (encoder : url_encoder) (byte : Z) : Z :=
  if nth 0 (charstr_url_custom_encode_byte encoder byte) 0 =? 37 then 3 else 1.

(** src/charstr.c:656-657 *)
Fixpoint encoded_length (encoder : url_encoder) (sp : list Z) (length : Z) : res Z :=
  match sp with
  | [] => UB
  | c :: sp =>
      if truth c then encoded_length encoder sp (u64 (length + url_encoding_width encoder c)) else Ok length
  end.

(** src/charstr.c:664-667: the inner loop *)
Fixpoint put_string (b : list Z) (ep : Z) (urlp : list Z) : res (list Z * Z) :=
  match urlp with
  | [] => Ok (b, ep)
  | c :: urlp => b <- wr b ep c ;; put_string b (ep + 1) urlp
  end.

(** src/charstr.c:663-668 *)
Fixpoint encode_loop (encoder : url_encoder) (sp : list Z) (b : list Z) (ep : Z) : res (list Z) :=
  match sp with
  | [] => UB
  | c :: sp =>
      if truth c then
        '(b, ep) <- put_string b ep (charstr_url_custom_encode_byte encoder c) ;;
        encode_loop encoder sp b ep
      else wr b ep 0
  end.

(** src/charstr.c:651-670 charstr_url_custom_encode (fsalloc succeeds) *)
Definition charstr_url_custom_encode (junk : nat -> Z) (encoder : url_encoder) (string : list Z) : res (list Z) :=
  length <- encoded_length encoder string 0 ;;
  encode_loop encoder string (fresh_block junk (u64 (length + 1))) 0.

(** src/charstr.c:672-675 charstr_url_encode *)
Definition charstr_url_encode (junk : nat -> Z) (string : list Z) : res (list Z) :=
  charstr_url_custom_encode junk default_encoder string.

(** [charstr_char_class(c) & CHARSTR_HEX] *)
Definition is_hex (c : Z) : bool := truth (Z.land (charstr_char_class c) CHARSTR_HEX).

(** src/charstr.c:681-687: the decoded length, or None (EILSEQ) *)
Fixpoint decoded_length (ep : list Z) (length : Z) : res (option Z) :=
  match ep with
  | [] => UB
  | c :: ep =>
      if truth c then
        if c =? 37 then
          match ep with
          | [] => UB
          | h :: ep =>
              if negb (is_hex h) then Ok None
              else match ep with
                   | [] => UB
                   | l :: ep => if negb (is_hex l) then Ok None else decoded_length ep (u64 (length + 1))
                   end
          end
        else decoded_length ep (u64 (length + 1))
      else Ok (Some length)
  end.

(** src/charstr.c:693-711 *)
Fixpoint decode_loop (plus_is_space : bool) (ep : list Z) (b : list Z) (dp : Z) : res (list Z) :=
  match ep with
  | [] => UB
  | c :: ep =>
      if c =? 0 then wr b dp 0
      else if c =? 43 then
        b <- wr b dp (if plus_is_space then 32 else 43) ;; decode_loop plus_is_space ep b (dp + 1)
      else if c =? 37 then
        match ep with
        | [] => UB
        | h :: ep =>
            b <- wr b dp (u8 (charstr_digit_value h * 16)) ;;
            match ep with
            | [] => UB
            | l :: ep =>
                x <- rd b dp ;;
                b <- wr b dp (u8 (x + charstr_digit_value l)) ;;
                decode_loop plus_is_space ep b (dp + 1)
            end
        end
      else
        b <- wr b dp c ;; decode_loop plus_is_space ep b (dp + 1)
  end.

(** src/charstr.c:677-712 charstr_url_decode (fsalloc succeeds): None is NULL
    with EILSEQ, otherwise the block and *size. *)
Definition charstr_url_decode (junk : nat -> Z) (encoding : list Z) (plus_is_space : bool)
  : res (option (list Z * Z)) :=
  length <- decoded_length encoding 0 ;;
  match length with
  | None => Ok None
  | Some length =>
      b <- decode_loop plus_is_space encoding (fresh_block junk (u64 (length + 1))) 0 ;;
      Ok (Some (b, length))
  end.
