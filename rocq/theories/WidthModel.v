(** The computations of sizes, on a platform where size_t has [w] bits and unsigned long has
    [lb] bits. In the other model files [w] and [lb] are 64 (LP64). *)
From Verif Require Import Base CMem CharstrModel UrlModel Utf8Model Base64Model IntsetModel IntsetSpec ByteArrayModel.

(** Conversion to size_t *)
Definition uw (w x : Z) : Z := x mod 2 ^ w.

(** src/charstr.c:656-657 *)
Fixpoint encoded_length_on (w : Z) (encoder : url_encoder) (sp : list Z) (length : Z) : res Z :=
  match sp with
  | [] => UB
  | c :: sp =>
      if truth c then encoded_length_on w encoder sp (uw w (length + url_encoding_width encoder c)) else Ok length
  end.
(** src/charstr.c:651-670 charstr_url_custom_encode (fsalloc succeeds) *)
Definition charstr_url_custom_encode_on (w : Z) (junk : nat -> Z) (encoder : url_encoder) (string : list Z) : res (list Z) :=
  length <- encoded_length_on w encoder string 0 ;;
  encode_loop encoder string (fresh_block junk (uw w (length + 1))) 0.
(** src/charstr.c:672-675 charstr_url_encode *)
Definition charstr_url_encode_on (w : Z) (junk : nat -> Z) (string : list Z) : res (list Z) :=
  charstr_url_custom_encode_on w junk default_encoder string.

(** src/charstr.c:681-687 *)
Fixpoint decoded_length_on (w : Z) (ep : list Z) (length : Z) : res (option Z) :=
  match ep with
  | [] => UB
  | c :: ep =>
      if truth c then
        if c =? 37 then
          match ep with
          | [] => UB
          | h :: ep =>
              if negb (is_hex h) then Ok None
              else match ep with
                   | [] => UB
                   | l :: ep => if negb (is_hex l) then Ok None else decoded_length_on w ep (uw w (length + 1))
                   end
          end
        else decoded_length_on w ep (uw w (length + 1))
      else Ok (Some length)
  end.
(** src/charstr.c:677-712 charstr_url_decode (fsalloc succeeds) *)
Definition charstr_url_decode_on (w : Z) (junk : nat -> Z) (encoding : list Z) (plus_is_space : bool)
  : res (option (list Z * Z)) :=
  length <- decoded_length_on w encoding 0 ;;
  match length with
  | None => Ok None
  | Some length =>
      b <- decode_loop plus_is_space encoding (fresh_block junk (uw w (length + 1))) 0 ;;
      Ok (Some (b, length))
  end.

(** src/charstr.c:513-523 *)
Fixpoint count_bad_on (w : Z) (fuel : nat) (t : list Z) (bad_bytes : Z) : res (list Z * Z) :=
  match fuel with
  | O => NoFuel
  | S fuel =>
      c <- cur t ;;
      if truth c then
        u <- charstr_decode_utf8_codepoint (Some t) None ;;
        match u with
        | Some (u, _) => count_bad_on w fuel u bad_bytes
        | None => count_bad_on w fuel (tl t) (uw w (bad_bytes + 1))
        end
      else Ok (t, bad_bytes)
  end.
(** src/charstr.c:510-541 charstr_sanitize_utf8 *)
Definition charstr_sanitize_utf8_on (w : Z) (junk : nat -> Z) (s : list Z) : res (list Z) :=
  '(t, bad_bytes) <- count_bad_on w (S (length s)) s 0 ;;
  let sane_length := uw w (zlen s - zlen t + bad_bytes * (zlen REPLACEMENT_CHARACTER - 1)) in
  let sane := fresh_block junk (uw w (sane_length + 1)) in
  sanitize_loop (S (length s)) s sane 0.

(** src/base64.c:8-14 base64_encoding_size *)
Definition base64_encoding_size_on (w binary_size : Z) : Z :=
  let encoding_size := uw w (uw w (binary_size + 2) / 3 * 4) in
  if encoding_size <? binary_size then uw w (-1) else encoding_size.

(** src/intset.c:10 BITS_TO_LONGS *)
Definition bits_to_longs_on (w lb bits : Z) : Z := uw w (bits + lb - 1) / lb.
(** src/intset.c:12-18 make_intset (the memory is there) *)
Definition make_intset_on (w lb size : Z) : intset := Intset size (repeat 0 (Z.to_nat (bits_to_longs_on w lb size))).
(** src/intset.c:26-31 intset_fill; [i] is a 32-bit unsigned. *)
Fixpoint fill_loop_on (lb : Z) (fuel : nat) (n : Z) (b : list Z) (i : Z) : res (list Z) :=
  match fuel with
  | O => NoFuel
  | S fuel =>
      if i <? n then b <- wr b i (2 ^ lb - 1) ;; fill_loop_on lb fuel n b (u32 (i + 1))
      else Ok b
  end.
Definition intset_fill_on (w lb : Z) (s : intset) : res intset :=
  b <- fill_loop_on lb (S (length (IntsetModel.data s))) (bits_to_longs_on w lb (IntsetModel.size s)) (IntsetModel.data s) 0 ;;
  Ok (Intset (IntsetModel.size s) b).
(** src/intset.c:33-37 intset_add *)
Definition intset_add_on (lb : Z) (s : intset) (elem : Z) : res intset :=
  if elem <? IntsetModel.size s then
    x <- rd (IntsetModel.data s) (elem / lb) ;;
    b <- wr (IntsetModel.data s) (elem / lb) (Z.lor x (uw lb (Z.shiftl 1 (elem mod lb)))) ;;
    Ok (Intset (IntsetModel.size s) b)
  else Ok s.
(** src/intset.c:39-43 intset_remove *)
Definition intset_remove_on (lb : Z) (s : intset) (elem : Z) : res intset :=
  if elem <? IntsetModel.size s then
    x <- rd (IntsetModel.data s) (elem / lb) ;;
    b <- wr (IntsetModel.data s) (elem / lb) (Z.land x (2 ^ lb - 1 - uw lb (Z.shiftl 1 (elem mod lb)))) ;;
    Ok (Intset (IntsetModel.size s) b)
  else Ok s.
(** src/intset.c:45-51 intset_has *)
Definition intset_has_on (lb : Z) (s : intset) (elem : Z) : res bool :=
  if elem <? IntsetModel.size s then
    x <- rd (IntsetModel.data s) (elem / lb) ;;
    Ok (truth (Z.land x (uw lb (Z.shiftl 1 (elem mod lb)))))
  else Ok false.
(** A history of operations. *)
Definition step_on (w lb : Z) (s : intset) (o : op) : res intset :=
  match o with
  | Add e => intset_add_on lb s e
  | Remove e => intset_remove_on lb s e
  | Fill => intset_fill_on w lb s
  end.
Fixpoint run_on (w lb : Z) (s : intset) (ops : list op) : res intset :=
  match ops with
  | [] => Ok s
  | o :: ops => s <- step_on w lb s o ;; run_on w lb s ops
  end.

(** src/bytearray.c:56-63: the rounding loop; SIZE_MAX is [2 ^ w - 1]. *)
Fixpoint round_loop_on (w : Z) (fuel : nat) (target n : Z) : res Z :=
  match fuel with
  | O => NoFuel
  | S fuel =>
      if n <? target then
        if n >? (2 ^ w - 1) / 2 then Ok (2 ^ w - 1)
        else round_loop_on w fuel target (uw w (Z.shiftl n 1))
      else Ok n
  end.
(** src/bytearray.c:44-69 ensure_space *)
Definition ensure_space_on (w : Z) (junk : nat -> Z) (a : byte_array) (len : Z) : res (byte_array * bool) :=
  if len >=? uw w (max_size a - cursor a) then
    Ok (BA (data a) (cursor a) (max_size a) (size a) (ref_count a) ENOSPC, false)
  else if len >=? uw w (size a - cursor a) then
    n <- round_loop_on w (Z.to_nat (w + 2)) (uw w (cursor a + len + 1)) 1 ;;
    Ok (BA (realloc junk (data a) n) (cursor a) (max_size a) n (ref_count a) (errno a), true)
  else Ok (a, true).
(** src/bytearray.c:97-106 byte_array_append *)
Definition byte_array_append_on (w : Z) (junk : nat -> Z) (a : byte_array) (src : list Z) (len : Z)
  : res (byte_array * bool) :=
  '(a, ok) <- ensure_space_on w junk a len ;;
  if negb ok then Ok (a, false)
  else if len >? zlen src then UB
  else
    d <- blit (data a) (cursor a) (firstn (Z.to_nat len) src) ;;
    a <- set_cursor a d (uw w (cursor a + len)) ;; Ok (a, true).
