(** Models of the programs test/intset_test.c, test/base64_test.c and
    test/charstr_normalization_test.c with any data. What is printed is left out; assert() is
    [Abort]. *)
From Verif Require Import Base CMem CharstrModel Utf8Model IntsetModel Base64Model NormModel.

(** * test/intset_test.c: [elements] instead of 256 random truth values *)

(** elements[i] *)
Definition element (elements : list bool) (i : Z) : res bool :=
  if (0 <=? i) && (i <? zlen elements) then Ok (nth (Z.to_nat i) elements false) else UB.
(** assert() *)
Definition assert_that (b : bool) : res unit := if b then Ok tt else Abort.

(** test/intset_test.c:29-31; [n] more rounds from [i] *)
Fixpoint add_loop (elements : list bool) (n : nat) (i : Z) (s : intset) : res intset :=
  match n with
  | O => Ok s
  | S n =>
      b <- element elements i ;;
      s <- (if b then intset_add s i else Ok s) ;;
      add_loop elements n (i + 1) s
  end.
(** test/intset_test.c:32-35 *)
Fixpoint has_loop (elements : list bool) (n : nat) (i : Z) (s : intset) : res unit :=
  match n with
  | O => Ok tt
  | S n =>
      has <- intset_has s i ;;
      b <- element elements i ;;
      _ <- assert_that (Bool.eqb has b) ;;
      has_loop elements n (i + 1) s
  end.
(** test/intset_test.c:37-43, 45-51: [hit] tells which one *)
Fixpoint search_loop (elements : list bool) (hit : bool) (fuel : nat) (s : intset) (elem : Z) : res unit :=
  match fuel with
  | O => NoFuel
  | S fuel =>
      elem <- (if hit then intset_find_next_hit s elem else intset_find_next_miss s elem) ;;
      if elem <? 0 then Ok tt
      else
        b <- element elements elem ;;
        _ <- assert_that (if hit then b else negb b) ;;
        search_loop elements hit fuel s (elem + 1)
  end.
(** test/intset_test.c:52-53 *)
Fixpoint remove_loop (n : nat) (i : Z) (s : intset) : res intset :=
  match n with
  | O => Ok s
  | S n => s <- intset_remove s i ;; remove_loop n (i + 1) s
  end.
(** test/intset_test.c:23-56 main. The searches end after at most one round for each element and one
    more. *)
Definition intset_test (elements : list bool) : res unit :=
  let n := length elements in
  let s := make_intset (zlen elements) in
  e <- intset_empty s ;;
  _ <- assert_that e ;;
  s <- add_loop elements n 0 s ;;
  _ <- has_loop elements n 0 s ;;
  _ <- search_loop elements true (S n) s 0 ;;
  _ <- search_loop elements false (S n) s 0 ;;
  s <- remove_loop n 0 s ;;
  e <- intset_empty s ;;
  assert_that e.

(** * test/base64_test.c: the rows of the table [data] are the strings [decoded] and [encoded] *)

(** memcmp() == 0 *)
Fixpoint same_bytes (n : nat) (a b : list Z) : res bool :=
  match n with
  | O => Ok true
  | S n =>
      match a, b with
      | x :: a, y :: b => if x =? y then same_bytes n a b else Ok false
      | _, _ => UB
      end
  end.
(** The count returned by base64_decode_buffer, as a size_t, and the buffer *)
Definition count_of (r : dec_result) : Z * list Z :=
  match r with
  | DecOk count dest => (count, dest)
  | DecFail _ dest => (u64 (-1), dest)
  end.
(** memset(buffer, '^', size) *)
Definition carets (size : Z) : list Z := repeat 94 (Z.to_nat size).

(** test/base64_test.c:22-34: one row of test_encoding_length *)
Definition encoding_length_row (decoded encoded : list Z) : res bool :=
  decoded_size <- strlen decoded ;;
  '(_, count) <- base64_encode_buffer decoded decoded_size [] 0 (-1) (-1) ;;
  encoded_size <- strlen encoded ;;
  if negb (count =? encoded_size) then Ok false
  else if negb (count =? base64_encoding_size decoded_size) then Ok false
  else Ok true.
(** test/base64_test.c:43-59: one row of test_decoding_length *)
Definition decoding_length_row (decoded encoded : list Z) : res bool :=
  encoded_size <- strlen encoded ;;
  r <- base64_decode_buffer encoded encoded_size [] 0 (-1) (-1) false ;;
  decoded_size <- strlen decoded ;;
  if negb (fst (count_of r) =? decoded_size) then Ok false
  else
    r <- base64_decode_buffer encoded (u64 (-1)) [] 0 (-1) (-1) false ;;
    decoded_size <- strlen decoded ;;
    if negb (fst (count_of r) =? decoded_size) then Ok false else Ok true.
(** test/base64_test.c:72-92: the inner loop of test_truncated_encoding; [n] more rounds *)
Fixpoint truncated_encodings (decoded encoded : list Z) (decoded_size encoded_size : Z) (n : nat) (j : Z) : res bool :=
  match n with
  | O => Ok true
  | S n =>
      let buffer := carets (encoded_size + 10) in
      '(buffer, count) <- base64_encode_buffer decoded decoded_size buffer (j + 1) (-1) (-1) ;;
      if negb (count =? encoded_size) then Ok false
      else
        c <- rd buffer j ;;
        if truth c then Ok false
        else
          same <- same_bytes (Z.to_nat j) buffer encoded ;;
          if negb same then Ok false else truncated_encodings decoded encoded decoded_size encoded_size n (j + 1)
  end.
(** test/base64_test.c:68-105: one row of test_truncated_encoding *)
Definition truncated_encoding_row (decoded encoded : list Z) : res bool :=
  decoded_size <- strlen decoded ;;
  encoded_size <- strlen encoded ;;
  ok <- truncated_encodings decoded encoded decoded_size encoded_size (Z.to_nat encoded_size) 0 ;;
  if negb ok then Ok false
  else
    let buffer := carets (encoded_size + 10) in
    '(buffer, count) <- base64_encode_buffer decoded decoded_size buffer (encoded_size + 10) (-1) (-1) ;;
    if negb (count =? encoded_size) then Ok false
    else strcmp_eq buffer encoded.
(** test/base64_test.c:118-138: the inner loop of test_truncated_decoding; [n] more rounds *)
Fixpoint truncated_decodings (decoded encoded : list Z) (decoded_size encoded_size : Z) (n : nat) (j : Z) : res bool :=
  match n with
  | O => Ok true
  | S n =>
      let buffer := carets (decoded_size + 10) in
      r <- base64_decode_buffer encoded encoded_size buffer j (-1) (-1) false ;;
      let '(count, buffer) := count_of r in
      if negb (count =? decoded_size) then Ok false
      else
        c <- rd buffer j ;;
        if negb (c =? 94) then Ok false
        else
          same <- same_bytes (Z.to_nat j) buffer decoded ;;
          if negb same then Ok false else truncated_decodings decoded encoded decoded_size encoded_size n (j + 1)
  end.
(** test/base64_test.c:114-152: one row of test_truncated_decoding *)
Definition truncated_decoding_row (decoded encoded : list Z) : res bool :=
  decoded_size <- strlen decoded ;;
  encoded_size <- strlen encoded ;;
  ok <- truncated_decodings decoded encoded decoded_size encoded_size (Z.to_nat decoded_size) 0 ;;
  if negb ok then Ok false
  else
    let buffer := carets (decoded_size + 10) in
    r <- base64_decode_buffer encoded encoded_size buffer (decoded_size + 10) (-1) (-1) false ;;
    let '(count, buffer) := count_of r in
    if negb (count =? decoded_size) then Ok false
    else same_bytes (Z.to_nat count) buffer decoded.
(** test/base64_test.c:20-36, 41-61, 66-107, 112-154: the loops over the table *)
Fixpoint all_rows (test : list Z -> list Z -> res bool) (rows : list (list Z * list Z)) : res bool :=
  match rows with
  | [] => Ok true
  | (decoded, encoded) :: rows =>
      ok <- test decoded encoded ;;
      if negb ok then Ok false else all_rows test rows
  end.
(** test/base64_test.c:157-169 main: [true] is EXIT_SUCCESS *)
Definition base64_test (rows : list (list Z * list Z)) : res bool :=
  ok <- all_rows encoding_length_row rows ;;
  if negb ok then Ok false
  else
    ok <- all_rows decoding_length_row rows ;;
    if negb ok then Ok false
    else
      ok <- all_rows truncated_encoding_row rows ;;
      if negb ok then Ok false
      else
        ok <- all_rows truncated_decoding_row rows ;;
        Ok ok.

(** * test/charstr_normalization_test.c *)

(** What the uninitialized local variables hold: the two arrays here and the two structs in
    charstr_unicode_recompose; and errno. *)
Record leftovers := mk_leftovers {
  l_nfd_output : list Z; l_nfc_output : list Z; l_recomposer : recomposer; l_hangul : hangul_recomposer; l_errno : Z
}.

(** test/charstr_normalization_test.c:38-67 verify_normalization *)
Definition verify_normalization (l : leftovers) (str nfd_str nfc_str : list Z) : res bool :=
  '(nfd_output, r) <- charstr_unicode_decompose str None (l_nfd_output l) 0 1000 ;;
  match r with
  | inr _ => Ok false
  | inl _ =>
      same <- strcmp_eq nfd_output nfd_str ;;
      if negb same then Ok false
      else
        '(nfc_output, r) <- charstr_unicode_recompose (l_recomposer l) (l_hangul l) nfd_output None (l_nfc_output l) 0 1000 (l_errno l) ;;
        match r with
        | inr _ => Ok false
        | inl _ => strcmp_eq nfc_output nfc_str
        end
  end.
(** test/charstr_normalization_test.c:69-79 test_normalization; strv[0..4] *)
Definition test_normalization (l : leftovers) (c1 c2 c3 c4 c5 : list Z) : res bool :=
  ok <- verify_normalization l c1 c3 c2 ;;
  if negb ok then Ok false
  else
    ok <- verify_normalization l c2 c3 c2 ;;
    if negb ok then Ok false
    else
      ok <- verify_normalization l c3 c3 c2 ;;
      if negb ok then Ok false
      else
        ok <- verify_normalization l c4 c5 c4 ;;
        if negb ok then Ok false
        else
          ok <- verify_normalization l c5 c5 c4 ;;
          if negb ok then Ok false else Ok true.
