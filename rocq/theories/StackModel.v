(** The functions of src/charstr_decompose.c and src/charstr_puny.c that have local arrays of
    variable length or are recursive, once more, on a stack of limited size: a local array of
    more than [limit] elements ends the computation (outcome [NoFuel]), and so does a recursion
    that is deeper than [depth]. C119_decompose and C119_idna_encode say that these functions
    are the same as those of NormModel.v and PunyModel.v. *)
From Verif Require Import Base CMem CharstrModel Utf8Model NormModel PunyModel IdnaEncodeModel.
Open Scope list_scope.
Open Scope Z_scope.

(** The declaration of a local array of [n] elements. *)
Definition local_array (limit n : Z) : res unit := if n <=? limit then Ok tt else NoFuel.

Section Decompose.
Variables (limit : Z) (depth : nat).

(** src/charstr_decompose.c:60-75: [sift], with the array [snippet] (line 67) *)
Fixpoint sift_limited (fuel : nat) (b : list Z) (t s after_s end_ ccc : Z) : res (list Z) :=
  match fuel with
  | O => NoFuel
  | S fuel =>
      '(after_t, t_cp) <- decode_at b t end_ ;;
      let t_ccc := charstr_unicode_canonical_combining_class t_cp in
      if t_ccc >? ccc then
        let s_count := after_s - s in
        _ <- local_array limit s_count ;;
        snippet <- slice b s s_count ;;
        moved <- slice b t (s - t) ;;
        b <- blit b (t + s_count) moved ;;
        blit b t snippet
      else sift_limited fuel b after_t s after_s end_ ccc
  end.

(** src/charstr_decompose.c:48-78: [sort_loop] *)
Fixpoint sort_loop_limited (fuel : nat) (b : list Z) (begin s end_ last_ccc : Z) : res (list Z) :=
  match fuel with
  | O => NoFuel
  | S fuel =>
      if s =? end_ then Ok b
      else
        '(after_s, codepoint) <- decode_at b s end_ ;;
        let ccc := charstr_unicode_canonical_combining_class codepoint in
        if ccc =? 0 then sort_loop_limited fuel b after_s after_s end_ 0
        else if ccc >=? last_ccc then sort_loop_limited fuel b begin after_s end_ ccc
        else
          b <- sift_limited (S (length b)) b begin s after_s end_ ccc ;;
          sort_loop_limited fuel b begin after_s end_ last_ccc
  end.
(** src/charstr_decompose.c:44-79 sort_combining_characters *)
Definition sort_combining_characters_limited (b : list Z) (begin end_ : Z) : res (list Z) :=
  sort_loop_limited (S (length b)) b begin begin end_ 0.

(** src/charstr_decompose.c:85-97: [decompose_loop], with calls of decompose_fully nested at
    most [depth] deep *)
Fixpoint decompose_loop_limited (fuel : nat) (s : list Z) (end_ : option Z) (b : list Z) (q output_end : Z)
  : res (list Z * (Z + Z)) :=
  match fuel with
  | O => NoFuel
  | S fuel =>
      if at_end s end_ then Ok (b, inl q)
      else
        c <- cur s ;;
        if truth c then
          d <- charstr_decode_utf8_codepoint (Some s) end_ ;;
          match d with
          | None => Ok (b, inr EILSEQ)
          | Some (s, codepoint) =>
              '(b, q) <- decompose_fully depth codepoint b (Some q) (Some output_end) ;;
              match q with
              | None => Ok (b, inr EOVERFLOW)
              | Some q => decompose_loop_limited fuel s end_ b q output_end
              end
          end
        else Ok (b, inl q)
  end.

(** src/charstr_decompose.c:81-105 charstr_unicode_decompose *)
Definition charstr_unicode_decompose_limited (s : list Z) (end_ : option Z) (b : list Z) (output output_end : Z)
  : res (list Z * (Z + Z)) :=
  '(b, r) <- decompose_loop_limited (S (length s)) s end_ b output output_end ;;
  match r with
  | inr e => Ok (b, inr e)
  | inl q =>
      if q =? output_end then Ok (b, inr EOVERFLOW)
      else
        b <- wr b q 0 ;;
        b <- sort_combining_characters_limited b output q ;;
        Ok (b, inl q)
  end.
End Decompose.

Section Idna.
Variables (limit snippet_limit : Z) (depth : nat).
Variables (lib : library) (junk : nat -> Z).

(** src/charstr_puny.c:146-179 punycode_encode, with the arrays [ascii] and [nonascii] (lines
    149 and 151) *)
Definition punycode_encode_limited (input : list Z) (end_ : Z) (b : list Z) (o output_size : Z)
  : res (list Z * option (list Z * Z)) :=
  _ <- local_array limit (zlen input - end_) ;;
  punycode_encode lib junk input end_ b o output_size.

(** src/charstr_puny.c:197-208: [encode_loop] *)
Fixpoint encode_loop_limited (fuel : nat) (p : list Z) (end_ : Z) (encoding : list Z) (q output_size : Z)
  : res (option (list Z * Z * Z)) :=
  match fuel with
  | O => NoFuel
  | S fuel =>
      let output_label_size := zlen encoding - q in
      ' (encoding, r) <- punycode_encode_limited p end_ encoding q output_label_size ;;
      match r with
      | None => Ok None
      | Some (p, output_label_size) =>
          _ <- assert (output_label_size <=? MAX_DNS_LABEL_LENGTH) ;;
          let output_size := output_size + (output_label_size + 1) in
          if output_size >? MAX_DNS_NAME_LENGTH - 1 then Ok None
          else
            let q := q + output_label_size in
            encoding <- wr encoding q 46 ;;
            let q := q + 1 in
            let rest := zlen p - end_ in
            if rest >? 1 then encode_loop_limited fuel (tl p) end_ encoding q output_size
            else Ok (Some (encoding, q, rest - 1))
      end
  end.

(** src/charstr_puny.c:189-212 encode_filtered *)
Definition encode_filtered_limited (hostname : list Z) (end_ : Z) : res (option (list Z)) :=
  if zlen hostname - end_ >? MAX_DNS_NAME_LENGTH then Ok None
  else
    r <- encode_loop_limited (S (List.length hostname)) hostname end_ (fresh_block junk (MAX_DNS_NAME_LENGTH + 1)) 0 0 ;;
    match r with
    | None => Ok None
    | Some (encoding, q, rest) =>
        encoding <- wr encoding (q + rest) 0 ;;
        charstr_dupstr junk (Some encoding)
    end.

(** src/charstr_puny.c:224-251 encode_nfc *)
Definition encode_nfc_limited (hostname : list Z) (end_ : Z) : res (option (list Z)) :=
  r <- nfc_loop lib (S (List.length hostname)) hostname end_ (fresh_block junk (MAX_DNS_NAME_LENGTH + 1)) 0 MAX_DNS_NAME_LENGTH ;;
  match r with
  | None => Ok None
  | Some (workarea, q) => encode_filtered_limited workarea (zlen workarea - q)
  end.

Variables (r : recomposer) (h : hangul_recomposer) (errno : Z).

(** src/charstr_puny.c:253-266 encode_nfd *)
Definition encode_nfd_limited (hostname : list Z) (end_ : Z) : res (option (list Z)) :=
  let worklen := zlen hostname - end_ in
  let workarea := fresh_block junk (worklen + 1) in
  ' (workarea, o) <- charstr_unicode_recompose r h hostname (Some end_) workarea 0 (worklen + 1) errno ;;
  match o with
  | inr _ => Ok None
  | inl workend => encode_nfc_limited workarea (zlen workarea - workend)
  end.

(** src/charstr_puny.c:268-289 charstr_idna_encode *)
Definition idna_encode_limited (hostname : list Z) : res (option (list Z)) :=
  ascii <- is_all_ascii hostname ;;
  if ascii then
    d <- charstr_dupstr junk (Some hostname) ;;
    match d with
    | None => UB
    | Some d => d <- charstr_lcase_str d 0 ;; Ok (Some d)
    end
  else
    length <- strlen hostname ;;
    let end_ := zlen hostname - length in
    composed <- charstr_unicode_canonically_composed hostname (Some end_) ;;
    if composed then encode_nfc_limited hostname end_
    else
      decomposed <- charstr_unicode_canonically_decomposed hostname (Some end_) ;;
      if decomposed then encode_nfd_limited hostname end_
      else
        let worklen := u64 (3 * length) in
        let workarea := fresh_block junk (u64 (worklen + 1)) in
        ' (workarea, o) <- charstr_unicode_decompose_limited snippet_limit depth hostname (Some end_) workarea 0 worklen ;;
        match o with
        | inr _ => Ok None
        | inl workend => encode_nfd_limited workarea (zlen workarea - workend)
        end.
End Idna.

(** src/charstr_puny.c:268-289 charstr_idna_encode, with the generated files *)
Definition charstr_idna_encode_limited (limit snippet_limit : Z) (depth : nat) (junk : nat -> Z) (r : recomposer)
  (h : hangul_recomposer) (errno : Z) (hostname : list Z) : res (option (list Z)) :=
  idna_encode_limited limit snippet_limit depth idna_library junk r h errno hostname.
