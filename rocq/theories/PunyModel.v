(** Model of src/charstr_puny.c. *)
From Verif Require Import Base CMem CharstrTables CharstrModel Utf8Model NormModel CategoryModel IdnaTabModel.
Open Scope list_scope.
Open Scope Z_scope.

(** src/charstr_puny.c:7-17 *)
Definition MAX_DNS_NAME_LENGTH : Z := 254.
Definition MAX_DNS_LABEL_LENGTH : Z := 63.
Definition BASE : Z := 36.
Definition TMIN : Z := 1.
Definition TMAX : Z := 26.
Definition SKEW : Z := 38.
Definition DAMP : Z := 700.
Definition INITIAL_BIAS : Z := 72.
Definition INITIAL_N : Z := 128.

(** src/charstr_puny.c:26-27; the new [delta] and [k] *)
Fixpoint adapt_loop (fuel : nat) (delta k : Z) : res (Z * Z) :=
  match fuel with
  | O => NoFuel
  | S fuel =>
      if delta >? Z.quot ((BASE - TMIN) * TMAX) 2
      then adapt_loop fuel (Z.quot delta (BASE - TMIN)) (k + BASE)
      else Ok (delta, k)
  end.
(** src/charstr_puny.c:19-29 adapt. A division by zero is undefined. The int
    multiplications cannot overflow, since [delta] is at most 455 then. *)
Definition adapt (delta numpoints : Z) (firsttime : bool) : res Z :=
  let delta := if firsttime then Z.quot delta DAMP else Z.quot delta 2 in
  if numpoints =? 0 then UB
  else
    let delta := s32 (u64 (u64 delta + u64 delta / numpoints)) in
    ' (delta, k) <- adapt_loop 32 delta 0 ;;
    if delta + SKEW =? 0 then UB
    else Ok (k + Z.quot ((BASE - TMIN + 1) * delta) (delta + SKEW)).

(** src/charstr_puny.c:36-38: the index after the loop, [None] for the return *)
Fixpoint find_slot (fuel : nat) (codepoint : Z) (nonascii : list Z) (c i : Z) : res (option Z) :=
  match fuel with
  | O => NoFuel
  | S fuel =>
      if i <? c then
        x <- rd nonascii i ;;
        if x <=? codepoint then
          if x =? codepoint then Ok None
          else find_slot fuel codepoint nonascii c (i + 1)
        else Ok (Some i)
      else Ok (Some i)
  end.
(** src/charstr_puny.c:31-42 record_nonascii; the array and its count *)
Definition record_nonascii (codepoint : Z) (nonascii : list Z) (c : Z) : res (list Z * Z) :=
  o <- find_slot (S (Z.to_nat c)) codepoint nonascii c 0 ;;
  match o with
  | None => Ok (nonascii, c)
  | Some i =>
      nonascii <- blit nonascii (i + 1) (firstn (Z.to_nat (c - i)) (skipn (Z.to_nat i) nonascii)) ;;
      nonascii <- wr nonascii i codepoint ;;
      Ok (nonascii, c + 1)
  end.

(** The functions in generated files that the encoder calls: see
    [charstr_idna_encode]. *)
Record library := Library {
  is_valid : Z -> res bool;
  is_deviation : Z -> res bool;
  is_ignored : Z -> res bool;
  is_mapped : Z -> res bool;
  mapping : Z -> res (option (list Z));
  unicode_category_of : Z -> res category }.

(** Flag of charstr_char_class, include/charstr.h:43-44 *)
Definition is_alnum (c : Z) : bool :=
  truth (Z.land (charstr_char_class c) (Z.lor (Z.lor CHARSTR_UPPER CHARSTR_LOWER) CHARSTR_DIGIT)).

(** src/charstr_puny.c:66-81. Strings are represented as in Utf8Model.v: [p] is the part of
    the block from the pointer on, [end_] is the number of bytes from the end to the end
    of the block. *)
Section Lib.
Variable lib : library.

Fixpoint pass1_loop (fuel : nat) (p : list Z) (end_ : Z) (first : bool) (n h : Z) (ascii nonascii : list Z) (count : Z)
  : res (option (list Z * Z * list Z * Z * list Z * Z)) :=
  match fuel with
  | O => NoFuel
  | S fuel =>
      dot <- (if at_end p (Some end_) then Ok true else c <- cur p ;; Ok (c =? 46)) ;;
      if dot then Ok (Some (p, n, ascii, h, nonascii, count))
      else
        d <- charstr_decode_utf8_codepoint (Some p) (Some end_) ;;
        match d with
        | None => Ok None
        | Some (p, codepoint) =>
            if codepoint <? 128 then
              if negb (codepoint =? 45) && negb (is_alnum codepoint) then Ok None
              else
                ascii <- wr ascii h (charstr_lcase_char codepoint) ;;
                pass1_loop fuel p end_ false (n + 1) (h + 1) ascii nonascii count
            else
              mc <- (if first then c <- unicode_category_of lib codepoint ;; Ok (category_eqb c Mc) else Ok false) ;;
              if mc then Ok None
              else
                ' (nonascii, count) <- record_nonascii codepoint nonascii count ;;
                pass1_loop fuel p end_ false (n + 1) h ascii nonascii count
        end
  end.
(** src/charstr_puny.c:51-85 punycode_encode_pass1: the returned pointer, [pc_count],
    [ascii], [ascii_count], [nonascii] and [nonascii_count]; [None] for NULL *)
Definition punycode_encode_pass1 (p : list Z) (end_ : Z) (ascii nonascii : list Z)
  : res (option (list Z * Z * list Z * Z * list Z * Z)) :=
  if at_end p (Some end_) then Ok None
  else
    c <- cur p ;;
    if c =? 45 then Ok None
    else
      c <- rd p (zlen p - end_ - 1) ;;
      if c =? 45 then Ok None
      else pass1_loop (S (length p)) p end_ true 0 0 ascii nonascii 0.
End Lib.

(** src/charstr_puny.c:87, with the terminating NUL *)
Definition BASE36_DIGIT : list Z :=
  [97; 98; 99; 100; 101; 102; 103; 104; 105; 106; 107; 108; 109; 110; 111; 112; 113; 114; 115; 116; 117; 118; 119;
   120; 121; 122; 48; 49; 50; 51; 52; 53; 54; 55; 56; 57; 0].

(** The output: the block, [o] (an index, [None] for NULL) and [*output_size]. *)
Definition output : Type := list Z * option Z * Z.

(** src/charstr_puny.c:89-96 emit *)
Definition emit (out : output) (end_output : Z) (c : Z) : res output :=
  let '(b, o, output_size) := out in
  let output_size := output_size + 1 in
  match o with
  | None => Ok (b, None, output_size)
  | Some o =>
      if o >=? end_output then Ok (b, None, output_size)
      else b <- wr b o c ;; Ok (b, Some (o + 1), output_size)
  end.

(** src/charstr_puny.c:122-127 *)
Definition threshold (k bias : Z) : Z :=
  if k <=? bias then TMIN else if k >=? bias + TMAX then TMAX else k - bias.

(** src/charstr_puny.c:121-134 *)
Fixpoint emit_delta (fuel : nat) (q k bias : Z) (out : output) (end_output : Z) : res output :=
  match fuel with
  | O => NoFuel
  | S fuel =>
      let t := threshold k bias in
      if q <? t then
        c <- rd BASE36_DIGIT q ;;
        emit out end_output c
      else
        c <- rd BASE36_DIGIT (t + Z.rem (q - t) (BASE - t)) ;;
        out <- emit out end_output c ;;
        emit_delta fuel (Z.quot (q - t) (BASE - t)) (k + BASE) bias out end_output
  end.

(** [delta++], src/charstr_puny.c:117,139 *)
Definition incr (delta : Z) : res Z := if delta =? INT_MAX then UB else Ok (delta + 1).

(** src/charstr_puny.c:112-138: [delta], [bias], [handled] and the output. If the decoding
    fails, [codepoint] is not set and [p] is NULL: both are undefined later. *)
Fixpoint pass2_scan (fuel : nat) (p : list Z) (end_ : Z) (n delta bias handled basic_count : Z) (out : output) (end_output : Z)
  : res (Z * Z * Z * output) :=
  match fuel with
  | O => NoFuel
  | S fuel =>
      dot <- (if at_end p (Some end_) then Ok true else c <- cur p ;; Ok (c =? 46)) ;;
      if dot then Ok (delta, bias, handled, out)
      else
        d <- charstr_decode_utf8_codepoint (Some p) (Some end_) ;;
        match d with
        | None => UB
        | Some (p, codepoint) =>
            if negb (codepoint =? n) then
              delta <- (if codepoint <? n then incr delta else Ok delta) ;;
              pass2_scan fuel p end_ n delta bias handled basic_count out end_output
            else
              out <- emit_delta 32 delta BASE bias out end_output ;;
              bias <- adapt delta (handled + 1) (handled =? basic_count) ;;
              pass2_scan fuel p end_ n 0 bias (handled + 1) basic_count out end_output
        end
  end.
(** src/charstr_puny.c:108-141; [ns] are the codepoints from [nonascii[ni]] on *)
Fixpoint pass2_loop (ns : list Z) (input : list Z) (end_ : Z) (n delta bias handled basic_count : Z) (out : output) (end_output : Z)
  : res output :=
  match ns with
  | [] => Ok out
  | x :: ns =>
      let delta := s32 (u64 (u64 delta + u64 (u64 (x - n) * (handled + 1)))) in
      let n := x in
      ' (delta, bias, handled, out) <- pass2_scan (S (length input)) input end_ n delta bias handled basic_count out end_output ;;
      delta <- incr delta ;;
      pass2_loop ns input end_ (n + 1) delta bias handled basic_count out end_output
  end.
(** src/charstr_puny.c:98-143 punycode_encode_pass2; the output. The array is read up to
    its count. *)
Definition punycode_encode_pass2 (input : list Z) (end_ : Z) (out : output) (end_output ascii_count : Z) (nonascii : list Z) (nonascii_count : Z)
  : res output :=
  if nonascii_count <=? zlen nonascii then
    pass2_loop (firstn (Z.to_nat nonascii_count) nonascii) input end_ INITIAL_N 0 INITIAL_BIAS ascii_count ascii_count out end_output
  else UB.

(** A sequence of calls of [emit], src/charstr_puny.c:163-169. *)
Fixpoint emits (out : output) (end_output : Z) (cs : list Z) : res output :=
  match cs with
  | [] => Ok out
  | c :: cs => out <- emit out end_output c ;; emits out end_output cs
  end.

Section Lib2.
Variable lib : library.
(** [junk] is the content of uninitialized local arrays. *)
Variable junk : nat -> Z.

(** src/charstr_puny.c:146-179 punycode_encode: the block of the output, the returned
    pointer and [*output_size], which is [None] (unchanged) if NULL is returned early.
    The output pointer is the index [o] of block [b]. An array of length zero (lines 149
    and 151) is undefined. *)
Definition punycode_encode (input : list Z) (end_ : Z) (b : list Z) (o output_size : Z)
  : res (list Z * option (list Z * Z)) :=
  let size := zlen input - end_ in
  if size <=? 0 then UB
  else
    p <- punycode_encode_pass1 lib input end_ (fresh_block junk size) (fresh_block junk size) ;;
    match p with
    | None => Ok (b, None)
    | Some (next, _, ascii, ascii_count, nonascii, nonascii_count) =>
        let end_output := o + output_size in
        let out := (b, Some o, 0) in
        out <- (if truth nonascii_count then emits out end_output [120; 110; 45; 45] else Ok out) ;;
        out <- emits out end_output (firstn (Z.to_nat ascii_count) ascii) ;;
        if negb (truth nonascii_count) then
          let '(b, _, output_size) := out in Ok (b, Some (next, output_size))
        else
          out <- (if truth ascii_count then emit out end_output 45 else Ok out) ;;
          ' (b, _, output_size) <- punycode_encode_pass2 input end_ out end_output ascii_count nonascii nonascii_count ;;
          if output_size >? MAX_DNS_LABEL_LENGTH then Ok (b, None)
          else Ok (b, Some (next, output_size))
    end.

(** src/charstr_puny.c:197-208: the block [encoding], the pointers [q] and [p] after the
    loop; [p] is given as the number [end - p] of the bytes that follow before the
    end (-1 if [p] is beyond the end). [None] if NULL is returned. *)
Fixpoint encode_loop (fuel : nat) (p : list Z) (end_ : Z) (encoding : list Z) (q output_size : Z)
  : res (option (list Z * Z * Z)) :=
  match fuel with
  | O => NoFuel
  | S fuel =>
      let output_label_size := zlen encoding - q in
      ' (encoding, r) <- punycode_encode p end_ encoding q output_label_size ;;
      match r with
      | None => Ok None
      | Some (p, output_label_size) =>
          _ <- assert (output_label_size <=? MAX_DNS_LABEL_LENGTH) ;;
          let output_size := output_size + (output_label_size + 1) in
          if output_size >? MAX_DNS_NAME_LENGTH - 1 then Ok None
          else
            let q := q + output_label_size in
            encoding <- wr encoding q 46 ;;
            let q := q + 1 in
            let rest := zlen p - end_ in
            if rest >? 1 then encode_loop fuel (tl p) end_ encoding q output_size
            else Ok (Some (encoding, q, rest - 1))
      end
  end.

(** src/charstr_puny.c:189-212 encode_filtered: the returned block *)
Definition encode_filtered (hostname : list Z) (end_ : Z) : res (option (list Z)) :=
  if zlen hostname - end_ >? MAX_DNS_NAME_LENGTH then Ok None
  else
    r <- encode_loop (S (List.length hostname)) hostname end_ (fresh_block junk (MAX_DNS_NAME_LENGTH + 1)) 0 0 ;;
    match r with
    | None => Ok None
    | Some (encoding, q, rest) =>
        encoding <- wr encoding (q + rest) 0 ;;
        charstr_dupstr junk (Some encoding)
    end.

(** src/charstr_puny.c:214-222 safecopy: the block and the returned index. A negative
    difference [end - dest] would be converted to a large number. *)
Definition safecopy (src : option (list Z)) (b : list Z) (dest : option Z) (end_ : Z) : res (list Z * option Z) :=
  match src with
  | None => UB
  | Some src =>
      match dest with
      | None => Ok (b, None)
      | Some dest =>
          let capacity := u64 (end_ - dest) in
          size <- strlen src ;;
          if size >? capacity then Ok (b, None)
          else
            b <- blit b dest (firstn (Z.to_nat size) src) ;;
            Ok (b, Some (dest + size))
      end
  end.

(** src/charstr_puny.c:230-247: the block [workarea] and [q] *)
Fixpoint nfc_loop (fuel : nat) (p : list Z) (end_ : Z) (workarea : list Z) (q workend : Z) : res (option (list Z * Z)) :=
  match fuel with
  | O => NoFuel
  | S fuel =>
      if at_end p (Some end_) then Ok (Some (workarea, q))
      else
        d <- charstr_decode_utf8_codepoint (Some p) (Some end_) ;;
        match d with
        | None => Ok None
        | Some (p, codepoint) =>
            valid <- is_valid lib codepoint ;;
            keep <- (if valid then Ok true else is_deviation lib codepoint) ;;
            r <- (if keep then
                    r <- charstr_encode_utf8_codepoint codepoint workarea (Some q) (Some workend) ;; Ok (Some r)
                  else
                    ignored <- is_ignored lib codepoint ;;
                    if ignored then Ok (Some (workarea, Some q))
                    else
                      mapped <- is_mapped lib codepoint ;;
                      if mapped then
                        m <- mapping lib codepoint ;;
                        r <- safecopy (option_map (fun m => m ++ [0]) m) workarea (Some q) workend ;; Ok (Some r)
                      else Ok None) ;;
            match r with
            | Some (workarea, Some q) => nfc_loop fuel p end_ workarea q workend
            | _ => Ok None
            end
        end
  end.
(** src/charstr_puny.c:224-251 encode_nfc *)
Definition encode_nfc (hostname : list Z) (end_ : Z) : res (option (list Z)) :=
  r <- nfc_loop (S (List.length hostname)) hostname end_ (fresh_block junk (MAX_DNS_NAME_LENGTH + 1)) 0 MAX_DNS_NAME_LENGTH ;;
  match r with
  | None => Ok None
  | Some (workarea, q) => encode_filtered workarea (zlen workarea - q)
  end.

(** The uninitialized local variables of [charstr_unicode_recompose], and errno. *)
Variables (r : recomposer) (h : hangul_recomposer) (errno : Z).

(** src/charstr_puny.c:253-266 encode_nfd. Simplification: freeing of [workarea] is not
    represented; it is freed on every path and not used later. *)
Definition encode_nfd (hostname : list Z) (end_ : Z) : res (option (list Z)) :=
  let worklen := zlen hostname - end_ in
  let workarea := fresh_block junk (worklen + 1) in
  ' (workarea, o) <- charstr_unicode_recompose r h hostname (Some end_) workarea 0 (worklen + 1) errno ;;
  match o with
  | inr _ => Ok None
  | inl workend => encode_nfc workarea (zlen workarea - workend)
  end.

(** src/charstr_puny.c:181-187 is_all_ascii *)
Fixpoint is_all_ascii (s : list Z) : res bool :=
  match s with
  | [] => UB
  | c :: s => if truth c then if truth (Z.land c 0x80) then Ok false else is_all_ascii s else Ok true
  end.

(** src/charstr_puny.c:268-289 charstr_idna_encode, for the given functions of the generated
    files: the returned block, [None] for NULL. Simplification: as for [encode_nfd]. *)
Definition idna_encode (hostname : list Z) : res (option (list Z)) :=
  ascii <- is_all_ascii hostname ;;
  if ascii then
    d <- charstr_dupstr junk (Some hostname) ;;
    match d with
    | None => UB
    | Some d => d <- charstr_lcase_str d 0 ;; Ok (Some d)
    end
  else
    length <- strlen hostname ;;
    let end_ := zlen hostname - length in
    composed <- charstr_unicode_canonically_composed hostname (Some end_) ;;
    if composed then encode_nfc hostname end_
    else
      decomposed <- charstr_unicode_canonically_decomposed hostname (Some end_) ;;
      if decomposed then encode_nfd hostname end_
      else
        let worklen := u64 (3 * length) in
        let workarea := fresh_block junk (u64 (worklen + 1)) in
        ' (workarea, o) <- charstr_unicode_decompose hostname (Some end_) workarea 0 worklen ;;
        match o with
        | inr _ => Ok None
        | inl workend => encode_nfd workarea (zlen workarea - workend)
        end.
End Lib2.
