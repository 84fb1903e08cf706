(** Model of the UTF-8 functions of src/charstr.c. Pointers as in
    CharstrModel.v. *)
From Verif Require Import Base CMem CharstrModel.

(** src/charstr.c:451-455 valid_unicode *)
Definition valid_unicode (codepoint : Z) : bool :=
  ((codepoint >=? 0) && (codepoint <=? 0xd7ff)) ||
  ((codepoint >=? 0xe000) && (codepoint <=? 0x10ffff)).

(** src/charstr.c:477-479, 481-483, 485-487: a continuation byte; NULL if there
    is none. *)
Definition continuation (s : list Z) (end_ : option Z) (cp : Z) : res (option (list Z * Z)) :=
  if at_end s end_ then Ok None
  else
    c <- cur s ;;
    if negb (Z.land c 0xc0 =? 0x80) then Ok None
    else Ok (Some (tl s, Z.lor (Z.shiftl cp 6) (Z.land c 0x3f))).

Notation "' pat <-? c1 ;; c2" :=
  (bind c1 (fun o => match o with None => Ok None | Some x => match x with pat => c2 end end))
  (at level 61, pat pattern, c1 at next level, right associativity) : res_scope.

(** src/charstr.c:457-494 charstr_decode_utf8_codepoint: the returned pointer
    and the codepoint. The nested ifs are written out as three cases. *)
Definition charstr_decode_utf8_codepoint (s : option (list Z)) (end_ : option Z)
  : res (option (list Z * Z)) :=
  match s with
  | None => Ok None
  | Some s =>
      if at_end s end_ then Ok None
      else
        c <- cur s ;;
        let s := tl s in
        if negb (truth (Z.land c 0x80)) then Ok (Some (s, Z.land c 0x7f))
        else if negb (truth (Z.land c 0x40)) then Ok None
        else
          '(s, cp) <-?
            (if negb (truth (Z.land c 0x20)) then Ok (Some (s, Z.land c 0x1f))
             else
               '(s, cp) <-?
                 (if negb (truth (Z.land c 0x10)) then Ok (Some (s, Z.land c 0x0f))
                  else if truth (Z.land c 0x08) then Ok None
                  else continuation s end_ (Z.land c 0x07)) ;;
               continuation s end_ cp) ;;
          '(s, cp) <-? continuation s end_ cp ;;
          if negb (valid_unicode cp) then Ok None else Ok (Some (s, cp))
  end.

(** src/charstr.c:496-501 charstr_valid_utf8_bounded *)
Fixpoint valid_bounded_loop (fuel : nat) (s : option (list Z)) (end_ : option Z) : res bool :=
  match fuel with
  | O => NoFuel
  | S fuel =>
      match s with
      | None => Ok false
      | Some s =>
          if at_end s end_ then Ok true
          else
            d <- charstr_decode_utf8_codepoint (Some s) end_ ;;
            valid_bounded_loop fuel (option_map fst d) end_
      end
  end.
Definition charstr_valid_utf8_bounded (s : option (list Z)) (end_ : option Z) : res bool :=
  match s with
  | None => Ok false
  | Some l => valid_bounded_loop (S (S (length l))) s end_
  end.

(** src/charstr.c:503-508 charstr_valid_utf8 *)
Fixpoint valid_loop (fuel : nat) (s : option (list Z)) : res bool :=
  match fuel with
  | O => NoFuel
  | S fuel =>
      match s with
      | None => Ok false
      | Some s =>
          c <- cur s ;;
          if truth c then
            d <- charstr_decode_utf8_codepoint (Some s) None ;;
            valid_loop fuel (option_map fst d)
          else Ok true
      end
  end.
Definition charstr_valid_utf8 (s : option (list Z)) : res bool :=
  match s with
  | None => Ok false
  | Some l => valid_loop (S (S (length l))) s
  end.

(** src/charstr.c:513-523: position of the terminator and number of bad bytes *)
Fixpoint count_bad (fuel : nat) (t : list Z) (bad_bytes : Z) : res (list Z * Z) :=
  match fuel with
  | O => NoFuel
  | S fuel =>
      c <- cur t ;;
      if truth c then
        u <- charstr_decode_utf8_codepoint (Some t) None ;;
        match u with
        | Some (u, _) => count_bad fuel u bad_bytes
        | None => count_bad fuel (tl t) (u64 (bad_bytes + 1))
        end
      else Ok (t, bad_bytes)
  end.

(** src/charstr.c:531-532: copy bytes from [s] to [q] until [s == u] *)
Fixpoint copy_until (sane : list Z) (q : Z) (s : list Z) (u : list Z) : res (list Z * Z) :=
  if zlen s =? zlen u then Ok (sane, q)
  else match s with
       | [] => UB
       | c :: s => sane <- wr sane q c ;; copy_until sane (q + 1) s u
       end.

(** src/charstr.c:512 REPLACEMENT_CHARACTER *)
Definition REPLACEMENT_CHARACTER : list Z := [0xef; 0xbf; 0xbd].

(** src/charstr.c:528-539 *)
Fixpoint sanitize_loop (fuel : nat) (s sane : list Z) (q : Z) : res (list Z) :=
  match fuel with
  | O => NoFuel
  | S fuel =>
      c <- cur s ;;
      if truth c then
        u <- charstr_decode_utf8_codepoint (Some s) None ;;
        match u with
        | Some (u, _) =>
            '(sane, q) <- copy_until sane q s u ;;
            sanitize_loop fuel u sane q
        | None =>
            sane <- blit sane q REPLACEMENT_CHARACTER ;;
            sanitize_loop fuel (tl s) sane (q + zlen REPLACEMENT_CHARACTER)
        end
      else wr sane q 0
  end.

(** src/charstr.c:510-541 charstr_sanitize_utf8 *)
Definition charstr_sanitize_utf8 (junk : nat -> Z) (s : list Z) : res (list Z) :=
  '(t, bad_bytes) <- count_bad (S (length s)) s 0 ;;
  let sane_length := u64 (zlen s - zlen t + bad_bytes * (zlen REPLACEMENT_CHARACTER - 1)) in
  let sane := fresh_block junk (u64 (sane_length + 1)) in
  sanitize_loop (S (length s)) s sane 0.

(** [*s++ = v] on block [b] *)
Definition putc (b : list Z) (s v : Z) : res (list Z * Z) :=
  b <- wr b s (u8 v) ;; Ok (b, s + 1).

Definition at_index (s : Z) (end_ : option Z) : bool :=
  match end_ with None => false | Some e => s =? e end.

(** [if (s == end) return NULL; *s++ = v;] *)
Definition putc_bounded (o : list Z * option Z) (end_ : option Z) (v : Z) : res (list Z * option Z) :=
  match o with
  | (b, None) => Ok (b, None)
  | (b, Some s) =>
      if at_index s end_ then Ok (b, None)
      else '(b, s) <- putc b s v ;; Ok (b, Some s)
  end.

(** src/charstr.c:543-564 charstr_encode_utf8_codepoint: [b] is the block, [s]
    and [end_] are indices; the new content of the block and the return value.
    The nested ifs are written out as three cases. *)
Definition charstr_encode_utf8_codepoint (codepoint : Z) (b : list Z) (s : option Z) (end_ : option Z)
  : res (list Z * option Z) :=
  match s with
  | None => Ok (b, None)
  | Some s =>
      if at_index s end_ then Ok (b, None)
      else if codepoint >=? 0x80 then
        o <- (if codepoint >=? 0x800 then
                o <- (if codepoint >=? 0x10000 then
                        '(b, s) <- putc b s (Z.lor 0xf0 (Z.shiftr codepoint 18)) ;;
                        putc_bounded (b, Some s) end_ (Z.lor 0x80 (Z.land (Z.shiftr codepoint 12) 0x3f))
                      else
                        '(b, s) <- putc b s (Z.lor 0xe0 (Z.shiftr codepoint 12)) ;; Ok (b, Some s)) ;;
                putc_bounded o end_ (Z.lor 0x80 (Z.land (Z.shiftr codepoint 6) 0x3f))
              else
                '(b, s) <- putc b s (Z.lor 0xc0 (Z.shiftr codepoint 6)) ;; Ok (b, Some s)) ;;
        putc_bounded o end_ (Z.lor 0x80 (Z.land codepoint 0x3f))
      else
        '(b, s) <- putc b s codepoint ;; Ok (b, Some s)
  end.
