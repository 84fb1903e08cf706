(** Model of src/charstr.c (without charstr_vprintf and charstr_printf).

    A [const char *] is the rest of its block, from the pointed-to byte to the
    end of the allocation, as a list of bytes 0..255; [None] is NULL. A second
    pointer [end] into the same block is represented by the number of bytes
    from it to the end of the block, so [s == end] is [zlen s = end]. Buffers
    that are written to are a whole block and an index. *)
From Verif Require Import Base CMem CharstrTables.

(** [*s] *)
Definition cur (s : list Z) : res Z := match s with [] => UB | c :: _ => Ok c end.

(** [s == end] *)
Definition at_end (s : list Z) (end_ : option Z) : bool :=
  match end_ with None => false | Some e => zlen s =? e end.

(** src/charstr.c:249-252 charstr_lcase_char *)
Definition charstr_lcase_char (c : Z) : Z := nth (Z.to_nat (u8 c)) case_table_lower 0.
(** src/charstr.c:254-257 charstr_ucase_char *)
Definition charstr_ucase_char (c : Z) : Z := nth (Z.to_nat (u8 c)) case_table_upper 0.
(** src/charstr.c:244-247 charstr_char_class *)
Definition charstr_char_class (c : Z) : Z := nth (Z.to_nat (u8 c)) char_class 0.
(** src/charstr.c:321-324 charstr_digit_value *)
Definition charstr_digit_value (c : Z) : Z := nth (Z.to_nat (u8 c)) digit_value 0.

(** src/charstr.c:83-96 charstr_case_cmp *)
Fixpoint charstr_case_cmp (a b : list Z) : res Z :=
  match a with
  | [] => UB
  | a0 :: a' =>
      if truth a0 then
        match b with
        | [] => UB
        | b0 :: b' =>
            let ac := charstr_lcase_char a0 in
            let bc := charstr_lcase_char b0 in
            if ac <? bc then Ok (-1) else if ac >? bc then Ok 1 else charstr_case_cmp a' b'
        end
      else
        b0 <- cur b ;; Ok (if truth b0 then -1 else 0)
  end.

(** src/charstr.c:98-111 charstr_ncase_cmp *)
Fixpoint charstr_ncase_cmp (a b : list Z) (n : Z) : res Z :=
  if truth n then
    match a with
    | [] => UB
    | a0 :: a' =>
        if truth a0 then
          match b with
          | [] => UB
          | b0 :: b' =>
              let ac := charstr_lcase_char a0 in
              let bc := charstr_lcase_char b0 in
              if ac <? bc then Ok (-1) else if ac >? bc then Ok 1 else charstr_ncase_cmp a' b' (n - 1)
          end
        else
          b0 <- cur b ;; Ok (if truth b0 then -1 else 0)
    end
  else Ok 0.

(** src/charstr.c:259-265 charstr_skip_prefix; 267-270 charstr_case_starts_with
    is the same. *)
Fixpoint charstr_skip_prefix (s prefix : list Z) {struct prefix} : res (option (list Z)) :=
  match prefix with
  | [] => UB
  | p0 :: prefix' =>
      if truth p0 then
        match s with
        | [] => UB
        | s0 :: s' => if negb (s0 =? p0) then Ok None else charstr_skip_prefix s' prefix'
        end
      else Ok (Some s)
  end.

(** src/charstr.c:272-278 charstr_case_skip_prefix; 280-283
    charstr_ncase_starts_with is the same. *)
Fixpoint charstr_case_skip_prefix (s prefix : list Z) {struct prefix} : res (option (list Z)) :=
  match prefix with
  | [] => UB
  | p0 :: prefix' =>
      if truth p0 then
        match s with
        | [] => UB
        | s0 :: s' =>
            if negb (charstr_lcase_char s0 =? charstr_lcase_char p0) then Ok None
            else charstr_case_skip_prefix s' prefix'
        end
      else Ok (Some s)
  end.

(** strcmp, as far as used: equality. *)
Fixpoint strcmp_eq (s t : list Z) : res bool :=
  match s with
  | [] => UB
  | c :: s' =>
      match t with
      | [] => UB
      | d :: t' => if negb (c =? d) then Ok false else if c =? 0 then Ok true else strcmp_eq s' t'
      end
  end.

(** src/charstr.c:285-294 charstr_ends_with *)
Definition charstr_ends_with (s suffix : list Z) : res bool :=
  len <- strlen s ;;
  suffix_len <- strlen suffix ;;
  if len <? suffix_len then Ok false
  else strcmp_eq (skipn (Z.to_nat (len - suffix_len)) s) suffix.

(** fsalloc([length] + 1), memcpy of [length] bytes from [s], and the NUL:
    src/charstr.c:337-341 *)
Definition dup_range (junk : nat -> Z) (s : list Z) (length : Z) : res (list Z) :=
  let dup := fresh_block junk (u64 (length + 1)) in
  if length <=? zlen s then
    dup <- blit dup 0 (firstn (Z.to_nat length) s) ;;
    wr dup length 0
  else UB.

(** src/charstr.c:326-331 charstr_dupstr *)
Definition charstr_dupstr (junk : nat -> Z) (s : option (list Z)) : res (option (list Z)) :=
  match s with
  | None => Ok None
  | Some s => n <- strlen s ;; dup <- dup_range junk s n ;; Ok (Some dup)
  end.

(** src/charstr.c:333-342 charstr_dupsubstr; [end_]: see above *)
Definition charstr_dupsubstr (junk : nat -> Z) (s : option (list Z)) (end_ : option Z) : res (option (list Z)) :=
  match s, end_ with
  | Some s, Some e => dup <- dup_range junk s (u64 (zlen s - e)) ;; Ok (Some dup)
  | _, _ => charstr_dupstr junk s
  end.

(** The same with non-NULL pointers. *)
Definition dup_until (junk : nat -> Z) (s p : list Z) : res (list Z) :=
  d <- charstr_dupsubstr junk (Some s) (Some (zlen p)) ;;
  match d with Some d => Ok d | None => UB end.
Definition dup_all (junk : nat -> Z) (s : list Z) : res (list Z) :=
  d <- charstr_dupstr junk (Some s) ;;
  match d with Some d => Ok d | None => UB end.

(** src/charstr.c:344-350, 361-367 charstr_lcase_str, charstr_ucase_str: [b] is
    the block, [p] the index *)
Fixpoint map_str (f : Z -> Z) (fuel : nat) (b : list Z) (p : Z) : res (list Z) :=
  match fuel with
  | O => NoFuel
  | S fuel =>
      c <- rd b p ;;
      if truth c then b <- wr b p (f c) ;; map_str f fuel b (p + 1) else Ok b
  end.
Definition charstr_lcase_str (b : list Z) (s : Z) : res (list Z) :=
  map_str charstr_lcase_char (S (length b)) b s.
Definition charstr_ucase_str (b : list Z) (s : Z) : res (list Z) :=
  map_str charstr_ucase_char (S (length b)) b s.

(** src/charstr.c:352-359, 369-376 charstr_lcase_substr, charstr_ucase_substr *)
Fixpoint map_substr (f : Z -> Z) (fuel : nat) (b : list Z) (p end_ : Z) : res (list Z) :=
  match fuel with
  | O => NoFuel
  | S fuel =>
      if p =? end_ then Ok b
      else c <- rd b p ;; b <- wr b p (f c) ;; map_substr f fuel b (p + 1) end_
  end.
Definition charstr_lcase_substr (b : list Z) (s end_ : Z) : res (list Z) :=
  map_substr charstr_lcase_char (S (length b)) b s end_.
Definition charstr_ucase_substr (b : list Z) (s end_ : Z) : res (list Z) :=
  map_substr charstr_ucase_char (S (length b)) b s end_.

(** strchr(3): the terminator counts as part of the string. *)
Fixpoint strchr (s : list Z) (c : Z) : res (option (list Z)) :=
  match s with
  | [] => UB
  | c0 :: s' => if c0 =? c then Ok (Some s) else if c0 =? 0 then Ok None else strchr s' c
  end.

(** src/charstr.c:378-390 charstr_split. The list_t is the list of its
    elements (blocks) in order; see ListModel.v for src/list.c. *)
Fixpoint split_loop (junk : nat -> Z) (fuel : nat) (s : list Z) (delim max_split : Z) (l : list (list Z))
  : res (list (list Z)) :=
  match fuel with
  | O => NoFuel
  | S fuel =>
      let finish := d <- dup_all junk s ;; Ok (l ++ [d]) in
      if truth max_split then
        p <- strchr s delim ;;
        match p with
        | None => finish
        | Some p =>
            d <- dup_until junk s p ;;
            split_loop junk fuel (tl p) delim (max_split - 1) (l ++ [d])
        end
      else finish
  end.
Definition charstr_split (junk : nat -> Z) (s : list Z) (delim max_split : Z) : res (list (list Z)) :=
  split_loop junk (S (length s)) s delim max_split [].

(** src/charstr.c:392-405 charstr_split_into_array: returns the count and the
    new content of the array. *)
Fixpoint split_array_loop (junk : nat -> Z) (fuel : nat) (s : list Z) (delim : Z) (array : list (list Z))
  (i max_split : Z) : res (Z * list (list Z)) :=
  match fuel with
  | O => NoFuel
  | S fuel =>
      let finish := d <- dup_all junk s ;; array <- wr array i d ;; Ok (i, array) in
      if i <? max_split then
        p <- strchr s delim ;;
        match p with
        | None => finish
        | Some p =>
            d <- dup_until junk s p ;;
            array <- wr array i d ;;
            split_array_loop junk fuel (tl p) delim array (u32 (i + 1)) max_split
        end
      else finish
  end.
Definition charstr_split_into_array (junk : nat -> Z) (s : list Z) (delim : Z) (array : list (list Z))
  (max_split : Z) : res (Z * list (list Z)) :=
  split_array_loop junk (S (length s)) s delim array 0 max_split.

(** include/charstr.h:52-53 CHARSTR_WHITESPACE *)
Definition CHARSTR_WHITESPACE : Z :=
  Z.lor (Z.lor (Z.lor (Z.lor CHARSTR_HT CHARSTR_LF) CHARSTR_FF) CHARSTR_CR) CHARSTR_SPACE.

(** [charstr_char_class(c) & CHARSTR_WHITESPACE] *)
Definition is_white (c : Z) : bool := truth (Z.land (charstr_char_class c) CHARSTR_WHITESPACE).

(** src/charstr.c:411-415: skip whitespace; NULL if the string ends. *)
Fixpoint skip_white (s : list Z) : res (option (list Z)) :=
  match s with
  | [] => UB
  | c :: s' => if c =? 0 then Ok None else if negb (is_white c) then Ok (Some s) else skip_white s'
  end.

(** src/charstr.c:416-418 *)
Fixpoint skip_black (p : list Z) : res (list Z) :=
  match p with
  | [] => UB
  | c :: p' => if truth c && negb (is_white c) then skip_black p' else Ok p
  end.

(** src/charstr.c:407-422 charstr_split_atoms *)
Fixpoint atoms_loop (junk : nat -> Z) (fuel : nat) (s : list Z) (l : list (list Z)) : res (list (list Z)) :=
  match fuel with
  | O => NoFuel
  | S fuel =>
      s <- skip_white s ;;
      match s with
      | None => Ok l
      | Some s =>
          p <- skip_black (tl s) ;;
          d <- dup_until junk s p ;;
          atoms_loop junk fuel p (l ++ [d])
      end
  end.
Definition charstr_split_atoms (junk : nat -> Z) (s : list Z) : res (list (list Z)) :=
  atoms_loop junk (S (length s)) s [].

(** Does the string [s] begin with the string [t]? (Part of strstr.) *)
Fixpoint begins (s t : list Z) {struct t} : res bool :=
  match t with
  | [] => UB
  | t0 :: t' =>
      if t0 =? 0 then Ok true
      else match s with
           | [] => UB
           | s0 :: s' => if negb (s0 =? t0) then Ok false else begins s' t'
           end
  end.

(** strstr(3) *)
Fixpoint strstr (s t : list Z) : res (option (list Z)) :=
  b <- begins s t ;;
  if (b : bool) then Ok (Some s)
  else match s with
       | [] => UB
       | c :: s' => if c =? 0 then Ok None else strstr s' t
       end.

(** src/charstr.c:424-437 charstr_split_str. The second summand of the fuel is
    for the empty delimiter. *)
Fixpoint split_str_loop (junk : nat -> Z) (fuel : nat) (s delim : list Z) (skip max_split : Z)
  (l : list (list Z)) : res (list (list Z)) :=
  match fuel with
  | O => NoFuel
  | S fuel =>
      let finish := d <- dup_all junk s ;; Ok (l ++ [d]) in
      if truth max_split then
        p <- strstr s delim ;;
        match p with
        | None => finish
        | Some p =>
            d <- dup_until junk s p ;;
            split_str_loop junk fuel (skipn (Z.to_nat skip) p) delim skip (max_split - 1) (l ++ [d])
        end
      else finish
  end.
Definition charstr_split_str (junk : nat -> Z) (s delim : list Z) (max_split : Z) : res (list (list Z)) :=
  skip <- strlen delim ;;
  split_str_loop junk (S (length s) + (if skip =? 0 then Z.to_nat max_split else 0)) s delim skip max_split [].

(** src/charstr.c:443-444 *)
Fixpoint strip_left (s : list Z) : res (list Z) :=
  match s with
  | [] => UB
  | c :: s' => if truth c && is_white c then strip_left s' else Ok s
  end.

(** src/charstr.c:445-447: [n] is end - s. *)
Fixpoint strip_right (s : list Z) (n : nat) : res nat :=
  match n with
  | O => Ok O
  | S m => c <- rd s (Z.of_nat m) ;; if is_white c then strip_right s m else Ok n
  end.

(** src/charstr.c:439-449 charstr_strip *)
Definition charstr_strip (junk : nat -> Z) (s : option (list Z)) : res (option (list Z)) :=
  match s with
  | None => Ok None
  | Some s =>
      s <- strip_left s ;;
      n <- strlen s ;;
      n <- strip_right s (Z.to_nat n) ;;
      charstr_dupsubstr junk (Some s) (Some (zlen s - Z.of_nat n))
  end.
