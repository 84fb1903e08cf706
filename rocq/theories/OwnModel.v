(** The functions that hand out allocated strings, on the heap of Heap.v: which blocks they
    allocate and free. What they compute is in CharstrModel.v and PunyModel.v; a block of
    bytes or of pointers is a [CSlots] cell. A pointer into a block is the address of the
    block with an offset. *)
From Verif Require Import Base CMem Heap ListModel CharstrModel NormModel PunyModel IdnaEncodeModel.

(** What an offset points to, and the offset of the suffix [p] of [b]. *)
Definition suffix_at (b : list Z) (pos : Z) : list Z := skipn (Z.to_nat pos) b.
Definition offset_of (b p : list Z) : Z := zlen b - zlen p.

(** src/charstr.c:326-331 charstr_dupstr, src/charstr.c:333-342 charstr_dupsubstr: the copy is a new block. *)
Definition new_string (d : res (list Z)) : M Z := let! d := lift d in alloc (CSlots d).

(** list_append(list, charstr_dupsubstr(...)) and the like *)
Definition append_string (list : Z) (d : res (Datatypes.list Z)) : M unit :=
  let! p := new_string d in
  do! list_append list p in
  ret tt.

(** src/charstr.c:378-390 charstr_split; see [split_loop] *)
Fixpoint h_split_loop (junk : nat -> Z) (fuel : nat) (a s delim max_split list : Z) : M unit :=
  match fuel with
  | O => no_fuel
  | S fuel =>
      let! b := ld_slots a in
      let finish := append_string list (dup_all junk (suffix_at b s)) in
      if truth max_split then
        let! p := lift (strchr (suffix_at b s) delim) in
        match p with
        | None => finish
        | Some p =>
            do! append_string list (dup_until junk (suffix_at b s) p) in
            h_split_loop junk fuel a (offset_of b p + 1) delim (max_split - 1) list
        end
      else finish
  end.
Definition h_charstr_split (junk : nat -> Z) (a s delim max_split : Z) : M Z :=
  let! list := make_list in
  let! b := ld_slots a in
  do! h_split_loop junk (S (length (suffix_at b s))) a s delim max_split list in
  ret list.

(** src/charstr.c:392-405 charstr_split_into_array; see [split_array_loop]. [array] is the
    address of the block of pointers. *)
Definition array_set (array i : Z) (d : res (list Z)) : M unit :=
  let! p := new_string d in
  let! ps := ld_slots array in
  let! ps := lift (wr ps i p) in
  st_slots array ps.
Fixpoint h_split_array_loop (junk : nat -> Z) (fuel : nat) (a s delim array i max_split : Z) : M Z :=
  match fuel with
  | O => no_fuel
  | S fuel =>
      let! b := ld_slots a in
      let finish := do! array_set array i (dup_all junk (suffix_at b s)) in ret i in
      if i <? max_split then
        let! p := lift (strchr (suffix_at b s) delim) in
        match p with
        | None => finish
        | Some p =>
            do! array_set array i (dup_until junk (suffix_at b s) p) in
            h_split_array_loop junk fuel a (offset_of b p + 1) delim array (u32 (i + 1)) max_split
        end
      else finish
  end.
Definition h_charstr_split_into_array (junk : nat -> Z) (a s delim array max_split : Z) : M Z :=
  let! b := ld_slots a in
  h_split_array_loop junk (S (length (suffix_at b s))) a s delim array 0 max_split.

(** src/charstr.c:407-422 charstr_split_atoms; see [atoms_loop] *)
Fixpoint h_atoms_loop (junk : nat -> Z) (fuel : nat) (a s list : Z) : M unit :=
  match fuel with
  | O => no_fuel
  | S fuel =>
      let! b := ld_slots a in
      let! s := lift (skip_white (suffix_at b s)) in
      match s with
      | None => ret tt
      | Some s =>
          let! p := lift (skip_black (tl s)) in
          do! append_string list (dup_until junk s p) in
          h_atoms_loop junk fuel a (offset_of b p) list
      end
  end.
Definition h_charstr_split_atoms (junk : nat -> Z) (a s : Z) : M Z :=
  let! list := make_list in
  let! b := ld_slots a in
  do! h_atoms_loop junk (S (length (suffix_at b s))) a s list in
  ret list.

(** src/charstr.c:424-437 charstr_split_str; see [split_str_loop]. The delimiter is at offset
    [t] of the block [d]. *)
Fixpoint h_split_str_loop (junk : nat -> Z) (fuel : nat) (a s d t skip max_split list : Z) : M unit :=
  match fuel with
  | O => no_fuel
  | S fuel =>
      let! b := ld_slots a in
      let finish := append_string list (dup_all junk (suffix_at b s)) in
      if truth max_split then
        let! c := ld_slots d in
        let! p := lift (strstr (suffix_at b s) (suffix_at c t)) in
        match p with
        | None => finish
        | Some p =>
            do! append_string list (dup_until junk (suffix_at b s) p) in
            h_split_str_loop junk fuel a (offset_of b p + skip) d t skip (max_split - 1) list
        end
      else finish
  end.
Definition h_charstr_split_str (junk : nat -> Z) (a s d t max_split : Z) : M Z :=
  let! list := make_list in
  let! c := ld_slots d in
  let! skip := lift (strlen (suffix_at c t)) in
  let! b := ld_slots a in
  do! h_split_str_loop junk (S (length (suffix_at b s)) + (if skip =? 0 then Z.to_nat max_split else 0))
        a s d t skip max_split list in
  ret list.

(** How the result is disposed of: include/list.h:117-122, src/gen_idna_table.c:148-149,
    163-164, 170-173. *)
Definition free_strings (list : Z) : M unit :=
  do! list_foreach list free in
  destroy_list list.

(** A function that returns NULL or a new string. *)
Definition new_string_or_null (d : res (option (list Z))) : M Z :=
  let! d := lift d in
  match d with
  | None => ret 0
  | Some d => alloc (CSlots d)
  end.

Section Lib.
Variables (lib : library) (junk : nat -> Z) (r : recomposer) (h : hangul_recomposer) (errno : Z).

(** src/charstr_puny.c:224-251 encode_nfc: its work areas are local arrays; the result is made
    by charstr_dupstr. *)
Definition h_encode_nfc (hostname s end_ : Z) : M Z :=
  let! b := ld_slots hostname in
  new_string_or_null (encode_nfc lib junk (suffix_at b s) end_).

(** src/charstr_puny.c:253-266 encode_nfd *)
Definition h_encode_nfd (hostname s end_ : Z) : M Z :=
  let! b := ld_slots hostname in
  let worklen := zlen (suffix_at b s) - end_ in
  let! workarea := alloc (CSlots (fresh_block junk (worklen + 1))) in
  let! w := ld_slots workarea in
  let! b := ld_slots hostname in
  let! wo := lift (charstr_unicode_recompose r h (suffix_at b s) (Some end_) w 0 (worklen + 1) errno) in
  do! st_slots workarea (fst wo) in
  match snd wo with
  | inr _ =>
      do! free workarea in
      ret 0
  | inl workend =>
      let! encoding := h_encode_nfc workarea 0 (zlen (fst wo) - workend) in
      do! free workarea in
      ret encoding
  end.

(** src/charstr_puny.c:268-289 charstr_idna_encode *)
Definition h_idna_encode (hostname s : Z) : M Z :=
  let! b := ld_slots hostname in
  let! ascii := lift (is_all_ascii (suffix_at b s)) in
  if ascii then
    let! d := new_string (dup_all junk (suffix_at b s)) in
    let! c := ld_slots d in
    let! c := lift (charstr_lcase_str c 0) in
    do! st_slots d c in
    ret d
  else
    let! length := lift (strlen (suffix_at b s)) in
    let end_ := zlen (suffix_at b s) - length in
    let! composed := lift (charstr_unicode_canonically_composed (suffix_at b s) (Some end_)) in
    if composed then h_encode_nfc hostname s end_
    else
      let! decomposed := lift (charstr_unicode_canonically_decomposed (suffix_at b s) (Some end_)) in
      if decomposed then h_encode_nfd hostname s end_
      else
        let worklen := u64 (3 * length) in
        let! workarea := alloc (CSlots (fresh_block junk (u64 (worklen + 1)))) in
        let! w := ld_slots workarea in
        let! b := ld_slots hostname in
        let! wo := lift (charstr_unicode_decompose (suffix_at b s) (Some end_) w 0 worklen) in
        do! st_slots workarea (fst wo) in
        match snd wo with
        | inr _ =>
            do! free workarea in
            ret 0
        | inl workend =>
            let! encoding := h_encode_nfd workarea 0 (zlen (fst wo) - workend) in
            do! free workarea in
            ret encoding
        end.
End Lib.

(** src/charstr_puny.c:268-289 charstr_idna_encode, with the generated files *)
Definition h_charstr_idna_encode (junk : nat -> Z) (r : recomposer) (h : hangul_recomposer) (errno hostname s : Z) : M Z :=
  h_idna_encode idna_library junk r h errno hostname s.
