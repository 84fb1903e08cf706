(** Model of the program test/charstr_normalization_test.c with any file. What is printed is left out. *)
From Verif Require Import Base CMem Heap ListModel CharstrModel Utf8Model NormModel IdnaTextModel OwnModel GenMemModel TestMoreModel TestIdnaModel.

Section Norm.
(** [l]: what the uninitialized local variables of verify_normalization and charstr_unicode_recompose hold.
    Simplification: it is the same in all calls. *)
Context (junk : nat -> Z) (l : leftovers).

(** test/charstr_normalization_test.c:88-93; [ptr] and [size] are offsets in the block [str] *)
Fixpoint decode_loop (fuel : nat) (fields str size : Z) (ptr : option Z) : M (option Z) :=
  match fuel with
  | O => no_fuel
  | S fuel =>
      let! empty := list_empty fields in
      if (empty : bool) then ret ptr
      else
        let! field := list_pop_first fields in
        let! s := ld_slots field in
        let! codepoint := lift (strtol16 s) in
        let! b := ld_slots str in
        let! bp := lift (charstr_encode_utf8_codepoint (s32 codepoint) b ptr (Some size)) in
        do! st_slots str (fst bp) in
        do! free_or_null field in
        decode_loop fuel fields str size (snd bp)
  end.
(** test/charstr_normalization_test.c:81-97 decode_column *)
Definition decode_column (column : Z) : M Z :=
  let! fields := h_charstr_split junk column 0 32 (u32 (-1)) in
  let! n := list_size fields in
  let size := u64 (u64 (n * 4) + 1) in
  let! str := alloc (CSlots (fresh_block junk size)) in
  let! k := fuel in
  let! ptr := decode_loop k fields str size (Some 0) in
  let! b := ld_slots str in
  let! b := lift (match ptr with Some ptr => wr b ptr 0 | None => UB end) in
  do! st_slots str b in
  do! destroy_list fields in
  ret str.

(** test/charstr_normalization_test.c:105-108. Simplification: the pointers are read from the array columns
    before the loop, and those written to strv are the result. *)
Fixpoint decode_columns (columns : list Z) : M (list Z) :=
  match columns with
  | [] => ret []
  | column :: columns =>
      let! str := decode_column column in
      do! free_or_null column in
      let! strv := decode_columns columns in
      ret (str :: strv)
  end.
(** test/charstr_normalization_test.c:99-110 decode_line; the local array columns is a block that is freed at the
    end *)
Definition decode_line (line : Z) : M (list Z) :=
  let! columns := alloc (CSlots (fresh_block junk 6)) in
  let! n := h_charstr_split_into_array junk line 0 59 columns 5 in
  if negb (n =? 5) then (fun _ => Abort)
  else
    let! cs := ld_slots columns in
    let! strv := decode_columns (firstn 5 cs) in
    let! c := lift (rd cs 5) in
    do! free_or_null c in
    do! free columns in
    ret strv.

(** test/charstr_normalization_test.c:125: the call of test_normalization *)
Definition test_strings (strv : list Z) : M bool :=
  match strv with
  | [p1; p2; p3; p4; p5] =>
      let! c1 := ld_slots p1 in
      let! c2 := ld_slots p2 in
      let! c3 := ld_slots p3 in
      let! c4 := ld_slots p4 in
      let! c5 := ld_slots p5 in
      lift (test_normalization l c1 c2 c3 c4 c5)
  | _ => fun _ => UB
  end.
(** test/charstr_normalization_test.c:124-127 *)
Definition norm_line (buffer : Z) : M bool :=
  let! strv := decode_line buffer in
  let! ok := test_strings strv in
  do! free_fields strv in
  ret (negb ok).

(** test/charstr_normalization_test.c:119-129, with [file] as what is left of the file. The result is the variable
    error. Simplification: getline(3) always moves the line to a new block. *)
Fixpoint norm_loop (fuel : nat) (buffer : Z) (error : bool) (file : list Z) : M bool :=
  match fuel with
  | O => no_fuel
  | S fuel =>
      if error then do! free buffer in ret error
      else
        let '(line, file) := getline file in
        match line with
        | [] => do! free buffer in ret error
        | _ =>
            do! free buffer in
            let! buffer := alloc (CSlots (line ++ [0])) in
            let! c := first_byte buffer in
            if (c =? 35) || (c =? 64) then norm_loop fuel buffer error file
            else
              let! error := norm_line buffer in
              norm_loop fuel buffer error file
        end
  end.
(** test/charstr_normalization_test.c:112-135 main *)
Definition norm_main (file : list Z) : M bool :=
  let! buffer := alloc (CSlots (fresh_block junk 512)) in
  norm_loop (S (length file)) buffer false file.
End Norm.
