(** The reading of one line by src/gen_idna_table.c on the heap of Heap.v, with the release of
    all strings and lists. What the line means is in IdnaTextModel.v. The table is one block of
    pointers, three for each codepoint: status, mapping and idna2008. *)
From Verif Require Import Base CMem Heap ListModel CharstrModel Utf8Model IdnaTabModel IdnaTextModel OwnModel NewMemModel.

(** fsfree(p), where p may be NULL. *)
Definition free_or_null (p : Z) : M unit := if p =? 0 then ret tt else free p.

(** src/gen_idna_table.c:141-146: the loop over the list of codepoints; [buffer] is the local
    variable, [q] the offset in it, and [end_] the offset 99. *)
Fixpoint h_codepoints_loop (fuel : nat) (e : Z) (buffer : list Z) (q : Z) : M (list Z * Z) :=
  match fuel with
  | O => no_fuel
  | S fuel =>
      if e =? 0 then ret (buffer, q)
      else
        let! v := list_elem_get_value e in
        let! s := ld_slots v in
        let! n := lift (strtol16 s) in
        let! bq := lift (charstr_encode_utf8_codepoint (s32 n) buffer (Some q) (Some 99)) in
        match snd bq with
        | None => fun _ => Abort
        | Some q =>
            let! e := list_next e in
            h_codepoints_loop fuel e (fst bq) q
        end
  end.

(** src/gen_idna_table.c:139-150 *)
Definition h_mapping (junk : nat -> Z) (mapping : Z) (buffer : list Z) : M (list Z) :=
  if mapping =? 0 then ret buffer
  else
    let! codepoints := h_charstr_split_atoms junk mapping 0 in
    let! n := fuel in
    let! e := list_get_first codepoints in
    let! bq := h_codepoints_loop n e buffer 0 in
    let! buffer := lift (wr (fst bq) (snd bq) 0) in
    do! list_foreach codepoints free in
    do! destroy_list codepoints in
    ret buffer.

(** table[cp].status, table[cp].mapping and table[cp].idna2008 are at these offsets. *)
Definition at_status (cp : Z) : Z := 3 * cp.
Definition at_mapping (cp : Z) : Z := 3 * cp + 1.
Definition at_idna2008 (cp : Z) : Z := 3 * cp + 2.
Definition ld_entry (table i : Z) : M Z := let! t := ld_slots table in lift (rd t i).
Definition st_entry (table i p : Z) : M unit :=
  let! t := ld_slots table in
  let! t := lift (wr t i p) in
  st_slots table t.

(** src/gen_idna_table.c:153-160; [count] is the number of the passes that remain. *)
Fixpoint h_fill (junk : nat -> Z) (count : nat) (table cp status mapping idna2008 : Z) (buffer : list Z) : M unit :=
  match count with
  | O => ret tt
  | S count =>
      let! old := ld_entry table (at_status cp) in
      if old =? 0 then
        let! p := h_strip junk status 0 in
        do! st_entry table (at_status cp) p in
        do! (if mapping =? 0 then ret tt
             else
               let! p := new_string (dup_all junk buffer) in
               st_entry table (at_mapping cp) p) in
        do! (if idna2008 =? 0 then ret tt
             else
               let! p := h_strip junk idna2008 0 in
               st_entry table (at_idna2008 cp) p) in
        h_fill junk count table (cp + 1) status mapping idna2008 buffer
      else fun _ => Abort
  end.

(** src/gen_idna_table.c:128-168: the line has a status. [dots]: the address of the string
    literal "..". *)
Definition h_row (junk : nat -> Z) (table dots : Z) (buffer : list Z) (fields cp_range status : Z) : M unit :=
  let! mapping := list_pop_first fields in
  let! idna2008 := (if mapping =? 0 then ret 0 else list_pop_first fields) in
  let! range := h_charstr_split_str junk cp_range 0 dots 0 (u32 (-1)) in
  let! first := list_pop_first range in
  let! last := list_pop_first range in
  let! last := (if last =? 0 then h_dupstr junk first 0 else ret last) in
  let! buffer := h_mapping junk mapping buffer in
  let! s := ld_slots first in
  let! start := lift (strtol16 s) in
  let! s := ld_slots last in
  let! finish := lift (strtol16 s) in
  do! h_fill junk (Z.to_nat (s32 finish - s32 start + 1)) table (s32 start) status mapping idna2008 buffer in
  do! free first in
  do! free last in
  do! list_foreach range free in
  do! destroy_list range in
  do! free_or_null idna2008 in
  do! free_or_null mapping in
  free status.

(** src/gen_idna_table.c:122-173: [line] is the address of the block with the line. The lists
    are never empty, but where the code would read the first element of an empty list, or
    assert, so does this. *)
Definition h_line (junk : nat -> Z) (table dots : Z) (buffer : list Z) (line : Z) : M unit :=
  let! parts := h_charstr_split junk line 0 35 1 in
  let! e := list_get_first parts in
  let! body := list_elem_get_value e in
  let! fields := h_charstr_split junk body 0 59 (u32 (-1)) in
  let! cp_range := list_pop_first fields in
  if cp_range =? 0 then fun _ => Abort
  else
    let! status := list_pop_first fields in
    do! (if status =? 0 then ret tt else h_row junk table dots buffer fields cp_range status) in
    do! free cp_range in
    do! list_foreach fields free in
    do! destroy_list fields in
    do! list_foreach parts free in
    destroy_list parts.

(** The field idna2008 of a line, stripped; see [read_line]: src/gen_idna_table.c:122-132 and 159. *)
Definition idna2008_of (junk : nat -> Z) (line : list Z) : res (option (list Z)) :=
  parts <- charstr_split junk line 35 1 ;;
  match parts with
  | [] => UB
  | body :: _ =>
      fields <- charstr_split junk body 59 (u32 (-1)) ;;
      match fields with
      | _ :: _ :: _ :: idna2008 :: _ =>
          s <- charstr_strip junk (Some idna2008) ;;
          match s with
          | None => UB
          | Some s => s <- c_string s ;; Ok (Some s)
          end
      | _ => Ok None
      end
  end.

(** src/gen_idna_table.c:121-174: the loop over the file; [line] is NULL at first. Simplification:
    getline(3) always moves the line to a new block, and does not allocate at the end of the file. *)
Fixpoint h_read_text (junk : nat -> Z) (fuel : nat) (table dots : Z) (buffer : list Z) (line : Z) (file : list Z) : M unit :=
  match fuel with
  | O => no_fuel
  | S fuel =>
      let '(l, file) := getline file in
      match l with
      | [] => free_or_null line
      | _ =>
          do! free_or_null line in
          let! line := alloc (CSlots (l ++ [0])) in
          do! h_line junk table dots buffer line in
          h_read_text junk fuel table dots buffer line file
      end
  end.
