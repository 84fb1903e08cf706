(** Model of the program test/charstr_idna_test.c with any file. What is printed is left out. *)
From Verif Require Import Base CMem Heap ListModel CharstrModel NormModel PunyModel IdnaTabModel IdnaModel IdnaTextModel OwnModel NewMemModel GenMemModel.

Section Idna.
(** [errno], [r] and [hr]: what charstr_idna_encode finds in errno and in uninitialized variables, see IdnaEncodeModel.v. *)
Context (junk : nat -> Z) (r : recomposer) (hr : hangul_recomposer) (errno : Z).

Definition first_byte (s : Z) : M Z :=
  let! b := ld_slots s in
  lift (rd b 0).

(** test/charstr_idna_test.c:9-29 test *)
Definition idna_test (source toUnicode toAscii : Z) : M bool :=
  let! c := first_byte toAscii in
  let toAscii := if c =? 0 then toUnicode else toAscii in
  let! c := first_byte toAscii in
  let toAscii := if c =? 0 then source else toAscii in
  let! result := h_charstr_idna_encode junk r hr errno source 0 in
  let! verdict :=
    (if result =? 0 then ret true
     else
       let! a := ld_slots result in
       let! b := ld_slots toAscii in
       lift (strcmp_eq a b)) in
  do! free_or_null result in
  ret verdict.

(** test/charstr_idna_test.c:31-36 stripped *)
Definition idna_stripped (s : Z) : M Z :=
  let! stripped := h_strip junk s 0 in
  do! free_or_null s in
  ret stripped.

(** test/charstr_idna_test.c:49-55: the same line seven times, for [n] = 7 *)
Fixpoint next_fields (n : nat) (fields : Z) : M (list Z) :=
  match n with
  | O => ret []
  | S n =>
      let! f := list_pop_first fields in
      let! s := idna_stripped f in
      let! rest := next_fields n fields in
      ret (s :: rest)
  end.
(** test/charstr_idna_test.c:61-67 *)
Fixpoint free_fields (ps : list Z) : M unit :=
  match ps with
  | [] => ret tt
  | p :: ps => do! free_or_null p in free_fields ps
  end.

(** test/charstr_idna_test.c:46-71: one pass of the loop; the result is the variable ok *)
Definition idna_line (line : Z) : M bool :=
  let! parts := h_charstr_split junk line 0 35 1 in
  let! e := list_get_first parts in
  let! body := list_elem_get_value e in
  let! fields := h_charstr_split junk body 0 59 (u32 (-1)) in
  let! fs := next_fields 7 fields in
  let source := nth 0 fs 0 in
  let toUnicode := nth 1 fs 0 in
  let toAsciiN := nth 3 fs 0 in
  let! ok :=
    (if negb (source =? 0) && negb (toUnicode =? 0) && negb (toAsciiN =? 0)
     then idna_test source toUnicode toAsciiN
     else ret true) in
  do! free_fields fs in
  do! list_foreach fields free in
  do! destroy_list fields in
  do! list_foreach parts free in
  do! destroy_list parts in
  ret ok.

(** test/charstr_idna_test.c:41-77 main, with [file] as what is left of the file. Simplification: getline(3)
    always moves the line to a new block, and does not allocate at the end of the file. *)
Fixpoint idna_main (fuel : nat) (line : Z) (ok : bool) (file : list Z) : M bool :=
  match fuel with
  | O => no_fuel
  | S fuel =>
      if negb ok then do! free_or_null line in ret ok
      else
        let '(l, file) := getline file in
        match l with
        | [] => do! free_or_null line in ret ok
        | _ =>
            do! free_or_null line in
            let! line := alloc (CSlots (l ++ [0])) in
            let! ok := idna_line line in
            idna_main fuel line ok file
        end
  end.
End Idna.
