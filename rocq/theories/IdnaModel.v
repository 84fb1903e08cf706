(** The functions of the generated file idna_table.c, and charstr_idna_status. *)
From Verif Require Import Base IdnaTabModel IdnaData.
From Coq Require Import String.

(** The file that src/gen_idna_table.c writes from idna/IdnaMappingTable.txt. Simplification:
    the content of the uninitialized array in main (src/gen_idna_table.c:140) is taken to be
    zeros; by [gen_ok] in IdnaTabProofs.v it has no influence. *)
Definition idna_table : res idna_code := gen_idna_table (repeat 0 100) idna_data.

(** The functions in that file, src/gen_idna_table.c:182-189. *)
Definition charstr_idna_status_is_deviation (codepoint : Z) : res bool :=
  c <- idna_table ;; Ok (run_test (code_deviation c) codepoint).
(** src/gen_idna_table.c:183 *)
Definition charstr_idna_status_is_disallowed (codepoint : Z) : res bool :=
  c <- idna_table ;; Ok (run_test (code_disallowed c) codepoint).
(** src/gen_idna_table.c:184 *)
Definition charstr_idna_status_is_disallowed_STD3_valid (codepoint : Z) : res bool :=
  c <- idna_table ;; Ok (run_test (code_std3_valid c) codepoint).
(** src/gen_idna_table.c:185 *)
Definition charstr_idna_status_is_disallowed_STD3_mapped (codepoint : Z) : res bool :=
  c <- idna_table ;; Ok (run_test (code_std3_mapped c) codepoint).
(** src/gen_idna_table.c:186 *)
Definition charstr_idna_status_is_ignored (codepoint : Z) : res bool :=
  c <- idna_table ;; Ok (run_test (code_ignored c) codepoint).
(** src/gen_idna_table.c:187 *)
Definition charstr_idna_status_is_mapped (codepoint : Z) : res bool :=
  c <- idna_table ;; run_set (code_mapped c) codepoint.
(** src/gen_idna_table.c:188 *)
Definition charstr_idna_status_is_valid (codepoint : Z) : res bool :=
  c <- idna_table ;; run_set (code_valid c) codepoint.
(** src/gen_idna_table.c:189; the string without its NUL *)
Definition charstr_idna_mapping (codepoint : Z) : res (option (list Z)) :=
  c <- idna_table ;; run_mapping (code_mappings c) codepoint.

(** src/charstr_puny.c:291-308 charstr_idna_status *)
Definition charstr_idna_status (codepoint : Z) : res string :=
  b <- charstr_idna_status_is_valid codepoint ;;
  if b : bool then Ok "valid"%string
  else
    b <- charstr_idna_status_is_mapped codepoint ;;
    if b : bool then Ok "mapped"%string
    else
      b <- charstr_idna_status_is_ignored codepoint ;;
      if b : bool then Ok "ignored"%string
      else
        b <- charstr_idna_status_is_deviation codepoint ;;
        if b : bool then Ok "deviation"%string
        else
          b <- charstr_idna_status_is_disallowed codepoint ;;
          if b : bool then Ok "disallowed"%string
          else
            b <- charstr_idna_status_is_disallowed_STD3_valid codepoint ;;
            if b : bool then Ok "disallowed_STD3_valid"%string
            else
              b <- charstr_idna_status_is_disallowed_STD3_mapped codepoint ;;
              if b : bool then Ok "disallowed_STD3_mapped"%string
              else Ok "?"%string.
