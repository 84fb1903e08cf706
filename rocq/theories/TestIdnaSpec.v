(** What test/charstr_idna_test.c should say about a file. *)
From Verif Require Import Base CharstrSpec NormModel IdnaTextSpec IdnaEncodeModel.

(** The fields of a line: those between semicolons before the first hash mark, without whitespace around
    them. *)
Definition fields_of (line : list Z) (fs : list (list Z)) : Prop :=
  exists body comments fields, split_at_char 35 1 line (body :: comments) /\
    split_at_char 59 (2 ^ 32 - 1) body fields /\ Forall2 (stripped code_white) fields fs.

(** The ASCII form is the fourth field. If it is empty, it is the same as the second, and if this is empty, it is
    the same as the first. *)
Definition expected (s u n : list Z) : list Z :=
  match n, u with
  | [], [] => s
  | [], _ => u
  | _, _ => n
  end.

Section Encode.
(** [encode s o]: [o] is the encoding of [s], or [None] if it is refused. *)
Context (encode : list Z -> option (list Z) -> Prop).

(** A line is accepted if it has less than four fields, or if the encoding of the first field is
    refused or is the expected one. *)
Inductive line_says (line : list Z) : bool -> Prop :=
| Says_nothing fs : fields_of line fs -> (length fs < 4)%nat -> line_says line true
| Says_name s u t n fs o v : fields_of line (s :: u :: t :: n :: fs) -> encode s o ->
    (v = true <-> o = None \/ o = Some (expected s u n)) -> line_says line v.

(** A file is accepted if all lines are. Reading ends at the first that is not. *)
Inductive file_says : list Z -> bool -> Prop :=
| File_end : file_says [] true
| File_line line file v : whole_line line file -> line_says line true -> file_says file v -> file_says (line ++ file) v
| File_wrong line file : whole_line line file -> line_says line false -> file_says (line ++ file) false.
End Encode.

Section Library.
Context (junk : nat -> Z) (r : recomposer) (hr : hangul_recomposer) (errno : Z).
(** The encoding by charstr_idna_encode *)
Definition encode (s : list Z) (o : option (list Z)) : Prop :=
  charstr_idna_encode junk r hr errno (s ++ [0]) = Ok (option_map (fun d => d ++ [0]) o) /\ match o with Some d => text d | None => True end.
(** The first fields of the line (the file) are names that charstr_idna_encode can deal with: see C64. *)
Definition encodes_line (line : list Z) : Prop := forall s u t n fs, fields_of line (s :: u :: t :: n :: fs) -> exists o, charstr_idna_encode junk r hr errno (s ++ [0]) = Ok o.
Definition encodes_file (file : list Z) : Prop := forall before line after, file = before ++ line ++ after -> whole_line line after -> (before = [] \/ exists b, before = b ++ [10]) -> encodes_line line.
End Library.
