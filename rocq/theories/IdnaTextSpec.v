(** The format of the lines of IdnaMappingTable.txt, https://www.unicode.org/reports/tr46/
    section 5: fields separated by semicolons, of which the first is a codepoint or a range,
    the second a status and the third the mapping, all in hexadecimal numbers, and a comment
    from a hash mark on. *)
From Verif Require Import Base CharstrSpec IdnaTabModel IdnaTabSpec.
From Coq Require Import String Ascii.
Open Scope list_scope.
Open Scope Z_scope.

(** Space, tab and the newline at the end of the line. *)
Definition blank (c : Z) : Prop := c = 32 \/ c = 9 \/ c = 10.

(** A number in hexadecimal digits. *)
Inductive hex_number : list Z -> Z -> Prop :=
| Num_digit c v : hex_value c v -> hex_number [c] v
| Num_more ds n c v : hex_number ds n -> hex_value c v -> hex_number (ds ++ [c]) (16 * n + v).

(** The field is [s] between blanks. *)
Definition padded (s field : list Z) : Prop :=
  exists w1 w2, field = w1 ++ s ++ w2 /\ Forall blank w1 /\ Forall blank w2.

(** A codepoint, or two with two dots between them. *)
Inductive range_field : list Z -> Z -> Z -> Prop :=
| Range_one ds field n : hex_number ds n -> n < 2 ^ 31 -> padded ds field -> range_field field n n
| Range_two ds1 ds2 f1 f2 n1 n2 :
    hex_number ds1 n1 -> n1 < 2 ^ 31 -> padded ds1 f1 -> hex_number ds2 n2 -> n2 < 2 ^ 31 -> padded ds2 f2 ->
    range_field (f1 ++ [46; 46] ++ f2) n1 n2.

(** The bytes of the name of the status. *)
Definition name_bytes (st : status) : list Z :=
  match st with
  | Other name => name
  | _ => map (fun c => Z.of_nat (nat_of_ascii c)) (list_ascii_of_string (status_name st))
  end.

(** A status other than the seven is a string without whitespace that is not the name of one of
    them. *)
Definition fine_status (st : status) : Prop :=
  match st with
  | Other name => name <> [] /\ Forall (fun c => ~ code_white c /\ c <> 35 /\ c <> 59) name /\
      forall st', In st' [Valid; Ignored; Mapped; Deviation; Disallowed; Std3_valid; Std3_mapped] -> name <> name_bytes st'
  | _ => True
  end.

(** Codepoints with blanks between them. *)
Definition mapping_field (field : list Z) (cps : list Z) : Prop :=
  exists numbers, atoms blank field numbers /\
    Forall2 (fun ds n => hex_number ds n /\ n < 2 ^ 31) numbers cps.

(** Nothing, or a comment. *)
Definition comment (s : list Z) : Prop := s = [] \/ exists t, s = 35 :: t.

(** A line with a status. There may be more fields than three. *)
Inductive row_line : list Z -> idna_row -> Prop :=
| Row_line f1 f2 fields lo hi st m rest :
    range_field f1 lo hi -> fine_status st -> padded (name_bytes st) f2 ->
    match fields, m with
    | [], None => True
    | f3 :: _, Some cps => mapping_field f3 cps
    | _, _ => False
    end ->
    Forall (fun f => ~ In 35 f /\ ~ In 59 f) fields -> comment rest ->
    row_line (join [59] (f1 :: f2 :: fields) ++ rest) (lo, hi, st, m).

(** A line without a semicolon before the comment. *)
Definition other_line (line : list Z) : Prop :=
  exists body rest, line = body ++ rest /\ ~ In 35 body /\ ~ In 59 body /\ comment rest.

(** The line ends with a newline, or it is the last one. *)
Definition whole_line (line file : list Z) : Prop :=
  (exists l, line = l ++ [10] /\ ~ In 10 l) \/ (line <> [] /\ ~ In 10 line /\ file = []).

(** A file, and what its lines say. *)
Inductive idna_text : list Z -> list idna_row -> Prop :=
| Text_end : idna_text [] []
| Text_row line file row rows :
    whole_line line file -> row_line line row -> idna_text file rows -> idna_text (line ++ file) (row :: rows)
| Text_other line file rows :
    whole_line line file -> other_line line -> idna_text file rows -> idna_text (line ++ file) rows.
