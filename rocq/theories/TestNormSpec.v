(** What test/charstr_normalization_test.c should say about a file. *)
From Verif Require Import Base CharstrSpec NormSpec IdnaTextSpec TestMoreModel TestSpec.

(** A column: the codepoints in hexadecimal digits, with a space between them *)
Definition column (field cps : list Z) : Prop :=
  exists numbers, numbers <> [] /\ field = join [32] numbers /\ Forall2 hex_number numbers cps /\ codepoints cps /\ fits cps.
(** A line with five columns and anything after them *)
Definition data_line (line : list Z) (cols : list (list Z)) : Prop :=
  exists fields rest, line = join [59] (fields ++ [rest]) /\ length fields = 5%nat /\ Forall2 column fields cols.
(** A comment, or the title of a part *)
Definition other_line (line : list Z) : Prop := exists s, line = 35 :: s \/ line = 64 :: s.

(** The file consists of these lines, with the columns [rows]. *)
Inductive norm_text : list Z -> list (list (list Z)) -> Prop :=
| Norm_end : norm_text [] []
| Norm_other line file rows : whole_line line file -> other_line line -> norm_text file rows -> norm_text (line ++ file) rows
| Norm_data line file cols rows : whole_line line file -> data_line line cols -> norm_text file rows ->
    norm_text (line ++ file) (cols :: rows).

(** What NormalizationTest.txt says of its columns *)
Definition right (cols : list (list Z)) : Prop :=
  match cols with
  | [c1; c2; c3; c4; c5] =>
      (forall c, In c [c1; c2; c3] -> nfd c c3 /\ nfc c c2) /\ (forall c, In c [c4; c5] -> nfd c c5 /\ nfc c c4)
  | _ => False
  end.
