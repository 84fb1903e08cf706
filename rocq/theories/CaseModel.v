(** Model of src/lower_case.py and src/upper_case.py, which write
    [charstr_naive_lcase_unicode] and [charstr_naive_ucase_unicode] from
    unicode/UnicodeData.txt, and of the C code they write. *)
From Verif Require Import Base CategoryModel.

(** A line of UnicodeData.txt: codepoint, category and the fields 12 and 13, [None]
    when empty, src/lower_case.py:15-16,30 and src/upper_case.py:15-16,30.
    The splitting, the reading of the numbers and the assertions about First and Last lines
    are modelled in UcdTextModel.v. *)
Definition case_row : Type := Z * category * option Z * option Z.

(** src/lower_case.py:14-33: the case labels of the switch statement. *)
Fixpoint lower_cases (rows : list case_row) : list (Z * Z) :=
  match rows with
  | [] => []
  | (codepoint, c, _, lower) :: rows =>
      (if category_eqb c Lu then match lower with Some l => [(codepoint, l)] | None => [] end else [])
      ++ lower_cases rows
  end.

(** src/upper_case.py:14-33 *)
Fixpoint upper_cases (rows : list case_row) : list (Z * Z) :=
  match rows with
  | [] => []
  | (codepoint, c, upper, _) :: rows =>
      (if category_eqb c Ll then match upper with Some u => [(codepoint, u)] | None => [] end else [])
      ++ upper_cases rows
  end.

(** The switch statement, src/lower_case.py:10,29,35. A duplicate label (an error of the
    C compiler) does not occur in the theorems. *)
Fixpoint switch (cases : list (Z * Z)) (codepoint : Z) : Z :=
  match cases with
  | [] => codepoint
  | (label, value) :: cases => if codepoint =? label then value else switch cases codepoint
  end.

(** src/lower_case.py:8-37 *)
Definition naive_lcase_unicode (rows : list case_row) (codepoint : Z) : Z := switch (lower_cases rows) codepoint.

(** src/upper_case.py:8-37 *)
Definition naive_ucase_unicode (rows : list case_row) (codepoint : Z) : Z := switch (upper_cases rows) codepoint.
