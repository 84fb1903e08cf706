(** What a file of the format of UnicodeData.txt says about general categories. *)
From Verif Require Import Base CategoryModel.

(** The lines are in ascending order of codepoints; a First line is followed by the
    Last line of the same range. All codepoints are at least [lo]. *)
Inductive ucd_file : Z -> list row -> Prop :=
| ucd_nil lo : ucd_file lo []
| ucd_single lo cp c rows :
    lo <= cp <= 0x10FFFF -> ucd_file (cp + 1) rows -> ucd_file lo ((cp, Single, c) :: rows)
| ucd_range lo first last c rows :
    lo <= first < last -> last <= 0x10FFFF -> ucd_file (last + 1) rows ->
    ucd_file lo ((first, First, c) :: (last, Last, c) :: rows).

(** The file gives the codepoint the category. *)
Definition assigned (rows : list row) (cp : Z) (c : category) : Prop :=
  In (cp, Single, c) rows \/
  exists before first last after,
    rows = before ++ (first, First, c) :: (last, Last, c) :: after /\ first <= cp <= last.

Definition unassigned (rows : list row) (cp : Z) : Prop := forall c, ~ assigned rows cp c.

(** [next] is the first codepoint above [cp] with a category. *)
Definition next_assigned (rows : list row) (cp next : Z) (c : category) : Prop :=
  cp < next /\ assigned rows next c /\ forall n, cp < n < next -> unassigned rows n.
