(** What a file of the format of IdnaMappingTable.txt says. *)
From Verif Require Import Base IdnaTabModel NormSpec Utf8Spec.
From Coq Require Import String.

(** A mapping is a sequence of at most 99 bytes without NUL. *)
Definition fine_mapping (m : option (list Z)) : Prop :=
  match m with
  | None => True
  | Some cps => Forall (fun cp => scalar cp /\ cp <> 0) cps /\ zlen (encoding cps) <= 99
  end.

(** The lines from the codepoint [lo] on: every line begins where the one before ends, and
    the last one ends at U+10FFFF. *)
Inductive idna_file : Z -> list idna_row -> Prop :=
| idna_nil : idna_file 0x110000 []
| idna_cons lo hi st m rows :
    lo <= hi <= 0x10FFFF -> fine_mapping m -> idna_file (hi + 1) rows -> idna_file lo ((lo, hi, st, m) :: rows).

(** Rows in any order, with any gaps and overlaps. *)
Definition row_ok (row : idna_row) : Prop := let '(lo, hi, _, m) := row in 0 <= lo <= hi /\ hi <= 0x10FFFF /\ fine_mapping m.
(** The number of rows that cover a codepoint. *)
Definition covers (cp : Z) (row : idna_row) : bool := let '(lo, hi, _, _) := row in (lo <=? cp) && (cp <=? hi).
Definition times (rows : list idna_row) (cp : Z) : nat := List.length (filter (covers cp) rows).

(** The file gives the codepoint the status and the mapping. *)
Definition says (rows : list idna_row) (cp : Z) (st : status) (m : option (list Z)) : Prop :=
  exists lo hi, In (lo, hi, st, m) rows /\ lo <= cp <= hi.

(** All codepoints from [cp] to U+10FFFF have the same status. *)
Definition to_the_end (rows : list idna_row) (cp : Z) (st : status) : Prop :=
  forall n st' m, cp <= n -> says rows n st' m -> st' = st.

(** [cp] is the largest codepoint with the status. *)
Definition largest (rows : list idna_row) (st : status) (cp : Z) : Prop :=
  (exists m, says rows cp st m) /\ forall n m, says rows n st m -> n <= cp.

(** The mapping as bytes; an empty mapping counts as none. *)
Definition mapping_of (m : option (list Z)) : option (list Z) :=
  match m with
  | Some (c :: cps) => Some (encoding (c :: cps))
  | _ => None
  end.

(** The names of the statuses in the file; another status has no name for the library. *)
Definition status_name (st : status) : string :=
  match st with
  | Valid => "valid"
  | Ignored => "ignored"
  | Mapped => "mapped"
  | Deviation => "deviation"
  | Disallowed => "disallowed"
  | Std3_valid => "disallowed_STD3_valid"
  | Std3_mapped => "disallowed_STD3_mapped"
  | Other _ => "?"
  end.
