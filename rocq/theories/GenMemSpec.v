(** The table of the generator in memory: a block of pointers, three for each codepoint. *)
From Verif Require Import Base Heap CharstrSpec NormSpec IdnaTabModel IdnaTabSpec IdnaTextSpec ListSpec.

(** The three pointers of a codepoint. *)
Definition entry_of (t : list Z) (cp : Z) : list Z := firstn 3 (skipn (Z.to_nat (3 * cp)) t).
(** The pointers that are not NULL. *)
Definition pointers (t : list Z) : list Z := filter (fun p => negb (p =? 0)) t.
(** NULL, or the address of a block with the string. *)
Definition string_or_null (h : heap) (p : Z) (s : option (list Z)) : Prop :=
  match s with None => p = 0 | Some s => get h p = Some (CSlots (s ++ [0])) end.
(** NULL, or the address of a block with some string. *)
Definition some_string (h : heap) (p : Z) : Prop := exists s, string_or_null h p s.

(** Between [h] and [h'] only the block of the table changed, and the pointers [new] in it are
    the addresses of new blocks, all different. *)
Definition only_new_entries (h h' : heap) (table : Z) (new : list Z) : Prop :=
  NoDup new /\ (forall p, In p new -> p <> 0 /\ get h p = None) /\ same_outside (table :: new) h h'.

Definition covers (row : idna_row) (cp : Z) : Prop := let '(lo, hi, _, _) := row in lo <= cp <= hi.
(** The rows are within [n] codepoints, and no codepoint is in two of them. *)
Definition rows_within (n : Z) (rows : list idna_row) : Prop :=
  Forall (fun row => let '(lo, hi, _, m) := row in 0 <= lo /\ hi < n /\ fine_mapping m) rows /\
  ForallOrdPairs (fun r1 r2 => forall cp, covers r1 cp -> ~ covers r2 cp) rows.
