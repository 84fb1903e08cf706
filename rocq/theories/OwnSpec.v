(** Who owns which memory: what the functions that return new strings leave behind. *)
From Verif Require Import Base Heap ListModel ListSpec.

(** Between [h] and [h'], the only change is a new block with the content [d], at [p]. *)
Definition one_new_block (h h' : heap) (p : Z) (d : list Z) : Prop :=
  p <> 0 /\ get h p = None /\ get h' p = Some (CSlots d) /\ same_outside [p] h h'.

(** Nothing changed. *)
Definition same_memory (h h' : heap) : Prop := forall x, get h' x = get h x.

(** Between [h] and [h'], the only change is a new list [l] with the elements [es], whose
    values are the addresses of new blocks with the contents [blocks], all different. *)
Definition new_string_list (h h' : heap) (l : Z) (es : list (Z * Z)) (blocks : list (list Z)) : Prop :=
  list_history h' l es /\
  Forall2 (fun p d => get h' p = Some (CSlots d)) (values es) blocks /\
  NoDup (footprint l es ++ values es) /\
  (forall x, In x (footprint l es ++ values es) -> get h x = None) /\
  same_outside (footprint l es ++ values es) h h'.

(** Between [h] and [h'], the only changes are new blocks with the contents [blocks], all
    different, and their addresses in the first members of the block of pointers [array],
    which was [old]. *)
Definition new_string_array (h h' : heap) (array : Z) (old ps : list Z) (blocks : list (list Z)) : Prop :=
  get h' array = Some (CSlots (ps ++ skipn (length ps) old)) /\
  Forall2 (fun p d => get h' p = Some (CSlots d)) ps blocks /\
  NoDup (array :: ps) /\
  (forall p, In p ps -> get h p = None) /\
  same_outside (array :: ps) h h'.

(** A function that returns NULL and changes nothing, or a new string and changes nothing else. *)
Definition new_or_null (h h' : heap) (p : Z) (o : option (list Z)) : Prop :=
  match o with
  | None => p = 0 /\ same_memory h h'
  | Some d => one_new_block h h' p d
  end.
