(** Lists that are changed while they are traversed. *)
From Verif Require Import Base Heap ListModel ListSpec.

(** Any number of modifications of the list [l], and anything else that leaves its memory alone. *)
Inductive changes (l : Z) : heap -> list (Z * Z) -> heap -> list (Z * Z) -> Prop :=
| C_none h es : changes l h es h es
| C_step h es h1 es1 h2 es2 : list_step l h es h1 es1 -> changes l h1 es1 h2 es2 -> changes l h es h2 es2
| C_other h es h1 h2 es2 :
    (forall x, In x (footprint l es) -> get h1 x = get h x) -> changes l h1 es h2 es2 -> changes l h es h2 es2.

(** [visits l f h es e vs h' es']: in the heap [h] the list [l] has the elements [es]; [f] is called for the value of the
    element [e], then for that of the element that follows [e] in the list as [f] left it, and so on up to the end of the list.
    [vs] are the values [f] is called with; in the end the list is [es']. [e] is 0 at the end of the list. *)
Inductive visits (l : Z) (f : Z -> M unit) : heap -> list (Z * Z) -> Z -> list Z -> heap -> list (Z * Z) -> Prop :=
| V_end h es : visits l f h es 0 [] h es
| V_more h pre e w post h1 pre1 post1 vs h2 es2 :
    f w h = Ok (tt, h1) -> changes l h (pre ++ (e, w) :: post) h1 (pre1 ++ (e, w) :: post1) ->
    visits l f h1 (pre1 ++ (e, w) :: post1) (first_handle post1) vs h2 es2 ->
    visits l f h (pre ++ (e, w) :: post) e (w :: vs) h2 es2.

(** A callback that may change the list while [e] is the current element, but does not remove [e]. [P] is what the client
    knows of the memory and of the list before and after every call. *)
Definition considerate (P : heap -> list (Z * Z) -> Prop) (l : Z) (f : Z -> M unit) : Prop :=
  forall h pre e w post, list_history h l (pre ++ (e, w) :: post) -> P h (pre ++ (e, w) :: post) ->
    exists h' pre' post', f w h = Ok (tt, h') /\ P h' (pre' ++ (e, w) :: post') /\
      changes l h (pre ++ (e, w) :: post) h' (pre' ++ (e, w) :: post').
(** One that besides does not touch what comes after [e] ... *)
Definition looks_back (P : heap -> list (Z * Z) -> Prop) (l : Z) (f : Z -> M unit) : Prop :=
  forall h pre e w post, list_history h l (pre ++ (e, w) :: post) -> P h (pre ++ (e, w) :: post) ->
    exists h' pre', f w h = Ok (tt, h') /\ P h' (pre' ++ (e, w) :: post) /\
      changes l h (pre ++ (e, w) :: post) h' (pre' ++ (e, w) :: post).
(** ... or only appends to the list. *)
Definition appends (P : heap -> list (Z * Z) -> Prop) (l : Z) (f : Z -> M unit) : Prop :=
  forall h pre e w post, list_history h l (pre ++ (e, w) :: post) -> P h (pre ++ (e, w) :: post) ->
    exists h' more, f w h = Ok (tt, h') /\ P h' (pre ++ (e, w) :: post ++ more) /\
      changes l h (pre ++ (e, w) :: post) h' (pre ++ (e, w) :: post ++ more).

(** list_foreach, with the number of steps it may take. *)
Definition foreach_within (n : nat) (l : Z) (f : Z -> M unit) : M unit :=
  let! e := list_get_first l in foreach_loop n f e.

(** A client's loop that removes the elements with the property [p]:
    for (e = list_get_first(l); e; e = next) { next = list_next(e); if (p(value)) list_remove(l, e); } *)
Fixpoint remove_loop (n : nat) (l : Z) (p : Z -> bool) (e : Z) : M unit :=
  match n with
  | O => no_fuel
  | S n =>
      if e =? 0 then ret tt
      else
        let! v := list_elem_get_value e in
        let! next := list_next e in
        do! (if p v then list_remove l e else ret tt) in
        remove_loop n l p next
  end.
Definition remove_if (l : Z) (p : Z -> bool) : M unit :=
  let! n := fuel in
  let! e := list_get_first l in
  remove_loop n l p e.

(** What is left. *)
Definition keep (p : Z -> bool) (es : list (Z * Z)) : list (Z * Z) := filter (fun ev => negb (p (snd ev))) es.
