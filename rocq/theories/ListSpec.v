(** Lists as sequences of (element handle, value) pairs, with a history. *)
From Verif Require Import Base Heap ListModel.

(** The handles of the elements of a sequence. *)
Definition handles (es : list (Z * Z)) : list Z := map fst es.
Definition values (es : list (Z * Z)) : list Z := map snd es.

(** NULL or the handle of the first / last element. *)
Definition first_handle (es : list (Z * Z)) : Z := hd 0 (handles es).
Definition last_handle (es : list (Z * Z)) : Z := last (handles es) 0.

(** The first element holding a value, or NULL. *)
Fixpoint find_value (v : Z) (es : list (Z * Z)) : Z :=
  match es with
  | [] => 0
  | (e, w) :: es => if w =? v then e else find_value v es
  end.

(** No list of 2^60 elements fits the memory. *)
Definition few (es : list (Z * Z)) : Prop := zlen es < 2 ^ 60.

(** The cells of a list. *)
Definition footprint (l : Z) (es : list (Z * Z)) : list Z := l :: handles es.

(** One modification of the list [l]: the public function called and what it
    should do to the sequence of elements. Only elements of the list may be
    passed to list_insert_before and list_remove. *)
Inductive list_step (l : Z) : heap -> list (Z * Z) -> heap -> list (Z * Z) -> Prop :=
| S_append h es v e h' :
    few es -> list_append l v h = Ok (e, h') -> list_step l h es h' (es ++ [(e, v)])
| S_prepend h es v e h' :
    few es -> list_prepend l v h = Ok (e, h') -> list_step l h es h' ((e, v) :: es)
| S_insert_before h pre next w post v e h' :
    few (pre ++ (next, w) :: post) -> list_insert_before l v next h = Ok (e, h') ->
    list_step l h (pre ++ (next, w) :: post) h' (pre ++ (e, v) :: (next, w) :: post)
| S_remove h pre e w post h' :
    list_remove l e h = Ok (tt, h') -> list_step l h (pre ++ (e, w) :: post) h' (pre ++ post)
| S_pop_first h es v h' :
    list_pop_first l h = Ok (v, h') -> list_step l h es h' (tl es)
| S_pop_last h es v h' :
    list_pop_last l h = Ok (v, h') -> list_step l h es h' (removelast es).

(** [list_history h l es]: in heap [h], [l] is a list that has been made and
    modified in such ways that its elements should be [es]. In between, the rest
    of the program may have changed, allocated and freed any other memory
    ([LH_other]), other lists included. *)
Inductive list_history : heap -> Z -> list (Z * Z) -> Prop :=
| LH_make h l h' : make_list h = Ok (l, h') -> list_history h' l []
| LH_step h l es h' es' :
    list_history h l es -> list_step l h es h' es' -> list_history h' l es'
| LH_other h l es h' :
    list_history h l es -> (forall x, In x (footprint l es) -> get h' x = get h x) ->
    list_history h' l es.

(** Several modifications of one list in a row. *)
Inductive list_steps (l : Z) : heap -> list (Z * Z) -> heap -> list (Z * Z) -> Prop :=
| SS_none h es : list_steps l h es h es
| SS_more h es h1 es1 h2 es2 :
    list_step l h es h1 es1 -> list_steps l h1 es1 h2 es2 -> list_steps l h es h2 es2.

(** Two address lists without a common member. *)
Definition apart (xs ys : list Z) : Prop := forall x, In x xs -> ~ In x ys.

(** Client loops over a list with the public functions. *)
Fixpoint walk (step : Z -> M Z) (n : nat) (e : Z) : M (list (Z * Z)) :=
  if e =? 0 then ret []
  else match n with
       | O => no_fuel
       | S n =>
           let! v := list_elem_get_value e in
           let! e' := step e in
           let! rest := walk step n e' in
           ret ((e, v) :: rest)
       end.
Definition traverse_forward (l : Z) (n : nat) : M (list (Z * Z)) :=
  let! e := list_get_first l in walk list_next n e.
Definition traverse_backward (l : Z) (n : nat) : M (list (Z * Z)) :=
  let! e := list_get_last l in walk list_previous n e.

(** Calling [f] on values one after another. *)
Fixpoint call_each (f : Z -> M unit) (vs : list Z) : M unit :=
  match vs with
  | [] => ret tt
  | v :: vs => do! f v in call_each f vs
  end.

(** [h'] differs from [h] at most at the addresses [fp]. *)
Definition same_outside (fp : list Z) (h h' : heap) : Prop :=
  forall x, ~ In x fp -> get h' x = get h x.
