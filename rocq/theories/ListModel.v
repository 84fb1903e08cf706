(** Model of src/list.c (doubly linked lists). *)
From Verif Require Import Base Heap.

(** src/list.c:6-12 make_list *)
Definition make_list : M Z := alloc (CList (mk_list 0 0 0)).

(** src/list.c:14-22 destroy_list (the loop) *)
Fixpoint destroy_elems (n : nat) (element : Z) : M unit :=
  match n with
  | O => no_fuel
  | S n =>
      if element =? 0 then ret tt
      else
        let! c := ld_lelem element in
        do! free element in
        destroy_elems n (le_next c)
  end.
(** src/list.c:14-22 destroy_list *)
Definition destroy_list (list : Z) : M unit :=
  let! n := fuel in
  let! c := ld_list list in
  do! destroy_elems n (l_first c) in
  free list.

(** src/list.c:24-27 list_elem_get_value *)
Definition list_elem_get_value (element : Z) : M Z :=
  let! c := ld_lelem element in ret (le_value c).

(** src/list.c:29-32 list_get_first *)
Definition list_get_first (list : Z) : M Z :=
  let! c := ld_list list in ret (l_first c).

(** src/list.c:34-37 list_get_last *)
Definition list_get_last (list : Z) : M Z :=
  let! c := ld_list list in ret (l_last c).

(** src/list.c:39-46 list_get (the loop) *)
Fixpoint get_loop (n : nat) (value element : Z) : M Z :=
  match n with
  | O => no_fuel
  | S n =>
      if element =? 0 then ret 0
      else
        let! c := ld_lelem element in
        if le_value c =? value then ret element
        else get_loop n value (le_next c)
  end.
(** src/list.c:39-46 list_get *)
Definition list_get (list value : Z) : M Z :=
  let! n := fuel in
  let! c := ld_list list in
  get_loop n value (l_first c).

(** src/list.c:48-57 list_get_by_index (the loop; [i] is an int, its overflow is
    undefined) *)
Fixpoint index_loop (n : nat) (idx element i : Z) : M Z :=
  match n with
  | O => no_fuel
  | S n =>
      if (element =? 0) || (i =? idx) then ret element
      else
        let! c := ld_lelem element in
        if i =? INT_MAX then fail
        else index_loop n idx (le_next c) (i + 1)
  end.
(** src/list.c:48-57 list_get_by_index *)
Definition list_get_by_index (list idx : Z) : M Z :=
  let! n := fuel in
  let! c := ld_list list in
  index_loop n idx (l_first c) 0.

(** src/list.c:59-62 list_next *)
Definition list_next (element : Z) : M Z :=
  let! c := ld_lelem element in ret (le_next c).

(** src/list.c:64-67 list_previous *)
Definition list_previous (element : Z) : M Z :=
  let! c := ld_lelem element in ret (le_prev c).

(** Field writes. *)
Definition st_first (list v : Z) : M unit :=
  let! c := ld_list list in st_list list (mk_list v (l_last c) (l_size c)).
Definition st_last (list v : Z) : M unit :=
  let! c := ld_list list in st_list list (mk_list (l_first c) v (l_size c)).
Definition st_size (list v : Z) : M unit :=
  let! c := ld_list list in st_list list (mk_list (l_first c) (l_last c) v).
Definition st_prev (element v : Z) : M unit :=
  let! c := ld_lelem element in st_lelem element (mk_lelem (le_value c) v (le_next c)).
Definition st_next (element v : Z) : M unit :=
  let! c := ld_lelem element in st_lelem element (mk_lelem (le_value c) (le_prev c) v).

(** list->size++ and list->size-- (size_t). *)
Definition size_inc (list : Z) : M unit :=
  let! c := ld_list list in st_size list (u64 (l_size c + 1)).
Definition size_dec (list : Z) : M unit :=
  let! c := ld_list list in st_size list (u64 (l_size c - 1)).

(** src/list.c:69-84 list_append. The fresh element's unset fields are
    arbitrary in C; here NULL, no path reads them before they are set. *)
Definition list_append (list value : Z) : M Z :=
  let! element := alloc (CLelem (mk_lelem value 0 0)) in
  let! c := ld_list list in
  do! (if l_first c =? 0 then
         do! st_prev element 0 in
         do! st_last list element in
         st_first list element
       else
         do! st_prev element (l_last c) in
         let! e := ld_lelem element in
         do! st_next (le_prev e) element in
         st_last list element) in
  do! size_inc list in
  ret element.

(** src/list.c:86-101 list_prepend *)
Definition list_prepend (list value : Z) : M Z :=
  let! element := alloc (CLelem (mk_lelem value 0 0)) in
  let! c := ld_list list in
  do! (if l_first c =? 0 then
         do! st_next element 0 in
         do! st_last list element in
         st_first list element
       else
         do! st_next element (l_first c) in
         let! e := ld_lelem element in
         do! st_prev (le_next e) element in
         st_first list element) in
  do! size_inc list in
  ret element.

(** src/list.c:103-117 list_insert_before *)
Definition list_insert_before (list value next : Z) : M Z :=
  let! element := alloc (CLelem (mk_lelem value 0 0)) in
  do! st_next element next in
  let! c := ld_lelem next in
  do! st_prev element (le_prev c) in
  let! c := ld_lelem next in
  do! (if truth (le_prev c) then st_next (le_prev c) element
       else st_first list element) in
  do! st_prev next element in
  do! size_inc list in
  ret element.

(** src/list.c:119-137 list_remove *)
Definition list_remove (list element : Z) : M unit :=
  let! c := ld_list list in
  do! (if l_first c =? element then
         if l_last c =? element then
           do! st_last list 0 in
           st_first list 0
         else
           let! e := ld_lelem element in
           do! st_first list (le_next e) in
           st_prev (le_next e) 0
       else if l_last c =? element then
         let! e := ld_lelem element in
         do! st_last list (le_prev e) in
         st_next (le_prev e) 0
       else
         let! e := ld_lelem element in
         do! st_prev (le_next e) (le_prev e) in
         let! e := ld_lelem element in
         st_next (le_prev e) (le_next e)) in
  do! free element in
  size_dec list.

(** src/list.c:139-147 list_pop_first *)
Definition list_pop_first (list : Z) : M Z :=
  let! element := list_get_first list in
  if element =? 0 then ret 0
  else
    let! value := list_elem_get_value element in
    do! list_remove list element in
    ret value.

(** src/list.c:149-157 list_pop_last *)
Definition list_pop_last (list : Z) : M Z :=
  let! element := list_get_last list in
  if element =? 0 then ret 0
  else
    let! value := list_elem_get_value element in
    do! list_remove list element in
    ret value.

(** src/list.c:159-162 list_empty *)
Definition list_empty (list : Z) : M bool :=
  let! c := ld_list list in ret (l_first c =? 0).

(** src/list.c:164-167 list_size *)
Definition list_size (list : Z) : M Z :=
  let! c := ld_list list in ret (l_size c).

(** src/list.c:169-175 list_foreach (the loop). The callback [f], with its
    argument, is a computation on the heap. *)
Fixpoint foreach_loop (n : nat) (f : Z -> M unit) (e : Z) : M unit :=
  match n with
  | O => no_fuel
  | S n =>
      if e =? 0 then ret tt
      else
        let! value := list_elem_get_value e in
        do! f value in
        let! e := list_next e in
        foreach_loop n f e
  end.
(** src/list.c:169-175 list_foreach *)
Definition list_foreach (list : Z) (f : Z -> M unit) : M unit :=
  let! n := fuel in
  let! e := list_get_first list in
  foreach_loop n f e.

(** src/list.c:177-180 append_it *)
Definition append_it (copy value : Z) : M unit :=
  do! list_append copy value in ret tt.

(** src/list.c:182-187 list_copy *)
Definition list_copy (list : Z) : M Z :=
  let! copy := make_list in
  do! list_foreach list (append_it copy) in
  ret copy.
