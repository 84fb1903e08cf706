(** Model of src/avltree.c (AVL trees). *)
From Verif Require Import Base Heap.

(** Balance fields are [int]s of the range -2..2 (see AvlProofs.v), so their
    arithmetic is that of [Z]. The function pointer [cmp] is an opaque code
    pointer; [call cmp key1 key2 obj] is what the function behind it returns. It
    does not access the tree. The functions that compare keys also return the
    number of calls they have made ("_counted"); the C functions do not. *)
Notation comparator := (Z -> Z -> Z -> Z -> Z).

(** element->left = v *)
Definition st_left (a v : Z) : M unit :=
  let! c := ld_aelem a in
  st_aelem a (mk_aelem (ae_key c) (ae_value c) v (ae_right c) (ae_parent c) (ae_balance c)).
(** element->right = v *)
Definition st_right (a v : Z) : M unit :=
  let! c := ld_aelem a in
  st_aelem a (mk_aelem (ae_key c) (ae_value c) (ae_left c) v (ae_parent c) (ae_balance c)).
(** element->parent = v *)
Definition st_parent (a v : Z) : M unit :=
  let! c := ld_aelem a in
  st_aelem a (mk_aelem (ae_key c) (ae_value c) (ae_left c) (ae_right c) v (ae_balance c)).
(** element->balance = v *)
Definition st_balance (a v : Z) : M unit :=
  let! c := ld_aelem a in
  st_aelem a (mk_aelem (ae_key c) (ae_value c) (ae_left c) (ae_right c) (ae_parent c) v).
(** tree->root = v *)
Definition st_root (t v : Z) : M unit :=
  let! c := ld_avl t in st_avl t (mk_avl (av_cmp c) (av_obj c) v (av_size c)).
(** tree->size = v *)
Definition st_tsize (t v : Z) : M unit :=
  let! c := ld_avl t in st_avl t (mk_avl (av_cmp c) (av_obj c) (av_root c) v).

(** src/avltree.c:6-9 avl_elem_get_key *)
Definition avl_elem_get_key (element : Z) : M Z :=
  let! e := ld_aelem element in ret (ae_key e).
(** src/avltree.c:11-14 avl_elem_get_value *)
Definition avl_elem_get_value (element : Z) : M Z :=
  let! e := ld_aelem element in ret (ae_value e).

(** src/avltree.c:16-25 make_avl_tree_2 *)
Definition make_avl_tree_2 (cmp obj : Z) : M Z := alloc (CAvl (mk_avl cmp obj 0 0)).
(** src/avltree.c:27-30 make_avl_tree. The C code casts the pointer to a function
    of two arguments to one of three; here, [call cmp key1 key2 obj] is then a
    function that does not depend on [obj]. *)
Definition make_avl_tree (cmp : Z) : M Z := make_avl_tree_2 cmp 0.

(** src/avltree.c:32-39 destroy_subtree *)
Fixpoint destroy_subtree (n : nat) (element : Z) : M unit :=
  match n with
  | O => no_fuel
  | S n =>
      if element =? 0 then ret tt
      else
        let! e := ld_aelem element in
        do! destroy_subtree n (ae_left e) in
        let! e := ld_aelem element in
        do! destroy_subtree n (ae_right e) in
        free element
  end.
(** src/avltree.c:41-45 destroy_avl_tree. In this and the other functions with
    "_within", [n] is the number of calls of the recursive function that may be
    active at one time; the C functions have no such argument. *)
Definition destroy_avl_tree_within (n : nat) (tree : Z) : M unit :=
  let! t := ld_avl tree in
  do! destroy_subtree n (av_root t) in
  free tree.
Definition destroy_avl_tree (tree : Z) : M unit :=
  let! n := fuel in destroy_avl_tree_within n tree.

(** src/avltree.c:47-55 make_element *)
Definition make_element (key value : Z) : M Z := alloc (CAelem (mk_aelem key value 0 0 0 0)).

(** src/avltree.c:57-60 destroy_avl_element *)
Definition destroy_avl_element (element : Z) : M unit := free element.

(** src/avltree.c:62-65 avl_tree_size *)
Definition avl_tree_size (tree : Z) : M Z :=
  let! t := ld_avl tree in ret (av_size t).

(** src/avltree.c:67-80 avl_tree_get (the loop). *)
Fixpoint get_loop (call : comparator) (n : nat) (tree key obj element count : Z) : M (Z * Z) :=
  match n with
  | O => no_fuel
  | S n =>
      if truth element then
        let! t := ld_avl tree in
        let! e := ld_aelem element in
        let cmp := call (av_cmp t) key (ae_key e) obj in
        if cmp =? 0 then ret (element, count + 1)
        else if cmp >? 0 then get_loop call n tree key obj (ae_right e) (count + 1)
        else get_loop call n tree key obj (ae_left e) (count + 1)
      else ret (0, count)
  end.
(** src/avltree.c:67-80 avl_tree_get *)
Definition avl_tree_get_counted (call : comparator) (tree key : Z) : M (Z * Z) :=
  let! t := ld_avl tree in
  let! n := fuel in
  get_loop call n tree key (av_obj t) (av_root t) 0.
Definition avl_tree_get (call : comparator) (tree key : Z) : M Z :=
  let! r := avl_tree_get_counted call tree key in ret (fst r).

(** src/avltree.c:87-88 (the loop of previous_descendant), 491-494 (that of
    avl_tree_get_last) *)
Fixpoint rightmost (n : nat) (adj : Z) : M Z :=
  match n with
  | O => no_fuel
  | S n =>
      let! e := ld_aelem adj in
      if ae_right e =? 0 then ret adj else rightmost n (ae_right e)
  end.
(** src/avltree.c:141-142 (the loop of next_descendant), 479-482 (that of
    avl_tree_get_first) *)
Fixpoint leftmost (n : nat) (adj : Z) : M Z :=
  match n with
  | O => no_fuel
  | S n =>
      let! e := ld_aelem adj in
      if ae_left e =? 0 then ret adj else leftmost n (ae_left e)
  end.

(** src/avltree.c:82-90 previous_descendant *)
Definition previous_descendant (element : Z) : M Z :=
  let! e := ld_aelem element in
  if ae_left e =? 0 then ret 0 else let! n := fuel in rightmost n (ae_left e).

(** src/avltree.c:97-99 (the loop of avl_tree_previous) *)
Fixpoint climb_left (n : nat) (element : Z) : M Z :=
  match n with
  | O => no_fuel
  | S n =>
      let! e := ld_aelem element in
      if ae_parent e =? 0 then ret (ae_parent e)
      else
        let! p := ld_aelem (ae_parent e) in
        if ae_left p =? element then climb_left n (ae_parent e) else ret (ae_parent e)
  end.
(** src/avltree.c:92-100 avl_tree_previous *)
Definition avl_tree_previous (element : Z) : M Z :=
  let! adj := previous_descendant element in
  if adj =? 0 then let! n := fuel in climb_left n element else ret adj.

(** src/avltree.c:102-117, 119-134: the loops of avl_tree_get_before and
    avl_tree_get_on_or_before, which differ in the test [go_left] of the result of
    the comparison *)
Fixpoint before_loop (call : comparator) (go_left : Z -> bool) (n : nat) (tree key obj element candidate count : Z) : M (Z * Z) :=
  match n with
  | O => no_fuel
  | S n =>
      if truth element then
        let! t := ld_avl tree in
        let! e := ld_aelem element in
        let cmp := call (av_cmp t) key (ae_key e) obj in
        if go_left cmp then before_loop call go_left n tree key obj (ae_left e) candidate (count + 1)
        else before_loop call go_left n tree key obj (ae_right e) element (count + 1)
      else ret (candidate, count)
  end.
(** src/avltree.c:102-117 avl_tree_get_before *)
Definition avl_tree_get_before_counted (call : comparator) (tree key : Z) : M (Z * Z) :=
  let! t := ld_avl tree in
  let! n := fuel in
  before_loop call (fun cmp => cmp <=? 0) n tree key (av_obj t) (av_root t) 0 0.
Definition avl_tree_get_before (call : comparator) (tree key : Z) : M Z :=
  let! r := avl_tree_get_before_counted call tree key in ret (fst r).
(** src/avltree.c:119-134 avl_tree_get_on_or_before *)
Definition avl_tree_get_on_or_before_counted (call : comparator) (tree key : Z) : M (Z * Z) :=
  let! t := ld_avl tree in
  let! n := fuel in
  before_loop call (fun cmp => cmp <? 0) n tree key (av_obj t) (av_root t) 0 0.
Definition avl_tree_get_on_or_before (call : comparator) (tree key : Z) : M Z :=
  let! r := avl_tree_get_on_or_before_counted call tree key in ret (fst r).

(** src/avltree.c:136-144 next_descendant *)
Definition next_descendant (element : Z) : M Z :=
  let! e := ld_aelem element in
  if ae_right e =? 0 then ret 0 else let! n := fuel in leftmost n (ae_right e).

(** src/avltree.c:151-153 (the loop of avl_tree_next) *)
Fixpoint climb_right (n : nat) (element : Z) : M Z :=
  match n with
  | O => no_fuel
  | S n =>
      let! e := ld_aelem element in
      if ae_parent e =? 0 then ret (ae_parent e)
      else
        let! p := ld_aelem (ae_parent e) in
        if ae_right p =? element then climb_right n (ae_parent e) else ret (ae_parent e)
  end.
(** src/avltree.c:146-154 avl_tree_next *)
Definition avl_tree_next (element : Z) : M Z :=
  let! adj := next_descendant element in
  if adj =? 0 then let! n := fuel in climb_right n element else ret adj.

(** src/avltree.c:156-171, 173-188: the loops of avl_tree_get_after and
    avl_tree_get_on_or_after *)
Fixpoint after_loop (call : comparator) (go_right : Z -> bool) (n : nat) (tree key obj element candidate count : Z) : M (Z * Z) :=
  match n with
  | O => no_fuel
  | S n =>
      if truth element then
        let! t := ld_avl tree in
        let! e := ld_aelem element in
        let cmp := call (av_cmp t) key (ae_key e) obj in
        if go_right cmp then after_loop call go_right n tree key obj (ae_right e) candidate (count + 1)
        else after_loop call go_right n tree key obj (ae_left e) element (count + 1)
      else ret (candidate, count)
  end.
(** src/avltree.c:156-171 avl_tree_get_after *)
Definition avl_tree_get_after_counted (call : comparator) (tree key : Z) : M (Z * Z) :=
  let! t := ld_avl tree in
  let! n := fuel in
  after_loop call (fun cmp => cmp >=? 0) n tree key (av_obj t) (av_root t) 0 0.
Definition avl_tree_get_after (call : comparator) (tree key : Z) : M Z :=
  let! r := avl_tree_get_after_counted call tree key in ret (fst r).
(** src/avltree.c:173-188 avl_tree_get_on_or_after *)
Definition avl_tree_get_on_or_after_counted (call : comparator) (tree key : Z) : M (Z * Z) :=
  let! t := ld_avl tree in
  let! n := fuel in
  after_loop call (fun cmp => cmp >? 0) n tree key (av_obj t) (av_root t) 0 0.
Definition avl_tree_get_on_or_after (call : comparator) (tree key : Z) : M Z :=
  let! r := avl_tree_get_on_or_after_counted call tree key in ret (fst r).

(** if (element != NULL) element->parent = v *)
Definition adopt (element v : Z) : M unit :=
  if element =? 0 then ret tt else st_parent element v.

(** src/avltree.c:190-216 rotate_right *)
Definition rotate_right (element : Z) : M Z :=
  let! e := ld_aelem element in
  let! l := ld_aelem (ae_left e) in
  let! new_top :=
    (if ae_balance l <=? 0 then
       let new_top := ae_left e in
       do! st_left element (ae_right l) in
       do! st_right new_top element in
       do! st_balance new_top (ae_balance l + 1) in
       do! st_balance element (- (ae_balance l + 1)) in
       ret new_top
     else
       let new_top := ae_right l in
       let! t := ld_aelem new_top in
       do! st_right (ae_left e) (ae_left t) in
       do! st_left new_top (ae_left e) in
       do! st_left element (ae_right t) in
       do! st_right new_top element in
       let! t := ld_aelem new_top in
       do! st_parent (ae_left t) new_top in
       let! tl := ld_aelem (ae_left t) in
       do! adopt (ae_right tl) (ae_left t) in
       do! st_balance (ae_left t) (- ((1 + ae_balance t) ÷ 2)) in
       do! st_balance (ae_right t) ((1 - ae_balance t) ÷ 2) in
       do! st_balance new_top 0 in
       ret new_top) in
  let! e := ld_aelem element in
  do! st_parent new_top (ae_parent e) in
  do! st_parent element new_top in
  let! e := ld_aelem element in
  do! adopt (ae_left e) element in
  ret new_top.

(** src/avltree.c:245-271 rotate_left *)
Definition rotate_left (element : Z) : M Z :=
  let! e := ld_aelem element in
  let! r := ld_aelem (ae_right e) in
  let! new_top :=
    (if ae_balance r >=? 0 then
       let new_top := ae_right e in
       do! st_right element (ae_left r) in
       do! st_left new_top element in
       do! st_balance new_top (ae_balance r - 1) in
       do! st_balance element (- (ae_balance r - 1)) in
       ret new_top
     else
       let new_top := ae_left r in
       let! t := ld_aelem new_top in
       do! st_left (ae_right e) (ae_right t) in
       do! st_right new_top (ae_right e) in
       do! st_right element (ae_left t) in
       do! st_left new_top element in
       let! t := ld_aelem new_top in
       do! st_parent (ae_right t) new_top in
       let! tr := ld_aelem (ae_right t) in
       do! adopt (ae_left tr) (ae_right t) in
       do! st_balance (ae_right t) ((1 - ae_balance t) ÷ 2) in
       do! st_balance (ae_left t) (- ((1 + ae_balance t) ÷ 2)) in
       do! st_balance new_top 0 in
       ret new_top) in
  let! e := ld_aelem element in
  do! st_parent new_top (ae_parent e) in
  do! st_parent element new_top in
  let! e := ld_aelem element in
  do! adopt (ae_right e) element in
  ret new_top.

(** The [avl_elem_t **] that put is given: &tree->root, &e->left or &e->right. *)
Inductive ploc := PRoot (tree : Z) | PLeft (e : Z) | PRight (e : Z).
Definition ld_ploc (p : ploc) : M Z :=
  match p with
  | PRoot t => let! c := ld_avl t in ret (av_root c)
  | PLeft e => let! c := ld_aelem e in ret (ae_left c)
  | PRight e => let! c := ld_aelem e in ret (ae_right c)
  end.
Definition st_ploc (p : ploc) (v : Z) : M unit :=
  match p with
  | PRoot t => st_root t v
  | PLeft e => st_left e v
  | PRight e => st_right e v
  end.

(** What put returns: its result (the subtree has become higher), the element
    stored to *premoved_element or NULL if none is, and the number of
    comparisons. *)
Record put_result := mk_put { p_higher : bool; p_removed : Z; p_count : Z }.

(** src/avltree.c:221-243 put_left. [put_rec] is put. *)
Definition put_left (put_rec : ploc -> M put_result) (tree : Z) (pl : ploc) (element : Z) : M put_result :=
  let! loc := ld_ploc pl in
  let! c := ld_aelem loc in
  if ae_left c =? 0 then
    do! st_parent element loc in
    do! st_left loc element in
    let! t := ld_avl tree in
    do! st_tsize tree (u64 (av_size t + 1)) in
    do! st_balance loc (ae_balance c - 1) in
    ret (mk_put (ae_right c =? 0) 0 0)
  else
    let! r := put_rec (PLeft loc) in
    if negb (p_higher r) then ret r
    else
      let! c := ld_aelem loc in
      do! st_balance loc (ae_balance c - 1) in
      if ae_balance c - 1 =? -2 then
        let! new_top := rotate_right loc in
        do! st_ploc pl new_top in
        ret (mk_put false (p_removed r) (p_count r))
      else ret (mk_put (ae_balance c - 1 =? -1) (p_removed r) (p_count r)).

(** src/avltree.c:273-295 put_right *)
Definition put_right (put_rec : ploc -> M put_result) (tree : Z) (pl : ploc) (element : Z) : M put_result :=
  let! loc := ld_ploc pl in
  let! c := ld_aelem loc in
  if ae_right c =? 0 then
    do! st_parent element loc in
    do! st_right loc element in
    let! t := ld_avl tree in
    do! st_tsize tree (u64 (av_size t + 1)) in
    do! st_balance loc (ae_balance c + 1) in
    ret (mk_put (ae_left c =? 0) 0 0)
  else
    let! r := put_rec (PRight loc) in
    if negb (p_higher r) then ret r
    else
      let! c := ld_aelem loc in
      do! st_balance loc (ae_balance c + 1) in
      if ae_balance c + 1 =? 2 then
        let! new_top := rotate_left loc in
        do! st_ploc pl new_top in
        ret (mk_put false (p_removed r) (p_count r))
      else ret (mk_put (ae_balance c + 1 =? 1) (p_removed r) (p_count r)).

(** src/avltree.c:297-308 substitute *)
Definition substitute (tree new_child old_child : Z) : M unit :=
  let! t := ld_avl tree in
  if old_child =? av_root t then st_root tree new_child
  else
    let! o := ld_aelem old_child in
    let! p := ld_aelem (ae_parent o) in
    if ae_left p =? old_child then st_left (ae_parent o) new_child
    else st_right (ae_parent o) new_child.

(** src/avltree.c:310-332 put *)
Fixpoint put (call : comparator) (n : nat) (tree : Z) (pl : ploc) (element : Z) : M put_result :=
  match n with
  | O => no_fuel
  | S n =>
      let! loc := ld_ploc pl in
      let! t := ld_avl tree in
      let! e := ld_aelem element in
      let! l := ld_aelem loc in
      let cmp := call (av_cmp t) (ae_key e) (ae_key l) (av_obj t) in
      if cmp <? 0 then
        let! r := put_left (fun pl => put call n tree pl element) tree pl element in
        ret (mk_put (p_higher r) (p_removed r) (p_count r + 1))
      else if cmp >? 0 then
        let! r := put_right (fun pl => put call n tree pl element) tree pl element in
        ret (mk_put (p_higher r) (p_removed r) (p_count r + 1))
      else if loc =? element then ret (mk_put false 0 1)
      else
        do! st_parent element (ae_parent l) in
        do! st_left element (ae_left l) in
        do! st_right element (ae_right l) in
        do! st_balance element (ae_balance l) in
        do! substitute tree element loc in
        let! e := ld_aelem element in
        do! adopt (ae_left e) element in
        let! e := ld_aelem element in
        do! adopt (ae_right e) element in
        ret (mk_put false loc 1)
  end.

(** src/avltree.c:334-345 avl_tree_put *)
Definition avl_tree_put_within (n : nat) (call : comparator) (tree key value : Z) : M (Z * Z) :=
  let! element := make_element key value in
  let! t := ld_avl tree in
  if av_root t =? 0 then
    do! st_root tree element in
    do! st_tsize tree 1 in
    ret (0, 0)
  else
    let! r := put call n tree (PRoot tree) element in
    ret (p_removed r, p_count r).
Definition avl_tree_put_counted (call : comparator) (tree key value : Z) : M (Z * Z) :=
  let! n := fuel in avl_tree_put_within n call tree key value.
Definition avl_tree_put (call : comparator) (tree key value : Z) : M Z :=
  let! r := avl_tree_put_counted call tree key value in ret (fst r).

(** src/avltree.c:347-350 leaf_element *)
Definition leaf_element (element : Z) : M bool :=
  let! e := ld_aelem element in ret ((ae_right e =? 0) && (ae_left e =? 0)).

(** src/avltree.c:352-358 adjacent_descendant *)
Definition adjacent_descendant (element : Z) : M Z :=
  let! adj := previous_descendant element in
  if adj =? 0 then next_descendant element else ret adj.

(** The end of both lighten functions, after the rotation
    (src/avltree.c:381-389, 404-412): [stop] is the balance of the new top that
    shows that the height has not changed. *)
Definition relink (up : Z -> M unit) (stop tree element new_top : Z) : M unit :=
  let! t := ld_avl tree in
  if element =? av_root t then st_root tree new_top
  else
    let! nt := ld_aelem new_top in
    let! p := ld_aelem (ae_parent nt) in
    do! (if ae_right p =? element then st_right (ae_parent nt) new_top
         else st_left (ae_parent nt) new_top) in
    let! nt := ld_aelem new_top in
    if ae_balance nt =? stop then ret tt else up new_top.

(** src/avltree.c:371-394 lighten_right. [up] is lighten_parent. *)
Definition lighten_right (up : Z -> M unit) (tree element : Z) : M unit :=
  let! e := ld_aelem element in
  let b := ae_balance e - 1 in
  do! st_balance element b in
  if b =? 0 then
    let! t := ld_avl tree in
    if element =? av_root t then ret tt else up element
  else if b =? -2 then
    let! new_top := rotate_right element in
    relink up 1 tree element new_top
  else ret tt.

(** src/avltree.c:396-419 lighten_left *)
Definition lighten_left (up : Z -> M unit) (tree element : Z) : M unit :=
  let! e := ld_aelem element in
  let b := ae_balance e + 1 in
  do! st_balance element b in
  if b =? 0 then
    let! t := ld_avl tree in
    if element =? av_root t then ret tt else up element
  else if b =? 2 then
    let! new_top := rotate_left element in
    relink up (-1) tree element new_top
  else ret tt.

(** src/avltree.c:363-369 lighten_parent *)
Fixpoint lighten_parent (n : nat) (tree element : Z) : M unit :=
  match n with
  | O => no_fuel
  | S n =>
      let! e := ld_aelem element in
      let! p := ld_aelem (ae_parent e) in
      if ae_right p =? element then lighten_right (lighten_parent n tree) tree (ae_parent e)
      else lighten_left (lighten_parent n tree) tree (ae_parent e)
  end.

(** src/avltree.c:421-437 exchange *)
Definition exchange (tree e1 e2 : Z) : M unit :=
  do! substitute tree e1 e2 in
  do! substitute tree e2 e1 in
  let! c1 := ld_aelem e1 in
  let! c2 := ld_aelem e2 in
  do! st_left e1 (ae_left c2) in
  do! st_left e2 (ae_left c1) in
  do! st_right e1 (ae_right c2) in
  do! st_right e2 (ae_right c1) in
  do! st_parent e1 (ae_parent c2) in
  do! st_parent e2 (ae_parent c1) in
  do! st_balance e1 (ae_balance c2) in
  do! st_balance e2 (ae_balance c1) in
  let! c1 := ld_aelem e1 in
  do! adopt (ae_left c1) e1 in
  let! c1 := ld_aelem e1 in
  do! adopt (ae_right c1) e1 in
  let! c2 := ld_aelem e2 in
  do! adopt (ae_left c2) e2 in
  let! c2 := ld_aelem e2 in
  adopt (ae_right c2) e2.

(** src/avltree.c:441-442 (the loop of avl_tree_detach) *)
Fixpoint sink (n : nat) (tree element : Z) : M unit :=
  match n with
  | O => no_fuel
  | S n =>
      let! leaf := leaf_element element in
      if leaf then ret tt
      else
        let! adj := adjacent_descendant element in
        do! exchange tree element adj in
        sink n tree element
  end.
(** src/avltree.c:439-453 avl_tree_detach *)
Definition avl_tree_detach_within (n : nat) (tree element : Z) : M unit :=
  let! rounds := fuel in
  do! sink rounds tree element in
  let! t := ld_avl tree in
  do! (if element =? av_root t then st_root tree 0
       else
         let! e := ld_aelem element in
         let! p := ld_aelem (ae_parent e) in
         if ae_left p =? element then
           do! st_left (ae_parent e) 0 in
           lighten_left (lighten_parent n tree) tree (ae_parent e)
         else
           do! st_right (ae_parent e) 0 in
           lighten_right (lighten_parent n tree) tree (ae_parent e)) in
  let! t := ld_avl tree in
  st_tsize tree (u64 (av_size t - 1)).
Definition avl_tree_detach (tree element : Z) : M unit :=
  let! n := fuel in avl_tree_detach_within n tree element.

(** src/avltree.c:455-459 avl_tree_remove *)
Definition avl_tree_remove (tree element : Z) : M unit :=
  do! avl_tree_detach tree element in
  destroy_avl_element element.

(** src/avltree.c:461-467 avl_tree_pop *)
Definition avl_tree_pop (call : comparator) (tree key : Z) : M Z :=
  let! element := avl_tree_get call tree key in
  do! (if element =? 0 then ret tt else avl_tree_detach tree element) in
  ret element.

(** src/avltree.c:469-472 avl_tree_empty *)
Definition avl_tree_empty (tree : Z) : M bool :=
  let! t := ld_avl tree in ret (av_root t =? 0).

(** src/avltree.c:474-484 avl_tree_get_first *)
Definition avl_tree_get_first (tree : Z) : M Z :=
  let! empty := avl_tree_empty tree in
  if empty then ret 0
  else
    let! t := ld_avl tree in
    let! n := fuel in
    leftmost n (av_root t).
(** src/avltree.c:486-496 avl_tree_get_last *)
Definition avl_tree_get_last (tree : Z) : M Z :=
  let! empty := avl_tree_empty tree in
  if empty then ret 0
  else
    let! t := ld_avl tree in
    let! n := fuel in
    rightmost n (av_root t).

(** src/avltree.c:498-504 avl_tree_pop_first *)
Definition avl_tree_pop_first (tree : Z) : M Z :=
  let! element := avl_tree_get_first tree in
  do! (if element =? 0 then ret tt else avl_tree_detach tree element) in
  ret element.
(** src/avltree.c:506-512 avl_tree_pop_last *)
Definition avl_tree_pop_last (tree : Z) : M Z :=
  let! element := avl_tree_get_last tree in
  do! (if element =? 0 then ret tt else avl_tree_detach tree element) in
  ret element.

(** src/avltree.c:514-527 copy_tree *)
Fixpoint copy_tree (n : nat) (element : Z) : M Z :=
  match n with
  | O => no_fuel
  | S n =>
      let! e := ld_aelem element in
      let! copy := make_element (ae_key e) (ae_value e) in
      do! st_balance copy (ae_balance e) in
      do! (if ae_left e =? 0 then ret tt
           else
             let! l := copy_tree n (ae_left e) in
             do! st_left copy l in
             st_parent l copy) in
      do! (if ae_right e =? 0 then ret tt
           else
             let! r := copy_tree n (ae_right e) in
             do! st_right copy r in
             st_parent r copy) in
      ret copy
  end.
(** src/avltree.c:529-537 avl_tree_copy *)
Definition avl_tree_copy_within (n : nat) (tree : Z) : M Z :=
  let! t := ld_avl tree in
  let! copy := make_avl_tree_2 (av_cmp t) (av_obj t) in
  do! (if av_root t =? 0 then ret tt
       else
         let! r := copy_tree n (av_root t) in
         do! st_root copy r in
         st_tsize copy (av_size t)) in
  ret copy.
Definition avl_tree_copy (tree : Z) : M Z := let! n := fuel in avl_tree_copy_within n tree.
