(** AVL trees whose comparison function reads memory: the functions of src/avltree.c that compare keys,
    as in AvlModel.v, but the comparison is a function on the heap. The other functions of
    src/avltree.c make no calls and stay as they are. *)
From Verif Require Import Base Heap AvlModel KeyModel.

(** [ask cmp key1 key2 obj]: the call of the function behind the pointer [cmp]. *)
Notation asker := (Z -> Z -> Z -> Z -> M Z).

(** src/avltree.c:67-80 avl_tree_get (the loop) *)
Fixpoint t_get_loop (ask : asker) (n : nat) (tree key obj element : Z) : M Z :=
  match n with
  | O => no_fuel
  | S n =>
      if truth element then
        let! t := ld_avl tree in
        let! e := ld_aelem element in
        let! cmp := ask (av_cmp t) key (ae_key e) obj in
        if cmp =? 0 then ret element
        else
          let! e := ld_aelem element in
          if cmp >? 0 then t_get_loop ask n tree key obj (ae_right e)
          else t_get_loop ask n tree key obj (ae_left e)
      else ret 0
  end.
(** src/avltree.c:67-80 avl_tree_get *)
Definition t_avl_tree_get (ask : asker) (tree key : Z) : M Z :=
  let! t := ld_avl tree in
  let! n := fuel in
  t_get_loop ask n tree key (av_obj t) (av_root t).

(** src/avltree.c:102-117, 119-134: the loops of avl_tree_get_before and avl_tree_get_on_or_before,
    which differ in the test [go_left] *)
Fixpoint t_before_loop (ask : asker) (go_left : Z -> bool) (n : nat) (tree key obj element candidate : Z) : M Z :=
  match n with
  | O => no_fuel
  | S n =>
      if truth element then
        let! t := ld_avl tree in
        let! e := ld_aelem element in
        let! cmp := ask (av_cmp t) key (ae_key e) obj in
        let! e := ld_aelem element in
        if go_left cmp then t_before_loop ask go_left n tree key obj (ae_left e) candidate
        else t_before_loop ask go_left n tree key obj (ae_right e) element
      else ret candidate
  end.
(** src/avltree.c:102-117 avl_tree_get_before *)
Definition t_avl_tree_get_before (ask : asker) (tree key : Z) : M Z :=
  let! t := ld_avl tree in
  let! n := fuel in
  t_before_loop ask (fun cmp => cmp <=? 0) n tree key (av_obj t) (av_root t) 0.
(** src/avltree.c:119-134 avl_tree_get_on_or_before *)
Definition t_avl_tree_get_on_or_before (ask : asker) (tree key : Z) : M Z :=
  let! t := ld_avl tree in
  let! n := fuel in
  t_before_loop ask (fun cmp => cmp <? 0) n tree key (av_obj t) (av_root t) 0.

(** src/avltree.c:156-171, 173-188: the loops of avl_tree_get_after and avl_tree_get_on_or_after *)
Fixpoint t_after_loop (ask : asker) (go_right : Z -> bool) (n : nat) (tree key obj element candidate : Z) : M Z :=
  match n with
  | O => no_fuel
  | S n =>
      if truth element then
        let! t := ld_avl tree in
        let! e := ld_aelem element in
        let! cmp := ask (av_cmp t) key (ae_key e) obj in
        let! e := ld_aelem element in
        if go_right cmp then t_after_loop ask go_right n tree key obj (ae_right e) candidate
        else t_after_loop ask go_right n tree key obj (ae_left e) element
      else ret candidate
  end.
(** src/avltree.c:156-171 avl_tree_get_after *)
Definition t_avl_tree_get_after (ask : asker) (tree key : Z) : M Z :=
  let! t := ld_avl tree in
  let! n := fuel in
  t_after_loop ask (fun cmp => cmp >=? 0) n tree key (av_obj t) (av_root t) 0.
(** src/avltree.c:173-188 avl_tree_get_on_or_after *)
Definition t_avl_tree_get_on_or_after (ask : asker) (tree key : Z) : M Z :=
  let! t := ld_avl tree in
  let! n := fuel in
  t_after_loop ask (fun cmp => cmp >? 0) n tree key (av_obj t) (av_root t) 0.

(** src/avltree.c:310-332 put. [put_left] and [put_right] are those of AvlModel.v; the third part of
    the result counts the comparisons. *)
Fixpoint t_put (ask : asker) (n : nat) (tree : Z) (pl : ploc) (element : Z) : M put_result :=
  match n with
  | O => no_fuel
  | S n =>
      let! loc := ld_ploc pl in
      let! t := ld_avl tree in
      let! e := ld_aelem element in
      let! l := ld_aelem loc in
      let! cmp := ask (av_cmp t) (ae_key e) (ae_key l) (av_obj t) in
      if cmp <? 0 then
        let! r := put_left (fun pl => t_put ask n tree pl element) tree pl element in
        ret (mk_put (p_higher r) (p_removed r) (p_count r + 1))
      else if cmp >? 0 then
        let! r := put_right (fun pl => t_put ask n tree pl element) tree pl element in
        ret (mk_put (p_higher r) (p_removed r) (p_count r + 1))
      else
        let! l := ld_aelem loc in
        if loc =? element then ret (mk_put false 0 1)
        else
          do! st_parent element (ae_parent l) in
          do! st_left element (ae_left l) in
          do! st_right element (ae_right l) in
          do! st_balance element (ae_balance l) in
          do! substitute tree element loc in
          let! e := ld_aelem element in
          do! adopt (ae_left e) element in
          let! e := ld_aelem element in
          do! adopt (ae_right e) element in
          ret (mk_put false loc 1)
  end.
(** src/avltree.c:334-345 avl_tree_put *)
Definition t_avl_tree_put (ask : asker) (tree key value : Z) : M Z :=
  let! n := fuel in
  let! element := make_element key value in
  let! t := ld_avl tree in
  if av_root t =? 0 then
    do! st_root tree element in
    do! st_tsize tree 1 in
    ret 0
  else
    let! r := t_put ask n tree (PRoot tree) element in
    ret (p_removed r).

(** src/avltree.c:461-467 avl_tree_pop *)
Definition t_avl_tree_pop (ask : asker) (tree key : Z) : M Z :=
  let! element := t_avl_tree_get ask tree key in
  do! (if element =? 0 then ret tt else avl_tree_detach tree element) in
  ret element.

(** Trees made with strcmp: a key is the address of a block that begins with the string. *)
Definition ask_strcmp : asker := fun _ key1 key2 _ =>
  let! a := ld_slots key1 in let! b := ld_slots key2 in lift (strcmp a b).
