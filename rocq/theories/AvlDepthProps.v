(** Property C107: the recursion of the AVL tree functions (src/avltree.c). The
    functions that recurse are destroy_subtree, copy_tree, put (through put_left
    and put_right) and lighten_parent (through lighten_left and lighten_right,
    called by avl_tree_detach and thus by avl_tree_remove and the pop functions).
    With [n] for the number of their calls that may be active at one time
    ("_within n", NoFuel when one more is made), [d] calls are enough for a tree
    of the associations [m], with [d] at most 1.45 * log2 (size + 2). *)
From Verif Require Import Base Heap AvlModel AvlSpec AvlAnySpec AvlAny AvlDepth.

(** C107. As in C93, nothing is required of the comparisons. *)
Theorem C107_put : forall (call : comparator) cmp obj h t m k v, any_history cmp obj h t m -> sparse m ->
  exists d r h', 0 <= d /\ logarithmic d (zlen m) /\ avl_tree_put_counted call t k v h = Ok (r, h') /\
    forall n, d <= Z.of_nat n -> avl_tree_put_within n call t k v h = Ok (r, h').
Proof. intros call cmp obj h t m k v H. exact (put_depth cmp obj call h t m k v (any_tree _ _ _ _ _ H)). Qed.
Print Assumptions C107_put.

Theorem C107_detach : forall cmp obj h t m1 e k v m2, any_history cmp obj h t (m1 ++ (e, k, v) :: m2) ->
  exists d h', 0 <= d /\ logarithmic d (zlen (m1 ++ (e, k, v) :: m2)) /\ avl_tree_detach t e h = Ok (tt, h') /\
    forall n, d <= Z.of_nat n -> avl_tree_detach_within n t e h = Ok (tt, h').
Proof. intros cmp obj h t m1 e k v m2 H. exact (detach_depth cmp obj h t _ m1 (e, k, v) m2 (any_tree _ _ _ _ _ H) eq_refl). Qed.
Print Assumptions C107_detach.

Theorem C107_copy : forall cmp obj h t m, any_history cmp obj h t m ->
  exists d t' h', 0 <= d /\ logarithmic d (zlen m) /\ avl_tree_copy t h = Ok (t', h') /\
    forall n, d <= Z.of_nat n -> avl_tree_copy_within n t h = Ok (t', h').
Proof. intros cmp obj h t m H. exact (copy_depth cmp obj h t m (any_tree _ _ _ _ _ H)). Qed.
Print Assumptions C107_copy.

(** One more for the call with NULL. *)
Theorem C107_destroy : forall cmp obj h t m, any_history cmp obj h t m ->
  exists d h', 0 <= d /\ logarithmic d (zlen m) /\ destroy_avl_tree t h = Ok (tt, h') /\
    forall n, d < Z.of_nat n -> destroy_avl_tree_within n t h = Ok (tt, h').
Proof. intros cmp obj h t m H. exact (destroy_depth cmp obj h t m (any_tree _ _ _ _ _ H)). Qed.
Print Assumptions C107_destroy.

(** A tree of four ascending keys: copying it takes three nested calls, adding a
    fifth key that goes to the same branch as well. *)
Definition ex_call : comparator := fun _ k1 k2 _ => k1 - k2.
Definition ex_build : M Z :=
  let! t := make_avl_tree_2 0 0 in
  do! avl_tree_put ex_call t 1 10 in
  do! avl_tree_put ex_call t 2 20 in
  do! avl_tree_put ex_call t 3 30 in
  do! avl_tree_put ex_call t 4 40 in
  ret t.
Definition outcome {A} (r : res A) : nat := match r with Ok _ => 0 | UB => 1 | Abort => 2 | NoFuel => 3 end%nat.
Example C107_example :
  outcome ((let! t := ex_build in avl_tree_copy_within 3 t) heap0) = 0%nat /\
  outcome ((let! t := ex_build in avl_tree_copy_within 2 t) heap0) = 3%nat /\
  outcome ((let! t := ex_build in avl_tree_put_within 3 ex_call t 5 50) heap0) = 0%nat /\
  outcome ((let! t := ex_build in avl_tree_put_within 2 ex_call t 5 50) heap0) = 3%nat /\
  outcome ((let! t := ex_build in destroy_avl_tree_within 4 t) heap0) = 0%nat /\
  outcome ((let! t := ex_build in destroy_avl_tree_within 3 t) heap0) = 3%nat /\
  outcome ((let! t := ex_build in let! e := avl_tree_get_last t in avl_tree_detach_within 1 t e) heap0) = 0%nat /\
  outcome ((let! t := ex_build in let! e := avl_tree_get_last t in avl_tree_detach_within 0 t e) heap0) = 3%nat.
Proof. vm_compute. repeat split. Qed.
(** The hypothesis holds of such trees: [any_history] as in C93. *)
Definition after {A} (r : res (A * heap)) : heap := match r with Ok (_, h) => h | _ => heap0 end.
Definition ex1 : heap := after (make_avl_tree_2 0 0 heap0).
Definition ex2 : heap := after (avl_tree_put ex_call 100 7 10 ex1).
Example C107_history_example : any_history 0 0 ex2 100 [(101, 7, 10)] /\ sparse [(101, 7, 10)].
Proof.
  split; [|reflexivity].
  apply (NH_put 0 0 ex_call ex1 100 [] [] [] 7 10 0 _ 101 1); [|reflexivity|reflexivity|left; auto|reflexivity].
  apply (NH_make 0 0 heap0). reflexivity.
Qed.
