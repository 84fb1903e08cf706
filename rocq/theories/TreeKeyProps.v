(** C136: AVL trees whose keys are in memory: the comparison reads the keys when it is called. The
    memory that the tree has not got may change all the time, except the keys that are in it. *)
From Verif Require Import Base Heap AvlModel AvlSpec KeyModel KeySpec KeyStrings TreeKeyModel TreeKeySpec TreeKeyProofs TreeKeyStrings.
Open Scope list_scope.
Open Scope Z_scope.

Theorem C136_make : forall X (read : list Z -> option X) ask cmp obj C h, comparing read ask cmp obj C ->
  exists t h', make_avl_tree_2 cmp obj h = Ok (t, h') /\ sorted_tree read ask cmp obj C h' t [] /\
  get h t = None /\ (forall y, y <> t -> get h' y = get h y).
Proof. intros X read ask cmp obj C h P. exact (make_sorted read ask cmp obj C P h). Qed.
Print Assumptions C136_make.

(** A key is found by what it says: any address of an equal key finds the association. *)
Theorem C136_get : forall X (read : list Z -> option X) ask cmp obj C h t m k x, comparing read ask cmp obj C -> sorted_tree read ask cmp obj C h t m -> key_at read h k x ->
  (forall e k' x' v, In (e, k', x', v) m -> C x x' = 0 -> t_avl_tree_get ask t k h = Ok (e, h)) /\
  (missing C x m -> t_avl_tree_get ask t k h = Ok (0, h)).
Proof. intros X read ask cmp obj C h t m k x P. exact (get_sorted read ask cmp obj C P h t m k x). Qed.
Print Assumptions C136_get.

Theorem C136_neighbours : forall X (read : list Z -> option X) ask cmp obj C h t m k x, comparing read ask cmp obj C -> sorted_tree read ask cmp obj C h t m -> key_at read h k x ->
  (exists e, t_avl_tree_get_before ask t k h = Ok (e, h) /\ greatest_key C (fun y => C y x < 0) m e) /\
  (exists e, t_avl_tree_get_on_or_before ask t k h = Ok (e, h) /\ greatest_key C (fun y => C y x <= 0) m e) /\
  (exists e, t_avl_tree_get_after ask t k h = Ok (e, h) /\ least_key C (fun y => C x y < 0) m e) /\
  (exists e, t_avl_tree_get_on_or_after ask t k h = Ok (e, h) /\ least_key C (fun y => C x y <= 0) m e).
Proof. intros X read ask cmp obj C h t m k x P. exact (neighbours_sorted read ask cmp obj C P h t m k x). Qed.
Print Assumptions C136_neighbours.

(** A key has one of two relations to a tree: it has a place between two parts, or an equal key is there. The next two theorems are about these cases. *)
Theorem C136_place : forall X (read : list Z -> option X) ask cmp obj C h t m x, comparing read ask cmp obj C -> sorted_tree read ask cmp obj C h t m -> readable read x ->
  (exists m1 m2, m = m1 ++ m2 /\ below C x m1 /\ above C x m2) \/
  (exists m1 a m2, m = m1 ++ a :: m2 /\ C x (content a) = 0).
Proof. intros X read ask cmp obj C h t m x P. exact (place_of read ask cmp obj C P h t m x). Qed.
Print Assumptions C136_place.

Theorem C136_put_new : forall X (read : list Z -> option X) ask cmp obj C h t m m1 m2 k x v, comparing read ask cmp obj C -> sorted_tree read ask cmp obj C h t m -> key_at read h k x -> m = m1 ++ m2 -> below C x m1 -> above C x m2 -> few m ->
  exists e h', t_avl_tree_put ask t k v h = Ok (0, h') /\
    sorted_tree read ask cmp obj C h' t (m1 ++ (e, k, x, v) :: m2) /\ kept_by t m (m1 ++ (e, k, x, v) :: m2) h h'.
Proof. intros X read ask cmp obj C h t m m1 m2 k x v P. exact (put_new_sorted read ask cmp obj C P h t m m1 m2 k x v). Qed.
Print Assumptions C136_put_new.

(** The new association has the new address of the key; the old one is returned, and the tree does not use it (nor its key) any more. *)
Theorem C136_put_replace : forall X (read : list Z -> option X) ask cmp obj C h t m m1 m2 e0 k0 x0 v0 k x v, comparing read ask cmp obj C -> sorted_tree read ask cmp obj C h t m -> key_at read h k x -> m = m1 ++ (e0, k0, x0, v0) :: m2 -> C x x0 = 0 ->
  exists e h', t_avl_tree_put ask t k v h = Ok (e0, h') /\
    sorted_tree read ask cmp obj C h' t (m1 ++ (e, k, x, v) :: m2) /\ kept_by t m (m1 ++ (e, k, x, v) :: m2) h h' /\ e <> e0 /\
    avl_elem_get_key e0 h' = Ok (k0, h') /\ avl_elem_get_value e0 h' = Ok (v0, h') /\ ~ In e0 (foot t (m1 ++ (e, k, x, v) :: m2)).
Proof. intros X read ask cmp obj C h t m m1 m2 e0 k0 x0 v0 k x v P. exact (put_replace_sorted read ask cmp obj C P h t m m1 m2 e0 k0 x0 v0 k x v). Qed.
Print Assumptions C136_put_replace.

Theorem C136_pop : forall X (read : list Z -> option X) ask cmp obj C h t m m1 m2 e k0 x0 v k x, comparing read ask cmp obj C -> sorted_tree read ask cmp obj C h t m -> key_at read h k x -> m = m1 ++ (e, k0, x0, v) :: m2 -> C x x0 = 0 ->
  exists h', t_avl_tree_pop ask t k h = Ok (e, h') /\ sorted_tree read ask cmp obj C h' t (m1 ++ m2) /\ kept_by t m (m1 ++ m2) h h' /\
    avl_elem_get_key e h' = Ok (k0, h') /\ avl_elem_get_value e h' = Ok (v, h') /\ ~ In e (foot t (m1 ++ m2)).
Proof. intros X read ask cmp obj C h t m m1 m2 e k0 x0 v k x P. exact (pop_sorted read ask cmp obj C P h t m m1 m2 e k0 x0 v k x). Qed.
Print Assumptions C136_pop.

Theorem C136_pop_none : forall X (read : list Z -> option X) ask cmp obj C h t m k x, comparing read ask cmp obj C -> sorted_tree read ask cmp obj C h t m -> key_at read h k x -> missing C x m -> t_avl_tree_pop ask t k h = Ok (0, h).
Proof. intros X read ask cmp obj C h t m k x P. exact (pop_none_sorted read ask cmp obj C P h t m k x). Qed.
Print Assumptions C136_pop_none.

Theorem C136_detach : forall X (read : list Z -> option X) ask cmp obj C h t m m1 m2 e k x v, comparing read ask cmp obj C -> sorted_tree read ask cmp obj C h t m -> m = m1 ++ (e, k, x, v) :: m2 ->
  exists h', avl_tree_detach t e h = Ok (tt, h') /\ sorted_tree read ask cmp obj C h' t (m1 ++ m2) /\ kept_by t m (m1 ++ m2) h h' /\
    avl_elem_get_key e h' = Ok (k, h') /\ avl_elem_get_value e h' = Ok (v, h') /\ ~ In e (foot t (m1 ++ m2)).
Proof. intros X read ask cmp obj C h t m m1 m2 e k x v P. exact (detach_sorted read ask cmp obj C P h t m m1 m2 e k x v). Qed.
Print Assumptions C136_detach.

Theorem C136_remove : forall X (read : list Z -> option X) ask cmp obj C h t m m1 m2 e k x v, comparing read ask cmp obj C -> sorted_tree read ask cmp obj C h t m -> m = m1 ++ (e, k, x, v) :: m2 ->
  exists h', avl_tree_remove t e h = Ok (tt, h') /\ sorted_tree read ask cmp obj C h' t (m1 ++ m2) /\ kept_by t m (m1 ++ m2) h h' /\ get h' e = None.
Proof. intros X read ask cmp obj C h t m m1 m2 e k x v P. exact (remove_sorted read ask cmp obj C P h t m m1 m2 e k x v). Qed.
Print Assumptions C136_remove.

Theorem C136_pop_first : forall X (read : list Z -> option X) ask cmp obj C h t m, comparing read ask cmp obj C -> sorted_tree read ask cmp obj C h t m ->
  (m = [] -> avl_tree_pop_first t h = Ok (0, h)) /\
  (forall e k x v m', m = (e, k, x, v) :: m' -> exists h', avl_tree_pop_first t h = Ok (e, h') /\ sorted_tree read ask cmp obj C h' t m' /\ kept_by t m m' h h' /\
    avl_elem_get_key e h' = Ok (k, h') /\ avl_elem_get_value e h' = Ok (v, h') /\ ~ In e (foot t m')).
Proof. intros X read ask cmp obj C h t m P. exact (pop_first_sorted read ask cmp obj C P h t m). Qed.
Print Assumptions C136_pop_first.

Theorem C136_pop_last : forall X (read : list Z -> option X) ask cmp obj C h t m, comparing read ask cmp obj C -> sorted_tree read ask cmp obj C h t m ->
  (m = [] -> avl_tree_pop_last t h = Ok (0, h)) /\
  (forall e k x v m', m = m' ++ [(e, k, x, v)] -> exists h', avl_tree_pop_last t h = Ok (e, h') /\ sorted_tree read ask cmp obj C h' t m' /\ kept_by t m m' h h' /\
    avl_elem_get_key e h' = Ok (k, h') /\ avl_elem_get_value e h' = Ok (v, h') /\ ~ In e (foot t m')).
Proof. intros X read ask cmp obj C h t m P. exact (pop_last_sorted read ask cmp obj C P h t m). Qed.
Print Assumptions C136_pop_last.

(** The elements come in the order of what the keys say. *)
Theorem C136_look : forall X (read : list Z -> option X) ask cmp obj C h t m n, comparing read ask cmp obj C -> sorted_tree read ask cmp obj C h t m -> (length m <= n)%nat ->
  avl_tree_size t h = Ok (zlen m, h) /\ avl_tree_empty t h = Ok (match m with [] => true | _ => false end, h) /\
  (forall a, In a m -> elem a <> 0 /\ avl_elem_get_key (elem a) h = Ok (address a, h) /\ avl_elem_get_value (elem a) h = Ok (value a, h)) /\
  traverse_forward t n h = Ok (map elem m, h) /\ traverse_backward t n h = Ok (rev (map elem m), h).
Proof. intros X read ask cmp obj C h t m n P. exact (look_sorted read ask cmp obj C P h t m n). Qed.
Print Assumptions C136_look.

(** The keys lie outside of the tree, they are what they were, and they increase. *)
Theorem C136_keys : forall X (read : list Z -> option X) ask cmp obj C h t m, comparing read ask cmp obj C -> sorted_tree read ask cmp obj C h t m ->
  (forall a, In a m -> key_at read h (address a) (content a) /\ ~ In (address a) (foot t m)) /\
  (forall m1 a m2 b m3, m = m1 ++ a :: m2 ++ b :: m3 -> C (content a) (content b) < 0).
Proof. intros X read ask cmp obj C h t m P. exact (keys_sorted read ask cmp obj C P h t m). Qed.
Print Assumptions C136_keys.

(** The copy has the same keys, at the same addresses. *)
Theorem C136_copy : forall X (read : list Z -> option X) ask cmp obj C h t m, comparing read ask cmp obj C -> sorted_tree read ask cmp obj C h t m ->
  exists t' h' m', avl_tree_copy t h = Ok (t', h') /\ map (fun a => (address a, content a, value a)) m' = map (fun a => (address a, content a, value a)) m /\
    sorted_tree read ask cmp obj C h' t' m' /\ sorted_tree read ask cmp obj C h' t m /\ (forall y, In y (foot t' m') -> get h y = None) /\ (forall y, ~ In y (foot t' m') -> get h' y = get h y).
Proof. intros X read ask cmp obj C h t m P. exact (copy_sorted read ask cmp obj C P h t m). Qed.
Print Assumptions C136_copy.

Theorem C136_destroy : forall X (read : list Z -> option X) ask cmp obj C h t m, comparing read ask cmp obj C -> sorted_tree read ask cmp obj C h t m ->
  exists h', destroy_avl_tree t h = Ok (tt, h') /\ (forall y, In y (foot t m) -> get h' y = None) /\
    (forall y, ~ In y (foot t m) -> get h' y = get h y).
Proof. intros X read ask cmp obj C h t m P. exact (destroy_sorted read ask cmp obj C P h t m). Qed.
Print Assumptions C136_destroy.

(** strcmp is such a comparison: it is the order of a dictionary. *)
Theorem C136_strings : forall cmp obj, comparing c_string ask_strcmp cmp obj compare_strings.
Proof. exact strings_comparing. Qed.
Print Assumptions C136_strings.

Theorem C136_dictionary : forall s t, readable c_string s -> readable c_string t -> (compare_strings s t < 0 <-> comes_before s t).
Proof. exact strings_dictionary. Qed.
Print Assumptions C136_dictionary.

(** "b" at 1, "ab" at 2, another "ab" at 3, and a tree at 4. The association made with the first "ab" is
    found with the second, and comes before the one with "b". *)
Definition after {A} (m : M A) (h : heap) : heap := match m h with Ok (_, h') => h' | _ => h end.
Definition empty_memory : heap := mk_heap [] (fun n => Z.of_nat (S n)) O.
Definition words : heap :=
  after (alloc (CSlots [97; 98; 0; 5])) (after (alloc (CSlots [97; 98; 0])) (after (alloc (CSlots [98; 0])) empty_memory)).
Definition with_tree : heap := after (make_avl_tree_2 0 0) words.
Definition with_b : heap := after (t_avl_tree_put ask_strcmp 4 1 7) with_tree.
Definition with_ab : heap := after (t_avl_tree_put ask_strcmp 4 2 8) with_b.
Definition written_over : heap := after (st_slots 2 [99; 100; 0]) with_ab.
Example C136_words : exists b ab : Z,
  sorted_tree c_string ask_strcmp 0 0 compare_strings with_ab 4 [(ab, 2, [97; 98], 8); (b, 1, [98], 7)] /\
  key_at c_string with_ab 3 [97; 98] /\
  t_avl_tree_get ask_strcmp 4 3 with_ab = Ok (ab, with_ab) /\ ab <> 0 /\
  t_avl_tree_get_after ask_strcmp 4 3 with_ab = Ok (b, with_ab) /\
  traverse_forward 4 5 with_ab = Ok ([ab; b], with_ab) /\
  t_avl_tree_get ask_strcmp 4 2 written_over = Ok (0, written_over).
Proof.
  exists 5, 6.
  assert (T0 : sorted_tree c_string ask_strcmp 0 0 compare_strings with_tree 4 []).
  { apply (T_make _ _ _ _ _ words). vm_compute. reflexivity. }
  assert (T1 : sorted_tree c_string ask_strcmp 0 0 compare_strings with_b 4 [(5, 1, [98], 7)]).
  { eapply (T_op _ _ _ _ _ _ _ _ 0 _ _ T0). apply (TO_put_new _ _ _ _ _ _ _ 1 [98] 7 0 5 [] []).
    - exists [98; 0]. split; vm_compute; reflexivity.
    - reflexivity.
    - intros a [].
    - intros a [].
    - unfold few. cbn. lia.
    - vm_compute. reflexivity.
    - vm_compute. reflexivity. }
  repeat match goal with |- _ /\ _ => split end.
  - eapply (T_op _ _ _ _ _ _ _ _ 0 _ _ T1). apply (TO_put_new _ _ _ _ _ _ _ 2 [97; 98] 8 0 6 [] [(5, 1, [98], 7)]).
    + exists [97; 98; 0]. split; vm_compute; reflexivity.
    + reflexivity.
    + intros a [].
    + intros a [<-|[]]. vm_compute. reflexivity.
    + unfold few. cbn. lia.
    + vm_compute. reflexivity.
    + vm_compute. reflexivity.
  - exists [97; 98; 0; 5]. split; vm_compute; reflexivity.
  - vm_compute. reflexivity.
  - lia.
  - vm_compute. reflexivity.
  - vm_compute. reflexivity.
  - vm_compute. reflexivity.
Qed.
