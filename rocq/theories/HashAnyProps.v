(** Property C97: hash tables do not depend on lawful hash and comparison
    functions for anything but finding (src/hashtable.c). *)
From Verif Require Import Base Heap ListModel HashModel HashSpec HashProofs HashAnySpec HashAny.

(** C97: whatever the two functions answer, and even if they answer otherwise
    from one call to the next, making a table succeeds, ... *)
Theorem C97_make : forall hash cmp capacity h, 0 <= capacity < 2 ^ 64 ->
  exists t h', make_hash_table capacity hash cmp h = Ok (t, h') /\ any_history hash cmp h' t [] /\
    (forall x, owned h' t x -> get h x = None /\ get h' x <> None) /\ (forall x, ~ owned h' t x -> get h' x = get h x).
Proof.
  intros hash cmp capacity h R.
  destruct (make_ok False fn0 hash cmp capacity h (fun F => match F with end)) as (c & t & arr & h1 & Ec & E & I & F1 & F2 & F3).
  exists t, h1. split; [exact E|]. split; [exact (NH_make _ _ _ _ _ _ R E)|].
  destruct (good_size_ok capacity) as (c' & Ec' & _ & Rc & _). rewrite Ec in Ec'. injection Ec' as <-.
  destruct (empty_buckets_facts c ltac:(lia)) as (_ & _ & X & _).
  assert (OW : forall x, owned h1 t x <-> x = t \/ x = arr).
  { intros x. rewrite (owned_fp _ _ _ _ _ _ _ _ x I). unfold fp. rewrite X. simpl. intuition congruence. }
  split; intros x; rewrite OW.
  - intros [->| ->]; (split; [assumption|]).
    + rewrite (ih_table _ _ _ _ _ _ _ _ I). discriminate.
    + rewrite (ih_slots _ _ _ _ _ _ _ _ I). discriminate.
  - intros Y. apply F3; tauto.
Qed.
Print Assumptions C97_make.

(** ... put either adds one new element with the key and value and returns NULL,
    or finds an element that compares equal to the key: with the same value it
    then changes nothing and returns NULL, and otherwise it puts the new element
    in the place of that one, which is returned, is still readable and does not
    belong to the table; nothing outside of the table is touched, ... *)
Theorem C97_put : forall (fn : code) hash cmp h t m k v, any_history hash cmp h t m -> sparse m ->
  (exists e h', hash_table_put fn t k v h = Ok (0, h') /\ any_history hash cmp h' t ((e, k, v) :: m) /\ confined t 0 h h') \/
  (exists e k', In (e, k', v) m /\ call_cmp fn cmp k k' = 0 /\ hash_table_put fn t k v h = Ok (0, h)) \/
  (exists r k' w m' e h', Permutation m ((r, k', w) :: m') /\ call_cmp fn cmp k k' = 0 /\ w <> v /\
     hash_table_put fn t k v h = Ok (r, h') /\ any_history hash cmp h' t ((e, k, v) :: m') /\ e <> r /\
     readable h' r k' w /\ ~ owned h' t r /\ confined t r h h').
Proof.
  intros fn hash cmp h t m k v H Sp. destruct (any_table _ _ _ _ _ H) as (arr & bs & I0 & P).
  pose proof (any_code _ fn _ _ _ _ _ _ I0) as I. pose proof Sp as Sp'. unfold sparse in Sp'. rewrite (holds_zlen _ _ P) in Sp'.
  destruct (put_any fn hash cmp h t arr bs k v I Sp') as [(x & bs' & h' & E & Kx & Vx & Q & I' & M)|[(y & Hy & K & V & E)|(y & es & x & bs' & h' & Qy & K & V & E & Kx & Vx & Q & I' & M & G & N & O)]].
  - left. exists (n_he x), h'. split; [exact E|]. split; [|exact (moved_confined _ _ _ _ _ _ _ _ _ _ _ I I' M)].
    apply (NH_put_added hash cmp fn h t m k v (n_he x) h' (length (ents bs')) (map n_he (ents bs')) H Sp E).
    + exact (elements_any _ _ _ _ _ _ _ _ I' (le_n _)).
    + rewrite Q, (holds_elems _ _ P). reflexivity.
  - right; left. exists (n_he y), (n_key y). split; [|auto]. apply (Permutation_in _ (Permutation_sym P)).
    apply in_map_iff. exists y. unfold assoc_of. rewrite V. auto.
  - right; right. assert (Hy : In y (ents bs)) by (apply (Permutation_in _ (Permutation_sym Qy)); left; reflexivity).
    assert (Pm : Permutation m ((n_he y, n_key y, n_val y) :: map assoc_of es)).
    { unfold holds in P. rewrite P, Qy. reflexivity. }
    exists (n_he y), (n_key y), (n_val y), (map assoc_of es), (n_he x), h'. split; [exact Pm|]. split; [exact K|]. split; [exact V|].
    split; [exact E|]. split; [|split; [exact N|split; [exact (readable_out _ _ _ _ _ _ _ _ _ I Hy G)|split]]].
    + apply (NH_put_replaced hash cmp fn h t (n_he y) (n_key y) (n_val y) _ k v (n_he x) h' (length (ents bs')) (map n_he (ents bs'))).
      * exact (NH_perm _ _ _ _ _ _ H Pm).
      * unfold sparse in *. unfold zlen in *. rewrite <- (Permutation_length Pm). exact Sp.
      * exact E.
      * exact (elements_any _ _ _ _ _ _ _ _ I' (le_n _)).
      * rewrite Q, map_elem. reflexivity.
    + rewrite (owned_fp _ _ _ _ _ _ _ _ _ I'). exact O.
    + exact (moved_confined _ _ _ _ _ _ _ _ _ _ _ I I' M).
Qed.
Print Assumptions C97_put.

(** ... a lookup gives NULL or an element of the table that compares equal to the
    key, and pop takes out the element that a lookup gives, if any, ... *)
Theorem C97_get_pop : forall (fn : code) hash cmp h t m k, any_history hash cmp h t m ->
  (hash_table_get fn t k h = Ok (0, h) /\ hash_table_pop fn t k h = Ok (0, h)) \/
  (exists e k' v m' h', Permutation m ((e, k', v) :: m') /\ call_cmp fn cmp k k' = 0 /\ hash_table_get fn t k h = Ok (e, h) /\
     hash_table_pop fn t k h = Ok (e, h') /\ any_history hash cmp h' t m' /\
     readable h' e k' v /\ ~ owned h' t e /\ confined t e h h').
Proof.
  intros fn hash cmp h t m k H. destruct (any_table _ _ _ _ _ H) as (arr & bs & I0 & P).
  pose proof (any_code _ fn _ _ _ _ _ _ I0) as I.
  destruct (pop_any_key fn hash cmp h t arr bs k I) as [X|(x & es & bs' & h' & Q & K & G & E & Q' & I' & M & G' & _ & O)]; [left; exact X|right].
  assert (Hx : In x (ents bs)) by (apply (Permutation_in _ (Permutation_sym Q)); left; reflexivity).
  assert (Pm : Permutation m ((n_he x, n_key x, n_val x) :: map assoc_of es)).
  { unfold holds in P. rewrite P, Q. reflexivity. }
  exists (n_he x), (n_key x), (n_val x), (map assoc_of es), h'. split; [exact Pm|]. split; [exact K|]. split; [exact G|].
  split; [exact E|]. split; [exact (NH_pop hash cmp fn _ _ _ _ _ _ _ _ (NH_perm _ _ _ _ _ _ H Pm) E)|].
  split; [exact (readable_out _ _ _ _ _ _ _ _ _ I Hx G')|]. rewrite (owned_fp _ _ _ _ _ _ _ _ _ I').
  split; [exact O|exact (moved_confined _ _ _ _ _ _ _ _ _ _ _ I I' M)].
Qed.
Print Assumptions C97_get_pop.

(** ... detach and remove take out their element, ... *)
Theorem C97_detach : forall hash cmp h t e k v m, any_history hash cmp h t ((e, k, v) :: m) ->
  (exists h', hash_table_detach t e h = Ok (tt, h') /\ any_history hash cmp h' t m /\ readable h' e k v /\
     ~ owned h' t e /\ confined t e h h') /\
  (exists h', hash_table_remove t e h = Ok (tt, h') /\ any_history hash cmp h' t m /\ get h' e = None /\ confined t 0 h h').
Proof.
  intros hash cmp h t e k v m H. destruct (any_table _ _ _ _ _ H) as (arr & bs & I & P).
  destruct (holds_cons _ _ _ _ _ _ P (Permutation_refl _)) as (y & es & Q & <- & <- & <- & P').
  assert (Hy : In y (ents bs)) by (apply (Permutation_in _ (Permutation_sym Q)); left; reflexivity). split.
  - destruct (detach_ok _ _ _ _ _ _ _ _ _ _ I Q) as (bs' & h' & E & Q' & I' & M & G & _ & O). exists h'. split; [exact E|].
    split; [exact (NH_detach _ _ _ _ _ _ _ _ _ H E)|]. split; [exact (readable_out _ _ _ _ _ _ _ _ _ I Hy G)|].
    rewrite (owned_fp _ _ _ _ _ _ _ _ _ I'). split; [exact O|exact (moved_confined _ _ _ _ _ _ _ _ _ _ _ I I' M)].
  - destruct (remove_element_ok _ _ _ _ _ _ _ _ _ _ I Q) as (bs' & h' & E & Q' & I' & M & G & O). exists h'. split; [exact E|].
    split; [exact (NH_remove _ _ _ _ _ _ _ _ _ H E)|]. split; [exact G|exact (moved_confined _ _ _ _ _ _ _ _ _ _ _ I I' M)].
Qed.
Print Assumptions C97_detach.

(** ... pop_any takes out some element as long as there is one, ... *)
Theorem C97_pop_any : forall hash cmp h t m, any_history hash cmp h t m ->
  (m = [] -> hash_table_pop_any t h = Ok (0, h)) /\
  (m <> [] -> exists e k v m' h', Permutation m ((e, k, v) :: m') /\ hash_table_pop_any t h = Ok (e, h') /\
     any_history hash cmp h' t m' /\ readable h' e k v /\ ~ owned h' t e /\ confined t e h h').
Proof.
  intros hash cmp h t m H. destruct (any_table _ _ _ _ _ H) as (arr & bs & I & P).
  destruct (pop_any_ok _ _ _ _ _ _ _ _ I) as [A B]. split.
  - intros ->. apply A. unfold holds in P. apply Permutation_nil in P. destruct (ents bs); [reflexivity|discriminate].
  - intros N. destruct (ents bs) as [|y es] eqn:X.
    { exfalso. apply N. unfold holds in P. rewrite X in P. apply Permutation_sym, Permutation_nil in P. exact P. }
    destruct (B y es eq_refl) as (bs' & h' & E & Q' & I' & M & G & _ & O).
    assert (Hy : In y (ents bs)) by (rewrite X; left; reflexivity).
    assert (Pm : Permutation m ((n_he y, n_key y, n_val y) :: map assoc_of es)) by (unfold holds in P; rewrite X in P; exact P).
    exists (n_he y), (n_key y), (n_val y), (map assoc_of es), h'. split; [exact Pm|]. split; [exact E|].
    split; [exact (NH_pop_any _ _ _ _ _ _ _ _ _ (NH_perm _ _ _ _ _ _ H Pm) E)|]. split; [exact (readable_out _ _ _ _ _ _ _ _ _ I Hy G)|].
    rewrite (owned_fp _ _ _ _ _ _ _ _ _ I'). split; [exact O|exact (moved_confined _ _ _ _ _ _ _ _ _ _ _ I I' M)].
Qed.
Print Assumptions C97_pop_any.

(** ... the observers agree with the history: the size, the loop over all
    elements, and each element's key and value, ... *)
Theorem C97_observe : forall hash cmp h t m, any_history hash cmp h t m ->
  hash_table_size t h = Ok (zlen m, h) /\ hash_table_empty t h = Ok (match m with [] => true | _ => false end, h) /\
  (forall n, (length m <= n)%nat -> exists es, all_elements t n h = Ok (es, h) /\ Permutation es (map a_elem m) /\ NoDup es) /\
  (forall e k v, In (e, k, v) m -> readable h e k v).
Proof.
  intros hash cmp h t m H. destruct (any_table _ _ _ _ _ H) as (arr & bs & I & P).
  pose proof (Permutation_length P) as L. rewrite map_length in L.
  split; [rewrite (holds_zlen _ _ P); exact (ht_size_ok _ _ _ _ _ _ _ _ I)|]. split.
  - rewrite (ht_empty_ok _ _ _ _ _ _ _ _ I). destruct m, (ents bs); simpl in L; try discriminate; reflexivity.
  - split.
    + intros n Ln. exists (map n_he (ents bs)). split; [apply (elements_any _ _ _ _ _ _ _ _ I); lia|].
      split; [symmetry; exact (holds_elems _ _ P)|exact (handles_nodup _ _ _ _ _ _ _ _ I)].
    + intros e k v Hin. destruct (holds_in _ _ _ _ _ P Hin) as (x & Hx & <- & <- & <-). exact (readable_any _ _ _ _ _ _ _ _ I Hx).
Qed.
Print Assumptions C97_observe.

(** ... and destroying the table frees all that belongs to it and nothing else. *)
Theorem C97_destroy : forall hash cmp h t m, any_history hash cmp h t m ->
  exists h', destroy_hash_table t h = Ok (tt, h') /\ (forall x, owned h t x -> get h' x = None) /\
    (forall x, ~ owned h t x -> get h' x = get h x).
Proof.
  intros hash cmp h t m H. destruct (any_table _ _ _ _ _ H) as (arr & bs & I & P).
  destruct (destroy_ok _ _ _ _ _ _ _ _ I) as (h' & E & A & F). exists h'. split; [exact E|].
  split; intros x; rewrite (owned_fp _ _ _ _ _ _ _ _ x I); auto.
Qed.
Print Assumptions C97_destroy.

(** Functions that contradict each other: nothing compares equal, and the hash
    of a key changes. *)
Definition ex_never (hash : Z) : code := mk_code (fun _ _ => hash) (fun _ _ _ => 1).
(** Functions to which all keys are equal. *)
Definition ex_always (hash : Z) : code := mk_code (fun _ _ => hash) (fun _ _ _ => 0).

(** 7 is in the table three times, in two buckets, and a lookup of any key finds
    one of them in the bucket that its hash happens to say. *)
Definition after {A} (r : res (A * heap)) : heap := match r with Ok (_, h) => h | _ => heap0 end.
Definition ex1 : heap := after (make_hash_table 1 0 0 heap0).
Definition ex2 : heap := after (hash_table_put (ex_never 5) 100 7 10 ex1).
Definition ex3 : heap := after (hash_table_put (ex_never 6) 100 7 20 ex2).
Definition ex4 : heap := after (hash_table_put (ex_never 5) 100 7 30 ex3).
Example C97_history_example : any_history 0 0 ex4 100 [(108, 7, 30); (106, 7, 20); (103, 7, 10)].
Proof.
  assert (H1 : any_history 0 0 ex1 100 []) by (apply (NH_make 0 0 heap0 1); [lia|reflexivity]).
  assert (H2 : any_history 0 0 ex2 100 [(103, 7, 10)]).
  { apply (NH_put_added 0 0 (ex_never 5) ex1 100 [] 7 10 103 ex2 1 [103] H1); [reflexivity|vm_compute; reflexivity|vm_compute; reflexivity|reflexivity]. }
  assert (H3 : any_history 0 0 ex3 100 [(106, 7, 20); (103, 7, 10)]).
  { apply (NH_put_added 0 0 (ex_never 6) ex2 100 [(103, 7, 10)] 7 20 106 ex3 2 [103; 106] H2); [reflexivity|vm_compute; reflexivity|vm_compute; reflexivity|apply perm_swap]. }
  apply (NH_put_added 0 0 (ex_never 5) ex3 100 [(106, 7, 20); (103, 7, 10)] 7 30 108 ex4 3 [103; 108; 106] H3); [reflexivity|vm_compute; reflexivity|vm_compute; reflexivity|].
  cbn [map a_elem fst]. rewrite perm_swap. apply perm_skip. apply perm_swap.
Qed.
Example C97_example :
  result ((let! t := make_hash_table 1 0 0 in
   do! hash_table_put (ex_never 5) t 7 10 in
   do! hash_table_put (ex_never 6) t 7 20 in
   do! hash_table_put (ex_never 5) t 7 30 in
   let! g := hash_table_get (ex_never 5) t 7 in
   let! a := hash_table_get (ex_always 4) t 7 in
   let! n := hash_table_size t in
   let! es := all_elements t 3 in
   let! b := hash_elem_get_value (nth 0 es 0) in
   let! c := hash_elem_get_value (nth 1 es 0) in
   let! d := hash_elem_get_value (nth 2 es 0) in
   let! p := hash_table_pop (ex_always 6) t 9 in
   let! x := hash_elem_get_value p in
   let! q := hash_table_put (ex_always 5) t 8 40 in
   let! y := hash_elem_get_value q in
   let! m := hash_table_size t in
   ret (g, a, n, b, c, d, x, y, m)) heap0)
  = Some (0, 0, 3, 10, 30, 20, 20, 10, 2).
Proof. vm_compute. reflexivity. Qed.
