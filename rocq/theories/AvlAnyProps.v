(** Property C93: AVL trees do not depend on a lawful comparison function for
    anything but the order (src/avltree.c). *)
From Verif Require Import Base Heap AvlModel AvlSpec AvlHist AvlAnySpec AvlAny.

(** C93: whatever the comparisons answer, and even if they answer otherwise from
    one call to the next, making a tree succeeds, ... *)
Theorem C93_make : forall cmp obj h,
  exists t h', make_avl_tree_2 cmp obj h = Ok (t, h') /\ any_history cmp obj h' t [] /\
    get h t = None /\ forall x, x <> t -> get h' x = get h x.
Proof.
  intros cmp obj h. destruct (make_any cmp obj h) as (t & h' & R & _ & X). exists t, h'. split; [exact R|].
  split; [eapply NH_make; exact R|exact X].
Qed.
Print Assumptions C93_make.

(** ... put adds one new element with the key and value, and takes out none or
    one: one that compared equal to the key, which is returned, is still readable
    and does not belong to the tree; it makes at most 1.45 * log2 (n + 2)
    comparisons and touches nothing outside of the tree, ... *)
Theorem C93_put : forall (call : comparator) cmp obj h t m k v, any_history cmp obj h t m -> sparse m ->
  exists m1 o m2 r e h' n, m = m1 ++ o ++ m2 /\
    avl_tree_put call t k v h = Ok (r, h') /\ avl_tree_put_counted call t k v h = Ok ((r, n), h') /\
    any_history cmp obj h' t (m1 ++ (e, k, v) :: m2) /\
    taken r o /\
    (forall k' v', In (r, k', v') o -> call cmp k k' obj = 0 /\ readable h' r k' v' /\ ~ In r (footprint t (m1 ++ (e, k, v) :: m2))) /\
    get h e = None /\ confined t h m h' (m1 ++ (e, k, v) :: m2) /\ logarithmic n (zlen m).
Proof.
  intros call cmp obj h t m k v H Sp. pose proof (any_tree _ _ _ _ _ H) as A.
  destruct (put_any cmp obj call h t m k v A Sp) as (m1 & o & m2 & r & e & h' & n & Em & Rn & R & To & A' & ON & L & G & FR).
  exists m1, o, m2, r, e, h', n. split; [exact Em|]. split; [exact R|]. split; [exact Rn|]. split.
  { apply (NH_put cmp obj call h t m1 o m2 k v r h' e (length (m1 ++ (e, k, v) :: m2))); auto; try (rewrite <- Em; assumption).
    rewrite (forward_any _ _ _ _ _ _ A'), Nat.leb_refl. reflexivity. }
  split; [exact To|]. split.
  { intros k' v' I. destruct (FR _ I) as (F1 & F2 & _ & F4). split; [exact F1|]. split; [exact F2|exact F4]. }
  split; [exact G|]. split; [apply only_confined; exact ON|exact L].
Qed.
Print Assumptions C93_put.

(** ... a lookup gives NULL or an element of the tree that compared equal to the
    key, within as many comparisons, ... *)
Theorem C93_get : forall (call : comparator) cmp obj h t m k, any_history cmp obj h t m ->
  exists e n, avl_tree_get call t k h = Ok (e, h) /\ avl_tree_get_counted call t k h = Ok ((e, n), h) /\
    null_or_member (fun k' => call cmp k k' obj = 0) m e /\ logarithmic n (zlen m).
Proof.
  intros call cmp obj h t m k H. destruct (get_any cmp obj call h t m k (any_tree _ _ _ _ _ H)) as (e & n & R & R' & L & N). eauto 6.
Qed.
Print Assumptions C93_get.

(** ... the neighbour queries give NULL or an element of the tree whose key is on
    the right side of the key as far as the comparison of the two says, ... *)
Theorem C93_neighbours : forall (call : comparator) cmp obj h t m k, any_history cmp obj h t m ->
  (exists e n, avl_tree_get_before call t k h = Ok (e, h) /\ avl_tree_get_before_counted call t k h = Ok ((e, n), h) /\
    null_or_member (fun k' => call cmp k k' obj > 0) m e /\ logarithmic n (zlen m)) /\
  (exists e n, avl_tree_get_on_or_before call t k h = Ok (e, h) /\ avl_tree_get_on_or_before_counted call t k h = Ok ((e, n), h) /\
    null_or_member (fun k' => call cmp k k' obj >= 0) m e /\ logarithmic n (zlen m)) /\
  (exists e n, avl_tree_get_after call t k h = Ok (e, h) /\ avl_tree_get_after_counted call t k h = Ok ((e, n), h) /\
    null_or_member (fun k' => call cmp k k' obj < 0) m e /\ logarithmic n (zlen m)) /\
  (exists e n, avl_tree_get_on_or_after call t k h = Ok (e, h) /\ avl_tree_get_on_or_after_counted call t k h = Ok ((e, n), h) /\
    null_or_member (fun k' => call cmp k k' obj <= 0) m e /\ logarithmic n (zlen m)).
Proof.
  intros call cmp obj h t m k H. apply any_tree in H.
  assert (W : forall (P Q : Z -> Prop) e, (forall x, P x -> Q x) -> null_or_member P m e -> null_or_member Q m e).
  { intros P Q e PQ [->|(k' & v & I & Pk)]; [left; reflexivity|right]. eauto. }
  split; [|split; [|split]].
  - destruct (proj1 (neighbour_any cmp obj call h t m k (fun c => c <=? 0) H)) as (e & n & R & L & N). exists e, n.
    change (avl_tree_get_before_counted call t k h = Ok ((e, n), h)) in R.
    split; [unfold avl_tree_get_before, bnd; rewrite R; reflexivity|]. split; [exact R|].
    split; [|exact L]. revert N. apply W. intros x E. lia.
  - destruct (proj1 (neighbour_any cmp obj call h t m k (fun c => c <? 0) H)) as (e & n & R & L & N). exists e, n.
    change (avl_tree_get_on_or_before_counted call t k h = Ok ((e, n), h)) in R.
    split; [unfold avl_tree_get_on_or_before, bnd; rewrite R; reflexivity|]. split; [exact R|].
    split; [|exact L]. revert N. apply W. intros x E. lia.
  - destruct (proj2 (neighbour_any cmp obj call h t m k (fun c => c >=? 0) H)) as (e & n & R & L & N). exists e, n.
    change (avl_tree_get_after_counted call t k h = Ok ((e, n), h)) in R.
    split; [unfold avl_tree_get_after, bnd; rewrite R; reflexivity|]. split; [exact R|].
    split; [|exact L]. revert N. apply W. intros x E. lia.
  - destruct (proj2 (neighbour_any cmp obj call h t m k (fun c => c >? 0) H)) as (e & n & R & L & N). exists e, n.
    change (avl_tree_get_on_or_after_counted call t k h = Ok ((e, n), h)) in R.
    split; [unfold avl_tree_get_on_or_after, bnd; rewrite R; reflexivity|]. split; [exact R|].
    split; [|exact L]. revert N. apply W. intros x E. lia.
Qed.
Print Assumptions C93_neighbours.

(** ... pop takes out the element that a lookup gives, if any, ... *)
Theorem C93_pop : forall (call : comparator) cmp obj h t m k, any_history cmp obj h t m ->
  (avl_tree_get call t k h = Ok (0, h) /\ avl_tree_pop call t k h = Ok (0, h)) \/
  (exists m1 e k' v m2 h', m = m1 ++ (e, k', v) :: m2 /\ call cmp k k' obj = 0 /\ avl_tree_get call t k h = Ok (e, h) /\
     avl_tree_pop call t k h = Ok (e, h') /\ any_history cmp obj h' t (m1 ++ m2) /\
     readable h' e k' v /\ ~ In e (footprint t (m1 ++ m2)) /\ confined t h m h' (m1 ++ m2)).
Proof.
  intros call cmp obj h t m k H. pose proof (any_tree _ _ _ _ _ H) as A.
  destruct (pop_any cmp obj call h t m k A) as [[R1 R2]|(m1 & [[e k'] v] & m2 & h' & Em & Hk & R & G & A' & ON & HO & GO)]; [left; auto|right].
  exists m1, e, k', v, m2, h'. split; [exact Em|]. split; [exact Hk|]. split; [exact G|]. split; [exact R|].
  split; [eapply (NH_pop cmp obj call h t m1 k' v m2 k e h'); [subst m; exact H|exact R]|].
  split; [exact HO|]. split; [exact (any_out _ _ _ _ _ _ _ _ A Em)|apply only_confined; exact ON].
Qed.
Print Assumptions C93_pop.

(** ... detach and remove take out their element, ... *)
Theorem C93_detach : forall cmp obj h t m1 e k v m2, any_history cmp obj h t (m1 ++ (e, k, v) :: m2) ->
  (exists h', avl_tree_detach t e h = Ok (tt, h') /\ any_history cmp obj h' t (m1 ++ m2) /\ readable h' e k v /\
     ~ In e (footprint t (m1 ++ m2)) /\ confined t h (m1 ++ (e, k, v) :: m2) h' (m1 ++ m2)) /\
  (exists h', avl_tree_remove t e h = Ok (tt, h') /\ any_history cmp obj h' t (m1 ++ m2) /\ get h' e = None /\
     confined t h (m1 ++ (e, k, v) :: m2) h' (m1 ++ m2)).
Proof.
  intros cmp obj h t m1 e k v m2 H. pose proof (any_tree _ _ _ _ _ H) as A. split.
  - destruct (detach_any cmp obj h t _ m1 (e, k, v) m2 A eq_refl) as (h' & R & A' & ON & HO & G). exists h'. split; [exact R|].
    split; [eapply NH_detach; [exact H|exact R]|]. split; [exact HO|]. split; [exact (any_out _ _ _ _ _ _ _ _ A eq_refl)|apply only_confined; exact ON].
  - destruct (remove_any cmp obj h t _ m1 (e, k, v) m2 A eq_refl) as (h' & R & A' & ON & G). exists h'. split; [exact R|].
    split; [eapply NH_remove; [exact H|exact R]|]. split; [exact G|apply only_confined; exact ON].
Qed.
Print Assumptions C93_detach.

(** ... pop_first and pop_last the first and the last one, ... *)
Theorem C93_pop_ends : forall cmp obj h t m, any_history cmp obj h t m ->
  (m = [] -> avl_tree_pop_first t h = Ok (0, h) /\ avl_tree_pop_last t h = Ok (0, h)) /\
  (forall e k v m', m = (e, k, v) :: m' -> exists h', avl_tree_pop_first t h = Ok (e, h') /\ any_history cmp obj h' t m' /\
     readable h' e k v /\ ~ In e (footprint t m') /\ confined t h m h' m') /\
  (forall e k v m', m = m' ++ [(e, k, v)] -> exists h', avl_tree_pop_last t h = Ok (e, h') /\ any_history cmp obj h' t m' /\
     readable h' e k v /\ ~ In e (footprint t m') /\ confined t h m h' m').
Proof.
  intros cmp obj h t m H. pose proof (any_tree _ _ _ _ _ H) as A. split; [|split].
  - intros ->. split; [exact (any_first_empty _ _ _ _ A)|exact (any_last_empty _ _ _ _ A)].
  - intros e k v m' ->. destruct (pop_first_any cmp obj h t (e, k, v) m' A) as (h' & R & _ & ON & HO & _). exists h'.
    split; [exact R|]. split; [exact (NH_pop_first cmp obj h t _ _ _ H R)|]. split; [exact HO|].
    split; [exact (any_out _ _ _ _ _ [] (e, k, v) m' A eq_refl)|apply only_confined; exact ON].
  - intros e k v m' ->. destruct (pop_last_any cmp obj h t (e, k, v) m' A) as (h' & R & _ & ON & HO & _). exists h'.
    pose proof (any_out _ _ _ _ _ m' (e, k, v) [] A eq_refl) as O. rewrite app_nil_r in O.
    pose proof (NH_pop_last cmp obj h t _ _ _ H R) as H'. rewrite removelast_last in H'.
    split; [exact R|]. split; [exact H'|]. split; [exact HO|]. split; [exact O|apply only_confined; exact ON].
Qed.
Print Assumptions C93_pop_ends.

(** ... the observers agree with the history: the size, the traversals in both
    directions, each element's neighbours, key and value, ... *)
Theorem C93_observe : forall cmp obj h t m, any_history cmp obj h t m ->
  NoDup (footprint t m) /\
  avl_tree_size t h = Ok (zlen m, h) /\ avl_tree_empty t h = Ok (match m with [] => true | _ => false end, h) /\
  (forall n, (length m <= n)%nat -> traverse_forward t n h = Ok (handles m, h) /\ traverse_backward t n h = Ok (rev (handles m), h)) /\
  (forall m1 e k v m2, m = m1 ++ (e, k, v) :: m2 -> e <> 0 /\ readable h e k v /\
     avl_tree_next e h = Ok (hd 0 (handles m2), h) /\ avl_tree_previous e h = Ok (last (handles m1) 0, h)).
Proof.
  intros cmp obj h t m H. apply any_tree in H. split; [eapply any_nodup; exact H|]. split; [eapply size_any; exact H|].
  split; [eapply empty_any; exact H|]. split.
  - intros n L. rewrite (forward_any _ _ _ _ _ n H), (backward_any _ _ _ _ _ n H), (proj2 (Nat.leb_le _ _) L). auto.
  - intros m1 e k v m2 ->. destruct (any_holds _ _ _ _ _ (e, k, v) H ltac:(apply in_or_app; right; left; reflexivity)) as [HO NZ].
    split; [exact NZ|]. split; [exact HO|].
    split; [exact (next_any _ _ _ _ _ m1 (e, k, v) m2 H eq_refl)|exact (previous_any _ _ _ _ _ m1 (e, k, v) m2 H eq_refl)].
Qed.
Print Assumptions C93_observe.

(** ... the tree is balanced, ... *)
Theorem C93_balanced : forall cmp obj h t m e k v, any_history cmp obj h t m -> In (e, k, v) m ->
  exists c hl hr, get h e = Some (CAelem c) /\ height_in h (ae_left c) hl /\ height_in h (ae_right c) hr /\
    -1 <= hr - hl <= 1 /\ ae_balance c = hr - hl.
Proof. intros cmp obj h t m e k v H. exact (balance_any cmp obj h t m (e, k, v) (any_tree _ _ _ _ _ H)). Qed.
Print Assumptions C93_balanced.

(** ... a copy has the same associations and consists of new memory, ... *)
Theorem C93_copy : forall cmp obj h t m, any_history cmp obj h t m ->
  exists t' h' m', avl_tree_copy t h = Ok (t', h') /\ map a_pair m' = map a_pair m /\
    any_history cmp obj h' t' m' /\ any_history cmp obj h' t m /\ apart (footprint t' m') (footprint t m) /\
    (forall x, In x (footprint t' m') -> get h x = None) /\ (forall x, ~ In x (footprint t' m') -> get h' x = get h x).
Proof.
  intros cmp obj h t m H.
  destruct (copy_any cmp obj h t m (any_tree _ _ _ _ _ H)) as (t' & h' & m' & R & Ep & A' & A & AP & F1 & F2 & _).
  exists t', h', m'. split; [exact R|]. split; [exact Ep|]. split.
  { apply (NH_copy _ _ h t m t' h' m' (length m')); auto. rewrite (forward_any _ _ _ _ _ _ A'), Nat.leb_refl. reflexivity. }
  split; [|auto]. apply (NH_other _ _ h); auto. intros x Ix. apply F2. intros J. exact (AP x J Ix).
Qed.
Print Assumptions C93_copy.

(** ... and destroying the tree frees all that belongs to it and nothing else. *)
Theorem C93_destroy : forall cmp obj h t m, any_history cmp obj h t m ->
  exists h', destroy_avl_tree t h = Ok (tt, h') /\ (forall x, In x (footprint t m) -> get h' x = None) /\
    (forall x, ~ In x (footprint t m) -> get h' x = get h x).
Proof. intros cmp obj h t m H. exact (destroy_any cmp obj h t m (any_tree _ _ _ _ _ H)). Qed.
Print Assumptions C93_destroy.

(** Comparisons that always find the first key smaller: every put adds to the
    front, also of a key that is there. *)
Definition ex_less : comparator := fun _ _ _ _ => -1.
(** Comparisons that always find the first key greater. *)
Definition ex_more : comparator := fun _ _ _ _ => 1.

(** Comparisons that find all keys equal. *)
Definition ex_call_equal : comparator := fun _ _ _ _ => 0.

(** A history whose comparisons contradict each other: 7 is in the tree three
    times and no lookup finds it. *)
Definition after {A} (r : res (A * heap)) : heap := match r with Ok (_, h) => h | _ => heap0 end.
Definition ex1 : heap := after (make_avl_tree_2 0 0 heap0).
Definition ex2 : heap := after (avl_tree_put ex_less 100 7 10 ex1).
Definition ex3 : heap := after (avl_tree_put ex_less 100 7 20 ex2).
Definition ex4 : heap := after (avl_tree_put ex_more 100 7 30 ex3).
Example C93_history_example : any_history 0 0 ex4 100 [(102, 7, 20); (101, 7, 10); (103, 7, 30)].
Proof.
  apply (NH_put 0 0 ex_more ex3 100 [(102, 7, 20); (101, 7, 10)] [] [] 7 30 0 _ 103 3); [|reflexivity|reflexivity|left; auto|reflexivity].
  apply (NH_put 0 0 ex_less ex2 100 [] [] [(101, 7, 10)] 7 20 0 _ 102 2); [|reflexivity|reflexivity|left; auto|reflexivity].
  apply (NH_put 0 0 ex_less ex1 100 [] [] [] 7 10 0 _ 101 1); [|reflexivity|reflexivity|left; auto|reflexivity].
  apply (NH_make 0 0 heap0). reflexivity.
Qed.
Example C93_example :
  result ((let! t := make_avl_tree_2 0 0 in
   do! avl_tree_put ex_less t 7 10 in
   do! avl_tree_put ex_less t 7 20 in
   do! avl_tree_put ex_more t 7 30 in
   let! g := avl_tree_get ex_less t 7 in
   let! n := avl_tree_size t in
   let! es := traverse_forward t 3 in
   let! a := avl_elem_get_value (nth 0 es 0) in
   let! b := avl_elem_get_value (nth 1 es 0) in
   let! c := avl_elem_get_value (nth 2 es 0) in
   let! p := avl_tree_pop ex_call_equal t 9 in
   let! x := avl_elem_get_value p in
   ret (g, n, a, b, c, x)) heap0)
  = Some (0, 3, 20, 10, 30, 10).
Proof. reflexivity. Qed.
