(** Properties C28-C35: AVL trees (src/avltree.c). *)
From Verif Require Import Base Heap AvlModel AvlSpec AvlHist.
From Coq Require Import Permutation.

(** The order of the keys of a tree. *)
Notation order call cmp obj := (fun k1 k2 => call cmp k1 k2 obj) (only parsing).

(** Keys are ordered by their absolute value, so that 4 and -4 are equal. *)
Definition ex_call : comparator := fun _ k1 k2 _ => Z.abs k1 - Z.abs k2.
Example ex_order : forall cmp obj, total_preorder (order ex_call cmp obj).
Proof. intros cmp obj. constructor; unfold ex_call; intros; lia. Qed.

(** C28: every modification of a tree with any history succeeds, returns what it
    should and has the effect of the operation on sorted sequences of
    associations... *)
Theorem C28_make : forall call cmp obj h, total_preorder (order call cmp obj) ->
  exists t h', make_avl_tree_2 cmp obj h = Ok (t, h') /\ avl_history call cmp obj h' t [].
Proof.
  intros call cmp obj h P. destruct (make_avl call cmp obj h P) as (t & h' & R & _). exists t, h'. split; [exact R|].
  eapply AH_make; eauto.
Qed.
Print Assumptions C28_make.
(** A tree of make_avl_tree passes NULL to its comparison function. *)
Theorem C28_make_plain : forall call cmp h, total_preorder (order call cmp 0) ->
  exists t h', make_avl_tree cmp h = Ok (t, h') /\ avl_history call cmp 0 h' t [].
Proof. intros call cmp h. exact (C28_make call cmp 0 h). Qed.
Print Assumptions C28_make_plain.

(** Every key is equal to the key of one association, or lies between two
    associations. *)
Theorem C28_cases : forall call cmp obj h t m k, avl_history call cmp obj h t m -> let f := order call cmp obj in
  (exists m1 m2, m = m1 ++ m2 /\ all_below f k m1 /\ all_above f k m2 /\ absent f k m) \/
  (exists m1 e k' v m2, m = m1 ++ (e, k', v) :: m2 /\ f k k' = 0 /\ all_below f k m1 /\ all_above f k m2).
Proof.
  intros call cmp obj h t m k H f. apply history_avl in H as (P & I & _).
  destruct (AvlReads.cmp_cases f P k m I) as [X|(m1 & [[e k'] v] & m2 & X)]; [left; exact X|right]. exists m1, e, k', v, m2. exact X.
Qed.
Print Assumptions C28_cases.

Theorem C28_put_new : forall call cmp obj h t m1 m2 k v,
  avl_history call cmp obj h t (m1 ++ m2) -> sparse (m1 ++ m2) ->
  all_below (order call cmp obj) k m1 -> all_above (order call cmp obj) k m2 ->
  exists e h', avl_tree_put call t k v h = Ok (0, h') /\ avl_history call cmp obj h' t (m1 ++ (e, k, v) :: m2).
Proof.
  intros call cmp obj h t m1 m2 k v H Sp A1 A2.
  destruct (put_new_avl call cmp obj h t (m1 ++ m2) k v m1 m2 (history_avl _ _ _ _ _ _ H) Sp eq_refl A1 A2) as (e & h' & n & _ & R & _ & _ & G & _).
  exists e, h'. split; [exact R|]. eapply AH_op; [exact H|]. eapply AO_put_new; eauto.
Qed.
Print Assumptions C28_put_new.

(** The replaced element is returned; it is readable and no longer belongs to the
    tree. *)
Theorem C28_put_replace : forall call cmp obj h t m1 e' k' w m2 k v,
  avl_history call cmp obj h t (m1 ++ (e', k', w) :: m2) -> order call cmp obj k k' = 0 ->
  exists e h', avl_tree_put call t k v h = Ok (e', h') /\ avl_history call cmp obj h' t (m1 ++ (e, k, v) :: m2) /\ e <> e' /\
    avl_elem_get_key e' h' = Ok (k', h') /\ avl_elem_get_value e' h' = Ok (w, h') /\ ~ In e' (footprint t (m1 ++ (e, k, v) :: m2)).
Proof.
  intros call cmp obj h t m1 e' k' w m2 k v H Hk. pose proof (history_avl _ _ _ _ _ _ H) as A.
  destruct (put_replace_avl call cmp obj h t _ k v m1 (e', k', w) m2 A eq_refl Hk) as (e & h' & n & _ & R & _ & _ & G & [K V] & _ & _ & N & _).
  exists e, h'. split; [exact R|]. split; [eapply AH_op; [exact H|]; eapply AO_put_replace; [reflexivity|exact Hk|exact R|exact G]|]. split; [exact N|].
  split; [exact K|]. split; [exact V|]. apply (not_in_after_put call cmp obj); [exact N|]. exact (avl_out _ _ _ _ _ _ _ _ _ A eq_refl).
Qed.
Print Assumptions C28_put_replace.

Theorem C28_pop : forall call cmp obj h t m1 e k' v m2 k,
  avl_history call cmp obj h t (m1 ++ (e, k', v) :: m2) -> order call cmp obj k k' = 0 ->
  exists h', avl_tree_pop call t k h = Ok (e, h') /\ avl_history call cmp obj h' t (m1 ++ m2) /\
    avl_elem_get_key e h' = Ok (k', h') /\ avl_elem_get_value e h' = Ok (v, h') /\ ~ In e (footprint t (m1 ++ m2)).
Proof.
  intros call cmp obj h t m1 e k' v m2 k H Hk. pose proof (history_avl _ _ _ _ _ _ H) as A.
  destruct (pop_avl call cmp obj h t _ k m1 (e, k', v) m2 A eq_refl Hk) as (h' & R & _ & _ & [K V] & _).
  exists h'. split; [exact R|]. split; [eapply AH_op; [exact H|]; eapply AO_pop; [reflexivity|exact Hk|exact R]|]. split; [exact K|]. split; [exact V|].
  exact (avl_out _ _ _ _ _ _ _ _ _ A eq_refl).
Qed.
Print Assumptions C28_pop.

Theorem C28_pop_none : forall call cmp obj h t m k, avl_history call cmp obj h t m -> absent (order call cmp obj) k m ->
  avl_tree_pop call t k h = Ok (0, h).
Proof. intros call cmp obj h t m k H. exact (pop_none_avl call cmp obj h t m k (history_avl _ _ _ _ _ _ H)). Qed.
Print Assumptions C28_pop_none.

Theorem C28_detach : forall call cmp obj h t m1 e k v m2, avl_history call cmp obj h t (m1 ++ (e, k, v) :: m2) ->
  exists h', avl_tree_detach t e h = Ok (tt, h') /\ avl_history call cmp obj h' t (m1 ++ m2) /\
    avl_elem_get_key e h' = Ok (k, h') /\ avl_elem_get_value e h' = Ok (v, h') /\ ~ In e (footprint t (m1 ++ m2)).
Proof.
  intros call cmp obj h t m1 e k v m2 H. pose proof (history_avl _ _ _ _ _ _ H) as A.
  destruct (detach_avl call cmp obj h t _ m1 (e, k, v) m2 A eq_refl) as (h' & R & _ & _ & [K V] & _).
  exists h'. split; [exact R|]. split; [eapply AH_op; [exact H|]; eapply AO_detach; [reflexivity|exact R]|]. split; [exact K|]. split; [exact V|].
  exact (avl_out _ _ _ _ _ _ _ _ _ A eq_refl).
Qed.
Print Assumptions C28_detach.

Theorem C28_remove : forall call cmp obj h t m1 e k v m2, avl_history call cmp obj h t (m1 ++ (e, k, v) :: m2) ->
  exists h', avl_tree_remove t e h = Ok (tt, h') /\ avl_history call cmp obj h' t (m1 ++ m2) /\ get h' e = None.
Proof.
  intros call cmp obj h t m1 e k v m2 H. pose proof (history_avl _ _ _ _ _ _ H) as A.
  destruct (remove_avl call cmp obj h t _ m1 (e, k, v) m2 A eq_refl) as (h' & R & _ & _ & G).
  exists h'. split; [exact R|]. split; [eapply AH_op; [exact H|]; eapply AO_remove; [reflexivity|exact R]|]. exact G.
Qed.
Print Assumptions C28_remove.

Theorem C28_pop_first : forall call cmp obj h t m, avl_history call cmp obj h t m ->
  (m = [] -> avl_tree_pop_first t h = Ok (0, h)) /\
  (forall e k v m', m = (e, k, v) :: m' -> exists h', avl_tree_pop_first t h = Ok (e, h') /\ avl_history call cmp obj h' t m' /\
    avl_elem_get_key e h' = Ok (k, h') /\ avl_elem_get_value e h' = Ok (v, h') /\ ~ In e (footprint t m')).
Proof.
  intros call cmp obj h t m H. pose proof (history_avl _ _ _ _ _ _ H) as A. split.
  - intros ->. exact (pop_first_empty call cmp obj h t A).
  - intros e k v m' ->. destruct (pop_first_avl call cmp obj h t (e, k, v) m' A) as (h' & R & _ & _ & [K V] & _).
    exists h'. split; [exact R|]. split; [eapply (AH_op _ _ _ h t ((e, k, v) :: m')); [exact H|]; apply AO_pop_first; exact R|].
    split; [exact K|]. split; [exact V|]. exact (avl_out _ _ _ _ _ _ [] (e, k, v) m' A eq_refl).
Qed.
Print Assumptions C28_pop_first.

Theorem C28_pop_last : forall call cmp obj h t m, avl_history call cmp obj h t m ->
  (m = [] -> avl_tree_pop_last t h = Ok (0, h)) /\
  (forall e k v m', m = m' ++ [(e, k, v)] -> exists h', avl_tree_pop_last t h = Ok (e, h') /\ avl_history call cmp obj h' t m' /\
    avl_elem_get_key e h' = Ok (k, h') /\ avl_elem_get_value e h' = Ok (v, h') /\ ~ In e (footprint t m')).
Proof.
  intros call cmp obj h t m H. pose proof (history_avl _ _ _ _ _ _ H) as A. split.
  - intros ->. exact (pop_last_empty call cmp obj h t A).
  - intros e k v m' ->. destruct (pop_last_avl call cmp obj h t (e, k, v) m' A) as (h' & R & _ & _ & [K V] & _).
    pose proof (avl_out _ _ _ _ _ _ m' (e, k, v) [] A eq_refl) as O. rewrite app_nil_r in O.
    assert (H' : avl_history call cmp obj h' t (removelast (m' ++ [(e, k, v)]))).
    { eapply AH_op; [exact H|]. apply AO_pop_last. exact R. }
    rewrite removelast_last in H'. exists h'. repeat (split; [assumption|]). exact O.
Qed.
Print Assumptions C28_pop_last.

(** ... and the observers agree with the sequence: a lookup gives the element of
    the key, or NULL if there is none, ... *)
Theorem C28_get : forall call cmp obj h t m k, avl_history call cmp obj h t m ->
  (forall e k' v, In (e, k', v) m -> order call cmp obj k k' = 0 -> avl_tree_get call t k h = Ok (e, h)) /\
  (absent (order call cmp obj) k m -> avl_tree_get call t k h = Ok (0, h)).
Proof.
  intros call cmp obj h t m k H. destruct (get_avl call cmp obj h t m k (history_avl _ _ _ _ _ _ H)) as [G1 G2].
  split; [|exact G2]. intros e k' v I E. exact (G1 (e, k', v) I E).
Qed.
Print Assumptions C28_get.

(** ... an element has the key and the value of its association, and is not
    NULL, ... *)
Theorem C28_element : forall call cmp obj h t m e k v, avl_history call cmp obj h t m -> In (e, k, v) m ->
  e <> 0 /\ avl_elem_get_key e h = Ok (k, h) /\ avl_elem_get_value e h = Ok (v, h).
Proof.
  intros call cmp obj h t m e k v H I.
  destruct (avl_holds call cmp obj h t m (e, k, v) (history_avl _ _ _ _ _ _ H) I) as [[K V] N]. auto.
Qed.
Print Assumptions C28_element.

(** ... the keys are strictly increasing and the elements distinct, ... *)
Theorem C28_sorted : forall call cmp obj h t m, avl_history call cmp obj h t m ->
  increasing (order call cmp obj) m /\ NoDup (footprint t m).
Proof.
  intros call cmp obj h t m H. apply history_avl in H. split; [apply H|]. eapply avl_nodup; exact H.
Qed.
Print Assumptions C28_sorted.

(** ... and the size is the number of associations. *)
Theorem C28_size : forall call cmp obj h t m, avl_history call cmp obj h t m ->
  avl_tree_size t h = Ok (zlen m, h) /\ avl_tree_empty t h = Ok (match m with [] => true | _ => false end, h).
Proof.
  intros call cmp obj h t m H. apply history_avl in H. split; [eapply size_avl|eapply empty_avl]; exact H.
Qed.
Print Assumptions C28_size.

(** A tree with three elements that has a history: 5, 1 and 3 are put in this
    order, which takes a double rotation. *)
Example C28_history_example : exists h t e1 e2 e3, avl_history ex_call 0 0 h t [(e2, 1, 20); (e3, 3, 30); (e1, 5, 10)].
Proof.
  destruct (C28_make ex_call 0 0 heap0 (ex_order 0 0)) as (t & h0 & _ & H0).
  destruct (C28_put_new _ _ _ _ _ [] [] 5 10 H0 ltac:(reflexivity)) as (e1 & h1 & _ & H1); [intros a []|intros a []|].
  destruct (C28_put_new _ _ _ _ _ [] [(e1, 5, 10)] 1 20 H1 ltac:(reflexivity)) as (e2 & h2 & _ & H2); [intros a []|intros a [<-|[]]; reflexivity|].
  destruct (C28_put_new _ _ _ _ _ [(e2, 1, 20)] [(e1, 5, 10)] 3 30 H2 ltac:(reflexivity)) as (e3 & h3 & _ & H3);
    [intros a [<-|[]]; reflexivity|intros a [<-|[]]; reflexivity|].
  exists h3, t, e1, e2, e3. exact H3.
Qed.

(** A client: put 5, 1, 3, and -1 (the key 1 again), pop 5, and look around. *)
Example C28_example :
  result ((let! t := make_avl_tree_2 0 0 in
   do! avl_tree_put ex_call t 5 10 in
   do! avl_tree_put ex_call t 1 20 in
   let! r := avl_tree_put ex_call t 3 30 in
   let! old := avl_tree_put ex_call t (-1) 40 in
   let! v := avl_elem_get_value old in
   let! e := avl_tree_pop ex_call t 5 in
   let! w := avl_elem_get_value e in
   let! n := avl_tree_size t in
   let! g := avl_tree_get ex_call t 1 in
   let! k := avl_elem_get_key g in
   let! x := avl_tree_get ex_call t 5 in
   ret (r, v, w, n, k, x)) heap0)
  = Some (0, 20, 10, 2, -1, 0).
Proof. reflexivity. Qed.

(** C29: the neighbour queries give the greatest element before, or the least
    element after, the key. *)
Theorem C29_get_before : forall call cmp obj h t m k, avl_history call cmp obj h t m -> let f := order call cmp obj in
  exists e, avl_tree_get_before call t k h = Ok (e, h) /\ greatest f (fun k' => f k' k < 0) m e.
Proof.
  intros call cmp obj h t m k H f. destruct (neighbours_avl call cmp obj h t m k (history_avl _ _ _ _ _ _ H)) as ((e & n & R & _ & G) & _).
  exists e. split; [|exact G]. unfold avl_tree_get_before, bnd. rewrite R. reflexivity.
Qed.
Print Assumptions C29_get_before.
Theorem C29_get_on_or_before : forall call cmp obj h t m k, avl_history call cmp obj h t m -> let f := order call cmp obj in
  exists e, avl_tree_get_on_or_before call t k h = Ok (e, h) /\ greatest f (fun k' => f k' k <= 0) m e.
Proof.
  intros call cmp obj h t m k H f. destruct (neighbours_avl call cmp obj h t m k (history_avl _ _ _ _ _ _ H)) as (_ & (e & n & R & _ & G) & _).
  exists e. split; [|exact G]. unfold avl_tree_get_on_or_before, bnd. rewrite R. reflexivity.
Qed.
Print Assumptions C29_get_on_or_before.
Theorem C29_get_after : forall call cmp obj h t m k, avl_history call cmp obj h t m -> let f := order call cmp obj in
  exists e, avl_tree_get_after call t k h = Ok (e, h) /\ least f (fun k' => f k k' < 0) m e.
Proof.
  intros call cmp obj h t m k H f. destruct (neighbours_avl call cmp obj h t m k (history_avl _ _ _ _ _ _ H)) as (_ & _ & (e & n & R & _ & G) & _).
  exists e. split; [|exact G]. unfold avl_tree_get_after, bnd. rewrite R. reflexivity.
Qed.
Print Assumptions C29_get_after.
Theorem C29_get_on_or_after : forall call cmp obj h t m k, avl_history call cmp obj h t m -> let f := order call cmp obj in
  exists e, avl_tree_get_on_or_after call t k h = Ok (e, h) /\ least f (fun k' => f k k' <= 0) m e.
Proof.
  intros call cmp obj h t m k H f. destruct (neighbours_avl call cmp obj h t m k (history_avl _ _ _ _ _ _ H)) as (_ & _ & _ & (e & n & R & _ & G)).
  exists e. split; [|exact G]. unfold avl_tree_get_on_or_after, bnd. rewrite R. reflexivity.
Qed.
Print Assumptions C29_get_on_or_after.
Theorem C29_ends : forall call cmp obj h t m, avl_history call cmp obj h t m -> let f := order call cmp obj in
  (exists e, avl_tree_get_first t h = Ok (e, h) /\ least f (fun _ => True) m e) /\
  (exists e, avl_tree_get_last t h = Ok (e, h) /\ greatest f (fun _ => True) m e).
Proof.
  intros call cmp obj h t m H f. apply history_avl in H. pose proof H as (P & I & _). split.
  - eexists. split; [eapply first_avl; exact H|]. apply (least_first call cmp obj (fun _ => True) [] m P I); [intros a []|auto].
  - eexists. split; [eapply last_avl; exact H|]. pose proof (greatest_last call cmp obj (fun _ => True) m []) as G. rewrite app_nil_r in G.
    apply G; [exact P|exact I|auto|intros a []].
Qed.
Print Assumptions C29_ends.

Example C29_example :
  result ((let! t := make_avl_tree_2 0 0 in
   do! avl_tree_put ex_call t 5 10 in
   do! avl_tree_put ex_call t 1 20 in
   do! avl_tree_put ex_call t 3 30 in
   let! a := avl_tree_get_before ex_call t (-3) in
   let! b := avl_tree_get_on_or_before ex_call t (-3) in
   let! c := avl_tree_get_after ex_call t (-3) in
   let! d := avl_tree_get_on_or_after ex_call t (-3) in
   let! x := avl_tree_get_before ex_call t 1 in
   let! y := avl_tree_get_after ex_call t 5 in
   let! ka := avl_elem_get_key a in
   let! kb := avl_elem_get_key b in
   let! kc := avl_elem_get_key c in
   let! kd := avl_elem_get_key d in
   ret (ka, kb, kc, kd, x, y)) heap0)
  = Some (1, 3, 5, 3, 0, 0).
Proof. reflexivity. Qed.

(** C30: a traversal from the first element to the next ones visits all elements
    in increasing order of the keys (C28_sorted), the traversal from the last one
    in decreasing order, ... *)
Theorem C30_traversal : forall call cmp obj h t m n, avl_history call cmp obj h t m -> (length m <= n)%nat ->
  traverse_forward t n h = Ok (handles m, h) /\ traverse_backward t n h = Ok (rev (handles m), h).
Proof.
  intros call cmp obj h t m n H L. apply history_avl in H.
  rewrite (forward_avl _ _ _ _ _ _ n H), (backward_avl _ _ _ _ _ _ n H). rewrite (proj2 (Nat.leb_le _ _) L). split; reflexivity.
Qed.
Print Assumptions C30_traversal.

(** ... each step gives the neighbour, or NULL at the end, ... *)
Theorem C30_step : forall call cmp obj h t m1 e k v m2, avl_history call cmp obj h t (m1 ++ (e, k, v) :: m2) ->
  avl_tree_next e h = Ok (hd 0 (handles m2), h) /\ avl_tree_previous e h = Ok (last (handles m1) 0, h).
Proof.
  intros call cmp obj h t m1 e k v m2 H. apply history_avl in H.
  split; [exact (next_avl call cmp obj h t _ m1 (e, k, v) m2 H eq_refl)|exact (previous_avl call cmp obj h t _ m1 (e, k, v) m2 H eq_refl)].
Qed.
Print Assumptions C30_step.

(** ... and the steps are each other's inverses. *)
Theorem C30_inverse : forall call cmp obj h t m e e', avl_history call cmp obj h t m -> In e (handles m) -> In e' (handles m) ->
  (avl_tree_next e h = Ok (e', h) <-> avl_tree_previous e' h = Ok (e, h)).
Proof. intros call cmp obj h t m e e' H. exact (steps_inverse call cmp obj h t m e e' (history_avl _ _ _ _ _ _ H)). Qed.
Print Assumptions C30_inverse.

Example C30_example :
  result ((let! t := make_avl_tree_2 0 0 in
   do! avl_tree_put ex_call t 5 10 in
   do! avl_tree_put ex_call t 1 20 in
   do! avl_tree_put ex_call t 3 30 in
   let! es := traverse_forward t 3 in
   let! fs := traverse_backward t 3 in
   let! a := avl_elem_get_key (nth 0 es 0) in
   let! b := avl_elem_get_key (nth 1 es 0) in
   let! c := avl_elem_get_key (nth 2 es 0) in
   ret (a, b, c, length es, length fs)) heap0)
  = Some (1, 3, 5, 3%nat, 3%nat).
Proof. reflexivity. Qed.

(** C31: the heights of the subtrees of an element differ by at most one, ... *)
Theorem C31_balanced : forall call cmp obj h t m e k v, avl_history call cmp obj h t m -> In (e, k, v) m ->
  exists c hl hr, get h e = Some (CAelem c) /\ height_in h (ae_left c) hl /\ height_in h (ae_right c) hr /\
    -1 <= hr - hl <= 1 /\ ae_balance c = hr - hl.
Proof. intros call cmp obj h t m e k v H. exact (balance_avl call cmp obj h t m (e, k, v) (history_avl _ _ _ _ _ _ H)). Qed.
Print Assumptions C31_balanced.

(** ... a lookup makes at most 1.45 * log2 (n + 2) comparisons, ... *)
Theorem C31_get : forall call cmp obj h t m k, avl_history call cmp obj h t m ->
  exists e n, avl_tree_get_counted call t k h = Ok ((e, n), h) /\ logarithmic n (zlen m).
Proof.
  intros call cmp obj h t m k H. destruct (get_count call cmp obj h t m k (history_avl _ _ _ _ _ _ H)) as (e & n & R & _ & L). eauto.
Qed.
Print Assumptions C31_get.

(** ... and so do the neighbour queries and put. *)
Theorem C31_neighbours : forall call cmp obj h t m k, avl_history call cmp obj h t m ->
  (exists e n, avl_tree_get_before_counted call t k h = Ok ((e, n), h) /\ logarithmic n (zlen m)) /\
  (exists e n, avl_tree_get_on_or_before_counted call t k h = Ok ((e, n), h) /\ logarithmic n (zlen m)) /\
  (exists e n, avl_tree_get_after_counted call t k h = Ok ((e, n), h) /\ logarithmic n (zlen m)) /\
  (exists e n, avl_tree_get_on_or_after_counted call t k h = Ok ((e, n), h) /\ logarithmic n (zlen m)).
Proof.
  intros call cmp obj h t m k H. destruct (neighbours_avl call cmp obj h t m k (history_avl _ _ _ _ _ _ H))
    as ((e1 & n1 & R1 & L1 & _) & (e2 & n2 & R2 & L2 & _) & (e3 & n3 & R3 & L3 & _) & (e4 & n4 & R4 & L4 & _)).
  repeat split; eauto.
Qed.
Print Assumptions C31_neighbours.
Theorem C31_put : forall call cmp obj h t m k v, avl_history call cmp obj h t m -> sparse m ->
  exists e n h', avl_tree_put_counted call t k v h = Ok ((e, n), h') /\ logarithmic n (zlen m).
Proof.
  intros call cmp obj h t m k v H Sp. pose proof (history_avl _ _ _ _ _ _ H) as A. pose proof A as (P & I & _).
  destruct (AvlReads.cmp_cases _ P k m I) as [(m1 & m2 & Em & A1 & A2 & _)|(m1 & x & m2 & Em & X & _)].
  - destruct (put_new_avl call cmp obj h t m k v m1 m2 A Sp Em A1 A2) as (e & h' & n & R & _ & _ & _ & _ & _ & L). eauto.
  - destruct (put_replace_avl call cmp obj h t m k v m1 x m2 A Em X) as (e & h' & n & R & _ & _ & _ & _ & _ & _ & _ & _ & L). eauto.
Qed.
Print Assumptions C31_put.

(** The bound allows 20 comparisons for 14500 elements, and fewer than six for 11
    elements. *)
Example C31_example : logarithmic 20 14500 /\ ~ logarithmic 6 11.
Proof. split; [vm_compute; discriminate|]. intros H. vm_compute in H. apply H. reflexivity. Qed.

(** C32: the documentation says that putting a value at the key where it already
    is has no effect and returns NULL. It is not so: the old element is taken out
    of the tree and returned. *)
Theorem C32_put_identical_refuted : exists call cmp obj h t m e k v,
  avl_history call cmp obj h t m /\ In (e, k, v) m /\ avl_tree_put call t k v h <> Ok (0, h) /\
  exists h', avl_tree_put call t k v h = Ok (e, h') /\ e <> 0.
Proof.
  destruct C28_history_example as (h & t & e1 & e2 & e3 & H). exists ex_call, 0, 0, h, t, [(e2, 1, 20); (e3, 3, 30); (e1, 5, 10)], e3, 3, 30.
  destruct (C28_put_replace _ _ _ _ _ [(e2, 1, 20)] e3 3 30 [(e1, 5, 10)] 3 30 H eq_refl) as (e & h' & R & _).
  destruct (C28_element _ _ _ _ _ _ e3 3 30 H ltac:(right; left; reflexivity)) as [N _].
  split; [exact H|]. split; [right; left; reflexivity|]. split; [rewrite R; congruence|]. exists h'. split; [exact R|exact N].
Qed.
Print Assumptions C32_put_identical_refuted.

(** What does hold for every tree: the sequence of keys and values does not
    change, and neither do the other elements. Missing: that the call has no
    effect on the element and returns NULL. *)
Theorem C32_put_identical_partial : forall call cmp obj h t m1 e k v m2, avl_history call cmp obj h t (m1 ++ (e, k, v) :: m2) ->
  exists e' h', avl_tree_put call t k v h = Ok (e, h') /\ e' <> e /\
    avl_history call cmp obj h' t (m1 ++ (e', k, v) :: m2) /\
    avl_elem_get_key e h' = Ok (k, h') /\ avl_elem_get_value e h' = Ok (v, h').
Proof.
  intros call cmp obj h t m1 e k v m2 H. pose proof (history_avl _ _ _ _ _ _ H) as (P & _).
  destruct (C28_put_replace call cmp obj h t m1 e k v m2 k v H (AvlReads.f_refl _ P k)) as (e' & h' & R & H' & N & K & V & _).
  exists e', h'. auto.
Qed.
Print Assumptions C32_put_identical_partial.

(** C33: an element that an operation does not take out of the tree keeps its
    key and value and is still found at the same address. *)
Theorem C33_put : forall call cmp obj h t m e k v k' v' r h', avl_history call cmp obj h t m -> sparse m -> In (e, k, v) m ->
  avl_tree_put call t k' v' h = Ok (r, h') -> e <> r -> found call h' t e k v.
Proof. intros call cmp obj h t m e k v k' v' r h' H. exact (stays_put call cmp obj h t m e k v k' v' r h' (history_avl _ _ _ _ _ _ H)). Qed.
Print Assumptions C33_put.
Theorem C33_pop : forall call cmp obj h t m e k v k' r h', avl_history call cmp obj h t m -> In (e, k, v) m ->
  avl_tree_pop call t k' h = Ok (r, h') -> e <> r -> found call h' t e k v.
Proof. intros call cmp obj h t m e k v k' r h' H. exact (stays_pop call cmp obj h t m e k v k' r h' (history_avl _ _ _ _ _ _ H)). Qed.
Print Assumptions C33_pop.
Theorem C33_detach : forall call cmp obj h t m e k v e' h', avl_history call cmp obj h t m -> In (e, k, v) m -> In e' (handles m) ->
  avl_tree_detach t e' h = Ok (tt, h') \/ avl_tree_remove t e' h = Ok (tt, h') -> e <> e' -> found call h' t e k v.
Proof.
  intros call cmp obj h t m e k v e' h' H I I' R N. apply in_map_iff in I' as (x & <- & Ix).
  destruct (stays_detach call cmp obj h t m e k v x (history_avl _ _ _ _ _ _ H) I Ix N) as [S1 S2]. destruct R as [R|R]; auto.
Qed.
Print Assumptions C33_detach.
Theorem C33_pop_end : forall call cmp obj h t m e k v r h', avl_history call cmp obj h t m -> In (e, k, v) m ->
  avl_tree_pop_first t h = Ok (r, h') \/ avl_tree_pop_last t h = Ok (r, h') -> e <> r -> found call h' t e k v.
Proof. intros call cmp obj h t m e k v r h' H. exact (stays_ends call cmp obj h t m e k v r h' (history_avl _ _ _ _ _ _ H)). Qed.
Print Assumptions C33_pop_end.

(** Removing the root of a tree of three elements exchanges it with another
    element; the others are where they were. *)
Example C33_example :
  result ((let! t := make_avl_tree_2 0 0 in
   do! avl_tree_put ex_call t 5 10 in
   do! avl_tree_put ex_call t 1 20 in
   do! avl_tree_put ex_call t 3 30 in
   let! a := avl_tree_get ex_call t 1 in
   let! b := avl_tree_get ex_call t 5 in
   let! c := avl_tree_get ex_call t 3 in
   do! avl_tree_remove t c in
   let! a' := avl_tree_get ex_call t 1 in
   let! b' := avl_tree_get ex_call t 5 in
   let! va := avl_elem_get_value a in
   let! vb := avl_elem_get_value b in
   ret (a =? a', b =? b', va, vb)) heap0)
  = Some (true, true, 20, 10).
Proof. reflexivity. Qed.

(** C34: a copy has the same sequence of keys and values and the same height, and
    consists of new memory, ... *)
Theorem C34_copy : forall call cmp obj h t m, avl_history call cmp obj h t m ->
  exists t' h' m', avl_tree_copy t h = Ok (t', h') /\ map a_pair m' = map a_pair m /\
    avl_history call cmp obj h' t' m' /\ avl_history call cmp obj h' t m /\
    apart (footprint t' m') (footprint t m) /\
    (forall x, In x (footprint t' m') -> get h x = None) /\ (forall x, ~ In x (footprint t' m') -> get h' x = get h x) /\
    exists n c c', get h' t = Some (CAvl c) /\ get h' t' = Some (CAvl c') /\
      height_in h' (av_root c) n /\ height_in h' (av_root c') n.
Proof.
  intros call cmp obj h t m H.
  destruct (copy_avl call cmp obj h t m (history_avl _ _ _ _ _ _ H)) as (t' & h' & m' & R & Ep & A' & A & AP & F1 & F2 & HH).
  exists t', h', m'. split; [exact R|]. split; [exact Ep|]. split.
  { apply (AH_copy _ _ _ h t m t' h' m' (length m')); auto. rewrite (forward_avl _ _ _ _ _ _ _ A'), Nat.leb_refl. reflexivity. }
  split.
  { apply (AH_other _ _ _ h); auto. intros x Ix. apply F2. intros J. exact (AP x J Ix). }
  auto.
Qed.
Print Assumptions C34_copy.

(** ... and whatever is done to one of two trees that have no memory in common
    does not affect the other. *)
Theorem C34_independent : forall call1 cmp1 obj1 call2 cmp2 obj2 h t1 m1 t2 m2 h' m1',
  avl_history call1 cmp1 obj1 h t1 m1 -> avl_history call2 cmp2 obj2 h t2 m2 -> apart (footprint t1 m1) (footprint t2 m2) ->
  avl_ops call1 (order call1 cmp1 obj1) t1 h m1 h' m1' ->
  avl_history call1 cmp1 obj1 h' t1 m1' /\ avl_history call2 cmp2 obj2 h' t2 m2 /\ apart (footprint t1 m1') (footprint t2 m2).
Proof.
  intros call1 cmp1 obj1 call2 cmp2 obj2 h t1 m1 t2 m2 h' m1' H1 H2 AP Ops.
  destruct (ops_avl call1 cmp1 obj1 h t1 m1 h' m1' (history_avl _ _ _ _ _ _ H1) Ops) as [_ F].
  assert (N : forall x, In x (footprint t2 m2) -> get h' x = get h x /\ ~ In x (footprint t1 m1')).
  { intros x Ix. apply F; [intros J; exact (AP x J Ix)|]. eapply avl_alloc; [exact (history_avl _ _ _ _ _ _ H2)|exact Ix]. }
  split; [|split].
  - clear - H1 Ops. revert H1. induction Ops as [|h m r h1 m1 h2 m2 Op _ IH]; [auto|]. intros H. apply IH. eapply AH_op; eauto.
  - apply (AH_other _ _ _ h); auto. intros x Ix. apply N; exact Ix.
  - intros x J Ix. apply (N x Ix). exact J.
Qed.
Print Assumptions C34_independent.

Example C34_example :
  result ((let! t := make_avl_tree_2 0 0 in
   do! avl_tree_put ex_call t 5 10 in
   do! avl_tree_put ex_call t 1 20 in
   do! avl_tree_put ex_call t 3 30 in
   let! c := avl_tree_copy t in
   let! e := avl_tree_pop ex_call c 3 in
   let! v := avl_elem_get_value e in
   let! x := avl_tree_get ex_call c 3 in
   let! y := avl_tree_get ex_call t 3 in
   let! n := avl_tree_size t in
   let! m := avl_tree_size c in
   ret (v, x, y =? 0, n, m)) heap0)
  = Some (30, 0, false, 3, 2).
Proof. reflexivity. Qed.

(** C35: making a tree takes one new cell, ... *)
Theorem C35_make : forall call cmp obj h, total_preorder (order call cmp obj) ->
  exists t h', make_avl_tree_2 cmp obj h = Ok (t, h') /\ get h t = None /\ get h' t <> None /\ (forall x, x <> t -> get h' x = get h x).
Proof.
  intros call cmp obj h P. destruct (make_avl call cmp obj h P) as (t & h' & R & A & N & F). exists t, h'. split; [exact R|].
  split; [exact N|]. split; [|exact F]. eapply avl_alloc; [exact A|left; reflexivity].
Qed.
Print Assumptions C35_make.

(** ... an operation does not change or take over any allocated cell that does
    not belong to the tree, no cell of the tree is free, and an element that
    leaves the tree has been freed by avl_tree_remove or else still has its key
    and value, ... *)
Theorem C35_operation : forall call cmp obj h t m h' r m', avl_history call cmp obj h t m ->
  avl_op call (order call cmp obj) t h m h' r m' ->
  (forall x, ~ In x (footprint t m) -> get h x <> None -> get h' x = get h x /\ ~ In x (footprint t m')) /\
  (forall x, ~ In x (footprint t m) -> ~ In x (footprint t m') -> get h' x = get h x) /\
  (forall x, In x (footprint t m') -> get h' x <> None) /\
  (forall e k v, In (e, k, v) m -> ~ In e (footprint t m') ->
     (avl_elem_get_key e h' = Ok (k, h') /\ avl_elem_get_value e h' = Ok (v, h')) \/
     (get h' e = None /\ avl_tree_remove t e h = Ok (tt, h'))).
Proof.
  intros call cmp obj h t m h' r m' H Op.
  destruct (op_avl call cmp obj h t m h' r m' (history_avl _ _ _ _ _ _ H) Op) as (_ & (O1 & O2 & O3) & L).
  split.
  - intros x N G. assert (N' : ~ In x (footprint t m')) by (intros J; apply G; apply O1; auto). auto.
  - split; [exact O2|]. split; [exact O3|]. intros e k v I N. destruct (L (e, k, v) I N) as [[K _]|X]; [left; exact K|right; exact X].
Qed.
Print Assumptions C35_operation.

(** ... put allocates one element, ... *)
Theorem C35_put_allocates : forall call cmp obj h t m k v r h', avl_history call cmp obj h t m -> sparse m ->
  avl_tree_put call t k v h = Ok (r, h') ->
  exists e, avl_tree_get call t k h' = Ok (e, h') /\ get h e = None /\ get h' e <> None /\
    forall x, x <> e -> (get h x = None <-> get h' x = None).
Proof. intros call cmp obj h t m k v r h' H. exact (put_allocates call cmp obj h t m k v r h' (history_avl _ _ _ _ _ _ H)). Qed.
Print Assumptions C35_put_allocates.

(** ... detach frees none and remove frees the element, ... *)
Theorem C35_detach_remove : forall call cmp obj h t m1 e k v m2 h', avl_history call cmp obj h t (m1 ++ (e, k, v) :: m2) ->
  (avl_tree_detach t e h = Ok (tt, h') -> forall x, get h x = None <-> get h' x = None) /\
  (avl_tree_remove t e h = Ok (tt, h') -> get h' e = None /\ forall x, x <> e -> (get h x = None <-> get h' x = None)).
Proof. intros call cmp obj h t m1 e k v m2 h' H. exact (detach_frees call cmp obj h t m1 e k v m2 h' (history_avl _ _ _ _ _ _ H)). Qed.
Print Assumptions C35_detach_remove.

(** ... and destroying the tree frees all that belongs to it and nothing else. *)
Theorem C35_destroy : forall call cmp obj h t m, avl_history call cmp obj h t m ->
  exists h', destroy_avl_tree t h = Ok (tt, h') /\ (forall x, In x (footprint t m) -> get h' x = None) /\
    (forall x, ~ In x (footprint t m) -> get h' x = get h x).
Proof. intros call cmp obj h t m H. exact (destroy_avl call cmp obj h t m (history_avl _ _ _ _ _ _ H)). Qed.
Print Assumptions C35_destroy.

Example C35_example :
  match ((let! t := make_avl_tree_2 0 0 in
   do! avl_tree_put ex_call t 5 10 in
   do! avl_tree_put ex_call t 1 20 in
   do! avl_tree_put ex_call t 3 30 in
   let! old := avl_tree_put ex_call t (-1) 40 in
   do! destroy_avl_element old in
   let! e := avl_tree_get ex_call t 3 in
   do! avl_tree_remove t e in
   destroy_avl_tree t) heap0) with
  | Ok (_, h) => Some (length (mem h))
  | _ => None
  end = Some 0%nat.
Proof. reflexivity. Qed.
