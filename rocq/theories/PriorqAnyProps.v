(** Properties C98 and C99 of src/priority_queue.c: what is left of C37 and C38
    if the comparison function answers anything, and of C36 if elements change
    their priorities. The specification is PriorqAnySpec.v. *)
From Verif Require Import Base PriorqModel PriorqSpec PriorqProofs PriorqAnySpec PriorqAny.

(** C98: whatever function each operation compares by, the content, which
    popping everything shows, changes by exactly the element put in or returned.
    The full statement has no [~ misplaced]; it is false ([C98_refuted]). *)
Theorem C98_content_partial : forall q m, loose anything q m ->
  priorq_size q = zlen m /\
  (exists l, pop_all (length m) q = Ok l /\ Permutation l m) /\
  (forall cmp junk v, room m -> exists q', priorq_enqueue cmp junk q v = Ok q' /\ loose anything q' (v :: m)) /\
  (forall cmp, m <> [] -> exists q' x m', priorq_peek q = Ok x /\ priorq_dequeue cmp q = Ok (q', x) /\
    Permutation m (x :: m') /\ loose anything q' m') /\
  (m <> [] -> exists q' x m', priorq_pop q = Ok (q', x) /\ Permutation m (x :: m') /\ loose anything q' m') /\
  (forall cmp loc, 0 <= loc < zlen m -> ~ misplaced cmp q loc ->
    exists q' x m', priorq_remove cmp q loc = Ok (q', x) /\ occupant q loc x /\
      Permutation m (x :: m') /\ loose anything q' m').
Proof. exact loose_ops. Qed.
Print Assumptions C98_content_partial.

(** C98: the remaining case exactly. The removal returns the element, which
    stays; the element of the slot above is gone instead. *)
Theorem C98_misplaced : forall cmp q m loc, loose anything q m -> misplaced cmp q loc ->
  exists q' x y m' l,
    occupant q loc x /\ occupant q ((loc - 1) / 2) y /\ Permutation m (x :: y :: m') /\
    priorq_remove cmp q loc = Ok (q', x) /\ priorq_size q' = zlen m - 1 /\
    pop_all (length m - 1) q' = Ok l /\ Permutation l (x :: m').
Proof. exact loose_misplaced. Qed.
Print Assumptions C98_misplaced.

(** C98: the locators, whatever the functions answered. *)
Theorem C98_locators_partial : forall q m e, loose (@NoDup Z) q m -> In e m ->
  exists loc, last_loc (calls q) e = Some loc /\ 0 <= loc < zlen m /\
    (forall cmp, exists q', priorq_remove cmp q loc = Ok (q', e)) /\
    (forall cmp, ~ misplaced cmp q loc -> exists q' m',
      priorq_remove cmp q loc = Ok (q', e) /\ Permutation m (e :: m') /\ loose (@NoDup Z) q' m').
Proof. exact loose_locate. Qed.
Print Assumptions C98_locators_partial.

(** C99: elements outside of the queue, and elements being removed, may change
    their priorities; the queue returns the least elements under the present
    function. [evolving] leaves out the removals of a misplaced element; with
    them the statement is false ([C99_refuted]). *)
Theorem C99_order_partial : forall cmp q m, evolving anything cmp q m ->
  priorq_size q = zlen m /\
  (m <> [] -> exists q' x m', priorq_peek q = Ok x /\ priorq_dequeue cmp q = Ok (q', x) /\
    In x m /\ (forall y, In y m -> cmp x y <= 0) /\ Permutation m (x :: m') /\ evolving anything cmp q' m') /\
  (forall junk v, room m -> exists q', priorq_enqueue cmp junk q v = Ok q' /\ evolving anything cmp q' (v :: m)) /\
  (exists l, pop_all (length m) q = Ok l /\ Permutation l m).
Proof. exact evolving_ops. Qed.
Print Assumptions C99_order_partial.

(** C99: an element that has changed can be taken out by its locator, unless it
    sits in the last slot and has come before some element it was not before. *)
Theorem C99_update_partial : forall cmp cmp' q m e, evolving (@NoDup Z) cmp q m -> In e m -> comparator cmp' ->
  (forall a b, In a m -> In b m -> a <> e -> b <> e -> cmp' a b = cmp a b) ->
  exists loc, last_loc (calls q) e = Some loc /\ 0 <= loc < zlen m /\
    ((loc <> zlen m - 1 \/ (forall y, In y m -> cmp e y >= 0 -> cmp' e y >= 0)) ->
     exists q' m', priorq_remove cmp' q loc = Ok (q', e) /\ Permutation m (e :: m') /\
       evolving (@NoDup Z) cmp' q' m').
Proof. exact evolving_update. Qed.
Print Assumptions C99_update_partial.

(** C99: otherwise an element is lost, and the changed one is there twice when
    it is put back. *)
Theorem C99_lost : forall cmp cmp' q m e loc, evolving (@NoDup Z) cmp q m -> In e m ->
  last_loc (calls q) e = Some loc -> misplaced cmp' q loc ->
  exists q' y m' l, priorq_remove cmp' q loc = Ok (q', e) /\ Permutation m (e :: y :: m') /\
    pop_all (length m - 1) q' = Ok l /\ Permutation l (e :: m') /\
    forall junk, room m -> exists q'' l', priorq_enqueue cmp' junk q' e = Ok q'' /\
      pop_all (length m) q'' = Ok l' /\ Permutation l' (e :: e :: m').
Proof. exact evolving_lost. Qed.
Print Assumptions C99_lost.

(** ** Witnesses *)

(** By the number, but 41 counts as 5. *)
Definition plain (a b : Z) : Z := a - b.
Definition raised (a b : Z) : Z :=
  (if a =? 41 then 5 else a) - (if b =? 41 then 5 else b).

Lemma plain_comparator : comparator plain.
Proof. unfold plain. split; intros; lia. Qed.
Lemma raised_comparator : comparator raised.
Proof. unfold raised. split; intros; lia. Qed.

Definition seven : nat -> Z := fun _ => 7.
Definition two : priorq := Priorq [20; 41] 2 2 [(41, 1); (20, 0)].
Definition three : priorq := Priorq [20; 41; 30; 7] 3 4 [(30, 2); (41, 1); (20, 0)].

Lemma two_evolving (P : list Z -> Prop) : (forall l, NoDup l -> P l) -> evolving P plain two [41; 20].
Proof.
  intros D.
  assert (H0 : evolving P plain make_priority_queue []) by (apply E_new; [exact plain_comparator|apply D; constructor]).
  assert (H1 : evolving P plain (Priorq [20] 1 1 [(20, 0)]) [20]).
  { apply (E_enqueue _ _ _ _ seven 20 _ H0); [cbv; reflexivity|apply D|vm_compute; reflexivity].
    repeat constructor; cbn; lia. }
  apply (E_enqueue _ _ _ _ seven 41 _ H1); [cbv; reflexivity|apply D|vm_compute; reflexivity].
  repeat constructor; cbn; lia.
Qed.

Lemma two_loose (P : list Z -> Prop) : (forall l, NoDup l -> P l) -> loose P two [41; 20].
Proof.
  intros D.
  assert (H0 : loose P make_priority_queue []) by (apply L_new, D; constructor).
  assert (H1 : loose P (Priorq [20] 1 1 [(20, 0)]) [20]).
  { apply (L_enqueue _ plain _ _ seven 20 _ H0); [cbv; reflexivity|apply D|vm_compute; reflexivity].
    repeat constructor; cbn; lia. }
  apply (L_enqueue _ plain _ _ seven 41 _ H1); [cbv; reflexivity|apply D|vm_compute; reflexivity].
  repeat constructor; cbn; lia.
Qed.

(** C98 in full is false: 41 is removed, and what is left is 41, not 20. *)
Theorem C98_refuted : exists q m cmp loc q' x,
  loose anything q m /\ comparator cmp /\ 0 <= loc < zlen m /\ priorq_remove cmp q loc = Ok (q', x) /\
  ~ exists m' l, Permutation m (x :: m') /\ pop_all (length m') q' = Ok l /\ Permutation l m'.
Proof.
  exists two, [41; 20], raised, 1, (Priorq [41; 20] 1 2 [(41, 0); (20, 1); (41, 1); (20, 0)]), 41.
  split; [apply two_loose; intros; exact I|]. split; [exact raised_comparator|].
  split; [cbv; split; [discriminate|reflexivity]|]. split; [vm_compute; reflexivity|].
  intros (m' & l & Hp & E & Hl).
  apply Permutation_cons_inv in Hp. apply Permutation_length_1_inv in Hp. subst m'.
  vm_compute in E. inversion E. subst l. apply Permutation_length_1 in Hl. discriminate.
Qed.
Print Assumptions C98_refuted.

(** C99 in full is false: 41, moved ahead of 20, is taken out by its locator
    and put back; then 41 is dequeued twice, and 20 never. *)
Theorem C99_refuted : exists cmp cmp' q m e loc q' q'' q3,
  evolving (@NoDup Z) cmp q m /\ In e m /\ comparator cmp' /\
  (forall a b, In a m -> In b m -> a <> e -> b <> e -> cmp' a b = cmp a b) /\
  last_loc (calls q) e = Some loc /\ priorq_remove cmp' q loc = Ok (q', e) /\
  priorq_enqueue cmp' seven q' e = Ok q'' /\ drain cmp' (length m) q'' = Ok (q3, [e; e]) /\ m = [e; 20] /\ e <> 20.
Proof.
  exists plain, raised, two, [41; 20], 41, 1.
  eexists _, _, _. split; [apply two_evolving; auto|]. split; [left; reflexivity|]. split; [exact raised_comparator|].
  split. { intros a b Ha Hb Na Nb. unfold raised, plain. destruct (a =? 41) eqn:E1; [lia|]. destruct (b =? 41) eqn:E2; lia. }
  split; [reflexivity|]. split; [vm_compute; reflexivity|]. split; [vm_compute; reflexivity|].
  split; [vm_compute; reflexivity|]. split; [reflexivity|discriminate].
Qed.
Print Assumptions C99_refuted.

(** ** The hypotheses can be met *)

Example C98_misplaced_example : loose anything two [41; 20] /\ misplaced raised two 1.
Proof.
  split; [apply two_loose; intros; exact I|]. split; [reflexivity|]. split; [lia|]. exists 41, 20.
  split; [split; [cbv; split; [discriminate|reflexivity]|reflexivity]|].
  split; [split; [cbv; split; [discriminate|reflexivity]|reflexivity]|]. cbv. reflexivity.
Qed.

(** Functions that contradict each other; 41 is in slot 0. *)
Example C98_example : exists q, loose (@NoDup Z) q [30; 41; 20] /\ ~ misplaced (fun _ _ => -1) q 0 /\
  pop_all 3%nat q = Ok [41; 20; 30].
Proof.
  exists (Priorq [30; 20; 41; 7] 3 4 [(30, 0); (41, 2); (41, 0); (20, 1); (20, 0)]).
  assert (H0 : loose (@NoDup Z) make_priority_queue []) by (apply L_new; constructor).
  assert (H1 : loose (@NoDup Z) (Priorq [20] 1 1 [(20, 0)]) [20]).
  { apply (L_enqueue _ plain _ _ seven 20 _ H0); [cbv; reflexivity| |vm_compute; reflexivity].
    repeat constructor; cbn; lia. }
  assert (H2 : loose (@NoDup Z) (Priorq [41; 20] 2 2 [(41, 0); (20, 1); (20, 0)]) [41; 20]).
  { apply (L_enqueue _ raised _ _ seven 41 _ H1); [cbv; reflexivity| |vm_compute; reflexivity].
    repeat constructor; cbn; lia. }
  split; [|split].
  - apply (L_enqueue _ (fun _ _ => -1) _ _ seven 30 _ H2); [cbv; reflexivity| |vm_compute; reflexivity].
    repeat constructor; cbn; lia.
  - intros (E & _). vm_compute in E. discriminate E.
  - vm_compute. reflexivity.
Qed.

(** 41 moves ahead, is taken out from slot 1 of 3 and put back, and leads. *)
Example C99_example :
  evolving (@NoDup Z) plain three [30; 41; 20] /\ last_loc (calls three) 41 = Some 1 /\
  (forall a b, In a [30; 41; 20] -> In b [30; 41; 20] -> a <> 41 -> b <> 41 -> raised a b = plain a b) /\
  exists q1 q2 q3, priorq_remove raised three 1 = Ok (q1, 41) /\ priorq_enqueue raised seven q1 41 = Ok q2 /\
    drain raised 3%nat q2 = Ok (q3, [41; 20; 30]).
Proof.
  split.
  { apply (E_enqueue _ _ _ _ seven 30 _ (two_evolving _ (fun l H => H))); [cbv; reflexivity| |vm_compute; reflexivity].
    repeat constructor; cbn; lia. }
  split; [reflexivity|].
  split. { intros a b Ha Hb Na Nb. unfold raised, plain. destruct (a =? 41) eqn:E1; [lia|]. destruct (b =? 41) eqn:E2; lia. }
  eexists _, _, _. split; [vm_compute; reflexivity|]. split; [vm_compute; reflexivity|]. vm_compute. reflexivity.
Qed.
