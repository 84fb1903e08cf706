(** Properties C19-C22, C74: lists (src/list.c). *)
From Verif Require Import Base Heap ListModel ListSpec ListProofs.

(** C19: every modification of a list with any history succeeds, returns what it
    should, and has the effect of the mathematical operation... *)
Theorem C19_make : forall h, exists l h', make_list h = Ok (l, h') /\ list_history h' l [].
Proof.
  intros h. destruct (make_list_ok h) as (l & h' & E & _). exists l, h'. split; [exact E|]. eapply LH_make; eauto.
Qed.
Print Assumptions C19_make.

Theorem C19_append : forall h l es v, list_history h l es -> few es ->
  exists e h', list_append l v h = Ok (e, h') /\ list_history h' l (es ++ [(e, v)]).
Proof. exact append_history. Qed.
Print Assumptions C19_append.

Theorem C19_prepend : forall h l es v, list_history h l es -> few es ->
  exists e h', list_prepend l v h = Ok (e, h') /\ list_history h' l ((e, v) :: es).
Proof. exact prepend_history. Qed.
Print Assumptions C19_prepend.

Theorem C19_insert_before : forall h l pre next w post v,
  list_history h l (pre ++ (next, w) :: post) -> few (pre ++ (next, w) :: post) ->
  exists e h', list_insert_before l v next h = Ok (e, h') /\
    list_history h' l (pre ++ (e, v) :: (next, w) :: post).
Proof. exact insert_before_history. Qed.
Print Assumptions C19_insert_before.

Theorem C19_remove : forall h l pre e w post, list_history h l (pre ++ (e, w) :: post) ->
  exists h', list_remove l e h = Ok (tt, h') /\ list_history h' l (pre ++ post).
Proof. exact remove_history. Qed.
Print Assumptions C19_remove.

Theorem C19_pop_first : forall h l es, list_history h l es ->
  exists h', list_pop_first l h = Ok (hd 0 (values es), h') /\ list_history h' l (tl es).
Proof. exact pop_first_history. Qed.
Print Assumptions C19_pop_first.

Theorem C19_pop_last : forall h l es, list_history h l es ->
  exists h', list_pop_last l h = Ok (last (values es) 0, h') /\ list_history h' l (removelast es).
Proof. exact pop_last_history. Qed.
Print Assumptions C19_pop_last.

(** ... and all the observers agree with the resulting sequence. *)
Theorem C19_observers : forall h l es, list_history h l es ->
  traverse_forward l (length es) h = Ok (es, h) /\
  list_size l h = Ok (zlen es, h) /\
  list_empty l h = Ok (match es with [] => true | _ => false end, h) /\
  list_get_first l h = Ok (first_handle es, h) /\
  list_get_last l h = Ok (last_handle es, h) /\
  (forall v, list_get l v h = Ok (find_value v es, h)) /\
  (forall idx, 0 <= idx <= INT_MAX -> list_get_by_index l idx h = Ok (nth (Z.to_nat idx) (handles es) 0, h)) /\
  (forall idx, idx < 0 -> zlen es <= INT_MAX -> list_get_by_index l idx h = Ok (0, h)).
Proof. exact observers_history. Qed.
Print Assumptions C19_observers.

(** A client: append 10, 20, prepend 5, insert 7 before 10, remove 20, and look
    at the values, the size and the second element. *)
Example C19_example :
  result ((let! l := make_list in
   let! a := list_append l 10 in
   let! b := list_append l 20 in
   let! _ := list_prepend l 5 in
   let! _ := list_insert_before l 7 a in
   do! list_remove l b in
   let! es := traverse_forward l 10 in
   let! n := list_size l in
   let! e := list_get_by_index l 1 in
   let! v := list_elem_get_value e in
   ret (es, n, v)) heap0)
  = Some ([(103, 5); (104, 7); (101, 10)], 3, 7).
Proof. reflexivity. Qed.

(** C20: moving both ways; the value of an element never changes and its handle
    stays valid as long as it is in the list (the handle and value of each
    element are in the sequence that the history describes). *)
Theorem C20_navigation : forall h l pre e w post, list_history h l (pre ++ (e, w) :: post) ->
  list_elem_get_value e h = Ok (w, h) /\ list_next e h = Ok (first_handle post, h) /\
  list_previous e h = Ok (last_handle pre, h).
Proof. exact navigation_history. Qed.
Print Assumptions C20_navigation.

Theorem C20_traversals : forall h l es, list_history h l es ->
  traverse_forward l (length es) h = Ok (es, h) /\ traverse_backward l (length es) h = Ok (rev es, h).
Proof.
  intros h l es H. apply history_is_list in H. split.
  - apply traverse_forward_ok; auto.
  - apply traverse_backward_ok; auto.
Qed.
Print Assumptions C20_traversals.

(** A modification keeps the value of every element that is in the list before
    and after. *)
Theorem C20_stable : forall l h es h' es' e v, list_history h l es -> list_step l h es h' es' ->
  In (e, v) es -> In e (handles es') -> list_elem_get_value e h' = Ok (v, h').
Proof.
  intros l h es h' es' e v H S Hi Hh.
  assert (H' : list_history h' l es') by (eapply LH_step; eauto).
  assert (Hi' : In (e, v) es').
  { pose proof (history_is_list _ _ _ H) as I. pose proof (il_nodup _ _ _ I) as ND. inversion ND as [|? ? _ ND']; subst.
    assert (U : forall u, In (e, u) es -> u = v).
    { intros u Hu. clear - ND' Hu Hi. induction es as [|[a b] es IH]; [destruct Hi|].
      change (handles ((a, b) :: es)) with (a :: handles es) in ND'. inversion ND' as [|? ? N1 N2]; subst.
      destruct Hi as [Hi|Hi], Hu as [Hu|Hu].
      - congruence.
      - injection Hi as -> ->. exfalso. apply N1. apply (in_map fst) in Hu. exact Hu.
      - injection Hu as -> ->. exfalso. apply N1. apply (in_map fst) in Hi. exact Hi.
      - auto. }
    assert (W : exists u, In (e, u) es').
    { unfold handles in Hh. apply in_map_iff in Hh. destruct Hh as ([a u] & E & Hu). simpl in E. subst a. eauto. }
    destruct W as [u Hu].
    assert (In (e, u) es \/ get h e = None) as [X|X].
    3:{ exfalso. apply (il_alloc _ _ _ e I); [|exact X]. right. apply (in_map fst) in Hi. exact Hi. }
    { destruct S.
      - destruct (append_ok _ _ _ v0 I H0) as (e1 & h1 & E1 & N & _). rewrite E1 in H1. injection H1 as <- <-.
        apply in_app_iff in Hu. destruct Hu as [Hu|[Hu|[]]]; [auto|]. injection Hu as -> ->. auto.
      - destruct (prepend_ok _ _ _ v0 I H0) as (e1 & h1 & E1 & N & _). rewrite E1 in H1. injection H1 as <- <-.
        destruct Hu as [Hu|Hu]; [|auto]. injection Hu as -> ->. auto.
      - destruct (insert_before_ok _ _ _ _ _ _ v0 I H0) as (e1 & h1 & E1 & N & _). rewrite E1 in H1. injection H1 as <- <-.
        apply in_app_iff in Hu. rewrite in_app_iff. destruct Hu as [Hu|[Hu|Hu]]; [auto| |auto]. injection Hu as -> ->. auto.
      - left. apply in_app_iff in Hu. rewrite in_app_iff. simpl. tauto.
      - left. destruct es; simpl in *; auto.
      - left. clear - Hu. induction es as [|x es IH]; [exact Hu|]. destruct es as [|y es]; [destruct Hu|].
        change (In (e, u) (x :: removelast (y :: es))) in Hu. destruct Hu as [Hu|Hu]; [left|right]; auto. }
    rewrite (U u X) in Hu. exact Hu. }
  apply in_split in Hi'. destruct Hi' as (pre & post & ->).
  exact (proj1 (navigation_history _ _ _ _ _ _ H')).
Qed.
Print Assumptions C20_stable.

(** C21: a modification changes no cell but those of the list before and after;
    what it adds to the list was not allocated before, what it takes away is
    freed. (That no operation accesses memory that is not allocated is part of
    C19: the result would be [UB].) *)
Theorem C21_footprint : forall l h es h' es', list_history h l es -> list_step l h es h' es' ->
  same_outside (footprint l es ++ footprint l es') h h' /\
  (forall x, In x (footprint l es') -> get h' x <> None /\ x <> 0) /\
  (forall x, In x (footprint l es') -> ~ In x (footprint l es) -> get h x = None) /\
  (forall x, In x (footprint l es) -> ~ In x (footprint l es') -> get h' x = None).
Proof.
  intros l h es h' es' H S. destruct (step_ok _ _ _ _ _ S (history_is_list _ _ _ H)) as (I & A & B & C).
  split; [exact A|]. split; [|auto]. intros x Hx. split; [eapply il_alloc; eauto|eapply il_nonnull; eauto].
Qed.
Print Assumptions C21_footprint.

(** The cells of a list are all distinct. *)
Theorem C21_distinct : forall h l es, list_history h l es -> NoDup (footprint l es).
Proof. intros h l es H. exact (il_nodup _ _ _ (history_is_list _ _ _ H)). Qed.
Print Assumptions C21_distinct.

(** destroy_list frees the cells of the list and nothing else. *)
Theorem C21_destroy : forall h l es, list_history h l es ->
  exists h', destroy_list l h = Ok (tt, h') /\
    (forall x, In x (footprint l es) -> get h' x = None) /\ same_outside (footprint l es) h h'.
Proof. intros h l es H. apply destroy_list_ok, history_is_list, H. Qed.
Print Assumptions C21_destroy.

(** Making a list, any modifications of it, and destroying it: the heap is as
    before. *)
Theorem C21_no_leak : forall l h0 h1 h es, make_list h0 = Ok (l, h1) -> list_steps l h1 [] h es ->
  exists h', destroy_list l h = Ok (tt, h') /\ forall x, get h' x = get h0 x.
Proof. exact no_leak. Qed.
Print Assumptions C21_no_leak.

Example C21_example :
  exists h1 h2 e, make_list (mk_heap [(7, CSlots [1])] (fun _ => 7) 0) = Ok (8, h1) /\ list_append 8 33 h1 = Ok (e, h2) /\
    list_steps 8 h1 [] h2 [(e, 33)].
Proof.
  eexists _, _, _. split; [reflexivity|]. split; [reflexivity|].
  eapply SS_more; [|apply SS_none]. apply (S_append 8 _ []); [unfold few; reflexivity|reflexivity].
Qed.

(** C22: list_foreach is the calls on the values, in order, for any callback
    that succeeds and leaves the cells of this list alone. *)
Theorem C22_foreach : forall f l es h, list_history h l es ->
  (forall v h1, list_history h1 l es ->
     exists h2, f v h1 = Ok (tt, h2) /\ (forall x, In x (footprint l es) -> get h2 x = get h1 x)) ->
  exists h', list_foreach l f h = Ok (tt, h') /\ call_each f (values es) h = Ok (tt, h') /\ list_history h' l es.
Proof. exact foreach_history. Qed.
Print Assumptions C22_foreach.

(** A callback of that kind: allocates a cell for the value. *)
Example C22_foreach_example : forall l es v h1, list_history h1 l es ->
  exists h2, (do! alloc (CSlots [v]) in ret tt) h1 = Ok (tt, h2) /\
    (forall x, In x (footprint l es) -> get h2 x = get h1 x).
Proof.
  intros l es v h1 H. destruct (alloc_spec (CSlots [v]) h1) as (a & h2 & E & N & F & G).
  exists h2. split; [unfold bnd; rewrite E; reflexivity|]. intros x Hx. rewrite G.
  destruct (x =? a) eqn:Ea; [|reflexivity]. apply Z.eqb_eq in Ea. subst x. exfalso.
  exact (il_alloc _ _ _ _ (history_is_list _ _ _ H) Hx F).
Qed.

(** list_copy makes a new list, in memory that was free, with the same values;
    the old list is still there and they have no cell in common. *)
Theorem C22_copy : forall h l es, list_history h l es ->
  exists c h' cs, list_copy l h = Ok (c, h') /\ values cs = values es /\
    list_history h' c cs /\ list_history h' l es /\ apart (footprint c cs) (footprint l es) /\
    (forall x, In x (footprint c cs) -> get h x = None) /\ same_outside (footprint c cs) h h'.
Proof. exact copy_history. Qed.
Print Assumptions C22_copy.

(** Lists with no cell in common, such as a list and its copy: modifications of
    one do not affect the other. *)
Theorem C22_independent : forall l h es h' es' l2 es2,
  list_steps l h es h' es' -> list_history h l es -> list_history h l2 es2 ->
  apart (footprint l es) (footprint l2 es2) ->
  list_history h' l es' /\ list_history h' l2 es2 /\ apart (footprint l es') (footprint l2 es2).
Proof. exact steps_apart. Qed.
Print Assumptions C22_independent.

Example C22_example :
  match (let! l := make_list in
   let! a := list_append l 10 in
   let! _ := list_append l 20 in
   let! c := list_copy l in
   let! _ := list_append c 30 in
   do! list_remove l a in
   let! es := traverse_forward l 10 in
   let! cs := traverse_forward c 10 in
   do! destroy_list c in
   do! destroy_list l in
   ret (values es, values cs)) heap0 with
  | Ok (r, h) => r = ([20], [10; 20; 30]) /\ mem h = []
  | _ => False
  end.
Proof. vm_compute. split; reflexivity. Qed.

(** C74: list_get_by_index with a negative index, documented to return NULL,
    counts through the whole list in an int; with more than INT_MAX elements that
    overflows. *)
Theorem C74_negative_index_partial : forall h l es idx, list_history h l es -> idx < 0 -> zlen es <= INT_MAX ->
  list_get_by_index l idx h = Ok (0, h).
Proof. intros h l es idx H Hi Hl. apply (observers_history h l es H); assumption. Qed.
Print Assumptions C74_negative_index_partial.

Theorem C74_negative_index_refuted : exists h l es, list_history h l es /\ list_get_by_index l (-1) h = UB.
Proof. exact (index_refuted (mk_heap [] (fun _ => 0) 0)). Qed.
Print Assumptions C74_negative_index_refuted.

Theorem C74_exact : forall h l es idx, list_history h l es -> idx < 0 -> zlen es > INT_MAX ->
  list_get_by_index l idx h = UB.
Proof. intros h l es idx H. apply get_by_index_overflow, history_is_list, H. Qed.
Print Assumptions C74_exact.
