(** C104: lists that are changed while they are traversed. *)
From Verif Require Import Base Heap ListModel ListSpec ListProofs ListIterSpec ListIter.
From Coq Require Import ZifyBool.

(** That any callback of list_foreach may change the list is false: if it removes the current element, the element is read
    after it has been freed. *)
Theorem C104_refuted : forall l f h e w es h',
  list_history h l ((e, w) :: es) -> f w h = Ok (tt, h') -> get h' e = None -> list_foreach l f h = UB.
Proof. exact foreach_removed. Qed.
Print Assumptions C104_refuted.

(** A callback that makes any other change: after each call, list_foreach goes on with the element that follows the current
    one in the list as it is by then; this is always defined, for as many calls as are made. *)
Theorem C104_foreach_partial : forall P l f h es,
  considerate P l f -> list_history h l es -> P h es -> forall n,
  foreach_within n l f h = NoFuel \/
  exists vs h' es', (length vs < n)%nat /\ visits l f h es (first_handle es) vs h' es' /\ foreach_within n l f h = Ok (tt, h').
Proof. exact foreach_considerate. Qed.
Print Assumptions C104_foreach_partial.
Theorem C104_visits_partial : forall l f h es vs h' es',
  list_history h l es -> visits l f h es (first_handle es) vs h' es' ->
  list_history h' l es' /\ forall n, (length vs < n)%nat -> foreach_within n l f h = Ok (tt, h').
Proof. exact foreach_visits. Qed.
Print Assumptions C104_visits_partial.

(** If nothing behind the current element is changed, the elements of the list at the beginning are visited, each once. *)
Theorem C104_looking_back_partial : forall P l f h es, looks_back P l f -> list_history h l es -> P h es ->
  exists h' es', visits l f h es (first_handle es) (values es) h' es' /\ list_foreach l f h = Ok (tt, h') /\ list_history h' l es'.
Proof. exact foreach_back. Qed.
Print Assumptions C104_looking_back_partial.

(** If the callback appends to the list, all elements the list has in the end are visited. *)
Theorem C104_worklist_partial : forall P l f h es vs h' es', appends P l f -> list_history h l es -> P h es ->
  visits l f h es (first_handle es) vs h' es' -> vs = values es' /\ exists more, es' = es ++ more.
Proof. exact foreach_worklist. Qed.
Print Assumptions C104_worklist_partial.

(** A loop that fetches the next element first can remove any elements: exactly these are removed, and freed, and the rest
    keeps its order. *)
Theorem C104_removing_loop : forall l p h es, list_history h l es ->
  exists h', remove_if l p h = Ok (tt, h') /\ list_history h' l (keep p es) /\
    (forall e w, In (e, w) es -> p w = true -> get h' e = None) /\ same_outside (footprint l es) h h'.
Proof. exact remove_if_ok. Qed.
Print Assumptions C104_removing_loop.

(** Callbacks that meet the conditions. *)
Definition room100 (h : heap) (es : list (Z * Z)) : Prop := zlen es <= 100.
Definition append_less (l w : Z) : M unit :=
  let! n := list_size l in
  if (0 <? w) && (n <? 100) then do! list_append l (w - 1) in ret tt else ret tt.
Example C104_append_less : forall l, appends room100 l (append_less l).
Proof.
  intros l h pre e w post H P. unfold room100 in *. pose proof (history_is_list _ _ _ H) as I. unfold append_less.
  rewrite (bnd_Ok _ _ _ _ _ (size_ok _ _ _ I)). destruct ((0 <? w) && (zlen (pre ++ (e, w) :: post) <? 100)) eqn:E.
  - destruct (append_ok _ _ _ (w - 1) I ltac:(lia)) as (e' & h' & A & _). rewrite (bnd_Ok _ _ _ _ _ A).
    exists h', [(e', w - 1)]. split; [reflexivity|]. split; [rewrite app_comm_cons, app_assoc, zlen_app; change (zlen [(e', w - 1)]) with 1; lia|].
    eapply C_step; [|apply C_none]. rewrite app_comm_cons, app_assoc. apply S_append; [unfold few; lia|exact A].
  - exists h, []. rewrite app_nil_r. split; [reflexivity|]. split; [exact P|apply C_none].
Qed.
Definition prepend_copy (l w : Z) : M unit :=
  let! n := list_size l in
  if n <? 100 then do! list_prepend l w in ret tt else ret tt.
Example C104_prepend_copy : forall l, looks_back room100 l (prepend_copy l).
Proof.
  intros l h pre e w post H P. unfold room100 in *. pose proof (history_is_list _ _ _ H) as I. unfold prepend_copy.
  rewrite (bnd_Ok _ _ _ _ _ (size_ok _ _ _ I)). destruct (zlen (pre ++ (e, w) :: post) <? 100) eqn:E.
  - destruct (prepend_ok _ _ _ w I ltac:(lia)) as (e' & h' & A & _). rewrite (bnd_Ok _ _ _ _ _ A).
    exists h', ((e', w) :: pre). split; [reflexivity|]. cbn [app]. split; [rewrite zlen_cons; lia|].
    eapply C_step; [|apply C_none]. apply S_prepend; [unfold few; lia|exact A].
  - exists h, pre. split; [reflexivity|]. split; [exact P|apply C_none].
Qed.

(** The list 3, 1 with these callbacks, with one that removes the current element, and with the loop that removes odd numbers. *)
Definition two_elements : M Z :=
  let! l := make_list in do! list_append l 3 in do! list_append l 1 in ret l.
Definition two_heap : heap := match two_elements heap0 with Ok (_, h) => h | _ => heap0 end.
Example C104_example :
  result (two_elements heap0) = Some 100 /\
  result ((do! foreach_within 9 100 (append_less 100) in traverse_forward 100 9) two_heap) =
    Some [(101, 3); (102, 1); (103, 2); (104, 0); (105, 1); (106, 0)] /\
  option_map values (result ((do! list_foreach 100 (prepend_copy 100) in traverse_forward 100 9) two_heap)) = Some [1; 3; 3; 1] /\
  list_foreach 100 (fun _ => list_remove 100 101) two_heap = UB /\
  (exists h', list_remove 100 101 two_heap = Ok (tt, h') /\ get h' 101 = None) /\
  result ((do! remove_if 100 (fun v => v =? 3) in traverse_forward 100 9) two_heap) = Some [(102, 1)].
Proof.
  split; [vm_compute; reflexivity|]. split; [vm_compute; reflexivity|]. split; [vm_compute; reflexivity|]. split; [vm_compute; reflexivity|].
  split; [eexists; split; [vm_compute; reflexivity|vm_compute; reflexivity]|vm_compute; reflexivity].
Qed.
Example C104_history_example : list_history two_heap 100 [(101, 3); (102, 1)] /\ room100 two_heap [(101, 3); (102, 1)].
Proof.
  split; [|unfold room100; cbn; lia].
  assert (X : exists h0 h1, make_list heap0 = Ok (100, h0) /\ list_append 100 3 h0 = Ok (101, h1) /\ list_append 100 1 h1 = Ok (102, two_heap)).
  { eexists _, _. split; [vm_compute; reflexivity|]. split; [vm_compute; reflexivity|vm_compute; reflexivity]. }
  destruct X as (h0 & h1 & E0 & E1 & E2).
  eapply (LH_step h1 100 [(101, 3)]); [|apply (S_append 100 h1 [(101, 3)] 1 102); [unfold few; cbn; lia|exact E2]].
  eapply (LH_step h0 100 []); [|apply (S_append 100 h0 [] 3 101); [unfold few; cbn; lia|exact E1]].
  eapply LH_make. exact E0.
Qed.
