(** Every call that a program may make succeeds and leads to a program again. *)
From Verif Require Import Base Heap ListModel HashModel AvlModel IntsetModel PriorqModel ObjModel OwnSpec MixSpec MixProofs.
From Verif Require ListSpec ListProofs HashSpec HashProofs AvlSpec AvlHist AvlProps ObjSpec ObjProofs MixStrings.
From Verif Require Import CharstrSpec OwnModel NewMemModel NewMemProps Utf8Spec UrlModel Base64Model.
From Verif Require UrlSpec Base64Spec UrlProps.
From Coq Require Import Permutation.

Section Calls.
Context (fn : HashModel.code) (call : AvlModel.comparator) (code : Z -> Z -> Z -> Z).
Notation program := (program fn call code).
Notation order cmp obj := (fun k1 k2 => call cmp k1 k2 obj).

Lemma make_calls h0 h os : program h0 h os ->
  (exists l h', make_list h = Ok (l, h') /\ program h0 h' (AList l [] :: os)) /\
  (forall capacity hash cmp, 0 <= capacity < 2 ^ 64 -> HashSpec.legal fn hash cmp ->
    exists t h', make_hash_table capacity hash cmp h = Ok (t, h') /\ program h0 h' (ATable cmp t [] :: os)) /\
  (forall cmp obj, AvlSpec.total_preorder (order cmp obj) ->
    exists t h', make_avl_tree_2 cmp obj h = Ok (t, h') /\ program h0 h' (ATree cmp obj t [] :: os)) /\
  (forall junk c v o, ObjSpec.alone code junk c [] = Ok (v, [o]) ->
    exists p h', ObjSpec.together code junk c [] h = Ok ((v, [p]), h') /\ program h0 h' (AnObject p o :: os)).
Proof.
  intros P. split; [|split; [|split]].
  - destruct (ListProofs.make_list_ok h) as (l & h' & E & _). exists l, h'. split; [exact E|]. eapply P_make; [exact P|]. constructor. exact E.
  - intros capacity hash cmp R L. destruct (HashProofs.make_foreign fn hash cmp capacity h L) as (t & h' & E & _). exists t, h'. split; [exact E|].
    eapply P_make; [exact P|]. econstructor; eauto.
  - intros cmp obj T. destruct (AvlHist.make_avl call cmp obj h T) as (t & h' & E & _). exists t, h'. split; [exact E|]. eapply P_make; [exact P|]. constructor; assumption.
  - intros junk c v o A. destruct (object_makes code junk c v o h A) as (h' & p & cs & E & _). exists p, h'. split; [exact E|]. eapply P_make; [exact P|]. econstructor; eauto.
Qed.

Lemma held h0 h pre o post : program h0 h (pre ++ o :: post) -> intact fn call code h o.
Proof. intros P. eapply program_intact; [exact P|]. apply in_or_app. right; left; reflexivity. Qed.

Lemma list_calls h0 h pre l es post : program h0 h (pre ++ AList l es :: post) ->
  (ListSpec.few es -> forall v, exists e h', list_append l v h = Ok (e, h') /\ program h0 h' (pre ++ AList l (es ++ [(e, v)]) :: post)) /\
  (ListSpec.few es -> forall v, exists e h', list_prepend l v h = Ok (e, h') /\ program h0 h' (pre ++ AList l ((e, v) :: es) :: post)) /\
  (forall es1 next w es2, es = es1 ++ (next, w) :: es2 -> ListSpec.few es -> forall v,
    exists e h', list_insert_before l v next h = Ok (e, h') /\ program h0 h' (pre ++ AList l (es1 ++ (e, v) :: (next, w) :: es2) :: post)) /\
  (forall es1 e w es2, es = es1 ++ (e, w) :: es2 ->
    exists h', list_remove l e h = Ok (tt, h') /\ program h0 h' (pre ++ AList l (es1 ++ es2) :: post)) /\
  (exists h', list_pop_first l h = Ok (hd 0 (ListSpec.values es), h') /\ program h0 h' (pre ++ AList l (tl es) :: post)) /\
  (exists h', list_pop_last l h = Ok (last (ListSpec.values es) 0, h') /\ program h0 h' (pre ++ AList l (removelast es) :: post)) /\
  (exists c cs h', list_copy l h = Ok (c, h') /\ ListSpec.values cs = ListSpec.values es /\ program h0 h' (pre ++ AList l es :: AList c cs :: post)) /\
  (exists h', destroy_list l h = Ok (tt, h') /\ program h0 h' (pre ++ post)).
Proof.
  intros P. pose proof (held _ _ _ _ _ P) as H. cbn [intact] in H.
  assert (ST : forall h' es', ListSpec.list_step l h es h' es' -> program h0 h' (pre ++ AList l es' :: post)).
  { intros h' es' S. apply (P_act fn call code h0 h pre (AList l es) post h' [AList l es'] P). constructor. exact S. }
  split; [|split; [|split; [|split; [|split; [|split; [|split]]]]]].
  - intros F v. destruct (ListProofs.append_history _ _ _ v H F) as (e & h' & E & _). exists e, h'. split; [exact E|]. apply ST. econstructor; eauto.
  - intros F v. destruct (ListProofs.prepend_history _ _ _ v H F) as (e & h' & E & _). exists e, h'. split; [exact E|]. apply ST. econstructor; eauto.
  - intros es1 next w es2 -> F v. destruct (ListProofs.insert_before_history _ _ _ _ _ _ v H F) as (e & h' & E & _). exists e, h'. split; [exact E|]. apply ST. econstructor; eauto.
  - intros es1 e w es2 ->. destruct (ListProofs.remove_history _ _ _ _ _ _ H) as (h' & E & _). exists h'. split; [exact E|]. apply ST. econstructor; eauto.
  - destruct (ListProofs.pop_first_history _ _ _ H) as (h' & E & _). exists h'. split; [exact E|]. apply ST. econstructor; eauto.
  - destruct (ListProofs.pop_last_history _ _ _ H) as (h' & E & _). exists h'. split; [exact E|]. apply ST. econstructor; eauto.
  - destruct (ListProofs.copy_history _ _ _ H) as (c & h' & cs & E & V & Hc & _). exists c, cs, h'. split; [exact E|]. split; [exact V|].
    apply (P_act fn call code h0 h pre (AList l es) post h' [AList l es; AList c cs] P). constructor; [exact E|exact V|].
    apply ListProofs.traverse_forward_ok; [apply ListProofs.history_is_list; exact Hc|lia].
  - destruct (ListProofs.destroy_list_ok _ _ _ (ListProofs.history_is_list _ _ _ H)) as (h' & E & _). exists h'. split; [exact E|].
    apply (P_act fn call code h0 h pre (AList l es) post h' [] P). constructor. exact E.
Qed.

Lemma table_none t m h' : (forall a, In a m -> ~ HashSpec.owned h' t (HashSpec.a_elem a) -> get h' (HashSpec.a_elem a) = None) -> taken_from_table h' t m [].
Proof. intros H. split; [constructor|]. intros a. split; [intros []|]. intros (I & N & G). destruct (G (H a I N)). Qed.
Lemma table_one cmp t m m' h' e k v : HashSpec.ht_history fn cmp h' t m' -> (forall a, In a m -> a = (e, k, v) \/ In a m') -> In (e, k, v) m ->
  hash_elem_get_key e h' = Ok (k, h') -> ~ HashSpec.owned h' t e -> taken_from_table h' t m [(e, k, v)].
Proof.
  intros H S I K N. split; [constructor; [intros []|constructor]|]. intros a. split.
  - intros [<-|[]]. split; [exact I|]. split; [exact N|]. cbn. apply helem_key in K as (c & -> & _). discriminate.
  - intros (Ia & Na & _). destruct (S a Ia) as [->|J]; [left; reflexivity|]. destruct Na. destruct a as [[e1 k1] v1]. exact (owned_member fn cmp h' t m' e1 k1 v1 H J).
Qed.

Lemma table_calls h0 h pre cmp t m post : program h0 h (pre ++ ATable cmp t m :: post) ->
  (forall k v, HashSpec.sparse m -> HashSpec.absent fn cmp k m ->
    exists e h', hash_table_put fn t k v h = Ok (0, h') /\ program h0 h' (pre ++ ATable cmp t ((e, k, v) :: m) :: post)) /\
  (forall k v e' k' w m', Permutation m ((e', k', w) :: m') -> call_cmp fn cmp k k' = 0 -> w <> v ->
    exists e h', hash_table_put fn t k v h = Ok (e', h') /\ program h0 h' (pre ++ ATable cmp t ((e, k, v) :: m') :: AHashElem e' k' w :: post)) /\
  (forall k v e k', In (e, k', v) m -> call_cmp fn cmp k k' = 0 -> hash_table_put fn t k v h = Ok (0, h)) /\
  (forall k e k' v m', Permutation m ((e, k', v) :: m') -> call_cmp fn cmp k k' = 0 ->
    exists h', hash_table_pop fn t k h = Ok (e, h') /\ program h0 h' (pre ++ ATable cmp t m' :: AHashElem e k' v :: post)) /\
  (forall e k v m', Permutation m ((e, k, v) :: m') ->
    exists h', hash_table_detach t e h = Ok (tt, h') /\ program h0 h' (pre ++ ATable cmp t m' :: AHashElem e k v :: post)) /\
  (forall e k v m', Permutation m ((e, k, v) :: m') ->
    exists h', hash_table_remove t e h = Ok (tt, h') /\ program h0 h' (pre ++ ATable cmp t m' :: post)) /\
  (exists h', destroy_hash_table t h = Ok (tt, h') /\ program h0 h' (pre ++ post)).
Proof.
  intros P. pose proof (held _ _ _ _ _ P) as H. cbn [intact] in H.
  assert (OP : forall h' r m' out, HashSpec.ht_op fn cmp t h m h' r m' -> taken_from_table h' t m out ->
    program h0 h' (pre ++ (ATable cmp t m' :: map loose_hash out) ++ post)).
  { intros h' r m' out O T. apply (P_act fn call code h0 h pre (ATable cmp t m) post h' _ P). econstructor; eauto. }
  assert (IN : forall x m', Permutation m (x :: m') -> In x m /\ forall a, In a m -> a = x \/ In a m').
  { intros x m' Q. split; [apply (Permutation_in _ (Permutation_sym Q)); left; reflexivity|]. intros a I. apply (Permutation_in _ Q) in I as [I|I]; auto. }
  split; [|split; [|split; [|split; [|split; [|split]]]]].
  - intros k v S A. destruct (HashProofs.put_new_history _ _ _ _ _ k v H S A) as (e & h' & E & H'). exists e, h'. split; [exact E|].
    assert (O : HashSpec.ht_op fn cmp t h m h' 0 ((e, k, v) :: m)).
    { eapply HashSpec.HO_put_new; [exact S|exact A|exact E|]. apply (proj1 (HashProofs.get_history fn cmp h' t _ k H') e k v); [left; reflexivity|].
      destruct (HashProofs.history_ht _ _ _ _ _ H') as (hash & arr & bs & IT & _). apply (HashSpec.cmp_refl fn hash cmp). apply (HashProofs.ih_legal _ _ _ _ _ _ _ _ IT). exact I. }
    apply (OP h' 0 _ [] O). apply table_none. intros [[e1 k1] v1] Ia Na. destruct Na. apply (owned_member fn cmp h' t _ e1 k1 v1 H'). right; exact Ia.
  - intros k v e' k' w m' Q C N. destruct (HashProofs.put_replace_history _ _ _ _ _ k v _ _ _ _ H Q C N) as (e & h' & E & H' & Ne & K & V & NO).
    exists e, h'. split; [exact E|]. destruct (IN _ _ Q) as [I1 I2].
    assert (O : HashSpec.ht_op fn cmp t h m h' e' ((e, k, v) :: m')).
    { eapply HashSpec.HO_put_replace; [exact Q|exact C|exact N|exact E|]. apply (proj1 (HashProofs.get_history fn cmp h' t _ k H') e k v); [left; reflexivity|].
      destruct (HashProofs.history_ht _ _ _ _ _ H') as (hash & arr & bs & IT & _). apply (HashSpec.cmp_refl fn hash cmp). apply (HashProofs.ih_legal _ _ _ _ _ _ _ _ IT). exact I. }
    apply (OP h' e' _ [(e', k', w)] O). apply (table_one cmp t m ((e, k, v) :: m')); try assumption. intros a Ia. destruct (I2 a Ia); [auto|right; right; assumption].
  - intros k v e k' I C. exact (HashProofs.put_same_history _ _ _ _ _ _ _ _ _ H I C).
  - intros k e k' v m' Q C. destruct (HashProofs.pop_history _ _ _ _ _ k _ _ _ _ H Q C) as (h' & E & H' & K & V & NO). exists h'. split; [exact E|]. destruct (IN _ _ Q) as [I1 I2].
    apply (OP h' e m' [(e, k', v)]); [eapply HashSpec.HO_pop; eauto|]. apply (table_one cmp t m m'); assumption.
  - intros e k v m' Q. destruct (HashProofs.detach_history _ _ _ _ _ _ _ _ _ H Q) as (h' & E & H' & K & V & NO). exists h'. split; [exact E|]. destruct (IN _ _ Q) as [I1 I2].
    apply (OP h' 0 m' [(e, k, v)]); [eapply HashSpec.HO_detach; eauto|]. apply (table_one cmp t m m'); assumption.
  - intros e k v m' Q. destruct (HashProofs.remove_history _ _ _ _ _ _ _ _ _ H Q) as (h' & E & H' & G). exists h'. split; [exact E|]. destruct (IN _ _ Q) as [I1 I2].
    apply (OP h' 0 m' []); [eapply HashSpec.HO_remove; eauto|]. apply table_none. intros a Ia Na. destruct (I2 a Ia) as [->|J]; [exact G|].
    destruct Na. destruct a as [[e1 k1] v1]. exact (owned_member fn cmp h' t m' e1 k1 v1 H' J).
  - destruct (HashProofs.destroy_history _ _ _ _ _ H) as (h' & E & _). exists h'. split; [exact E|].
    apply (P_act fn call code h0 h pre (ATable cmp t m) post h' [] P). constructor. exact E.
Qed.

Lemma tree_none t m m' h' : (forall a, In a m -> In a m' \/ get h' (AvlSpec.a_elem a) = None) -> taken_from_tree h' t m m' [].
Proof.
  intros H. split; [constructor|]. intros a. split; [intros []|]. intros (I & N & G). destruct (H a I) as [J|J]; [|contradiction].
  apply N. right. apply in_map. exact J.
Qed.
Lemma tree_one t m m' h' e k v : (forall a, In a m -> a = (e, k, v) \/ In a m') -> In (e, k, v) m ->
  avl_elem_get_key e h' = Ok (k, h') -> ~ In e (AvlSpec.footprint t m') -> taken_from_tree h' t m m' [(e, k, v)].
Proof.
  intros S I K N. split; [constructor; [intros []|constructor]|]. intros a. split.
  - intros [<-|[]]. split; [exact I|]. split; [exact N|]. cbn. apply aelem_key in K as (c & -> & _). discriminate.
  - intros (Ia & Na & _). destruct (S a Ia) as [->|J]; [left; reflexivity|]. destruct Na. right. apply in_map. exact J.
Qed.

Lemma tree_calls h0 h pre cmp obj t m post : program h0 h (pre ++ ATree cmp obj t m :: post) ->
  (forall k v m1 m2, m = m1 ++ m2 -> AvlSpec.sparse m -> AvlSpec.all_below (order cmp obj) k m1 -> AvlSpec.all_above (order cmp obj) k m2 ->
    exists e h', avl_tree_put call t k v h = Ok (0, h') /\ program h0 h' (pre ++ ATree cmp obj t (m1 ++ (e, k, v) :: m2) :: post)) /\
  (forall k v m1 e' k' w m2, m = m1 ++ (e', k', w) :: m2 -> call cmp k k' obj = 0 ->
    exists e h', avl_tree_put call t k v h = Ok (e', h') /\ program h0 h' (pre ++ ATree cmp obj t (m1 ++ (e, k, v) :: m2) :: AnAvlElem e' k' w :: post)) /\
  (forall k m1 e k' v m2, m = m1 ++ (e, k', v) :: m2 -> call cmp k k' obj = 0 ->
    exists h', avl_tree_pop call t k h = Ok (e, h') /\ program h0 h' (pre ++ ATree cmp obj t (m1 ++ m2) :: AnAvlElem e k' v :: post)) /\
  (forall m1 e k v m2, m = m1 ++ (e, k, v) :: m2 ->
    exists h', avl_tree_detach t e h = Ok (tt, h') /\ program h0 h' (pre ++ ATree cmp obj t (m1 ++ m2) :: AnAvlElem e k v :: post)) /\
  (forall m1 e k v m2, m = m1 ++ (e, k, v) :: m2 ->
    exists h', avl_tree_remove t e h = Ok (tt, h') /\ program h0 h' (pre ++ ATree cmp obj t (m1 ++ m2) :: post)) /\
  (exists t' m' h', avl_tree_copy t h = Ok (t', h') /\ map AvlSpec.a_pair m' = map AvlSpec.a_pair m /\
    program h0 h' (pre ++ ATree cmp obj t m :: ATree cmp obj t' m' :: post)) /\
  (exists h', destroy_avl_tree t h = Ok (tt, h') /\ program h0 h' (pre ++ post)).
Proof.
  intros P. pose proof (held _ _ _ _ _ P) as H. cbn [intact] in H.
  assert (OP : forall h' r m' out, AvlSpec.avl_op call (order cmp obj) t h m h' r m' -> taken_from_tree h' t m m' out ->
    program h0 h' (pre ++ (ATree cmp obj t m' :: map loose_avl out) ++ post)).
  { intros h' r m' out O T. apply (P_act fn call code h0 h pre (ATree cmp obj t m) post h' _ P). econstructor; eauto. }
  assert (IN : forall m1 (x : AvlSpec.assoc) m2, m = m1 ++ x :: m2 -> In x m /\ forall a, In a m -> a = x \/ In a (m1 ++ m2)).
  { intros m1 x m2 ->. split; [apply in_or_app; right; left; reflexivity|]. intros a I. rewrite in_app_iff in *. cbn [In] in I. intuition. }
  split; [|split; [|split; [|split; [|split; [|split]]]]].
  - intros k v m1 m2 -> S B1 B2. destruct (AvlHist.put_new_avl call cmp obj h t (m1 ++ m2) k v m1 m2 (AvlHist.history_avl _ _ _ _ _ _ H) S eq_refl B1 B2) as (e & h' & n & _ & R & _ & _ & G & _).
    exists e, h'. split; [exact R|]. apply (OP h' 0 (m1 ++ (e, k, v) :: m2) []); [eapply AvlSpec.AO_put_new; eauto|].
    apply tree_none. intros a Ia. left. rewrite in_app_iff in *. cbn [In]. tauto.
  - intros k v m1 e' k' w m2 Em C. destruct (IN _ _ _ Em) as [I1 I2]. pose proof H as H1. rewrite Em in H1.
    destruct (AvlProps.C28_put_replace _ _ _ _ _ _ _ _ _ _ k v H1 C) as (e & h' & E & H' & Ne & K & V & NO).
    exists e, h'. split; [exact E|]. apply (OP h' e' (m1 ++ (e, k, v) :: m2) [(e', k', w)]).
    + eapply AvlSpec.AO_put_replace; [exact Em|exact C|exact E|].
      destruct (AvlHist.put_replace_avl call cmp obj h t m k v m1 (e', k', w) m2 (AvlHist.history_avl _ _ _ _ _ _ H) Em C) as (e2 & h2 & n & _ & R & X1 & X2 & G & _).
      rewrite E in R. injection R as <-. assert (e2 = e) as ->; [|exact G].
      assert (G1 : avl_tree_get call t k h' = Ok (e, h')).
      { pose proof (AvlHist.history_avl _ _ _ _ _ _ H') as (T & _). eapply (proj1 (AvlProps.C28_get _ _ _ _ _ _ k H')).
        - apply in_or_app. right; left; reflexivity.
        - pose proof (AvlSpec.cmp_flip _ T k k). lia. }
      congruence.
    + apply tree_one; try assumption. intros a Ia. destruct (I2 a Ia) as [J|J]; [auto|]. right. rewrite in_app_iff in *. cbn [In]. tauto.
  - intros k m1 e k' v m2 Em C. destruct (IN _ _ _ Em) as [I1 I2]. pose proof H as H1. rewrite Em in H1.
    destruct (AvlProps.C28_pop _ _ _ _ _ _ _ _ _ _ k H1 C) as (h' & E & H' & K & V & NO). exists h'. split; [exact E|].
    apply (OP h' e (m1 ++ m2) [(e, k', v)]); [eapply AvlSpec.AO_pop; eauto|]. apply tree_one; assumption.
  - intros m1 e k v m2 Em. destruct (IN _ _ _ Em) as [I1 I2]. pose proof H as H1. rewrite Em in H1.
    destruct (AvlProps.C28_detach _ _ _ _ _ _ _ _ _ _ H1) as (h' & E & H' & K & V & NO). exists h'. split; [exact E|].
    apply (OP h' 0 (m1 ++ m2) [(e, k, v)]); [eapply AvlSpec.AO_detach; eauto|]. apply tree_one; assumption.
  - intros m1 e k v m2 Em. destruct (IN _ _ _ Em) as [I1 I2]. pose proof H as H1. rewrite Em in H1.
    destruct (AvlProps.C28_remove _ _ _ _ _ _ _ _ _ _ H1) as (h' & E & H' & G). exists h'. split; [exact E|].
    apply (OP h' 0 (m1 ++ m2) []); [eapply AvlSpec.AO_remove; eauto|]. apply tree_none. intros a Ia. destruct (I2 a Ia) as [->|J]; [right; exact G|left; exact J].
  - destruct (AvlHist.copy_avl call cmp obj h t m (AvlHist.history_avl _ _ _ _ _ _ H)) as (t' & h' & m' & E & Ep & A & _). exists t', m', h'. split; [exact E|]. split; [exact Ep|].
    apply (P_act fn call code h0 h pre (ATree cmp obj t m) post h' [ATree cmp obj t m; ATree cmp obj t' m'] P). apply A_tree_copy with (n := length m'); [exact E|exact Ep|].
    rewrite (AvlHist.forward_avl _ _ _ _ _ _ (length m') A). rewrite Nat.leb_refl. reflexivity.
  - destruct (AvlProps.C35_destroy _ _ _ _ _ _ H) as (h' & E & _). exists h'. split; [exact E|].
    apply (P_act fn call code h0 h pre (ATree cmp obj t m) post h' [] P). constructor. exact E.
Qed.

Lemma other_calls h0 h pre post :
  (forall e k v, program h0 h (pre ++ AHashElem e k v :: post) ->
    hash_elem_get_key e h = Ok (k, h) /\ hash_elem_get_value e h = Ok (v, h) /\
    exists h', destroy_hash_element e h = Ok (tt, h') /\ program h0 h' (pre ++ post)) /\
  (forall e k v, program h0 h (pre ++ AnAvlElem e k v :: post) ->
    avl_elem_get_key e h = Ok (k, h) /\ avl_elem_get_value e h = Ok (v, h) /\
    exists h', destroy_avl_element e h = Ok (tt, h') /\ program h0 h' (pre ++ post)) /\
  (forall p o junk c v o', program h0 h (pre ++ AnObject p o :: post) -> ObjSpec.alone code junk c [o] = Ok (v, [o']) ->
    exists h', ObjSpec.together code junk c [p] h = Ok ((v, [p]), h') /\ program h0 h' (pre ++ AnObject p o' :: post)).
Proof.
  split; [|split].
  - intros e k v P. pose proof (held _ _ _ _ _ P) as [K V]. split; [exact K|]. split; [exact V|].
    pose proof K as G. apply helem_key in G as (c & G & _). eexists. split; [unfold destroy_hash_element, free; rewrite G; reflexivity|].
    apply (P_act fn call code h0 h pre (AHashElem e k v) post _ [] P). constructor. unfold destroy_hash_element, free. rewrite G. reflexivity.
  - intros e k v P. pose proof (held _ _ _ _ _ P) as [K V]. split; [exact K|]. split; [exact V|].
    pose proof K as G. apply aelem_key in G as (c & G & _). eexists. split; [unfold destroy_avl_element, free; rewrite G; reflexivity|].
    apply (P_act fn call code h0 h pre (AnAvlElem e k v) post _ [] P). constructor. unfold destroy_avl_element, free. rewrite G. reflexivity.
  - intros p o junk c v o' P A. pose proof (held _ _ _ _ _ P) as H. destruct (H junk c v o' A) as (h' & E). exists h'. split; [exact E|].
    apply (P_act fn call code h0 h pre (AnObject p o) post h' [AnObject p o'] P). econstructor; eauto.
Qed.
Lemma make_string h0 h os b : program h0 h os -> exists p h', alloc (CSlots b) h = Ok (p, h') /\ program h0 h' (AString p b :: os).
Proof.
  intros P. destruct (alloc_spec (CSlots b) h) as (p & h' & E & _). exists p, h'. split; [exact E|]. eapply P_make; [exact P|]. constructor. exact E.
Qed.

Lemma string_calls h0 h pre p b post junk : program h0 h (pre ++ AString p b :: post) ->
  (forall pre1 s r, b = pre1 ++ s ++ 0 :: r -> text s -> zlen s + 1 < 2 ^ 64 ->
    exists p' h', h_dupstr junk p (zlen pre1) h = Ok (p', h') /\ program h0 h' (pre ++ AString p b :: AString p' (s ++ [0]) :: post)) /\
  (forall pre1 s r, b = pre1 ++ s ++ r -> bytes s -> zlen s + 1 < 2 ^ 64 ->
    exists p' h', h_dupsubstr junk p (zlen pre1) (Some (zlen pre1 + zlen s)) h = Ok (p', h') /\ program h0 h' (pre ++ AString p b :: AString p' (s ++ [0]) :: post)) /\
  (forall pre1 s r, b = pre1 ++ s ++ 0 :: r -> text s -> zlen s + 1 < 2 ^ 64 ->
    exists m p' h', h_strip junk p (zlen pre1) h = Ok (p', h') /\ stripped code_white s m /\ program h0 h' (pre ++ AString p b :: AString p' (m ++ [0]) :: post)) /\
  (forall pre1 s r, b = pre1 ++ s ++ 0 :: r -> text s -> 3 * zlen s + 1 < 2 ^ 64 ->
    exists t p' h', h_sanitize_utf8 junk p (zlen pre1) h = Ok (p', h') /\ sane s t /\ program h0 h' (pre ++ AString p b :: AString p' (t ++ [0]) :: post)) /\
  (forall pre1 s r plus, b = pre1 ++ s ++ 0 :: r -> text s -> zlen s + 1 < 2 ^ 64 ->
    (exists d p' h', h_url_decode junk p (zlen pre1) plus h = Ok ((p', Some (zlen d)), h') /\ UrlSpec.decodes plus s d /\
      program h0 h' (pre ++ AString p b :: AString p' (d ++ [0]) :: post)) \/
    (UrlSpec.illegal s /\ h_url_decode junk p (zlen pre1) plus h = Ok ((0, None), h))) /\
  (forall pre1 s r, b = pre1 ++ s ++ r -> bytes s -> zlen s < 2 ^ 60 ->
    exists p' h', h_base64_encode_simple junk p (zlen pre1) (zlen s) h = Ok (p', h') /\ program h0 h' (pre ++ AString p b :: AString p' (Base64Spec.base64 43 47 s ++ [0]) :: post)) /\
  (forall pre1 s r, b = pre1 ++ s ++ 0 :: r -> text s -> zlen s < 2 ^ 62 ->
    (exists d p' h', h_base64_decode_simple junk p (zlen pre1) h = Ok ((p', Some (zlen d)), h') /\ Base64Spec.decodes (Base64Spec.code_value 43 47) Base64Spec.code_wsp s d /\
      program h0 h' (pre ++ AString p b :: AString p' (d ++ [0]) :: post)) \/
    ((forall d, ~ Base64Spec.decodes (Base64Spec.code_value 43 47) Base64Spec.code_wsp s d) /\ h_base64_decode_simple junk p (zlen pre1) h = Ok ((0, None), h))).
Proof.
  intros P. pose proof (held _ _ _ _ _ P) as G. cbn [intact] in G.
  assert (ST : forall p' d h', string_call junk h p b p' h' -> one_new_block h h' p' d -> program h0 h' (pre ++ AString p b :: AString p' d :: post)).
  { intros p' d h' C (_ & _ & G' & _). apply (P_act fn call code h0 h pre (AString p b) post h' [AString p b; AString p' d] P). econstructor; eauto. }
  split; [|split; [|split; [|split; [|split; [|split]]]]].
  - intros pre1 s r -> T L. destruct (C117_dupstr junk h p pre1 s r G T L) as (p' & h' & E & O). exists p', h'. split; [exact E|]. apply ST; [|exact O]. eapply S_dupstr; eauto.
  - intros pre1 s r -> T L. destruct (C117_dupsubstr junk h p pre1 s r G T L) as (p' & h' & E & O). exists p', h'. split; [exact E|]. apply ST; [|exact O]. eapply S_dupsubstr; eauto.
  - intros pre1 s r -> T L. destruct (C117_strip junk h p pre1 s r G T L) as (m & p' & h' & E & S & O). exists m, p', h'. split; [exact E|]. split; [exact S|]. apply ST; [|exact O]. eapply S_strip; eauto.
  - intros pre1 s r -> T L. destruct (C117_sanitize junk h p pre1 s r G T L) as (m & p' & h' & E & S & O). exists m, p', h'. split; [exact E|]. split; [exact S|]. apply ST; [|exact O]. eapply S_sanitize; eauto.
  - intros pre1 s r plus -> T L. destruct (C117_url_decode junk h p pre1 s r plus G T L) as [(d & p' & h' & E & S & O)|X]; [left|right; exact X].
    exists d, p', h'. split; [exact E|]. split; [exact S|]. apply ST; [|exact O]. eapply S_url_decode; eauto.
  - intros pre1 s r -> T L. destruct (C117_base64_encode junk h p pre1 s r G T L) as (p' & h' & E & O). exists p', h'. split; [exact E|]. apply ST; [|exact O]. eapply S_base64_encode; eauto.
  - intros pre1 s r -> T L. destruct (C117_base64_decode junk h p pre1 s r G T L) as [(d & p' & h' & E & S & O)|X]; [left|right; exact X].
    exists d, p', h'. split; [exact E|]. split; [exact S|]. apply ST; [|exact O]. eapply S_base64_decode; eauto.
Qed.

Lemma combine_blocks (vs : list Z) parts :
  map (fun s => AString (fst s) (snd s)) (combine vs (map as_block parts)) = map (fun s => AString (fst s) (as_block (snd s))) (combine vs parts).
Proof. revert parts. induction vs as [|v vs IH]; intros [|p ps]; cbn; [reflexivity..|]. f_equal. apply IH. Qed.

Lemma split_calls h0 h pre p b post junk : program h0 h (pre ++ AString p b :: post) ->
  (forall pre1 s r delim max, b = pre1 ++ s ++ 0 :: r -> zlen b < 2 ^ 59 -> text s -> 0 < delim < 256 -> 0 <= max ->
    exists parts l es h', h_charstr_split junk p (zlen pre1) delim max h = Ok (l, h') /\ split_at_char delim max s parts /\
      length es = length parts /\ program h0 h' (pre ++ AString p b :: AList l es :: strings es parts ++ post)) /\
  (forall pre1 s r, b = pre1 ++ s ++ 0 :: r -> zlen b < 2 ^ 59 -> text s ->
    exists parts l es h', h_charstr_split_atoms junk p (zlen pre1) h = Ok (l, h') /\ atoms code_white s parts /\
      length es = length parts /\ program h0 h' (pre ++ AString p b :: AList l es :: strings es parts ++ post)) /\
  (forall pre1 s r q pre2 d r2 max, b = pre1 ++ s ++ 0 :: r -> zlen b < 2 ^ 59 -> text s ->
    get h q = Some (CSlots (pre2 ++ d ++ 0 :: r2)) -> text d -> d <> [] -> 0 <= max < 2 ^ 32 ->
    exists parts l es h', h_charstr_split_str junk p (zlen pre1) q (zlen pre2) max h = Ok (l, h') /\ split_at_string d max s parts /\
      length es = length parts /\ program h0 h' (pre ++ AString p b :: AList l es :: strings es parts ++ post)) /\
  (forall b', length b' = length b -> exists h', st_slots p b' h = Ok (tt, h') /\ program h0 h' (pre ++ AString p b' :: post)) /\
  (exists h', free p h = Ok (tt, h') /\ program h0 h' (pre ++ post)).
Proof.
  intros P. pose proof (held _ _ _ _ _ P) as G. cbn [intact] in G.
  assert (ST : forall l es parts h', split_call junk h p b l h' -> new_string_list h h' l es (map as_block parts) ->
    length es = length parts /\ program h0 h' (pre ++ AString p b :: AList l es :: strings es parts ++ post)).
  { intros l es parts h' C (H & B & _). split; [|unfold strings; rewrite <- combine_blocks].
    - apply MixStrings.same_length in B. rewrite map_length in B. unfold ListSpec.values in B. rewrite map_length in B. exact B.
    - apply (P_act fn call code h0 h pre (AString p b) post h' (AString p b :: AList l es :: map (fun s => AString (fst s) (snd s)) (combine (ListSpec.values es) (map as_block parts))) P).
      apply A_string_split with (junk := junk) (n := length es); [exact C| |exact B].
      apply ListProofs.traverse_forward_ok; [apply ListProofs.history_is_list; exact H|lia]. }
  split; [|split; [|split; [|split]]].
  - intros pre1 s r delim max -> L T D M. destruct (MixStrings.split_makes junk h p pre1 s r delim max G L T D M) as (parts & l & h' & es & E & S & O).
    exists parts, l, es, h'. split; [exact E|]. split; [exact S|]. apply ST; [|exact O]. eapply S_split; eauto.
  - intros pre1 s r -> L T. destruct (MixStrings.atoms_makes junk h p pre1 s r G L T) as (parts & l & h' & es & E & S & O).
    exists parts, l, es, h'. split; [exact E|]. split; [exact S|]. apply ST; [|exact O]. eapply S_atoms; eauto.
  - intros pre1 s r q pre2 d r2 max -> L T Gq Td Nd M. destruct (MixStrings.split_str_makes junk h p pre1 s r q pre2 d r2 max G L Gq T Td Nd M) as (parts & l & h' & es & E & S & O).
    exists parts, l, es, h'. split; [exact E|]. split; [exact S|]. apply ST; [|exact O]. eapply S_split_str; eauto.
  - intros b' L. assert (E : st_slots p b' h = Ok (tt, put_cell h p (CSlots b'))) by (unfold st_slots; rewrite G; reflexivity).
    eexists. split; [exact E|]. apply (P_act fn call code h0 h pre (AString p b) post _ [AString p b'] P). constructor; assumption.
  - assert (E : free p h = Ok (tt, drop_cell h p)) by (unfold free; rewrite G; reflexivity).
    eexists. split; [exact E|]. apply (P_act fn call code h0 h pre (AString p b) post _ [] P). constructor. exact E.
Qed.
End Calls.
