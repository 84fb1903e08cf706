(** C111: lists, hash tables, AVL trees, integer sets, priority queues, byte arrays and strings in one memory. *)
From Verif Require Import Base Heap ListModel HashModel AvlModel IntsetModel PriorqModel ObjModel OwnSpec MixSpec MixProofs MixCalls.
From Verif Require ListSpec HashSpec HashProps AvlSpec AvlProps ByteArrayModel ByteArraySpec ObjSpec ObjProps.
From Verif Require Import CharstrSpec OwnModel NewMemModel Utf8Spec.
From Verif Require UrlSpec Base64Spec.
From Coq Require Import Permutation.

(** Whatever a program has done with its other things, each one is what the calls for it made it. *)
Theorem C111_intact : forall fn call code h0 h os o, program fn call code h0 h os -> In o os -> intact fn call code h o.
Proof. exact program_intact. Qed.
Print Assumptions C111_intact.

(** No two things have a block in common. *)
Theorem C111_apart : forall fn call code h0 h pre a mid b post x,
  program fn call code h0 h (pre ++ a :: mid ++ b :: post) -> owns h a x -> ~ owns h b x.
Proof. exact program_apart. Qed.
Print Assumptions C111_apart.

(** Their blocks were free when the program started, and what was not free then has not changed. *)
Theorem C111_memory : forall fn call code h0 h os, program fn call code h0 h os ->
  (forall o x, In o os -> owns h o x -> get h0 x = None /\ get h x <> None) /\
  (forall x, get h0 x <> None -> get h x = get h0 x).
Proof. exact program_memory. Qed.
Print Assumptions C111_memory.

(** When all is destroyed, all memory is free again. *)
Theorem C111_released : forall fn call code h0 h os, program fn call code h0 h os ->
  (forall o, In o os -> exists p, o = AnObject p ObjSpec.Gone) -> same_memory h0 h.
Proof. exact program_released. Qed.
Print Assumptions C111_released.

(** The calls for one thing do, among all others, what they do when it is alone. *)
Theorem C111_make : forall fn call code h0 h os, program fn call code h0 h os ->
  (exists l h', make_list h = Ok (l, h') /\ program fn call code h0 h' (AList l [] :: os)) /\
  (forall capacity hash cmp, 0 <= capacity < 2 ^ 64 -> HashSpec.legal fn hash cmp ->
    exists t h', make_hash_table capacity hash cmp h = Ok (t, h') /\ program fn call code h0 h' (ATable cmp t [] :: os)) /\
  (forall cmp obj, AvlSpec.total_preorder (fun k1 k2 => call cmp k1 k2 obj) ->
    exists t h', make_avl_tree_2 cmp obj h = Ok (t, h') /\ program fn call code h0 h' (ATree cmp obj t [] :: os)) /\
  (forall junk c v o, ObjSpec.alone code junk c [] = Ok (v, [o]) ->
    exists p h', ObjSpec.together code junk c [] h = Ok ((v, [p]), h') /\ program fn call code h0 h' (AnObject p o :: os)).
Proof. exact make_calls. Qed.
Print Assumptions C111_make.

Theorem C111_list : forall fn call code h0 h pre l es post, program fn call code h0 h (pre ++ AList l es :: post) ->
  (ListSpec.few es -> forall v, exists e h', list_append l v h = Ok (e, h') /\ program fn call code h0 h' (pre ++ AList l (es ++ [(e, v)]) :: post)) /\
  (ListSpec.few es -> forall v, exists e h', list_prepend l v h = Ok (e, h') /\ program fn call code h0 h' (pre ++ AList l ((e, v) :: es) :: post)) /\
  (forall es1 next w es2, es = es1 ++ (next, w) :: es2 -> ListSpec.few es -> forall v,
    exists e h', list_insert_before l v next h = Ok (e, h') /\ program fn call code h0 h' (pre ++ AList l (es1 ++ (e, v) :: (next, w) :: es2) :: post)) /\
  (forall es1 e w es2, es = es1 ++ (e, w) :: es2 ->
    exists h', list_remove l e h = Ok (tt, h') /\ program fn call code h0 h' (pre ++ AList l (es1 ++ es2) :: post)) /\
  (exists h', list_pop_first l h = Ok (hd 0 (ListSpec.values es), h') /\ program fn call code h0 h' (pre ++ AList l (tl es) :: post)) /\
  (exists h', list_pop_last l h = Ok (last (ListSpec.values es) 0, h') /\ program fn call code h0 h' (pre ++ AList l (removelast es) :: post)) /\
  (exists c cs h', list_copy l h = Ok (c, h') /\ ListSpec.values cs = ListSpec.values es /\
    program fn call code h0 h' (pre ++ AList l es :: AList c cs :: post)) /\
  (exists h', destroy_list l h = Ok (tt, h') /\ program fn call code h0 h' (pre ++ post)).
Proof. exact list_calls. Qed.
Print Assumptions C111_list.

Theorem C111_table : forall fn call code h0 h pre cmp t m post, program fn call code h0 h (pre ++ ATable cmp t m :: post) ->
  (forall k v, HashSpec.sparse m -> HashSpec.absent fn cmp k m ->
    exists e h', hash_table_put fn t k v h = Ok (0, h') /\ program fn call code h0 h' (pre ++ ATable cmp t ((e, k, v) :: m) :: post)) /\
  (forall k v e' k' w m', Permutation m ((e', k', w) :: m') -> call_cmp fn cmp k k' = 0 -> w <> v ->
    exists e h', hash_table_put fn t k v h = Ok (e', h') /\
      program fn call code h0 h' (pre ++ ATable cmp t ((e, k, v) :: m') :: AHashElem e' k' w :: post)) /\
  (forall k v e k', In (e, k', v) m -> call_cmp fn cmp k k' = 0 -> hash_table_put fn t k v h = Ok (0, h)) /\
  (forall k e k' v m', Permutation m ((e, k', v) :: m') -> call_cmp fn cmp k k' = 0 ->
    exists h', hash_table_pop fn t k h = Ok (e, h') /\ program fn call code h0 h' (pre ++ ATable cmp t m' :: AHashElem e k' v :: post)) /\
  (forall e k v m', Permutation m ((e, k, v) :: m') ->
    exists h', hash_table_detach t e h = Ok (tt, h') /\ program fn call code h0 h' (pre ++ ATable cmp t m' :: AHashElem e k v :: post)) /\
  (forall e k v m', Permutation m ((e, k, v) :: m') ->
    exists h', hash_table_remove t e h = Ok (tt, h') /\ program fn call code h0 h' (pre ++ ATable cmp t m' :: post)) /\
  (exists h', destroy_hash_table t h = Ok (tt, h') /\ program fn call code h0 h' (pre ++ post)).
Proof. exact table_calls. Qed.
Print Assumptions C111_table.

Theorem C111_tree : forall fn call code h0 h pre cmp obj t m post, program fn call code h0 h (pre ++ ATree cmp obj t m :: post) ->
  let f := fun k1 k2 => call cmp k1 k2 obj in
  (forall k v m1 m2, m = m1 ++ m2 -> AvlSpec.sparse m -> AvlSpec.all_below f k m1 -> AvlSpec.all_above f k m2 ->
    exists e h', avl_tree_put call t k v h = Ok (0, h') /\ program fn call code h0 h' (pre ++ ATree cmp obj t (m1 ++ (e, k, v) :: m2) :: post)) /\
  (forall k v m1 e' k' w m2, m = m1 ++ (e', k', w) :: m2 -> f k k' = 0 ->
    exists e h', avl_tree_put call t k v h = Ok (e', h') /\
      program fn call code h0 h' (pre ++ ATree cmp obj t (m1 ++ (e, k, v) :: m2) :: AnAvlElem e' k' w :: post)) /\
  (forall k m1 e k' v m2, m = m1 ++ (e, k', v) :: m2 -> f k k' = 0 ->
    exists h', avl_tree_pop call t k h = Ok (e, h') /\ program fn call code h0 h' (pre ++ ATree cmp obj t (m1 ++ m2) :: AnAvlElem e k' v :: post)) /\
  (forall m1 e k v m2, m = m1 ++ (e, k, v) :: m2 ->
    exists h', avl_tree_detach t e h = Ok (tt, h') /\ program fn call code h0 h' (pre ++ ATree cmp obj t (m1 ++ m2) :: AnAvlElem e k v :: post)) /\
  (forall m1 e k v m2, m = m1 ++ (e, k, v) :: m2 ->
    exists h', avl_tree_remove t e h = Ok (tt, h') /\ program fn call code h0 h' (pre ++ ATree cmp obj t (m1 ++ m2) :: post)) /\
  (exists t' m' h', avl_tree_copy t h = Ok (t', h') /\ map AvlSpec.a_pair m' = map AvlSpec.a_pair m /\
    program fn call code h0 h' (pre ++ ATree cmp obj t m :: ATree cmp obj t' m' :: post)) /\
  (exists h', destroy_avl_tree t h = Ok (tt, h') /\ program fn call code h0 h' (pre ++ post)).
Proof. exact tree_calls. Qed.
Print Assumptions C111_tree.

Theorem C111_others : forall fn call code h0 h pre post,
  (forall e k v, program fn call code h0 h (pre ++ AHashElem e k v :: post) ->
    hash_elem_get_key e h = Ok (k, h) /\ hash_elem_get_value e h = Ok (v, h) /\
    exists h', destroy_hash_element e h = Ok (tt, h') /\ program fn call code h0 h' (pre ++ post)) /\
  (forall e k v, program fn call code h0 h (pre ++ AnAvlElem e k v :: post) ->
    avl_elem_get_key e h = Ok (k, h) /\ avl_elem_get_value e h = Ok (v, h) /\
    exists h', destroy_avl_element e h = Ok (tt, h') /\ program fn call code h0 h' (pre ++ post)) /\
  (forall p o junk c v o', program fn call code h0 h (pre ++ AnObject p o :: post) -> ObjSpec.alone code junk c [o] = Ok (v, [o']) ->
    exists h', ObjSpec.together code junk c [p] h = Ok ((v, [p]), h') /\ program fn call code h0 h' (pre ++ AnObject p o' :: post)).
Proof. exact other_calls. Qed.
Print Assumptions C111_others.

(** Strings: the program has a block of bytes, and [pre1] is what is in front of the argument [s]. *)
Theorem C111_make_string : forall fn call code h0 h os b, program fn call code h0 h os ->
  exists p h', alloc (CSlots b) h = Ok (p, h') /\ program fn call code h0 h' (AString p b :: os).
Proof. exact make_string. Qed.
Print Assumptions C111_make_string.

Theorem C111_string : forall fn call code h0 h pre p b post junk, program fn call code h0 h (pre ++ AString p b :: post) ->
  (forall pre1 s r, b = pre1 ++ s ++ 0 :: r -> text s -> zlen s + 1 < 2 ^ 64 ->
    exists p' h', h_dupstr junk p (zlen pre1) h = Ok (p', h') /\ program fn call code h0 h' (pre ++ AString p b :: AString p' (s ++ [0]) :: post)) /\
  (forall pre1 s r, b = pre1 ++ s ++ r -> bytes s -> zlen s + 1 < 2 ^ 64 ->
    exists p' h', h_dupsubstr junk p (zlen pre1) (Some (zlen pre1 + zlen s)) h = Ok (p', h') /\ program fn call code h0 h' (pre ++ AString p b :: AString p' (s ++ [0]) :: post)) /\
  (forall pre1 s r, b = pre1 ++ s ++ 0 :: r -> text s -> zlen s + 1 < 2 ^ 64 ->
    exists m p' h', h_strip junk p (zlen pre1) h = Ok (p', h') /\ stripped code_white s m /\ program fn call code h0 h' (pre ++ AString p b :: AString p' (m ++ [0]) :: post)) /\
  (forall pre1 s r, b = pre1 ++ s ++ 0 :: r -> text s -> 3 * zlen s + 1 < 2 ^ 64 ->
    exists t p' h', h_sanitize_utf8 junk p (zlen pre1) h = Ok (p', h') /\ sane s t /\ program fn call code h0 h' (pre ++ AString p b :: AString p' (t ++ [0]) :: post)) /\
  (forall pre1 s r plus, b = pre1 ++ s ++ 0 :: r -> text s -> zlen s + 1 < 2 ^ 64 ->
    (exists d p' h', h_url_decode junk p (zlen pre1) plus h = Ok ((p', Some (zlen d)), h') /\ UrlSpec.decodes plus s d /\
      program fn call code h0 h' (pre ++ AString p b :: AString p' (d ++ [0]) :: post)) \/
    (UrlSpec.illegal s /\ h_url_decode junk p (zlen pre1) plus h = Ok ((0, None), h))) /\
  (forall pre1 s r, b = pre1 ++ s ++ r -> bytes s -> zlen s < 2 ^ 60 ->
    exists p' h', h_base64_encode_simple junk p (zlen pre1) (zlen s) h = Ok (p', h') /\ program fn call code h0 h' (pre ++ AString p b :: AString p' (Base64Spec.base64 43 47 s ++ [0]) :: post)) /\
  (forall pre1 s r, b = pre1 ++ s ++ 0 :: r -> text s -> zlen s < 2 ^ 62 ->
    (exists d p' h', h_base64_decode_simple junk p (zlen pre1) h = Ok ((p', Some (zlen d)), h') /\ Base64Spec.decodes (Base64Spec.code_value 43 47) Base64Spec.code_wsp s d /\
      program fn call code h0 h' (pre ++ AString p b :: AString p' (d ++ [0]) :: post)) \/
    ((forall d, ~ Base64Spec.decodes (Base64Spec.code_value 43 47) Base64Spec.code_wsp s d) /\ h_base64_decode_simple junk p (zlen pre1) h = Ok ((0, None), h))).
Proof. exact string_calls. Qed.
Print Assumptions C111_string.

Theorem C111_split : forall fn call code h0 h pre p b post junk, program fn call code h0 h (pre ++ AString p b :: post) ->
  (forall pre1 s r delim max, b = pre1 ++ s ++ 0 :: r -> zlen b < 2 ^ 59 -> text s -> 0 < delim < 256 -> 0 <= max ->
    exists parts l es h', h_charstr_split junk p (zlen pre1) delim max h = Ok (l, h') /\ split_at_char delim max s parts /\
      length es = length parts /\ program fn call code h0 h' (pre ++ AString p b :: AList l es :: strings es parts ++ post)) /\
  (forall pre1 s r, b = pre1 ++ s ++ 0 :: r -> zlen b < 2 ^ 59 -> text s ->
    exists parts l es h', h_charstr_split_atoms junk p (zlen pre1) h = Ok (l, h') /\ atoms code_white s parts /\
      length es = length parts /\ program fn call code h0 h' (pre ++ AString p b :: AList l es :: strings es parts ++ post)) /\
  (forall pre1 s r q pre2 d r2 max, b = pre1 ++ s ++ 0 :: r -> zlen b < 2 ^ 59 -> text s ->
    get h q = Some (CSlots (pre2 ++ d ++ 0 :: r2)) -> text d -> d <> [] -> 0 <= max < 2 ^ 32 ->
    exists parts l es h', h_charstr_split_str junk p (zlen pre1) q (zlen pre2) max h = Ok (l, h') /\ split_at_string d max s parts /\
      length es = length parts /\ program fn call code h0 h' (pre ++ AString p b :: AList l es :: strings es parts ++ post)) /\
  (forall b', length b' = length b -> exists h', st_slots p b' h = Ok (tt, h') /\ program fn call code h0 h' (pre ++ AString p b' :: post)) /\
  (exists h', free p h = Ok (tt, h') /\ program fn call code h0 h' (pre ++ post)).
Proof. exact split_calls. Qed.
Print Assumptions C111_split.

(** A program that holds a table with two associations, an element that was replaced in it, a tree,
    its copy, a list, a queue and a set at once. *)
Notation prog := (program HashProps.ex_fn AvlProps.ex_call ObjProps.by_value ObjProps.other_heap).
Definition a_queue_with_5 : ObjSpec.object := ObjSpec.Queue 1 (Priorq [5] 1 1 []).
Example C111_example : exists h t e1 e2 old l x y d a b d' a' b' q s,
  prog h [AnObject s (ObjSpec.Set_ (make_intset 70)); AnObject q a_queue_with_5;
          ATable 0 t [(e2, -7, 71); (e1, 3, 30)]; AHashElem old 7 70;
          AList l [(x, 11); (y, 12)];
          ATree 0 0 d [(a, 1, 10); (b, -2, 20)]; ATree 0 0 d' [(a', 1, 10); (b', -2, 20)]].
Proof.
  assert (P : prog ObjProps.other_heap []) by constructor.
  (* a tree with one key, then a list with one value *)
  destruct (proj1 (proj2 (proj2 (C111_make _ _ _ _ _ _ P))) 0 0 (AvlProps.ex_order 0 0)) as (d & h1 & _ & P1).
  destruct (proj1 (C111_tree _ _ _ _ _ [] _ _ _ _ _ P1) 1 10 [] [] eq_refl) as (a & h2 & _ & P2);
    [reflexivity|intros ? []|intros ? []|].
  destruct (proj1 (C111_make _ _ _ _ _ _ P2)) as (l & h3 & _ & P3).
  destruct (proj1 (C111_list _ _ _ _ _ [] _ _ _ P3)) with (v := 11) as (x & h4 & _ & P4); [reflexivity|].
  (* a table with two keys; the tree gets its other one in between *)
  destruct (proj1 (proj2 (C111_make _ _ _ _ _ _ P4)) 0 0 0 ltac:(lia) (HashProps.ex_legal 0 0)) as (t & h5 & _ & P5).
  destruct (proj1 (C111_table _ _ _ _ _ [] _ _ _ _ P5) 7 70) as (old & h6 & _ & P6); [reflexivity|intros ? []|].
  destruct (proj1 (C111_tree _ _ _ _ _ [ATable 0 t [(old, 7, 70)]; AList l [(x, 11)]] _ _ _ _ _ P6) (-2) 20 [(a, 1, 10)] [] eq_refl) as (b & h7 & _ & P7);
    [reflexivity|intros ? [<-|[]]; reflexivity|intros ? []|].
  destruct (proj1 (C111_table _ _ _ _ _ [] _ _ _ _ P7) 3 30) as (e1 & h8 & _ & P8); [reflexivity|intros ? [<-|[]]; discriminate|].
  destruct (proj1 (proj2 (C111_table _ _ _ _ _ [] _ _ _ _ P8)) (-7) 71 old 7 70 [(e1, 3, 30)]) as (e2 & h9 & _ & P9); [constructor|reflexivity|discriminate|].
  destruct (proj1 (C111_list _ _ _ _ _ [ATable 0 t [(e2, -7, 71); (e1, 3, 30)]; AHashElem old 7 70] _ _ _ P9)) with (v := 12) as (y & h10 & _ & P10); [reflexivity|].
  destruct (proj1 (proj2 (proj2 (proj2 (proj2 (proj2 (C111_tree _ _ _ _ _ [ATable 0 t [(e2, -7, 71); (e1, 3, 30)]; AHashElem old 7 70; AList l [(x, 11); (y, 12)]] _ _ _ _ _ P10)))))))
    as (d' & m' & h11 & _ & Em & P11).
  destruct m' as [|[[a' ka] va] [|[[b' kb] vb] [|? ?]]]; try discriminate. unfold AvlSpec.a_pair, AvlSpec.a_key, AvlSpec.a_value in Em. cbn [map fst snd] in Em. injection Em as -> -> -> ->.
  destruct (proj2 (proj2 (proj2 (C111_make _ _ _ _ _ _ P11))) (fun _ => 99) (ObjSpec.MakeQueue 1) _ _ eq_refl) as (q & h12 & _ & P12).
  destruct (proj2 (proj2 (C111_others HashProps.ex_fn AvlProps.ex_call ObjProps.by_value ObjProps.other_heap h12 [] _)) _ _ (fun _ => 99) (ObjSpec.Enqueue 0 5) _ a_queue_with_5 P12 eq_refl) as (h13 & _ & P13).
  destruct (proj2 (proj2 (proj2 (C111_make _ _ _ _ _ _ P13))) (fun _ => 99) (ObjSpec.MakeSet 70) _ _ eq_refl) as (s & h14 & _ & P14).
  exists h14, t, e1, e2, old, l, x, y, d, a, b, d', a', b', q, s. exact P14.
Qed.
(** All of it destroyed, in another order. *)
Example C111_end_example : exists h q s, prog h [AnObject s ObjSpec.Gone; AnObject q ObjSpec.Gone] /\ same_memory ObjProps.other_heap h.
Proof.
  destruct C111_example as (h & t & e1 & e2 & old & l & x & y & d & a & b & d' & a' & b' & q & s & P).
  destruct (proj2 (proj2 (proj2 (proj2 (proj2 (proj2 (proj2 (C111_list _ _ _ _ _ [_; _; _; _] _ _ _ P)))))))) as (h1 & _ & P1).
  destruct (proj2 (proj2 (proj2 (proj2 (proj2 (proj2 (C111_tree _ _ _ _ _ [_; _; _; _; _] _ _ _ _ _ P1))))))) as (h2 & _ & P2).
  destruct (proj2 (proj2 (proj2 (proj2 (proj2 (proj2 (C111_table _ _ _ _ _ [_; _] _ _ _ _ P2))))))) as (h3 & _ & P3).
  destruct (proj2 (proj2 (C111_others HashProps.ex_fn AvlProps.ex_call ObjProps.by_value ObjProps.other_heap h3 [_] _)) _ _ (fun _ => 99) (ObjSpec.DestroyQueue 0) _ ObjSpec.Gone P3 eq_refl) as (h4 & _ & P4).
  destruct (proj1 (C111_others HashProps.ex_fn AvlProps.ex_call ObjProps.by_value ObjProps.other_heap h4 [_; _] _) _ _ _ P4) as (_ & _ & h5 & _ & P5).
  destruct (proj2 (proj2 (proj2 (proj2 (proj2 (proj2 (C111_tree _ _ _ _ _ [_; _] _ _ _ _ _ P5))))))) as (h6 & _ & P6).
  destruct (proj2 (proj2 (C111_others HashProps.ex_fn AvlProps.ex_call ObjProps.by_value ObjProps.other_heap h6 [] _)) _ _ (fun _ => 99) (ObjSpec.DestroySet 0) _ ObjSpec.Gone P6 eq_refl) as (h7 & _ & P7).
  exists h7, q, s. split; [exact P7|]. apply (C111_released _ _ _ _ _ _ P7). intros o [<-|[<-|[]]]; eexists; reflexivity.
Qed.
(** A byte array and a list. *)
Example C111_bytes_example : exists h b l x, prog h [AList l [(x, 11)]; AnObject b (ObjSpec.Bytes (ByteArrayModel.BA [104; 105; 0; 99] 2 4 4 1 0))].
Proof.
  assert (P : prog ObjProps.other_heap []) by constructor.
  destruct (proj2 (proj2 (proj2 (C111_make _ _ _ _ _ _ P))) (fun _ => 99) (ObjSpec.MakeBytes 4) _ _ eq_refl) as (b & h1 & _ & P1).
  destruct (proj1 (C111_make _ _ _ _ _ _ P1)) as (l & h2 & _ & P2).
  destruct (proj2 (proj2 (C111_others HashProps.ex_fn AvlProps.ex_call ObjProps.by_value ObjProps.other_heap h2 [_] _)) _ _ (fun _ => 99)
    (ObjSpec.OnBytes 0 (ByteArraySpec.AppendString [104; 105])) _ _ P2 eq_refl) as (h3 & _ & P3).
  destruct (proj1 (C111_list _ _ _ _ _ [] _ _ _ P3)) with (v := 11) as (x & h4 & _ & P4); [reflexivity|].
  eexists h4, b, l, x. exact P4.
Qed.
(** The string "a/b" is split after a list has been made; then one of the parts is encoded, and the
    list and the first string go. *)
Definition after {A} (m : M A) (h : heap) : heap := match m h with Ok (_, h') => h' | _ => h end.
Definition s_heap1 : heap := after make_list ObjProps.other_heap.
Definition s_heap2 : heap := after (alloc (CSlots [97; 47; 98; 0])) s_heap1.
Definition s_heap3 : heap := after (h_charstr_split (fun _ => 99) 11 0 47 5) s_heap2.
Definition s_things : list thing :=
  [AString 11 [97; 47; 98; 0]; AList 12 [(14, 13); (16, 15)]; AString 13 [97; 0]; AString 15 [98; 0]; AList 10 []].
Example C111_split_example : prog s_heap3 s_things.
Proof.
  assert (P : prog ObjProps.other_heap []) by constructor.
  assert (P1 : prog s_heap1 [AList 10 []]) by (eapply P_make; [exact P|]; constructor; vm_compute; reflexivity).
  assert (P2 : prog s_heap2 [AString 11 [97; 47; 98; 0]; AList 10 []]) by (eapply P_make; [exact P1|]; constructor; vm_compute; reflexivity).
  apply (P_act _ _ _ _ _ [] (AString 11 [97; 47; 98; 0]) [AList 10 []] s_heap3
    [AString 11 [97; 47; 98; 0]; AList 12 [(14, 13); (16, 15)]; AString 13 [97; 0]; AString 15 [98; 0]] P2).
  apply (A_string_split HashProps.ex_fn AvlProps.ex_call ObjProps.by_value s_heap2 (fun _ => 99) 11 [97; 47; 98; 0] 12 [(14, 13); (16, 15)] [[97; 0]; [98; 0]] s_heap3 2).
  - apply (S_split _ _ _ _ _ _ [] [97; 47; 98] [] 47 5); [reflexivity|reflexivity|repeat (apply Forall_cons; [lia|]); apply Forall_nil|lia|lia|vm_compute; reflexivity].
  - vm_compute. reflexivity.
  - repeat (apply Forall2_cons; [reflexivity|]). apply Forall2_nil.
Qed.
Example C111_strings_example : exists h c, prog h [AString 13 [97; 0]; AString 15 [98; 0]; AString c [89; 103; 61; 61; 0]; AList 10 []].
Proof.
  destruct (proj1 (proj2 (proj2 (proj2 (proj2 (proj2 (C111_string _ _ _ _ _ [_; _; _] _ _ _ (fun _ => 99) C111_split_example)))))) [] [98] [0] eq_refl) as (c & h1 & _ & P1);
    [apply Forall_cons; [unfold byte; lia|apply Forall_nil]|reflexivity|].
  destruct (proj2 (proj2 (proj2 (proj2 (C111_split _ _ _ _ _ [] _ _ _ (fun _ => 99) P1))))) as (h2 & _ & P2).
  destruct (proj2 (proj2 (proj2 (proj2 (proj2 (proj2 (proj2 (C111_list _ _ _ _ _ [] _ _ _ P2)))))))) as (h3 & _ & P3).
  exists h3, c. exact P3.
Qed.
