(** Programs that use lists, hash tables, AVL trees, integer sets, priority queues, byte arrays and
    strings at the same time, in one memory. What is appended or copied to a byte array is the caller's
    own data here; ObjSpec.v has data from other byte arrays. *)
From Verif Require Import Base Heap ListModel HashModel AvlModel IntsetModel PriorqModel ObjModel OwnSpec.
From Verif Require ListSpec HashSpec AvlSpec ObjSpec CharstrSpec OwnModel NewMemModel.

(** What a program holds: lists with the elements they should have, tables and trees with their
    associations, elements that have been taken out of a table or a tree, sets, queues and byte
    arrays with their values, and blocks of bytes, such as strings. *)
Inductive thing : Type :=
| AList (l : Z) (es : list (Z * Z))
| ATable (cmp t : Z) (m : list HashSpec.assoc)
| ATree (cmp obj t : Z) (m : list AvlSpec.assoc)
| AHashElem (e k v : Z)
| AnAvlElem (e k v : Z)
| AnObject (p : Z) (o : ObjSpec.object)
| AString (p : Z) (b : list Z).

Definition loose_hash (a : HashSpec.assoc) : thing := AHashElem (HashSpec.a_elem a) (HashSpec.a_key a) (HashSpec.a_value a).
Definition loose_avl (a : AvlSpec.assoc) : thing := AnAvlElem (AvlSpec.a_elem a) (AvlSpec.a_key a) (AvlSpec.a_value a).

(** [out]: the elements of [m] that do not belong to the table (tree) [t] any more and have not
    been freed. *)
Definition taken_from_table (h' : heap) (t : Z) (m out : list HashSpec.assoc) : Prop :=
  NoDup (map HashSpec.a_elem out) /\
  forall a, In a out <-> In a m /\ ~ HashSpec.owned h' t (HashSpec.a_elem a) /\ get h' (HashSpec.a_elem a) <> None.
Definition taken_from_tree (h' : heap) (t : Z) (m m' out : list AvlSpec.assoc) : Prop :=
  NoDup (map AvlSpec.a_elem out) /\
  forall a, In a out <-> In a m /\ ~ In (AvlSpec.a_elem a) (AvlSpec.footprint t m') /\ get h' (AvlSpec.a_elem a) <> None.

(** A public function that returns the new string [p'], applied to a string in the block [p] with
    the content [b]. *)
Inductive string_call (junk : nat -> Z) (h : heap) (p : Z) (b : list Z) (p' : Z) (h' : heap) : Prop :=
| S_dupstr pre s r :
    b = pre ++ s ++ 0 :: r -> CharstrSpec.text s -> zlen s + 1 < 2 ^ 64 ->
    NewMemModel.h_dupstr junk p (zlen pre) h = Ok (p', h') -> string_call junk h p b p' h'
| S_dupsubstr pre s r :
    b = pre ++ s ++ r -> bytes s -> zlen s + 1 < 2 ^ 64 ->
    NewMemModel.h_dupsubstr junk p (zlen pre) (Some (zlen pre + zlen s)) h = Ok (p', h') -> string_call junk h p b p' h'
| S_strip pre s r :
    b = pre ++ s ++ 0 :: r -> CharstrSpec.text s -> zlen s + 1 < 2 ^ 64 ->
    NewMemModel.h_strip junk p (zlen pre) h = Ok (p', h') -> string_call junk h p b p' h'
| S_sanitize pre s r :
    b = pre ++ s ++ 0 :: r -> CharstrSpec.text s -> 3 * zlen s + 1 < 2 ^ 64 ->
    NewMemModel.h_sanitize_utf8 junk p (zlen pre) h = Ok (p', h') -> string_call junk h p b p' h'
| S_url_decode pre s r plus n :
    b = pre ++ s ++ 0 :: r -> CharstrSpec.text s -> zlen s + 1 < 2 ^ 64 ->
    NewMemModel.h_url_decode junk p (zlen pre) plus h = Ok ((p', n), h') -> string_call junk h p b p' h'
| S_base64_encode pre s r :
    b = pre ++ s ++ r -> bytes s -> zlen s < 2 ^ 60 ->
    NewMemModel.h_base64_encode_simple junk p (zlen pre) (zlen s) h = Ok (p', h') -> string_call junk h p b p' h'
| S_base64_decode pre s r n :
    b = pre ++ s ++ 0 :: r -> CharstrSpec.text s -> zlen s < 2 ^ 62 ->
    NewMemModel.h_base64_decode_simple junk p (zlen pre) h = Ok ((p', n), h') -> string_call junk h p b p' h'.

(** A public function that returns the new list [l] of new strings. The delimiter of
    charstr_split_str is a string anywhere in memory. *)
Inductive split_call (junk : nat -> Z) (h : heap) (p : Z) (b : list Z) (l : Z) (h' : heap) : Prop :=
| S_split pre s r delim max :
    b = pre ++ s ++ 0 :: r -> zlen b < 2 ^ 59 -> CharstrSpec.text s -> 0 < delim < 256 -> 0 <= max ->
    OwnModel.h_charstr_split junk p (zlen pre) delim max h = Ok (l, h') -> split_call junk h p b l h'
| S_atoms pre s r :
    b = pre ++ s ++ 0 :: r -> zlen b < 2 ^ 59 -> CharstrSpec.text s ->
    OwnModel.h_charstr_split_atoms junk p (zlen pre) h = Ok (l, h') -> split_call junk h p b l h'
| S_split_str pre s r q pre2 d r2 max :
    b = pre ++ s ++ 0 :: r -> zlen b < 2 ^ 59 -> CharstrSpec.text s ->
    get h q = Some (CSlots (pre2 ++ d ++ 0 :: r2)) -> CharstrSpec.text d -> d <> [] -> 0 <= max < 2 ^ 32 ->
    OwnModel.h_charstr_split_str junk p (zlen pre) q (zlen pre2) max h = Ok (l, h') -> split_call junk h p b l h'.

Section Mix.
(** The functions behind the code pointers: for tables, for trees, and for queues. *)
Context (fn : HashModel.code) (call : AvlModel.comparator) (code : Z -> Z -> Z -> Z).

(** A public function that makes something, or the program allocates a block and fills it. *)
Inductive makes (h : heap) : thing -> heap -> Prop :=
| Mk_list l h' : make_list h = Ok (l, h') -> makes h (AList l []) h'
| Mk_table capacity hash cmp t h' :
    0 <= capacity < 2 ^ 64 -> HashSpec.legal fn hash cmp -> make_hash_table capacity hash cmp h = Ok (t, h') -> makes h (ATable cmp t []) h'
| Mk_tree cmp obj t h' :
    AvlSpec.total_preorder (fun k1 k2 => call cmp k1 k2 obj) -> make_avl_tree_2 cmp obj h = Ok (t, h') -> makes h (ATree cmp obj t []) h'
| Mk_object junk c v o p h' :
    ObjSpec.alone code junk c [] = Ok (v, [o]) -> ObjSpec.together code junk c [] h = Ok ((v, [p]), h') -> makes h (AnObject p o) h'
| Mk_string b p h' : alloc (CSlots b) h = Ok (p, h') -> makes h (AString p b) h'.

(** A public function applied to one thing, and what there is instead of it afterwards; the program
    may also write to its strings, and free them. *)
Inductive acts (h : heap) : thing -> heap -> list thing -> Prop :=
| A_list l es h' es' : ListSpec.list_step l h es h' es' -> acts h (AList l es) h' [AList l es']
| A_list_copy l es c cs h' :
    list_copy l h = Ok (c, h') -> ListSpec.values cs = ListSpec.values es -> ListSpec.traverse_forward c (length cs) h' = Ok (cs, h') ->
    acts h (AList l es) h' [AList l es; AList c cs]
| A_list_destroy l es h' : destroy_list l h = Ok (tt, h') -> acts h (AList l es) h' []
| A_table cmp t m r h' m' out :
    HashSpec.ht_op fn cmp t h m h' r m' -> taken_from_table h' t m out ->
    acts h (ATable cmp t m) h' (ATable cmp t m' :: map loose_hash out)
| A_table_destroy cmp t m h' : destroy_hash_table t h = Ok (tt, h') -> acts h (ATable cmp t m) h' []
| A_tree cmp obj t m r h' m' out :
    AvlSpec.avl_op call (fun k1 k2 => call cmp k1 k2 obj) t h m h' r m' -> taken_from_tree h' t m m' out ->
    acts h (ATree cmp obj t m) h' (ATree cmp obj t m' :: map loose_avl out)
| A_tree_copy cmp obj t m t' h' m' n :
    avl_tree_copy t h = Ok (t', h') -> map AvlSpec.a_pair m' = map AvlSpec.a_pair m ->
    AvlSpec.traverse_forward t' n h' = Ok (AvlSpec.handles m', h') ->
    acts h (ATree cmp obj t m) h' [ATree cmp obj t m; ATree cmp obj t' m']
| A_tree_destroy cmp obj t m h' : destroy_avl_tree t h = Ok (tt, h') -> acts h (ATree cmp obj t m) h' []
| A_hash_elem_destroy e k v h' : destroy_hash_element e h = Ok (tt, h') -> acts h (AHashElem e k v) h' []
| A_avl_elem_destroy e k v h' : destroy_avl_element e h = Ok (tt, h') -> acts h (AnAvlElem e k v) h' []
| A_object junk c v p o p' o' h' :
    ObjSpec.alone code junk c [o] = Ok (v, [o']) -> ObjSpec.together code junk c [p] h = Ok ((v, [p']), h') ->
    acts h (AnObject p o) h' [AnObject p' o']
| A_string junk p b p' b' h' :
    string_call junk h p b p' h' -> get h' p' = Some (CSlots b') -> acts h (AString p b) h' [AString p b; AString p' b']
| A_string_split junk p b l es bs h' n :
    split_call junk h p b l h' -> ListSpec.traverse_forward l n h' = Ok (es, h') ->
    Forall2 (fun q d => get h' q = Some (CSlots d)) (ListSpec.values es) bs ->
    acts h (AString p b) h' (AString p b :: AList l es :: map (fun s => AString (fst s) (snd s)) (combine (ListSpec.values es) bs))
| A_string_write p b b' h' : length b' = length b -> st_slots p b' h = Ok (tt, h') -> acts h (AString p b) h' [AString p b']
| A_string_free p b h' : free p h = Ok (tt, h') -> acts h (AString p b) h' [].

(** A program: it starts with memory [h0]; [h]: the memory now, [os]: what it holds. *)
Inductive program (h0 : heap) : heap -> list thing -> Prop :=
| P_start : program h0 h0 []
| P_make h os o h' : program h0 h os -> makes h o h' -> program h0 h' (o :: os)
| P_act h pre o post h' os' : program h0 h (pre ++ o :: post) -> acts h o h' os' -> program h0 h' (pre ++ os' ++ post).

(** Each thing is what it should be, so that what has been proved about one list, table or tree
    (C19-C35, C74, C93, C97, C104-C108) holds of it: its history counts all else as other
    memory. *)
Definition intact (h : heap) (o : thing) : Prop :=
  match o with
  | AList l es => ListSpec.list_history h l es
  | ATable cmp t m => HashSpec.ht_history fn cmp h t m
  | ATree cmp obj t m => AvlSpec.avl_history call cmp obj h t m
  | AHashElem e k v => hash_elem_get_key e h = Ok (k, h) /\ hash_elem_get_value e h = Ok (v, h)
  | AnAvlElem e k v => avl_elem_get_key e h = Ok (k, h) /\ avl_elem_get_value e h = Ok (v, h)
  | AnObject p o => forall junk c v o', ObjSpec.alone code junk c [o] = Ok (v, [o']) ->
      exists h', ObjSpec.together code junk c [p] h = Ok ((v, [p]), h')
  | AString p b => get h p = Some (CSlots b)
  end.
End Mix.

(** The blocks of a thing; for a queue or a byte array, without the array of values, which comes
    and goes. *)
Definition owns (h : heap) (o : thing) (x : Z) : Prop :=
  match o with
  | AList l es => In x (ListSpec.footprint l es)
  | ATable cmp t m => HashSpec.owned h t x
  | ATree cmp obj t m => In x (AvlSpec.footprint t m)
  | AHashElem e k v | AnAvlElem e k v => x = e
  | AnObject p ObjSpec.Gone => False
  | AnObject p _ => x = p
  | AString p b => x = p
  end.

(** The elements of a list and the strings that they point to. *)
Definition strings (es : list (Z * Z)) (parts : list (list Z)) : list thing :=
  map (fun s => AString (fst s) (CharstrSpec.as_block (snd s))) (combine (ListSpec.values es) parts).
