(** Hash tables as finite maps, with a history. *)
From Verif Require Import Base Heap ListModel HashModel.
From Coq Require Export Permutation.

(** An association: the handle of the element, its key and its value. *)
Definition assoc : Type := Z * Z * Z.
Definition a_elem (a : assoc) : Z := fst (fst a).
Definition a_key (a : assoc) : Z := snd (fst a).
Definition a_value (a : assoc) : Z := snd a.

(** What the user of a table has to provide: an equality of keys, and a hash
    function that respects it. *)
Record legal (fn : code) (hash cmp : Z) : Prop := {
  cmp_refl : forall k, call_cmp fn cmp k k = 0;
  cmp_sym : forall k1 k2, call_cmp fn cmp k1 k2 = 0 -> call_cmp fn cmp k2 k1 = 0;
  cmp_trans : forall k1 k2 k3, call_cmp fn cmp k1 k2 = 0 -> call_cmp fn cmp k2 k3 = 0 -> call_cmp fn cmp k1 k3 = 0;
  hash_cmp : forall k1 k2, call_cmp fn cmp k1 k2 = 0 -> call_hash fn hash k1 = call_hash fn hash k2
}.

(** No association of [m] has a key equal to [k]. *)
Definition absent (fn : code) (cmp k : Z) (m : list assoc) : Prop :=
  forall a, In a m -> call_cmp fn cmp k (a_key a) <> 0.

(** No table of 2^60 elements fits the memory. *)
Definition sparse (m : list assoc) : Prop := zlen m < 2 ^ 60.

(** The cells that belong to a table: the table, its array, the lists in the
    array, their elements, and the hash elements in them. *)
Inductive bucket_elem (h : heap) (l : Z) : Z -> Prop :=
| BE_first c : get h l = Some (CList c) -> l_first c <> 0 -> bucket_elem h l (l_first c)
| BE_next e c : bucket_elem h l e -> get h e = Some (CLelem c) -> le_next c <> 0 -> bucket_elem h l (le_next c).
Inductive bucket (h : heap) (t : Z) : Z -> Prop :=
| Bucket c s l : get h t = Some (CHtab c) -> get h (ht_table c) = Some (CSlots s) -> In l s -> l <> 0 -> bucket h t l.
Inductive owned (h : heap) (t : Z) : Z -> Prop :=
| O_table : owned h t t
| O_slots c : get h t = Some (CHtab c) -> owned h t (ht_table c)
| O_list l : bucket h t l -> owned h t l
| O_lelem l e : bucket h t l -> bucket_elem h l e -> owned h t e
| O_helem l e c : bucket h t l -> bucket_elem h l e -> get h e = Some (CLelem c) -> owned h t (le_value c).

(** One operation on the table [t]: the public function called, what it should
    return, and what it should do to the set of associations. *)
Inductive ht_op (fn : code) (cmp t : Z) (h : heap) (m : list assoc) (h' : heap) : Z -> list assoc -> Prop :=
| HO_put_new k v r e :
    sparse m -> absent fn cmp k m ->
    hash_table_put fn t k v h = Ok (r, h') -> hash_table_get fn t k h' = Ok (e, h') ->
    ht_op fn cmp t h m h' r ((e, k, v) :: m)
| HO_put_same k v r e k' :
    In (e, k', v) m -> call_cmp fn cmp k k' = 0 ->
    hash_table_put fn t k v h = Ok (r, h') ->
    ht_op fn cmp t h m h' r m
| HO_put_replace k v r e k' w e' m' :
    Permutation m ((e', k', w) :: m') -> call_cmp fn cmp k k' = 0 -> w <> v ->
    hash_table_put fn t k v h = Ok (r, h') -> hash_table_get fn t k h' = Ok (e, h') ->
    ht_op fn cmp t h m h' r ((e, k, v) :: m')
| HO_pop k r e k' v m' :
    Permutation m ((e, k', v) :: m') -> call_cmp fn cmp k k' = 0 ->
    hash_table_pop fn t k h = Ok (r, h') ->
    ht_op fn cmp t h m h' r m'
| HO_pop_none k r :
    absent fn cmp k m -> hash_table_pop fn t k h = Ok (r, h') -> ht_op fn cmp t h m h' r m
| HO_detach e k v m' :
    Permutation m ((e, k, v) :: m') -> hash_table_detach t e h = Ok (tt, h') -> ht_op fn cmp t h m h' 0 m'
| HO_remove e k v m' :
    Permutation m ((e, k, v) :: m') -> hash_table_remove t e h = Ok (tt, h') -> ht_op fn cmp t h m h' 0 m'
| HO_pop_any r k v m' :
    Permutation m ((r, k, v) :: m') -> hash_table_pop_any t h = Ok (r, h') -> ht_op fn cmp t h m h' r m'
| HO_pop_any_empty r :
    m = [] -> hash_table_pop_any t h = Ok (r, h') -> ht_op fn cmp t h m h' r m.

(** [ht_history fn cmp h t m]: in heap [h], [t] is a table that has been made
    with the comparison [cmp] and modified in such ways that its associations
    should be [m] (in some order). In between, the rest of the program may have
    changed, allocated and freed any memory that does not belong to the table. It
    may also have changed what the functions say, or the keys in place, in ways
    that keep the hash values of the keys in the table and do not make two of them
    equal ([HH_change]). *)
Inductive ht_history (fn : code) (cmp : Z) : heap -> Z -> list assoc -> Prop :=
| HH_make h capacity hash t h' :
    0 <= capacity < 2 ^ 64 -> legal fn hash cmp ->
    make_hash_table capacity hash cmp h = Ok (t, h') -> ht_history fn cmp h' t []
| HH_op h t m r h' m' :
    ht_history fn cmp h t m -> ht_op fn cmp t h m h' r m' -> ht_history fn cmp h' t m'
| HH_perm h t m m' :
    ht_history fn cmp h t m -> Permutation m m' -> ht_history fn cmp h t m'
| HH_other h t m h' :
    ht_history fn cmp h t m -> (forall x, owned h t x -> get h' x = get h x) -> ht_history fn cmp h' t m
| HH_change fn' h t m c :
    ht_history fn' cmp h t m -> get h t = Some (CHtab c) -> legal fn (ht_hash c) cmp ->
    (forall a, In a m -> call_hash fn (ht_hash c) (a_key a) = call_hash fn' (ht_hash c) (a_key a)) ->
    (forall a b, In a m -> In b m -> call_cmp fn cmp (a_key a) (a_key b) = 0 -> call_cmp fn' cmp (a_key a) (a_key b) = 0) ->
    ht_history fn cmp h t m.

(** A client loop over all elements. *)
Fixpoint others (n : nat) (e : Z) : M (list Z) :=
  if e =? 0 then ret []
  else match n with
       | O => no_fuel
       | S n =>
           let! e' := hash_table_get_other e in
           let! rest := others n e' in
           ret (e :: rest)
       end.
Definition all_elements (t : Z) (n : nat) : M (list Z) :=
  let! e := hash_table_get_any t in others n e.
