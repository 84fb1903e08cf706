(** Hash tables with keys in memory. *)
From Verif Require Import Base Heap ListModel HashModel KeyModel.
From Verif Require HashSpec.
From Coq Require Export Permutation.
Open Scope list_scope.
Open Scope Z_scope.

Section Keys.
(** A key is the address of a block; [read b]: what the contents of the block stand for, if anything. *)
Context {X : Type} (read : list Z -> option X).
Definition key_at (h : heap) (k : Z) (x : X) : Prop := exists b, get h k = Some (CSlots b) /\ read b = Some x.

(** What the user provides: an equality, a hash function that respects it, and callbacks that
    compute these when their arguments are addresses of keys, without changing memory. *)
Context (cb : callbacks) (hash cmp : Z) (H : X -> Z) (C : X -> X -> Z).
Definition readable (x : X) : Prop := exists b, read b = Some x.
Record proper : Prop := {
  C_refl : forall x, readable x -> C x x = 0;
  C_sym : forall x y, readable x -> readable y -> C x y = 0 -> C y x = 0;
  C_trans : forall x y z, readable x -> readable y -> readable z -> C x y = 0 -> C y z = 0 -> C x z = 0;
  H_equal : forall x y, readable x -> readable y -> C x y = 0 -> H x = H y;
  asks_hash : forall h k x, key_at h k x -> ask_hash cb hash k h = Ok (H x, h);
  asks_cmp : forall h k x l y, key_at h k x -> key_at h l y -> ask_cmp cb cmp k l h = Ok (C x y, h)
}.

(** An association: the handle of the element, the address of the key, the key, and the value. *)
Definition entry : Type := Z * Z * X * Z.
Definition elem (a : entry) : Z := fst (fst (fst a)).
Definition address (a : entry) : Z := snd (fst (fst a)).
Definition content (a : entry) : X := snd (fst a).
Definition value (a : entry) : Z := snd a.
Definition few (m : list entry) : Prop := zlen m < 2 ^ 60.
(** No association of [m] has the key [x]. *)
Definition missing (x : X) (m : list entry) : Prop := forall a, In a m -> C x (content a) <> 0.

(** The address [k] of the key [x] is given to the table: it is in the program's own memory. *)
Definition given (h : heap) (t k : Z) (x : X) : Prop := key_at h k x /\ ~ HashSpec.owned h t k.

(** The public functions, what they should return, and what they should do to the associations. *)
Inductive k_op (t : Z) (h : heap) (m : list entry) (h' : heap) : Z -> list entry -> Prop :=
| KO_put_new k x v r e :
    given h t k x -> few m -> missing x m ->
    k_hash_table_put cb t k v h = Ok (r, h') -> k_hash_table_get cb t k h' = Ok (e, h') ->
    k_op t h m h' r ((e, k, x, v) :: m)
| KO_put_same k x v r e k' x' :
    given h t k x -> In (e, k', x', v) m -> C x x' = 0 -> k_hash_table_put cb t k v h = Ok (r, h') ->
    k_op t h m h' r m
| KO_put_replace k x v r e k' x' w e' m' :
    given h t k x -> Permutation m ((e', k', x', w) :: m') -> C x x' = 0 -> w <> v ->
    k_hash_table_put cb t k v h = Ok (r, h') -> k_hash_table_get cb t k h' = Ok (e, h') ->
    k_op t h m h' r ((e, k, x, v) :: m')
| KO_pop k x r e k' x' v m' :
    key_at h k x -> Permutation m ((e, k', x', v) :: m') -> C x x' = 0 -> k_hash_table_pop cb t k h = Ok (r, h') ->
    k_op t h m h' r m'
| KO_pop_none k x r : key_at h k x -> missing x m -> k_hash_table_pop cb t k h = Ok (r, h') -> k_op t h m h' r m
| KO_detach e k x v m' : Permutation m ((e, k, x, v) :: m') -> hash_table_detach t e h = Ok (tt, h') -> k_op t h m h' 0 m'
| KO_remove e k x v m' : Permutation m ((e, k, x, v) :: m') -> hash_table_remove t e h = Ok (tt, h') -> k_op t h m h' 0 m'
| KO_pop_any r k x v m' : Permutation m ((r, k, x, v) :: m') -> hash_table_pop_any t h = Ok (r, h') -> k_op t h m h' r m'.

(** [keyed h t m]: in heap [h], [t] is a table that was made with these callbacks and used in such
    ways that its associations should be [m] (in some order). In between, the program may have
    changed all memory that does not belong to the table, as long as the keys that are in the table
    are the same as before. *)
Inductive keyed : heap -> Z -> list entry -> Prop :=
| K_make h capacity t h' : 0 <= capacity < 2 ^ 64 -> make_hash_table capacity hash cmp h = Ok (t, h') -> keyed h' t []
| K_op h t m r h' m' : keyed h t m -> k_op t h m h' r m' -> keyed h' t m'
| K_perm h t m m' : keyed h t m -> Permutation m m' -> keyed h t m'
| K_other h t m h' :
    keyed h t m -> (forall y, HashSpec.owned h t y -> get h' y = get h y) ->
    (forall a, In a m -> key_at h' (address a) (content a)) -> keyed h' t m.

(** Other memory, also unused memory, is as it was; memory that was in use is not taken by the table; what
    the table has given up is free, or it is an element that was taken out. *)
Definition kept (t : Z) (m m' : list entry) (h h' : heap) : Prop :=
  (forall y, ~ HashSpec.owned h t y -> get h y <> None -> get h' y = get h y /\ ~ HashSpec.owned h' t y) /\
  (forall y, ~ HashSpec.owned h t y -> ~ HashSpec.owned h' t y -> get h' y = get h y) /\
  (forall y, HashSpec.owned h t y -> ~ HashSpec.owned h' t y ->
     get h' y = None \/ (get h' y = get h y /\ (exists k x v, In (y, k, x, v) m) /\ forall k x v, ~ In (y, k, x, v) m')).
End Keys.

(** Strings: the bytes up to the NUL. *)
Fixpoint c_string (b : list Z) : option (list Z) :=
  match b with
  | [] => None
  | c :: b => if c =? 0 then Some [] else if (0 <? c) && (c <? 256) then option_map (cons c) (c_string b) else None
  end.
(** The order of strcmp: as words in a dictionary, byte by byte. *)
Fixpoint compare_strings (s t : list Z) : Z :=
  match s, t with
  | [], [] => 0
  | [], d :: _ => - d
  | c :: _, [] => c
  | c :: s, d :: t => if c =? d then compare_strings s t else c - d
  end.
