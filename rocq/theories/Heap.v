(** A heap of C structs, for the linked data structures.

    A cell is one allocated struct (or array of pointers); pointers are
    integers, NULL is 0. The C code accesses structs field by field: a field
    write is modelled as reading the cell and storing it with that field
    changed. Accessing NULL, unallocated or freed memory, or a cell of another
    type, is [UB]. Padding, struct sizes and pointer arithmetic between cells
    are not modelled. *)
From Verif Require Import Base.

(** include/list_imp.h: struct list. *)
Record list_c := mk_list { l_first : Z; l_last : Z; l_size : Z }.
(** include/list_imp.h: struct list_elem. *)
Record lelem_c := mk_lelem { le_value : Z; le_prev : Z; le_next : Z }.
(** include/hashtable_imp.h: struct hash_table; the function pointers are kept
    as opaque code pointers. *)
Record htab_c := mk_htab { ht_capacity : Z; ht_size : Z; ht_hash : Z; ht_cmp : Z; ht_table : Z }.
(** include/hashtable_imp.h: struct hash_elem. *)
Record helem_c := mk_helem { he_table : Z; he_index : Z; he_loc : Z; he_key : Z; he_value : Z }.
(** include/avltree_imp.h: struct avl_tree. *)
Record avl_c := mk_avl { av_cmp : Z; av_obj : Z; av_root : Z; av_size : Z }.
(** include/avltree_imp.h: struct avl_elem. *)
Record aelem_c := mk_aelem { ae_key : Z; ae_value : Z; ae_left : Z; ae_right : Z; ae_parent : Z; ae_balance : Z }.

Inductive cell : Type :=
| CList (c : list_c)
| CLelem (c : lelem_c)
| CHtab (c : htab_c)
| CSlots (s : list Z)
| CHelem (c : helem_c)
| CAvl (c : avl_c)
| CAelem (c : aelem_c).

(** [mem]: the allocated cells. [hints], [clock]: the allocator. The n-th
    allocation of the program returns the address [hints n] if that one is
    neither NULL nor in use, and some other free address otherwise. So any
    behaviour of an allocator that returns free addresses is covered by
    quantifying over [hints]. *)
Record heap := mk_heap { mem : list (Z * cell); hints : nat -> Z; clock : nat }.

Fixpoint lookup (m : list (Z * cell)) (a : Z) : option cell :=
  match m with
  | [] => None
  | (b, c) :: m => if a =? b then Some c else lookup m a
  end.
Definition erase (m : list (Z * cell)) (a : Z) : list (Z * cell) :=
  filter (fun x => negb (fst x =? a)) m.

(** The cell at an address; nothing is ever at NULL. *)
Definition get (h : heap) (a : Z) : option cell :=
  if a =? 0 then None else lookup (mem h) a.

Definition put_cell (h : heap) (a : Z) (c : cell) : heap :=
  mk_heap ((a, c) :: erase (mem h) a) (hints h) (clock h).
Definition drop_cell (h : heap) (a : Z) : heap :=
  mk_heap (erase (mem h) a) (hints h) (clock h).

Definition above_all (m : list (Z * cell)) : Z :=
  1 + fold_right (fun x z => Z.max (Z.abs (fst x)) z) 0 m.
Definition fresh_address (h : heap) : Z :=
  let a := hints h (clock h) in
  if (a =? 0) then above_all (mem h)
  else match lookup (mem h) a with None => a | Some _ => above_all (mem h) end.

(** Computations on the heap. *)
Definition M (A : Type) : Type := heap -> res (A * heap).
Definition ret {A} (a : A) : M A := fun h => Ok (a, h).
Definition bnd {A B} (m : M A) (f : A -> M B) : M B :=
  fun h => match m h with
           | Ok (a, h') => f a h'
           | UB => UB
           | Abort => Abort
           | NoFuel => NoFuel
           end.
Definition fail {A} : M A := fun _ => UB.
Definition no_fuel {A} : M A := fun _ => NoFuel.

Declare Scope heap_scope.
Notation "'let!' x ':=' m 'in' k" := (bnd m (fun x => k))
  (at level 200, x name, m at level 100, k at level 200) : heap_scope.
Notation "'do!' m 'in' k" := (bnd m (fun _ => k))
  (at level 200, m at level 100, k at level 200) : heap_scope.
Global Open Scope heap_scope.

(** fsalloc of a struct that is then filled in (the fields that the C code sets
    later are given here with their later values only where no read comes in
    between). *)
Definition alloc (c : cell) : M Z :=
  fun h =>
    let a := fresh_address h in
    Ok (a, mk_heap ((a, c) :: erase (mem h) a) (hints h) (S (clock h))).
(** fsfree of an allocated block; freeing anything else is [UB]. fsfree(NULL)
    does not occur in the modelled code. *)
Definition free (a : Z) : M unit :=
  fun h => match get h a with Some _ => Ok (tt, drop_cell h a) | None => UB end.

Definition ld_list (a : Z) : M list_c :=
  fun h => match get h a with Some (CList c) => Ok (c, h) | _ => UB end.
Definition st_list (a : Z) (c : list_c) : M unit :=
  fun h => match get h a with Some (CList _) => Ok (tt, put_cell h a (CList c)) | _ => UB end.
Definition ld_lelem (a : Z) : M lelem_c :=
  fun h => match get h a with Some (CLelem c) => Ok (c, h) | _ => UB end.
Definition st_lelem (a : Z) (c : lelem_c) : M unit :=
  fun h => match get h a with Some (CLelem _) => Ok (tt, put_cell h a (CLelem c)) | _ => UB end.
Definition ld_htab (a : Z) : M htab_c :=
  fun h => match get h a with Some (CHtab c) => Ok (c, h) | _ => UB end.
Definition st_htab (a : Z) (c : htab_c) : M unit :=
  fun h => match get h a with Some (CHtab _) => Ok (tt, put_cell h a (CHtab c)) | _ => UB end.
Definition ld_slots (a : Z) : M (list Z) :=
  fun h => match get h a with Some (CSlots c) => Ok (c, h) | _ => UB end.
Definition st_slots (a : Z) (c : list Z) : M unit :=
  fun h => match get h a with Some (CSlots _) => Ok (tt, put_cell h a (CSlots c)) | _ => UB end.
Definition ld_helem (a : Z) : M helem_c :=
  fun h => match get h a with Some (CHelem c) => Ok (c, h) | _ => UB end.
Definition st_helem (a : Z) (c : helem_c) : M unit :=
  fun h => match get h a with Some (CHelem _) => Ok (tt, put_cell h a (CHelem c)) | _ => UB end.
Definition ld_avl (a : Z) : M avl_c :=
  fun h => match get h a with Some (CAvl c) => Ok (c, h) | _ => UB end.
Definition st_avl (a : Z) (c : avl_c) : M unit :=
  fun h => match get h a with Some (CAvl _) => Ok (tt, put_cell h a (CAvl c)) | _ => UB end.
Definition ld_aelem (a : Z) : M aelem_c :=
  fun h => match get h a with Some (CAelem c) => Ok (c, h) | _ => UB end.
Definition st_aelem (a : Z) (c : aelem_c) : M unit :=
  fun h => match get h a with Some (CAelem _) => Ok (tt, put_cell h a (CAelem c)) | _ => UB end.

(** A computation that does not use the heap. *)
Definition lift {A} (r : res A) : M A :=
  fun h => match r with Ok a => Ok (a, h) | UB => UB | Abort => Abort | NoFuel => NoFuel end.

(** The number of iterations of a loop that visits each cell of the heap at most
    once. *)
Definition fuel : M nat := fun h => Ok (S (length (mem h)), h).

(** The value returned, for examples. *)
Definition result {A} (r : res (A * heap)) : option A :=
  match r with Ok (a, _) => Some a | _ => None end.
(** An empty heap with an allocator that hands out 100, 101, ... *)
Definition heap0 : heap := mk_heap [] (fun n => 100 + Z.of_nat n) 0.

(** * Lemmas *)

Lemma lookup_erase m a b : lookup (erase m a) b = if b =? a then None else lookup m b.
Proof.
  induction m as [|[k c] m IH]; simpl.
  - destruct (b =? a); reflexivity.
  - destruct (k =? a) eqn:E; simpl.
    + rewrite IH. destruct (b =? a) eqn:E1; auto. replace (b =? k) with false by lia. reflexivity.
    + destruct (b =? k) eqn:E1; rewrite ?IH.
      * replace (b =? a) with false by lia. reflexivity.
      * reflexivity.
Qed.

Lemma get_put h a c b : a <> 0 -> get (put_cell h a c) b = if b =? a then Some c else get h b.
Proof.
  intros Ha. unfold get, put_cell; simpl. rewrite lookup_erase.
  destruct (b =? a) eqn:E; [|reflexivity]. replace (b =? 0) with false by lia. reflexivity.
Qed.
Lemma get_drop h a b : get (drop_cell h a) b = if b =? a then None else get h b.
Proof.
  unfold get, drop_cell; simpl. rewrite lookup_erase.
  destruct (b =? 0), (b =? a); reflexivity.
Qed.
Lemma get_null h : get h 0 = None.
Proof. reflexivity. Qed.
Lemma get_nonnull h a c : get h a = Some c -> a <> 0.
Proof. intros H ->. discriminate. Qed.

Lemma lookup_above m a : above_all m <= Z.abs a -> lookup m a = None.
Proof.
  unfold above_all. induction m as [|[k c] m IH]; cbn [fold_right lookup fst]; auto. intros H.
  replace (a =? k) with false by lia. apply IH. lia.
Qed.
Lemma above_all_pos m : 1 <= above_all m.
Proof.
  unfold above_all. assert (H : 0 <= fold_right (fun (x : Z * cell) z => Z.max (Z.abs (fst x)) z) 0 m).
  { induction m; simpl; lia. }
  lia.
Qed.
Lemma fresh_address_free h : get h (fresh_address h) = None /\ fresh_address h <> 0.
Proof.
  unfold fresh_address. pose proof (above_all_pos (mem h)) as P.
  assert (F : get h (above_all (mem h)) = None).
  { unfold get. rewrite lookup_above by lia. destruct (_ =? 0); reflexivity. }
  destruct (hints h (clock h) =? 0) eqn:E.
  - split; [exact F|lia].
  - destruct (lookup (mem h) (hints h (clock h))) eqn:L.
    + split; [exact F|lia].
    + split; [|lia]. unfold get. rewrite L. destruct (_ =? 0); reflexivity.
Qed.

(** An allocation returns an unused address and changes no other cell. *)
Lemma alloc_spec c h : exists a h', alloc c h = Ok (a, h') /\ a <> 0 /\ get h a = None /\
  (forall b, get h' b = if b =? a then Some c else get h b).
Proof.
  destruct (fresh_address_free h) as [F N].
  exists (fresh_address h). eexists. split; [reflexivity|]. split; [exact N|]. split; [exact F|].
  intros b. change (get (put_cell h (fresh_address h) c) b = if b =? fresh_address h then Some c else get h b).
  apply get_put; exact N.
Qed.

Lemma lookup_In m a c : lookup m a = Some c -> In a (map fst m).
Proof.
  induction m as [|[k d] m IH]; simpl; [discriminate|]. destruct (a =? k) eqn:E.
  - intros _. left; lia.
  - intros H. right; auto.
Qed.

(** Distinct allocated addresses are at most as many as the cells. *)
Lemma cells_bound h l : NoDup l -> (forall a, In a l -> get h a <> None) -> (length l <= length (mem h))%nat.
Proof.
  intros ND H. rewrite <- (map_length fst (mem h)). apply NoDup_incl_length; auto.
  intros a Ha. specialize (H a Ha). unfold get in H. destruct (a =? 0); [congruence|].
  destruct (lookup (mem h) a) eqn:E; [|congruence]. eapply lookup_In; eauto.
Qed.

Lemma bnd_Ok {A B} (m : M A) (f : A -> M B) h x h1 :
  m h = Ok (x, h1) -> bnd m f h = f x h1.
Proof. intros E. unfold bnd. rewrite E. reflexivity. Qed.

Lemma bnd_ret {A B} (x : A) (f : A -> M B) h : bnd (ret x) f h = f x h.
Proof. reflexivity. Qed.
