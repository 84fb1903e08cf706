(** C125: what the comparison says may change while keys are in a tree or a table (src/avltree.c,
    src/hashtable.c). *)
From Verif Require Import Base Heap AvlModel AvlSpec AvlHist AvlProps.
From Verif Require HashModel HashSpec HashProofs.

(** A tree goes on to be a tree for the new order if those keys that are in it keep their order. Other
    keys may change places with them. *)
Theorem C125_tree : forall call call' cmp obj h t m,
  avl_history call cmp obj h t m ->
  total_preorder (order call' cmp obj) -> increasing (order call' cmp obj) m ->
  avl_history call' cmp obj h t m /\
  (forall k e k' v, In (e, k', v) m -> order call' cmp obj k k' = 0 -> avl_tree_get call' t k h = Ok (e, h)) /\
  (forall k, absent (order call' cmp obj) k m -> avl_tree_get call' t k h = Ok (0, h)) /\
  (forall k v m1 m2, m = m1 ++ m2 -> sparse m -> all_below (order call' cmp obj) k m1 -> all_above (order call' cmp obj) k m2 ->
     exists e h', avl_tree_put call' t k v h = Ok (0, h') /\ avl_history call' cmp obj h' t (m1 ++ (e, k, v) :: m2)).
Proof.
  intros call call' cmp obj h t m H P I. assert (H' : avl_history call' cmp obj h t m) by (eapply AH_reorder; eassumption). split; [exact H'|].
  split; [intros k e k' v; exact (proj1 (C28_get call' cmp obj h t m k H') e k' v)|]. split; [intros k; exact (proj2 (C28_get call' cmp obj h t m k H'))|].
  intros k v m1 m2 -> S. exact (C28_put_new call' cmp obj h t m1 m2 k v H' S).
Qed.
Print Assumptions C125_tree.

(** The same for tables: the keys in it keep their hash values and no two of them become equal. *)
Theorem C125_table : forall fn fn' cmp h t m c,
  HashSpec.ht_history fn cmp h t m ->
  get h t = Some (CHtab c) -> HashSpec.legal fn' (ht_hash c) cmp ->
  (forall a, In a m -> HashModel.call_hash fn' (ht_hash c) (HashSpec.a_key a) = HashModel.call_hash fn (ht_hash c) (HashSpec.a_key a)) ->
  (forall a b, In a m -> In b m -> HashModel.call_cmp fn' cmp (HashSpec.a_key a) (HashSpec.a_key b) = 0 ->
     HashModel.call_cmp fn cmp (HashSpec.a_key a) (HashSpec.a_key b) = 0) ->
  HashSpec.ht_history fn' cmp h t m /\
  (forall k e k' v, In (e, k', v) m -> HashModel.call_cmp fn' cmp k k' = 0 -> HashModel.hash_table_get fn' t k h = Ok (e, h)) /\
  (forall k, HashSpec.absent fn' cmp k m -> HashModel.hash_table_get fn' t k h = Ok (0, h)) /\
  (forall k v, HashSpec.sparse m -> HashSpec.absent fn' cmp k m ->
     exists e h', HashModel.hash_table_put fn' t k v h = Ok (0, h') /\ HashSpec.ht_history fn' cmp h' t ((e, k, v) :: m)).
Proof.
  intros fn fn' cmp h t m c H G L F1 F2. assert (H' : HashSpec.ht_history fn' cmp h t m) by (eapply HashSpec.HH_change; eassumption). split; [exact H'|].
  split; [intros k e k' v; exact (proj1 (HashProofs.get_history fn' cmp h t m k H') e k' v)|]. split; [intros k; exact (proj2 (HashProofs.get_history fn' cmp h t m k H'))|].
  intros k v. exact (HashProofs.put_new_history fn' cmp h t m k v H').
Qed.
Print Assumptions C125_table.

(** A sweep line: the keys are the numbers of lines, the line of key k is at height (k - 2)^2 * 10 + k * x
    at position x. Lines 1 and 4 do not cross between x = 0 and x = 9, line 3 changes places with line 1. *)
Definition height (x k : Z) : Z := (k - 2) ^ 2 * 10 + k * x.
Definition sweep (x : Z) : comparator := fun _ k1 k2 _ => height x k1 - height x k2.
Lemma sweep_order x cmp obj : total_preorder (order (sweep x) cmp obj).
Proof. constructor; unfold sweep; intros; lia. Qed.
Example C125_sweep_example : exists h t e1 e4 e3 h',
  avl_history (sweep 0) 7 0 h t [(e1, 1, 11); (e4, 4, 44)] /\ increasing (order (sweep 9) 7 0) [(e1, 1, 11); (e4, 4, 44)] /\
  sweep 0 7 3 1 0 = 0 /\ sweep 9 7 3 1 0 > 0 /\
  avl_tree_put (sweep 9) t 3 33 h = Ok (0, h') /\ traverse_forward t 4 h' = Ok ([e1; e3; e4], h').
Proof.
  destruct (C28_make (sweep 0) 7 0 heap0 (sweep_order 0 7 0)) as (t & h0 & M & H0).
  destruct (C28_put_new (sweep 0) 7 0 h0 t [] [] 4 44 H0 ltac:(reflexivity) ltac:(intros a []) ltac:(intros a [])) as (e4 & h1 & P1 & H1). cbn [app] in H1.
  destruct (C28_put_new (sweep 0) 7 0 h1 t [] [(e4, 4, 44)] 1 11 H1 ltac:(reflexivity) ltac:(intros a []) ltac:(intros a [<-|[]]; reflexivity)) as (e1 & h2 & P2 & H2). cbn [app] in H2.
  assert (I : increasing (order (sweep 9) 7 0) [(e1, 1, 11); (e4, 4, 44)]).
  { constructor; [constructor; [constructor|constructor]|]. constructor; [reflexivity|constructor]. }
  destruct (C125_tree _ (sweep 9) 7 0 h2 t _ H2 (sweep_order 9 7 0) I) as (_ & _ & _ & P).
  destruct (P 3 33 [(e1, 1, 11)] [(e4, 4, 44)] eq_refl ltac:(reflexivity) ltac:(intros a [<-|[]]; reflexivity) ltac:(intros a [<-|[]]; reflexivity)) as (e3 & h3 & P3 & H3).
  exists h2, t, e1, e4, e3, h3. split; [exact H2|]. split; [exact I|]. split; [reflexivity|]. split; [reflexivity|]. split; [exact P3|].
  rewrite (forward_avl _ _ _ _ _ _ 4 (history_avl _ _ _ _ _ _ H3)). reflexivity.
Qed.
(** The condition is needed: where lines in the tree have crossed, a lookup misses one of them. *)
Example C125_tree_needed : exists h t e1 e2,
  avl_history (sweep 0) 7 0 h t [(e2, 2, 22); (e1, 1, 11)] /\ total_preorder (order (sweep 20) 7 0) /\
  ~ increasing (order (sweep 20) 7 0) [(e2, 2, 22); (e1, 1, 11)] /\
  sweep 20 7 2 2 0 = 0 /\ avl_tree_get (sweep 20) t 2 h = Ok (0, h).
Proof.
  destruct (C28_make (sweep 0) 7 0 heap0 (sweep_order 0 7 0)) as (t & h0 & M & H0).
  destruct (C28_put_new (sweep 0) 7 0 h0 t [] [] 1 11 H0 ltac:(reflexivity) ltac:(intros a []) ltac:(intros a [])) as (e1 & h1 & P1 & H1). cbn [app] in H1.
  destruct (C28_put_new (sweep 0) 7 0 h1 t [] [(e1, 1, 11)] 2 22 H1 ltac:(reflexivity) ltac:(intros a []) ltac:(intros a [<-|[]]; reflexivity)) as (e2 & h2 & P2 & H2). cbn [app] in H2.
  exists h2, t, e1, e2. split; [exact H2|]. split; [apply sweep_order|]. split.
  { intros I. inversion_clear I as [|? ? _ F]. inversion_clear F as [|? ? L _]. revert L. vm_compute. discriminate. }
  split; [reflexivity|]. clear - M P1 P2. unfold heap0 in *. vm_compute in M. injection M as <- <-. vm_compute in P1. injection P1 as <-. vm_compute in P2. injection P2 as <-. vm_compute. reflexivity.
Qed.

(** Keys that are equal if their last digits are, and later only if they are the same. *)
Definition digits : HashModel.code := HashModel.mk_code (fun _ k => k mod 5) (fun _ a b => a mod 10 - b mod 10).
Definition exact : HashModel.code := HashModel.mk_code (fun _ k => k mod 5) (fun _ a b => a - b).
Example C125_table_example : exists h t c e3 e4 m,
  m = [(e4, 4, 44); (e3, 3, 33)] /\ HashSpec.ht_history digits 2 h t m /\ get h t = Some (CHtab c) /\
  HashSpec.legal exact (ht_hash c) 2 /\
  (forall a, In a m -> HashModel.call_hash exact (ht_hash c) (HashSpec.a_key a) = HashModel.call_hash digits (ht_hash c) (HashSpec.a_key a)) /\
  (forall a b, In a m -> In b m -> HashModel.call_cmp exact 2 (HashSpec.a_key a) (HashSpec.a_key b) = 0 -> HashModel.call_cmp digits 2 (HashSpec.a_key a) (HashSpec.a_key b) = 0) /\
  HashModel.hash_table_get digits t 13 h = Ok (e3, h) /\ HashModel.hash_table_get exact t 13 h = Ok (0, h) /\ HashModel.hash_table_get exact t 3 h = Ok (e3, h).
Proof.
  assert (L : forall hash cmp, HashSpec.legal digits hash cmp).
  { intros hash cmp. constructor; cbn [HashModel.call_cmp HashModel.call_hash digits]; intros; try lia. }
  destruct (HashProofs.make_history digits 1 2 0 heap0 ltac:(lia) (L 1 2)) as (t & h0 & M & H0).
  destruct (HashProofs.put_new_history digits 2 h0 t [] 3 33 H0 ltac:(reflexivity) ltac:(intros a [])) as (e3 & h1 & P1 & H1).
  destruct (HashProofs.put_new_history digits 2 h1 t _ 4 44 H1 ltac:(reflexivity) ltac:(intros a [<-|[]]; discriminate)) as (e4 & h2 & P2 & H2).
  destruct (HashProofs.history_ht _ _ _ _ _ H2) as (hash & arr & bs & I & _). pose proof (HashProofs.ih_table _ _ _ _ _ _ _ _ I) as G.
  assert (LE : HashSpec.legal exact hash 2) by (constructor; cbn [HashModel.call_cmp HashModel.call_hash exact]; intros; try lia; f_equal; lia).
  assert (F1 : forall a, In a [(e4, 4, 44); (e3, 3, 33)] -> HashModel.call_hash exact hash (HashSpec.a_key a) = HashModel.call_hash digits hash (HashSpec.a_key a)) by (intros a _; reflexivity).
  assert (F2 : forall a b, In a [(e4, 4, 44); (e3, 3, 33)] -> In b [(e4, 4, 44); (e3, 3, 33)] -> HashModel.call_cmp exact 2 (HashSpec.a_key a) (HashSpec.a_key b) = 0 ->
    HashModel.call_cmp digits 2 (HashSpec.a_key a) (HashSpec.a_key b) = 0).
  { intros a b _ _. cbn [HashModel.call_cmp exact digits]. intros E. replace (HashSpec.a_key a) with (HashSpec.a_key b) by lia. lia. }
  exists h2, t. eexists. exists e3, e4, [(e4, 4, 44); (e3, 3, 33)]. split; [reflexivity|]. split; [exact H2|]. split; [exact G|]. split; [exact LE|]. split; [exact F1|]. split; [exact F2|].
  destruct (C125_table digits exact 2 h2 t _ _ H2 G LE F1 F2) as (_ & G1 & G2 & _).
  split; [apply (proj1 (HashProofs.get_history _ _ _ _ _ 13 H2) e3 3 33); [right; left; reflexivity|reflexivity]|].
  split; [apply G2; intros a [<-|[<-|[]]]; discriminate|]. apply (G1 3 e3 3 33); [right; left; reflexivity|reflexivity].
Qed.
