(** Property C108: the keys that hash tables compare (src/hashtable.c). *)
From Verif Require Import Base Heap ListModel ListSpec ListProofs HashModel HashSpec HashProofs HashProps HashAnySpec HashAny HashAnyProps HashCostModel HashCost.

(** The functions that record the keys they compare are those of the model. *)
Theorem C108_same : forall fn t k v h,
  (let! r := hash_table_get_recorded fn t k in ret (fst r)) h = hash_table_get fn t k h /\
  (let! r := hash_table_put_recorded fn t k v in ret (fst r)) h = hash_table_put fn t k v h /\
  (let! r := hash_table_pop_recorded fn t k in ret (fst r)) h = hash_table_pop fn t k h.
Proof. intros. split; [apply get_same|]. split; [apply put_same|apply pop_same]. Qed.
Print Assumptions C108_same.

(** The hashes of two keys lead to the same place in a table with the fields [c]. *)
Definition collide (fn : code) (c : htab_c) (k k' : Z) : Prop :=
  u64 (call_hash fn (ht_hash c) k) mod ht_capacity c = u64 (call_hash fn (ht_hash c) k') mod ht_capacity c.

(** C108: a key is compared with keys that are in the table and whose hash collides
    with its own, and with the key of no association twice. *)
Definition sparing (fn : code) (h : heap) (t : Z) (m : list assoc) (k : Z) (compared : list Z) : Prop :=
  exists c met unmet, get h t = Some (CHtab c) /\ Permutation m (met ++ unmet) /\ compared = map a_key met /\
    forall a, In a met -> collide fn c (a_key a) k.

Theorem C108_get : forall fn cmp h t m k, ht_history fn cmp h t m ->
  exists e compared, hash_table_get_recorded fn t k h = Ok ((e, compared), h) /\ sparing fn h t m k compared.
Proof.
  intros fn cmp h t m k H. destruct (history_ht _ _ _ _ _ H) as (hash & arr & bs & I & P).
  destruct (get_recorded _ _ _ _ _ _ _ _ k I) as (e & seen & E & S).
  destruct (holds_seen _ _ _ _ _ _ _ P S) as (m2 & Q & K & C).
  exists e, (map n_key seen). split; [exact E|].
  eexists _, (map assoc_of seen), m2. split; [exact (ih_table _ _ _ _ _ _ _ _ I)|]. split; [exact Q|]. split; [symmetry; exact K|exact (C Logic.I)].
Qed.
Print Assumptions C108_get.

Theorem C108_pop : forall fn cmp h t m k, ht_history fn cmp h t m ->
  exists e compared h', hash_table_pop_recorded fn t k h = Ok ((e, compared), h') /\ sparing fn h t m k compared.
Proof.
  intros fn cmp h t m k H. destruct (C108_get _ _ _ _ _ k H) as (e & log & E & S).
  assert (G : exists r h', hash_table_pop fn t k h = Ok (r, h')).
  { destruct (history_ht _ _ _ _ _ H) as (hash & arr & bs & I & P).
    assert (I' : is_any fn hash cmp h t arr bs) by (exact (ht_any _ _ _ _ _ _ _ I)).
    destruct (pop_any_key fn hash cmp h t arr bs k I') as [[_ X]|(x & es & bs' & h' & _ & _ & _ & X & _)]; eauto. }
  destruct G as (r & h' & G). rewrite <- pop_same in G. unfold hash_table_pop_recorded in G.
  rewrite bnd_assoc, (bnd_Ok _ _ _ _ _ E) in G. cbn [fst] in G.
  assert (D : exists h1, (if e =? 0 then ret tt else hash_table_detach t e) h = Ok (tt, h1)).
  { revert G. unfold bnd, ret. destruct (e =? 0); [eauto|]. destruct (hash_table_detach t e h) as [[[] h1]| | |]; try discriminate. eauto. }
  destruct D as (h1 & D). exists e, log, h1. split; [|exact S].
  unfold hash_table_pop_recorded. rewrite (bnd_Ok _ _ _ _ _ E). cbn [fst]. rewrite (bnd_Ok _ _ _ _ _ D). reflexivity.
Qed.
Print Assumptions C108_pop.

Theorem C108_put : forall fn cmp h t m k v, ht_history fn cmp h t m -> sparse m ->
  exists e compared h', hash_table_put_recorded fn t k v h = Ok ((e, compared), h') /\ sparing fn h t m k compared.
Proof.
  intros fn cmp h t m k v H Sp. destruct (history_ht _ _ _ _ _ H) as (hash & arr & bs & I & P).
  assert (I' : is_any fn hash cmp h t arr bs) by (exact (ht_any _ _ _ _ _ _ _ I)).
  assert (G : exists r h', hash_table_put fn t k v h = Ok (r, h')).
  { unfold sparse in Sp. rewrite (holds_zlen _ _ P) in Sp.
    destruct (put_any fn hash cmp h t arr bs k v I' Sp) as [(x & bs' & h' & X & _)|[(y & _ & _ & _ & X)|(y & es & x & bs' & h' & _ & _ & _ & X & _)]]; eauto. }
  destruct G as (r & h' & G).
  destruct (put_recorded _ _ _ _ _ _ _ _ k v I) as (seen & S & E).
  destruct (holds_seen _ _ _ _ _ _ _ P S) as (m2 & Q & K & C).
  exists r, (map n_key seen), h'. split; [exact (E _ _ G)|].
  eexists _, (map assoc_of seen), m2. split; [exact (ih_table _ _ _ _ _ _ _ _ I)|]. split; [exact Q|]. split; [symmetry; exact K|exact (C Logic.I)].
Qed.
Print Assumptions C108_put.

(** So the number of comparisons is at most the number of associations whose hashes collide
    with that of the key. *)
Theorem C108_count : forall fn h t m k compared c, sparing fn h t m k compared -> get h t = Some (CHtab c) ->
  zlen compared <= zlen (filter (fun a => u64 (call_hash fn (ht_hash c) (a_key a)) mod ht_capacity c =?
                                              u64 (call_hash fn (ht_hash c) k) mod ht_capacity c) m).
Proof.
  intros fn h t m k compared c (c' & met & unmet & G' & P & -> & C) G. rewrite G in G'. injection G' as <-.
  unfold zlen. rewrite map_length. set (f := fun a : assoc => _ =? _).
  assert (X : forall l l', Permutation l l' -> length (filter f l) = length (filter f l')).
  { induction 1 as [|a l l' _ IH|a b l|l1 l2 l3 _ IH1 _ IH2]; cbn [filter]; [reflexivity| | |congruence].
    - destruct (f a); cbn [length]; congruence.
    - destruct (f a), (f b); reflexivity. }
  rewrite (X _ _ P), filter_app, app_length.
  assert (Y : filter f met = met).
  { clear - C. induction met as [|a met IH]; [reflexivity|]. cbn [filter].
    assert (Fa : f a = true) by (apply Z.eqb_eq; exact (C a (or_introl eq_refl))). rewrite Fa. f_equal. apply IH.
    intros b Hb. apply C. right; exact Hb. }
  rewrite Y. lia.
Qed.
Print Assumptions C108_count.

(** Whatever the functions do, a key is compared at most once with the key of each
    association. *)
Theorem C108_any : forall (fn : code) hash cmp h t m k v, any_history hash cmp h t m -> sparse m ->
  (exists e met unmet, hash_table_get_recorded fn t k h = Ok ((e, map a_key met), h) /\ Permutation m (met ++ unmet)) /\
  (exists e met unmet h', hash_table_put_recorded fn t k v h = Ok ((e, map a_key met), h') /\ Permutation m (met ++ unmet)).
Proof.
  intros fn hash cmp h t m k v H Sp. destruct (any_table _ _ _ _ _ H) as (arr & bs & I0 & P).
  pose proof (any_code _ fn _ _ _ _ _ _ I0) as I. split.
  - destruct (get_recorded _ _ _ _ _ _ _ _ k I) as (e & seen & E & S).
    destruct (holds_seen _ _ _ _ _ _ _ P S) as (m2 & Q & K & _). exists e, (map assoc_of seen), m2. rewrite K. auto.
  - assert (G : exists r h', hash_table_put fn t k v h = Ok (r, h')).
    { unfold sparse in Sp. rewrite (holds_zlen _ _ P) in Sp.
      destruct (put_any fn hash cmp h t arr bs k v I Sp) as [(x & bs' & h' & X & _)|[(y & _ & _ & _ & X)|(y & es & x & bs' & h' & _ & _ & _ & X & _)]]; eauto. }
    destruct G as (r & h' & G). destruct (put_recorded _ _ _ _ _ _ _ _ k v I) as (seen & S & E).
    destruct (holds_seen _ _ _ _ _ _ _ P S) as (m2 & Q & K & _). exists r, (map assoc_of seen), m2, h'. rewrite K. auto.
Qed.
Print Assumptions C108_any.

(** The table with the keys 1, 4 and 2 of C23, of which 1 and 4 collide. *)
Example C108_history_example : exists h t m, ht_history ex_fn 0 h t m /\ sparse m /\ map a_key m = [2; 4; 1].
Proof. destruct C23_history_example as (h & t & e1 & e2 & e3 & H). do 3 eexists. split; [exact H|]. split; reflexivity. Qed.
Example C108_example :
  result ((let! t := make_hash_table 10 0 0 in
   let! r1 := hash_table_put_recorded ex_fn t 1 10 in
   let! r2 := hash_table_put_recorded ex_fn t 4 20 in
   let! r3 := hash_table_put_recorded ex_fn t 2 30 in
   let! g1 := hash_table_get_recorded ex_fn t 2 in
   let! g2 := hash_table_get_recorded ex_fn t (-4) in
   let! g3 := hash_table_get_recorded ex_fn t 7 in
   let! g4 := hash_table_get_recorded ex_fn t 3 in
   let! p := hash_table_pop_recorded ex_fn t 1 in
   ret [snd r1; snd r2; snd r3; snd g1; snd g2; snd g3; snd g4; snd p]) heap0)
  = Some [[]; [1]; []; [2]; [1; 4]; [1; 4]; []; [1]].
Proof. reflexivity. Qed.
