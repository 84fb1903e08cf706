(** Proofs for C126: the sizes of hash tables. *)
From Verif Require Import Base Heap ListModel ListSpec ListProofs HashModel HashSpec HashProofs HashProps HashCostModel HashCost HashCostProps Primes.
From Coq Require Import Znumtheory.

Lemma good_prime : Forall (fun g => g = 0 \/ prime g) GOOD_SIZES.
Proof.
  assert (E : forallb (fun g => (g =? 0) || is_prime 13 g) GOOD_SIZES = true) by (vm_compute; reflexivity).
  rewrite forallb_forall in E. apply Forall_forall. intros g Hg. specialize (E g Hg). apply orb_true_iff in E.
  destruct E as [E|E]; [left; lia|right; exact (is_prime_ok _ _ E)].
Qed.

(** No array changes its length, and no new one appears. *)
Definition rigid {A} (m : M A) : Prop := forall h r h', m h = Ok (r, h') ->
  forall x s', get h' x = Some (CSlots s') -> exists s, get h x = Some (CSlots s) /\ length s = length s'.

Lemma rigid_bnd {A B} (m : M A) (f : A -> M B) : rigid m -> (forall a, rigid (f a)) -> rigid (bnd m f).
Proof.
  intros Rm Rf h r h'. unfold bnd. destruct (m h) as [[a h1]| | |] eqn:E; try discriminate. intros E2 x s' G.
  destruct (Rf a _ _ _ E2 _ _ G) as (s1 & G1 & L1). destruct (Rm _ _ _ E _ _ G1) as (s & G0 & L0). exists s. split; [exact G0|congruence].
Qed.
Lemma rigid_same {A} (m : M A) : (forall h r h', m h = Ok (r, h') -> h' = h) -> rigid m.
Proof. intros S h r h' E x s' G. rewrite (S _ _ _ E) in G. eauto. Qed.
Lemma rigid_ret {A} (a : A) : rigid (ret a).
Proof. apply rigid_same. unfold ret. intros h r h'; congruence. Qed.
Lemma rigid_fail {A} : rigid (@fail A).
Proof. intros h r h'. discriminate. Qed.
Lemma rigid_no_fuel {A} : rigid (@no_fuel A).
Proof. intros h r h'. discriminate. Qed.
Lemma rigid_lift {A} (r : res A) : rigid (lift r).
Proof. apply rigid_same. unfold lift. intros h a h'. destruct r; congruence. Qed.
Lemma rigid_fuel : rigid fuel.
Proof. apply rigid_same. unfold fuel. intros h a h'. congruence. Qed.
Lemma rigid_alloc c : (forall s, c <> CSlots s) -> rigid (alloc c).
Proof.
  intros N h r h' E x s' G. pose proof (fresh_address_free h) as [_ F0].
  unfold alloc in E. injection E as <- <-.
  change (mk_heap _ (hints h) (S (clock h))) with (mk_heap (mem (put_cell h (fresh_address h) c)) (hints h) (S (clock h))) in G.
  assert (G' : get (put_cell h (fresh_address h) c) x = Some (CSlots s')) by exact G.
  rewrite get_put in G' by assumption. destruct (x =? fresh_address h); [injection G' as ->; exfalso; exact (N _ eq_refl)|eauto].
Qed.
Lemma rigid_free a : rigid (free a).
Proof.
  intros h r h' E x s' G. unfold free in E. destruct (get h a); [|discriminate]. injection E as <- <-.
  rewrite get_drop in G. destruct (x =? a); [discriminate|eauto].
Qed.
Lemma put_rigid h a c x s' : a <> 0 -> (forall s, c <> CSlots s) -> get (put_cell h a c) x = Some (CSlots s') ->
  exists s, get h x = Some (CSlots s) /\ length s = length s'.
Proof.
  intros A N G. rewrite get_put in G by assumption. destruct (x =? a); [injection G as ->; exfalso; exact (N _ eq_refl)|eauto].
Qed.
Lemma get_not_null h a c : get h a = Some c -> a <> 0.
Proof. unfold get. destruct (Z.eqb_spec a 0); congruence. Qed.
Ltac rigid_st := intros h r h' E x s' G;
  cbv beta delta [st_list st_lelem st_htab st_helem] in E;
  match type of E with context [get h ?a] => destruct (get h a) as [[]|] eqn:X; try discriminate E;
  injection E as <- <-; refine (put_rigid _ _ _ _ _ (get_not_null _ _ _ X) _ G); discriminate end.
Lemma rigid_st_list a c : rigid (st_list a c).
Proof. rigid_st. Qed.
Lemma rigid_st_lelem a c : rigid (st_lelem a c).
Proof. rigid_st. Qed.
Lemma rigid_st_htab a c : rigid (st_htab a c).
Proof. rigid_st. Qed.
Lemma rigid_st_helem a c : rigid (st_helem a c).
Proof. rigid_st. Qed.
Ltac rigid_ld := apply rigid_same; intros h r h' E;
  cbv beta delta [ld_list ld_lelem ld_htab ld_helem ld_slots] in E;
  match type of E with context [get h ?a] => destruct (get h a) as [[]|]; congruence end.
Lemma rigid_ld_list a : rigid (ld_list a).
Proof. rigid_ld. Qed.
Lemma rigid_ld_lelem a : rigid (ld_lelem a).
Proof. rigid_ld. Qed.
Lemma rigid_ld_htab a : rigid (ld_htab a).
Proof. rigid_ld. Qed.
Lemma rigid_ld_helem a : rigid (ld_helem a).
Proof. rigid_ld. Qed.
Lemma rigid_ld_slots a : rigid (ld_slots a).
Proof. rigid_ld. Qed.
Lemma rigid_st_slot t i v : rigid (st_slot t i v).
Proof.
  intros h r h' E x s' G. unfold st_slot, bnd in E.
  destruct (ld_htab t h) as [[c h1]| | |] eqn:E1; try discriminate.
  assert (h1 = h) as -> by (unfold ld_htab in E1; destruct (get h t) as [[]|]; congruence).
  destruct (ld_slots (ht_table c) h) as [[s h1]| | |] eqn:E2; try discriminate.
  assert (G2 : h1 = h /\ get h (ht_table c) = Some (CSlots s)) by (unfold ld_slots in E2; destruct (get h (ht_table c)) as [[]|]; try discriminate; injection E2 as <- <-; auto).
  destruct G2 as [-> G2]. unfold lift, wr in E. destruct (inb s i) eqn:B; [|discriminate].
  unfold st_slots in E. rewrite G2 in E. injection E as <- <-.
  rewrite get_put in G by (exact (get_not_null _ _ _ G2)).
  destruct (Z.eqb_spec x (ht_table c)) as [->|]; [|eauto].
  injection G as <-. exists s. split; [exact G2|]. symmetry. apply upd_length. unfold inb, zlen in B. lia.
Qed.

Ltac rigid1 := first
  [ apply rigid_ret | apply rigid_fail | apply rigid_no_fuel | apply rigid_lift | apply rigid_fuel | apply rigid_free
  | apply rigid_alloc; discriminate | apply rigid_st_list | apply rigid_st_lelem | apply rigid_st_htab | apply rigid_st_helem
  | apply rigid_ld_list | apply rigid_ld_lelem | apply rigid_ld_htab | apply rigid_ld_helem | apply rigid_ld_slots | apply rigid_st_slot
  | apply rigid_bnd; [|intros ?] | assumption
  | match goal with |- rigid (if ?b then _ else _) => destruct b end
  | progress cbv beta zeta delta [ld_slot st_ht_size ht_size_inc ht_size_dec bucket_index] ].
Ltac rigid_all := repeat rigid1.

Lemma rigid_append l v : rigid (list_append l v).
Proof. unfold list_append, st_first, st_last, size_inc, st_size, st_next, st_prev. rigid_all. Qed.
Lemma rigid_remove l e : rigid (list_remove l e).
Proof. unfold list_remove, st_first, st_last, size_dec, st_size, st_next, st_prev. rigid_all. Qed.
Lemma rigid_add t i k v : rigid (add_element t i k v).
Proof. unfold add_element. rigid_all; apply rigid_append. Qed.
Lemma rigid_get_loop fn n t k : forall le, rigid (ht_get_loop fn n t k le).
Proof. induction n as [|n IH]; intros le; cbn [ht_get_loop]; unfold list_elem_get_value, list_next; rigid_all; apply IH. Qed.
Lemma rigid_get fn t k : rigid (hash_table_get fn t k).
Proof. unfold hash_table_get, list_get_first. rigid_all; apply rigid_get_loop. Qed.
Lemma rigid_put_loop fn n t i l k v : forall le, rigid (ht_put_loop fn n t i l k v le).
Proof.
  induction n as [|n IH]; intros le; cbn [ht_put_loop]; unfold list_elem_get_value, list_next, hash_elem_get_value; rigid_all;
    first [apply rigid_add|apply rigid_remove|apply IH].
Qed.
Lemma rigid_put fn t k v : rigid (hash_table_put fn t k v).
Proof. unfold hash_table_put, list_get_first, make_list. rigid_all; first [apply rigid_add|apply rigid_put_loop]. Qed.
Lemma rigid_detach t e : rigid (hash_table_detach t e).
Proof. unfold hash_table_detach. rigid_all; apply rigid_remove. Qed.
Lemma rigid_ht_remove t e : rigid (hash_table_remove t e).
Proof. unfold hash_table_remove, destroy_hash_element. rigid_all; apply rigid_detach. Qed.
Lemma rigid_pop fn t k : rigid (hash_table_pop fn t k).
Proof. unfold hash_table_pop. rigid_all; first [apply rigid_get|apply rigid_get_loop|apply rigid_detach]. Qed.
Lemma rigid_pop_any_loop n t : forall i, rigid (pop_any_loop n t i).
Proof.
  induction n as [|n IH]; intros i; cbn [pop_any_loop]; unfold list_empty, list_pop_first, list_get_first, list_elem_get_value; rigid_all;
    first [apply rigid_remove|apply IH].
Qed.
Lemma rigid_pop_any t : rigid (hash_table_pop_any t).
Proof. unfold hash_table_pop_any. rigid_all; apply rigid_pop_any_loop. Qed.

Lemma op_rigid fn cmp t h m h' r m' : ht_op fn cmp t h m h' r m' ->
  forall x s', get h' x = Some (CSlots s') -> exists s, get h x = Some (CSlots s) /\ length s = length s'.
Proof.
  intros O. destruct O as [k v r e Sp A E G|k v r e k' Hin K E|k v r e k' w e' m' Pm K V E G|k r e k' v m' Pm K E|k r A E|e k v m' Pm E|e k v m' Pm E|r k v m' Pm E|r Em E];
  [exact (rigid_put _ _ _ _ _ _ _ E)|exact (rigid_put _ _ _ _ _ _ _ E)|exact (rigid_put _ _ _ _ _ _ _ E)|exact (rigid_pop _ _ _ _ _ _ E)|exact (rigid_pop _ _ _ _ _ _ E)
  |exact (rigid_detach _ _ _ _ _ E)|exact (rigid_ht_remove _ _ _ _ _ E)|exact (rigid_pop_any _ _ _ _ E)|exact (rigid_pop_any _ _ _ _ E)].
Qed.

Lemma op_capacity fn cmp h t m h' r m' : ht_history fn cmp h t m -> ht_op fn cmp t h m h' r m' ->
  exists c c', get h t = Some (CHtab c) /\ get h' t = Some (CHtab c') /\
    ht_capacity c' = ht_capacity c /\ ht_hash c' = ht_hash c /\ ht_cmp c' = ht_cmp c.
Proof.
  intros H O. destruct (history_ht _ _ _ _ _ H) as (hash & arr & bs & I & P).
  destruct (op_effect _ _ _ _ _ _ _ _ _ _ _ I P O) as (bs' & gone & I' & _).
  do 2 eexists. split; [exact (ih_table _ _ _ _ _ _ _ _ I)|]. split; [exact (ih_table _ _ _ _ _ _ _ _ I')|].
  cbn [ht_capacity ht_hash ht_cmp]. split; [|auto].
  destruct (op_rigid _ _ _ _ _ _ _ _ O _ _ (ih_slots _ _ _ _ _ _ _ _ I')) as (s & G & L).
  rewrite (ih_slots _ _ _ _ _ _ _ _ I) in G. injection G as <-. rewrite !map_length in L. unfold zlen. lia.
Qed.

Lemma history_good fn cmp h t m : ht_history fn cmp h t m ->
  exists c, get h t = Some (CHtab c) /\ In (ht_capacity c) GOOD_SIZES /\ 0 < ht_capacity c.
Proof.
  induction 1 as [fn cmp h capacity hash t h' B L E|fn cmp h t m r h' m' H IH O|fn cmp h t m m' H IH Pm|fn cmp h t m h' H IH Same|fn cmp fn' h t m c H IH G L K D].
  - destruct (C26_capacity fn hash cmp capacity h L) as (t1 & h1 & c & slots & E1 & G & _ & _ & I & Pos & _).
    rewrite E in E1. injection E1 as -> ->. eauto.
  - destruct IH as (c & G & I & Pos). destruct (op_capacity _ _ _ _ _ _ _ _ H O) as (c1 & c' & G1 & G' & C & _).
    exists c'. rewrite G in G1. injection G1 as <-. rewrite C. auto.
  - exact IH.
  - destruct IH as (c & G & I & Pos). exists c. rewrite Same; [auto|]. apply O_table.
  - exact IH.
Qed.

Lemma NoDup_bounded q : forall l, NoDup l -> (forall x, In x l -> 0 <= x < q) -> zlen l <= Z.max 0 q.
Proof.
  intros l N B. assert (I : incl l (map Z.of_nat (seq 0 (Z.to_nat q)))).
  { intros x Hx. specialize (B x Hx). apply in_map_iff. exists (Z.to_nat x). split; [lia|]. apply in_seq. lia. }
  pose proof (NoDup_incl_length N I) as L. rewrite map_length, seq_length in L. unfold zlen. lia.
Qed.

Lemma spread (hash : Z -> Z) p (met : list Z) first step n q r : prime p -> ~ (p | step) -> n <= q * p -> 0 <= q ->
  NoDup (map hash met) -> (forall k, In k met -> exists i, 0 <= i < n /\ hash k = first + i * step) ->
  (forall k, In k met -> hash k mod p = r) -> zlen met <= q.
Proof.
  intros Pp Ns Nq Q0 ND AP Col. pose proof (prime_ge_2 _ Pp) as P2.
  assert (J : exists js, length js = length met /\ NoDup js /\ (forall x, In x js -> 0 <= x < q)).
  { assert (X : exists is, map hash met = map (fun i => first + i * step) is /\ Forall (fun i => 0 <= i < n) is).
    { clear - AP. induction met as [|k met IH]; [exists []; auto|].
      destruct IH as (is & E & F); [intros; apply AP; right; assumption|]. destruct (AP k (or_introl eq_refl)) as (i & B & Ei).
      exists (i :: is). cbn [map]. rewrite Ei, E. auto. }
    destruct X as (is & E & F).
    assert (Ni : NoDup is) by (apply (NoDup_map_inv (fun i => first + i * step)); rewrite <- E; exact ND).
    assert (Cong : forall i j, In i is -> In j is -> (p | i - j)).
    { assert (C : forall i, In i is -> (first + i * step) mod p = r).
      { intros i Hi. assert (Y : In (first + i * step) (map hash met)) by (rewrite E; apply (in_map (fun i => first + i * step)); exact Hi).
        apply in_map_iff in Y. destruct Y as (k & Ek & Hk). rewrite <- Ek. auto. }
      intros i j Hi Hj. pose proof (C i Hi) as Ci. rewrite <- (C j Hj) in Ci.
      assert (D : (p | (i - j) * step)).
      { apply Z.mod_divide; [lia|]. replace ((i - j) * step) with ((first + i * step) - (first + j * step)) by ring.
        rewrite Zminus_mod, Ci, Z.sub_diag. apply Z.mod_0_l. lia. }
      destruct (prime_mult _ Pp _ _ D) as [|]; [assumption|contradiction]. }
    exists (map (fun i => i / p) is). rewrite map_length. split; [|split].
    - rewrite <- (map_length hash met), E, map_length. reflexivity.
    - clear - Ni Cong P2. induction is as [|i is IH]; [constructor|]. cbn [map]. inversion_clear Ni as [|? ? Nin N'].
      constructor; [|apply IH; [exact N'|intros; apply Cong; right; assumption]].
      intros X. apply in_map_iff in X. destruct X as (j & Ej & Hj). apply Nin.
      replace i with j; [exact Hj|]. destruct (Cong i j (or_introl eq_refl) (or_intror Hj)) as (z & Z).
      pose proof (Z.div_mod i p ltac:(lia)). pose proof (Z.div_mod j p ltac:(lia)).
      pose proof (Z.mod_pos_bound i p ltac:(lia)). pose proof (Z.mod_pos_bound j p ltac:(lia)). rewrite Ej in *.
      assert (z = 0) by nia. nia.
    - intros x Hx. apply in_map_iff in Hx. destruct Hx as (i & <- & Hi). rewrite Forall_forall in F. specialize (F i Hi).
      split; [apply Z.div_pos; lia|]. apply Z.div_lt_upper_bound; [lia|]. lia. }
  destruct J as (js & L & N & B). pose proof (NoDup_bounded q js N B) as X. unfold zlen in *. lia.
Qed.

Lemma sparing_spread fn cmp h t m k compared c first step n q : ht_history fn cmp h t m -> get h t = Some (CHtab c) ->
  sparing fn h t m k compared ->
  (forall a, In a m -> exists i, 0 <= i < n /\ u64 (call_hash fn (ht_hash c) (a_key a)) = first + i * step) ->
  NoDup (map (fun a => u64 (call_hash fn (ht_hash c) (a_key a))) m) ->
  ~ (ht_capacity c | step) -> n <= q * ht_capacity c -> 0 <= q -> zlen compared <= q.
Proof.
  intros H G (c' & met & unmet & G' & Pm & -> & Col) AP ND Ns Nq Q0. rewrite G in G'. injection G' as <-.
  destruct (history_good _ _ _ _ _ H) as (c1 & G1 & Good & Pos). rewrite G in G1. injection G1 as <-.
  assert (Pp : prime (ht_capacity c)).
  { pose proof good_prime as F. rewrite Forall_forall in F. destruct (F _ Good); [lia|assumption]. }
  apply (spread (fun k => u64 (call_hash fn (ht_hash c) k)) (ht_capacity c) (map a_key met) first step n q
           (u64 (call_hash fn (ht_hash c) k) mod ht_capacity c)); try assumption.
  - rewrite map_map. apply (Permutation_NoDup (Permutation_map _ Pm)) in ND. rewrite map_app in ND.
    clear - ND. revert ND. generalize (map (fun a : assoc => u64 (call_hash fn (ht_hash c) (a_key a))) unmet) as y.
    induction (map (fun x : assoc => u64 (call_hash fn (ht_hash c) (a_key x))) met) as [|x l IH]; intros y ND; [constructor|].
    inversion_clear ND as [|? ? Nin N]. constructor; [|exact (IH _ N)]. intros X. apply Nin. apply in_app_iff. auto.
  - intros k' Hk. apply in_map_iff in Hk. destruct Hk as (a & <- & Ha). apply AP.
    apply (Permutation_in _ (Permutation_sym Pm)). apply in_app_iff. auto.
  - intros k' Hk. apply in_map_iff in Hk. destruct Hk as (a & <- & Ha). exact (Col a Ha).
Qed.
