(** Proofs about hash tables with keys in memory. *)
From Verif Require Import Base Heap ListModel ListSpec ListProofs HashModel HashSpec HashProofs KeyModel KeySpec.
Open Scope list_scope.
Open Scope Z_scope.

Section Keys.
Context {X : Type} (read : list Z -> option X).
Context (cb : callbacks) (hash cmp : Z) (H : X -> Z) (C : X -> X -> Z).
Context (P : proper read cb hash cmp H C).
Notation key_at := (key_at read).
Notation given := (given read).
Notation keyed := (keyed read cb hash cmp C).
Notation k_op := (k_op read cb C).

(** What the callbacks compute in the memory [h]. *)
Definition x_at (h : heap) (k : Z) : option X := match get h k with Some (CSlots b) => read b | _ => None end.
Definition fn_at (h : heap) : code := {|
  call_hash _ k := match x_at h k with Some x => H x | None => 0 end;
  call_cmp _ k l := match x_at h k, x_at h l with Some x, Some y => C x y | None, None => 0 | _, _ => 1 end
|}.
Lemma key_x_at h k x : key_at h k x -> x_at h k = Some x.
Proof. intros (b & G & R). unfold x_at. rewrite G. exact R. Qed.
Lemma x_at_readable h k x : x_at h k = Some x -> readable read x.
Proof.
  unfold x_at. destruct (get h k) as [c|]; [|discriminate]. destruct c; try discriminate. intros E. eexists; exact E.
Qed.
Lemma key_readable h k x : key_at h k x -> readable read x.
Proof. intros (b & _ & R). exists b. exact R. Qed.

Lemma fn_legal h : legal (fn_at h) hash cmp.
Proof.
  constructor; cbn [call_cmp call_hash fn_at].
  - intros k. destruct (x_at h k) as [x|] eqn:E; [|reflexivity]. apply (C_refl _ _ _ _ _ _ P). eapply x_at_readable; eauto.
  - intros k l. destruct (x_at h k) as [x|] eqn:E, (x_at h l) as [y|] eqn:F; try discriminate; [|reflexivity].
    apply (C_sym _ _ _ _ _ _ P); eapply x_at_readable; eauto.
  - intros k l o. destruct (x_at h k) as [x|] eqn:E, (x_at h l) as [y|] eqn:F, (x_at h o) as [z|] eqn:G; try discriminate; [|reflexivity].
    apply (C_trans _ _ _ _ _ _ P); eapply x_at_readable; eauto.
  - intros k l. destruct (x_at h k) as [x|] eqn:E, (x_at h l) as [y|] eqn:F; try discriminate; [|reflexivity].
    apply (H_equal _ _ _ _ _ _ P); eapply x_at_readable; eauto.
Qed.

(** * The calls are those of HashModel.v *)

Lemma same_index h t k x c : get h t = Some (CHtab c) -> ht_hash c = hash -> key_at h k x ->
  k_bucket_index cb t k h = bucket_index (fn_at h) t k h.
Proof.
  intros G E K. unfold k_bucket_index, bucket_index. rewrite !(step_ld_htab _ _ _ _ G), E.
  rewrite (bnd_Ok _ _ _ _ _ (asks_hash _ _ _ _ _ _ P _ _ _ K)), (step_ld_htab _ _ _ _ G). cbn [call_hash fn_at].
  rewrite (key_x_at _ _ _ K). reflexivity.
Qed.

Section Loops.
Context (h : heap) (t i l k : Z) (c : htab_c) (x : X).
Context (Ht : get h t = Some (CHtab c)) (Hc : ht_cmp c = cmp) (K : key_at h k x).

Lemma same_get_loop : forall xs pre n, is_list h l (pairs (pre ++ xs)) ->
  (forall y, In y xs -> get h (n_he y) = Some (hcell t i y)) ->
  (forall y, In y xs -> exists z, key_at h (n_key y) z) ->
  k_get_loop cb n t k (hd_addr (pairs xs) 0) h = ht_get_loop (fn_at h) n t k (hd_addr (pairs xs) 0) h.
Proof.
  induction xs as [|y xs IH]; intros pre n IL HC HK; (destruct n as [|n]; [reflexivity|]); [reflexivity|].
  pose proof IL as IL'. rewrite pairs_app in IL. cbn [pairs map] in IL. cbn [k_get_loop ht_get_loop pairs map hd_addr].
  destruct (il_mid _ _ _ _ _ _ IL) as (_ & Ne & _). rewrite (proj2 (Z.eqb_neq (n_le y) 0)) by exact Ne.
  rewrite !(bnd_Ok _ _ _ _ _ (get_value_ok _ _ _ _ _ _ IL)). rewrite !(step_ld_htab _ _ _ _ Ht).
  rewrite !(step_ld_helem _ _ _ _ (HC y (or_introl eq_refl))). cbn [he_key hcell]. rewrite Hc.
  destruct (HK y (or_introl eq_refl)) as (z & Kz).
  rewrite (bnd_Ok _ _ _ _ _ (asks_cmp _ _ _ _ _ _ P _ _ _ _ _ K Kz)). cbn [call_cmp fn_at].
  rewrite (key_x_at _ _ _ K), (key_x_at _ _ _ Kz). destruct (C x z =? 0); [reflexivity|].
  rewrite !(bnd_Ok _ _ _ _ _ (next_ok _ _ _ _ _ _ IL)).
  apply (IH (pre ++ [y])).
  - rewrite <- app_assoc. exact IL'.
  - intros w Hw. apply HC. right; exact Hw.
  - intros w Hw. apply HK. right; exact Hw.
Qed.
Lemma same_put_loop v : forall xs pre n, is_list h l (pairs (pre ++ xs)) ->
  (forall y, In y xs -> get h (n_he y) = Some (hcell t i y)) ->
  (forall y, In y xs -> exists z, key_at h (n_key y) z) ->
  k_put_loop cb n t i l k v (hd_addr (pairs xs) 0) h = ht_put_loop (fn_at h) n t i l k v (hd_addr (pairs xs) 0) h.
Proof.
  induction xs as [|y xs IH]; intros pre n IL HC HK; (destruct n as [|n]; [reflexivity|]); [reflexivity|].
  pose proof IL as IL'. rewrite pairs_app in IL. cbn [pairs map] in IL. cbn [k_put_loop ht_put_loop pairs map hd_addr].
  destruct (il_mid _ _ _ _ _ _ IL) as (_ & Ne & _). rewrite (proj2 (Z.eqb_neq (n_le y) 0)) by exact Ne.
  rewrite !(bnd_Ok _ _ _ _ _ (get_value_ok _ _ _ _ _ _ IL)). rewrite !(step_ld_htab _ _ _ _ Ht).
  rewrite !(step_ld_helem _ _ _ _ (HC y (or_introl eq_refl))). cbn [he_key hcell]. rewrite Hc.
  destruct (HK y (or_introl eq_refl)) as (z & Kz).
  rewrite (bnd_Ok _ _ _ _ _ (asks_cmp _ _ _ _ _ _ P _ _ _ _ _ K Kz)). cbn [call_cmp fn_at].
  rewrite (key_x_at _ _ _ K), (key_x_at _ _ _ Kz). destruct (C x z =? 0); [reflexivity|].
  rewrite !(bnd_Ok _ _ _ _ _ (next_ok _ _ _ _ _ _ IL)).
  apply (IH (pre ++ [y])).
  - rewrite <- app_assoc. exact IL'.
  - intros w Hw. apply HC. right; exact Hw.
  - intros w Hw. apply HK. right; exact Hw.
Qed.
End Loops.

Lemma same_get_put h t arr bs k x v : is_ht True (fn_at h) hash cmp h t arr bs ->
  (forall y, In y (ents bs) -> exists z, key_at h (n_key y) z) -> key_at h k x ->
  k_hash_table_get cb t k h = hash_table_get (fn_at h) t k h /\ k_hash_table_put cb t k v h = hash_table_put (fn_at h) t k v h.
Proof.
  intros I HK K. pose proof (ih_table _ _ _ _ _ _ _ _ I) as Ht. pose proof (ih_slots _ _ _ _ _ _ _ _ I) as Ha.
  assert (EI : k_bucket_index cb t k h = bucket_index (fn_at h) t k h) by (eapply same_index; [exact Ht|reflexivity|exact K]).
  unfold k_hash_table_get, hash_table_get, k_hash_table_put, hash_table_put.
  pose proof (bucket_index_ok (fn_at h) hash cmp h t _ _ _ k (proj1 (ih_cap _ _ _ _ _ _ _ _ I)) Ht) as EJ. rewrite EJ in EI.
  rewrite !(bnd_Ok _ _ _ _ _ EI), !(bnd_Ok _ _ _ _ _ EJ).
  destruct (lookup_cases _ _ _ _ _ _ _ _ k I) as (B1 & l & xs & B2 & E & L & _).
  rewrite <- L. pose proof Ha as Ha'. rewrite E in Ha'. rewrite !(bnd_Ok _ _ _ _ _ (ld_slot_ok _ _ _ _ _ _ Ht Ha')). cbn [fst].
  destruct (l =? 0) eqn:L0; [split; reflexivity|].
  destruct (bucket_at _ _ _ _ _ _ _ _ _ _ _ I E) as [[E1 _]|[IL HE]]; cbn [fst snd] in *; [lia|].
  assert (HX : forall y, In y xs -> exists z, key_at h (n_key y) z).
  { intros y Hy. apply HK. rewrite E, ents_app, ents_cons, !in_app_iff. cbn [snd]. auto. }
  assert (FU : fuel h = Ok (S (length (mem h)), h)) by reflexivity.
  rewrite !(bnd_Ok _ _ _ _ _ FU), !(bnd_Ok _ _ _ _ _ (get_first_ok _ _ _ IL)). split.
  - eapply (same_get_loop h t (zlen B1) l k _ x Ht eq_refl K xs []); [exact IL| |exact HX]. intros y Hy. apply HE; exact Hy.
  - eapply (same_put_loop h t (zlen B1) l k _ x Ht eq_refl K v xs []); [exact IL| |exact HX]. intros y Hy. apply HE; exact Hy.
Qed.

(** * The invariant *)

Definition strip (a : entry (X := X)) : assoc := (elem a, address a, value a).
Record inv (h : heap) (t : Z) (m : list entry) : Prop := {
  iv_history : ht_history (fn_at h) cmp h t (map strip m);
  iv_hash : exists c, get h t = Some (CHtab c) /\ ht_hash c = hash;
  iv_given : forall a, In a m -> given h t (address a) (content a)
}.

Lemma inv_ht h t m : inv h t m -> exists arr bs, is_ht True (fn_at h) hash cmp h t arr bs /\ holds bs (map strip m).
Proof.
  intros [V1 (c & G & E) _]. destruct (history_ht _ _ _ _ _ V1) as (hash' & arr & bs & I & Hd). exists arr, bs. split; [|exact Hd].
  pose proof (ih_table _ _ _ _ _ _ _ _ I) as Ht. rewrite G in Ht. injection Ht as ->. cbn [ht_hash] in E. subst hash'. exact I.
Qed.
Lemma same_calls h t m k x v : inv h t m -> key_at h k x ->
  k_hash_table_get cb t k h = hash_table_get (fn_at h) t k h /\ k_hash_table_put cb t k v h = hash_table_put (fn_at h) t k v h /\
  k_hash_table_pop cb t k h = hash_table_pop (fn_at h) t k h.
Proof.
  intros V K. destruct (inv_ht _ _ _ V) as (arr & bs & I & Hd).
  destruct (same_get_put h t arr bs k x v I) as [E1 E2]; [|exact K|].
  - intros y Hy. assert (Ha : In (assoc_of y) (map strip m)) by (apply (Permutation_in _ (Permutation_sym Hd)), in_map; exact Hy).
    apply in_map_iff in Ha. destruct Ha as (a & Ea & Ha). exists (content a).
    assert (Ek : n_key y = address a) by (unfold strip, assoc_of in Ea; injection Ea; auto).
    rewrite Ek. exact (proj1 (iv_given _ _ _ V _ Ha)).
  - split; [exact E1|]. split; [exact E2|]. unfold k_hash_table_pop, hash_table_pop, bnd. rewrite E1. reflexivity.
Qed.

Lemma cmp_keys h k x l y c : key_at h k x -> key_at h l y -> call_cmp (fn_at h) c k l = C x y.
Proof. intros K L. cbn [call_cmp fn_at]. rewrite (key_x_at _ _ _ K), (key_x_at _ _ _ L). reflexivity. Qed.
Lemma missing_absent h t m k x : inv h t m -> key_at h k x -> missing C x m -> absent (fn_at h) cmp k (map strip m).
Proof.
  intros V K A b Hb. apply in_map_iff in Hb. destruct Hb as (a & <- & Ha). cbn [a_key strip fst snd].
  change (a_key (strip a)) with (address a). rewrite (cmp_keys h k x (address a) (content a)); [exact (A a Ha)|exact K|].
  exact (proj1 (iv_given _ _ _ V _ Ha)).
Qed.

(** Another memory in which the keys are the same. *)
Lemma change h h' t m : ht_history (fn_at h) cmp h' t (map strip m) -> (exists c, get h' t = Some (CHtab c) /\ ht_hash c = hash) ->
  (forall a, In a m -> key_at h (address a) (content a)) -> (forall a, In a m -> given h' t (address a) (content a)) -> inv h' t m.
Proof.
  intros Hh Hc A B. constructor; [|exact Hc|exact B]. destruct Hc as (c & G & E).
  assert (S : forall b, In b (map strip m) -> exists x, key_at h (a_key b) x /\ key_at h' (a_key b) x).
  { intros b Hb. apply in_map_iff in Hb. destruct Hb as (a & <- & Ha). exists (content a). split; [exact (A a Ha)|exact (proj1 (B a Ha))]. }
  eapply HH_change; [exact Hh|exact G|rewrite E; exact (fn_legal h')| |].
  - intros b Hb. destruct (S b Hb) as (x & K & K'). cbn [call_hash fn_at]. rewrite (key_x_at _ _ _ K), (key_x_at _ _ _ K'). reflexivity.
  - intros b d Hb Hd. destruct (S b Hb) as (x & K & K'). destruct (S d Hd) as (y & L & L').
    rewrite (cmp_keys h' _ _ _ _ _ K' L'), (cmp_keys h _ _ _ _ _ K L). auto.
Qed.

Lemma advance h t m h' r m' : inv h t m -> ht_op (fn_at h) cmp t h (map strip m) h' r (map strip m') ->
  (forall a, In a m' -> given h t (address a) (content a)) -> inv h' t m' /\ kept t m m' h h'.
Proof.
  intros V O A. pose proof (iv_history _ _ _ V) as Hh. pose proof (HH_op _ _ _ _ _ _ _ _ Hh O) as Hh'.
  destruct (foreign_op _ _ _ _ _ _ _ _ Hh O) as (F & F2 & F3 & _).
  assert (K : kept t m m' h h').
  { split; [exact F|]. split; [exact F2|]. intros y Oy Oy'. destruct (F3 y Oy Oy') as [G|(G & (k & v & I) & N)]; [left; exact G|right]. split; [exact G|]. split.
    - apply in_map_iff in I. destruct I as ([[[e1 k1] x1] v1] & E1 & I). change (strip (e1, k1, x1, v1)) with (e1, k1, v1) in E1. injection E1 as <- <- <-. exists k1, x1, v1. exact I.
    - intros k1 x1 v1 I1. apply (N k1 v1). apply in_map_iff. exists (y, k1, x1, v1). split; [reflexivity|exact I1]. }
  split; [|exact K].
  apply (change h); [exact Hh'| |intros a Ha; exact (proj1 (A a Ha))|].
  - destruct (inv_ht _ _ _ V) as (arr & bs & I & Hd). destruct (op_effect _ _ _ _ _ _ _ _ _ _ _ I Hd O) as (bs' & gone & I' & _).
    eexists. split; [exact (ih_table _ _ _ _ _ _ _ _ I')|reflexivity].
  - intros a Ha. destruct (A a Ha) as [(b & G & R) N]. destruct (F _ N) as [G' N']; [congruence|].
    split; [|exact N']. exists b. split; [congruence|exact R].
Qed.

Lemma map_perm m a m' : Permutation m (a :: m') -> Permutation (map strip m) (strip a :: map strip m').
Proof. intros Q. apply (Permutation_map strip) in Q. exact Q. Qed.
Lemma perm_in (m : list (entry (X := X))) a m' b : Permutation m (a :: m') -> In b m' -> In b m.
Proof. intros Q Hb. apply (Permutation_in _ (Permutation_sym Q)). right. exact Hb. Qed.
Lemma perm_hd m a m' : Permutation m (a :: m') -> In a (m : list (entry (X := X))).
Proof. intros Q. apply (Permutation_in _ (Permutation_sym Q)). left. reflexivity. Qed.

(** * Each function *)

Lemma get_inv h t m k x : inv h t m -> key_at h k x ->
  (forall e k' x' v, In (e, k', x', v) m -> C x x' = 0 -> k_hash_table_get cb t k h = Ok (e, h)) /\
  (missing C x m -> k_hash_table_get cb t k h = Ok (0, h)).
Proof.
  intros V K. destruct (same_calls h t m k x 0 V K) as (E & _ & _). rewrite E.
  destruct (get_history _ _ _ _ _ k (iv_history _ _ _ V)) as [G1 G2]. split.
  - intros e k' x' v Hin Cx. apply (G1 e k' v).
    + apply in_map_iff. exists (e, k', x', v). split; [reflexivity|exact Hin].
    + rewrite (cmp_keys h k x k' x'); [exact Cx|exact K|]. exact (proj1 (iv_given _ _ _ V _ Hin)).
  - intros A. apply G2. eapply missing_absent; eauto.
Qed.

Lemma refl_fn h k : call_cmp (fn_at h) cmp k k = 0.
Proof. apply (cmp_refl _ _ _ (fn_legal h)). Qed.

Lemma put_new_inv h t m k x v : inv h t m -> given h t k x -> few m -> missing C x m ->
  exists e h', k_hash_table_put cb t k v h = Ok (0, h') /\ k_hash_table_get cb t k h' = Ok (e, h') /\
    inv h' t ((e, k, x, v) :: m) /\ kept t m ((e, k, x, v) :: m) h h'.
Proof.
  intros V Gk Fm A. pose proof (proj1 Gk) as K. destruct (same_calls h t m k x v V K) as (_ & E & _). rewrite E.
  destruct (put_new_history (fn_at h) cmp h t (map strip m) k v (iv_history _ _ _ V)) as (e & h' & E1 & Hh).
  { unfold sparse, zlen. rewrite map_length. exact Fm. }
  { eapply missing_absent; eauto. }
  exists e, h'. split; [exact E1|].
  destruct (advance h t m h' 0 ((e, k, x, v) :: m) V) as [V' F].
  { cbn [map strip elem address value fst snd]. eapply HO_put_new; [| |exact E1|].
    - unfold sparse, zlen. rewrite map_length. exact Fm.
    - eapply missing_absent; eauto.
    - eapply (proj1 (get_history _ _ _ _ _ k Hh)); [left; reflexivity|apply refl_fn]. }
  { intros a [<-|Ha]; [exact Gk|exact (iv_given _ _ _ V _ Ha)]. }
  split; [|split; [exact V'|exact F]].
  pose proof (proj1 (iv_given _ _ _ V' _ (or_introl eq_refl))) as K'. cbn [address content fst snd] in K'.
  eapply (proj1 (get_inv h' t _ k x V' K')); [left; reflexivity|]. apply (C_refl _ _ _ _ _ _ P). exact (key_readable _ _ _ K).
Qed.

Lemma put_same_inv h t m k x e k' x' v : inv h t m -> key_at h k x -> In (e, k', x', v) m -> C x x' = 0 ->
  k_hash_table_put cb t k v h = Ok (0, h).
Proof.
  intros V K Hin Cx. destruct (same_calls h t m k x v V K) as (_ & E & _). rewrite E.
  apply (put_same_history (fn_at h) cmp h t (map strip m) k e k' v (iv_history _ _ _ V)).
  - apply in_map_iff. exists (e, k', x', v). split; [reflexivity|exact Hin].
  - rewrite (cmp_keys h k x k' x'); [exact Cx|exact K|]. exact (proj1 (iv_given _ _ _ V _ Hin)).
Qed.

Lemma put_replace_inv h t m k x v e' k' x' w m' : inv h t m -> given h t k x -> Permutation m ((e', k', x', w) :: m') ->
  C x x' = 0 -> w <> v ->
  exists e h', k_hash_table_put cb t k v h = Ok (e', h') /\ k_hash_table_get cb t k h' = Ok (e, h') /\
    inv h' t ((e, k, x, v) :: m') /\ kept t m ((e, k, x, v) :: m') h h' /\ e <> e' /\
    hash_elem_get_key e' h' = Ok (k', h') /\ hash_elem_get_value e' h' = Ok (w, h') /\ ~ owned h' t e'.
Proof.
  intros V Gk Q Cx N. pose proof (proj1 Gk) as K. destruct (same_calls h t m k x v V K) as (_ & E & _). rewrite E.
  assert (Cf : call_cmp (fn_at h) cmp k k' = 0).
  { rewrite (cmp_keys h k x k' x'); [exact Cx|exact K|]. exact (proj1 (iv_given _ _ _ V _ (perm_hd _ _ _ Q))). }
  destruct (put_replace_history (fn_at h) cmp h t (map strip m) k v e' k' w (map strip m') (iv_history _ _ _ V)) as (e & h' & E1 & Hh & R).
  { exact (map_perm _ _ _ Q). }
  { exact Cf. }
  { exact N. }
  exists e, h'. split; [exact E1|].
  destruct (advance h t m h' e' ((e, k, x, v) :: m') V) as [V' F].
  { cbn [map strip elem address value fst snd]. eapply HO_put_replace; [exact (map_perm _ _ _ Q)|exact Cf|exact N|exact E1|].
    eapply (proj1 (get_history _ _ _ _ _ k Hh)); [left; reflexivity|apply refl_fn]. }
  { intros a [<-|Ha]; [exact Gk|exact (iv_given _ _ _ V _ (perm_in _ _ _ _ Q Ha))]. }
  split; [|split; [exact V'|split; [exact F|exact R]]].
  pose proof (proj1 (iv_given _ _ _ V' _ (or_introl eq_refl))) as K'. cbn [address content fst snd] in K'.
  eapply (proj1 (get_inv h' t _ k x V' K')); [left; reflexivity|]. apply (C_refl _ _ _ _ _ _ P). exact (key_readable _ _ _ K).
Qed.

Lemma pop_inv h t m k x e k' x' v m' : inv h t m -> key_at h k x -> Permutation m ((e, k', x', v) :: m') -> C x x' = 0 ->
  exists h', k_hash_table_pop cb t k h = Ok (e, h') /\ inv h' t m' /\ kept t m m' h h' /\
    hash_elem_get_key e h' = Ok (k', h') /\ hash_elem_get_value e h' = Ok (v, h') /\ ~ owned h' t e.
Proof.
  intros V K Q Cx. destruct (same_calls h t m k x v V K) as (_ & _ & E). rewrite E.
  assert (Cf : call_cmp (fn_at h) cmp k k' = 0).
  { rewrite (cmp_keys h k x k' x'); [exact Cx|exact K|]. exact (proj1 (iv_given _ _ _ V _ (perm_hd _ _ _ Q))). }
  destruct (pop_history (fn_at h) cmp h t (map strip m) k e k' v (map strip m') (iv_history _ _ _ V)) as (h' & E1 & Hh & R).
  { exact (map_perm _ _ _ Q). }
  { exact Cf. }
  exists h'. split; [exact E1|].
  destruct (advance h t m h' e m' V) as [V' F].
  { eapply HO_pop; [exact (map_perm _ _ _ Q)|exact Cf|exact E1]. }
  { intros a Ha. exact (iv_given _ _ _ V _ (perm_in _ _ _ _ Q Ha)). }
  split; [exact V'|]. split; [exact F|exact R].
Qed.
Lemma pop_none_inv h t m k x : inv h t m -> key_at h k x -> missing C x m -> k_hash_table_pop cb t k h = Ok (0, h).
Proof.
  intros V K A. destruct (same_calls h t m k x 0 V K) as (_ & _ & E). rewrite E.
  eapply pop_none_history; [exact (iv_history _ _ _ V)|]. eapply missing_absent; eauto.
Qed.
Lemma detach_inv h t m e k x v m' : inv h t m -> Permutation m ((e, k, x, v) :: m') ->
  exists h', hash_table_detach t e h = Ok (tt, h') /\ inv h' t m' /\ kept t m m' h h' /\
    hash_elem_get_key e h' = Ok (k, h') /\ hash_elem_get_value e h' = Ok (v, h') /\ ~ owned h' t e.
Proof.
  intros V Q. destruct (detach_history (fn_at h) cmp h t (map strip m) e k v (map strip m') (iv_history _ _ _ V)) as (h' & E1 & Hh & R).
  { exact (map_perm _ _ _ Q). }
  exists h'. split; [exact E1|].
  destruct (advance h t m h' 0 m' V) as [V' F].
  { eapply HO_detach; [exact (map_perm _ _ _ Q)|exact E1]. }
  { intros a Ha. exact (iv_given _ _ _ V _ (perm_in _ _ _ _ Q Ha)). }
  split; [exact V'|]. split; [exact F|exact R].
Qed.
Lemma remove_inv h t m e k x v m' : inv h t m -> Permutation m ((e, k, x, v) :: m') ->
  exists h', hash_table_remove t e h = Ok (tt, h') /\ inv h' t m' /\ kept t m m' h h' /\ get h' e = None.
Proof.
  intros V Q. destruct (remove_history (fn_at h) cmp h t (map strip m) e k v (map strip m') (iv_history _ _ _ V)) as (h' & E1 & Hh & R).
  { exact (map_perm _ _ _ Q). }
  exists h'. split; [exact E1|].
  destruct (advance h t m h' 0 m' V) as [V' F].
  { eapply HO_remove; [exact (map_perm _ _ _ Q)|exact E1]. }
  { intros a Ha. exact (iv_given _ _ _ V _ (perm_in _ _ _ _ Q Ha)). }
  split; [exact V'|]. split; [exact F|exact R].
Qed.
Lemma pop_any_inv h t m : inv h t m ->
  (m = [] -> hash_table_pop_any t h = Ok (0, h)) /\
  (m <> [] -> exists e k x v m' h', Permutation m ((e, k, x, v) :: m') /\ hash_table_pop_any t h = Ok (e, h') /\ inv h' t m' /\ kept t m m' h h' /\
    hash_elem_get_key e h' = Ok (k, h') /\ hash_elem_get_value e h' = Ok (v, h') /\ ~ owned h' t e).
Proof.
  intros V. destruct (pop_any_history _ _ _ _ _ (iv_history _ _ _ V)) as [A B]. split.
  - intros ->. apply A. reflexivity.
  - intros N. destruct B as (e & k & v & m0 & h' & Q & E1 & Hh & R).
    { destruct m; [contradiction|discriminate]. }
    apply Permutation_sym, Permutation_map_inv in Q. destruct Q as ([|[[[e1 k1] x] v1] m'] & E & Q); [discriminate|].
    cbn [map strip elem address value fst snd] in E. injection E as -> -> -> ->.
    exists e1, k1, x, v1, m', h'. split; [exact Q|]. split; [exact E1|].
    destruct (advance h t m h' e1 m' V) as [V' F].
    { eapply HO_pop_any; [exact (map_perm _ _ _ Q)|exact E1]. }
    { intros a Ha. exact (iv_given _ _ _ V _ (perm_in _ _ _ _ Q Ha)). }
    split; [exact V'|]. split; [exact F|exact R].
Qed.

Lemma elem_unique h t m r k x v m' e k' x' v' m'' : inv h t m -> Permutation m ((r, k, x, v) :: m') -> Permutation m ((e, k', x', v') :: m'') ->
  r = e -> Permutation m' m''.
Proof.
  intros V Q Q' <-. destruct (inv_ht _ _ _ V) as (arr & bs & I & Hd). pose proof (handles_nodup _ _ _ _ _ _ _ _ I) as ND.
  assert (NE : NoDup (map elem m)).
  { eapply (Permutation_NoDup (l := map n_he (ents bs))); [|exact ND].
    apply Permutation_sym. apply (Permutation_map a_elem) in Hd. rewrite !map_map in Hd. exact Hd. }
  pose proof (perm_hd _ _ _ Q) as H1. pose proof (perm_hd _ _ _ Q') as H2.
  assert (EQ : (r, k, x, v) = (r, k', x', v')).
  { apply (Permutation_in _ Q') in H1. destruct H1 as [H1|H1]; [congruence|exfalso].
    apply (Permutation_map elem) in Q'. apply (Permutation_NoDup Q') in NE. cbn [map elem fst snd] in NE.
    apply NoDup_cons_iff in NE. apply (proj1 NE). apply in_map_iff. exists (r, k, x, v). split; [reflexivity|exact H1]. }
  rewrite EQ in Q. rewrite Q in Q'. apply Permutation_cons_inv in Q'. exact Q'.
Qed.

Lemma inv_perm h t m m' : inv h t m -> Permutation m m' -> inv h t m'.
Proof.
  intros V Q. constructor; [|exact (iv_hash _ _ _ V)|].
  - eapply HH_perm; [exact (iv_history _ _ _ V)|]. apply Permutation_map. exact Q.
  - intros a Ha. apply (iv_given _ _ _ V). apply (Permutation_in _ (Permutation_sym Q)). exact Ha.
Qed.

Lemma op_inv h t m h' r m' : inv h t m -> k_op t h m h' r m' -> inv h' t m' /\ kept t m m' h h'.
Proof.
  assert (SAME : forall h t (m : list (entry (X := X))), kept t m m h h).
  { intros h0 t0 m0. split; [intros y N _; split; [reflexivity|exact N]|]. split; [reflexivity|]. intros y O N. contradiction. }
  intros V O. destruct O as [k x v r e Gk Fm A E G|k x v r e k' x' Gk Hin Cx E|k x v r e k' x' w e' m' Gk Q Cx N E G|k x r e k' x' v m' K Q Cx E
    |k x r K A E|e k x v m' Q E|e k x v m' Q E|r k x v m' Q E].
  - destruct (put_new_inv _ _ _ _ _ v V Gk Fm A) as (e1 & h1 & E1 & G1 & V1 & F). rewrite E in E1. injection E1 as -> ->.
    rewrite G in G1. injection G1 as ->. auto.
  - rewrite (put_same_inv _ _ _ _ _ _ _ _ _ V (proj1 Gk) Hin Cx) in E. injection E as <- <-. auto.
  - destruct (put_replace_inv _ _ _ _ _ v _ _ _ _ _ V Gk Q Cx N) as (e1 & h1 & E1 & G1 & V1 & F & _). rewrite E in E1. injection E1 as -> ->.
    rewrite G in G1. injection G1 as ->. auto.
  - destruct (pop_inv _ _ _ _ _ _ _ _ _ _ V K Q Cx) as (h1 & E1 & V1 & F & _). rewrite E in E1. injection E1 as -> ->. auto.
  - rewrite (pop_none_inv _ _ _ _ _ V K A) in E. injection E as <- <-. auto.
  - destruct (detach_inv _ _ _ _ _ _ _ _ V Q) as (h1 & E1 & V1 & F & _). rewrite E in E1. injection E1 as ->. auto.
  - destruct (remove_inv _ _ _ _ _ _ _ _ V Q) as (h1 & E1 & V1 & F & _). rewrite E in E1. injection E1 as ->. auto.
  - destruct (proj2 (pop_any_inv _ _ _ V)) as (e1 & k1 & x1 & v1 & m1 & h1 & Q1 & E1 & V1 & F & _).
    { intros ->. apply Permutation_nil in Q. discriminate. }
    rewrite E in E1. injection E1 as -> ->.
    assert (Q' : Permutation m1 m') by (eapply elem_unique; [exact V|exact Q1|exact Q|reflexivity]).
    split; [eapply inv_perm; [exact V1|exact Q']|]. destruct F as (F1 & F2 & F3). split; [exact F1|]. split; [exact F2|].
    intros y O O'. destruct (F3 y O O') as [G|(G & I & N)]; [left; exact G|right]. split; [exact G|]. split; [exact I|].
    intros k2 x2 v2 I2. apply (N k2 x2 v2). exact (Permutation_in _ (Permutation_sym Q') I2).
Qed.

Lemma make_inv h capacity : 0 <= capacity < 2 ^ 64 ->
  exists t h', make_hash_table capacity hash cmp h = Ok (t, h') /\ inv h' t [] /\
    (forall y, owned h' t y -> get h y = None) /\ (forall y, ~ owned h' t y -> get h' y = get h y).
Proof.
  intros R. destruct (make_ok True (fn_at h) hash cmp capacity h (fun _ => fn_legal h)) as (c & t & arr & h' & _ & E & I & _).
  exists t, h'. split; [exact E|]. split.
  - constructor; [|eexists; split; [exact (ih_table _ _ _ _ _ _ _ _ I)|reflexivity]|intros a []].
    eapply HH_make; [exact R|exact (fn_legal h')|exact E].
  - destruct (make_foreign (fn_at h) hash cmp capacity h (fn_legal h)) as (t1 & h1 & E1 & A & B). rewrite E in E1. injection E1 as <- <-.
    split; [intros y O; exact (proj1 (A y O))|exact B].
Qed.

Lemma keyed_inv h t m : keyed h t m -> inv h t m.
Proof.
  induction 1 as [h capacity t h' R E|h t m r h' m' K V O|h t m m' K V Q|h t m h' K V F A].
  - destruct (make_inv h capacity R) as (t1 & h1 & E1 & V & _). rewrite E in E1. injection E1 as <- <-. exact V.
  - exact (proj1 (op_inv _ _ _ _ _ _ V O)).
  - eapply inv_perm; eauto.
  - destruct (inv_ht _ _ _ V) as (arr & bs & I & Hd).
    assert (OW : forall y, owned h t y <-> In y (fp t arr bs)) by (intros y; exact (owned_fp _ _ _ _ _ _ _ _ _ I)).
    assert (I' : is_ht True (fn_at h) hash cmp h' t arr bs).
    { eapply ht_frame; [exact I|]. intros y Hy. apply F. apply OW. exact Hy. }
    apply (change h).
    + eapply HH_other; [exact (iv_history _ _ _ V)|exact F].
    + eexists. split; [exact (ih_table _ _ _ _ _ _ _ _ I')|reflexivity].
    + intros a Ha. exact (proj1 (iv_given _ _ _ V _ Ha)).
    + intros a Ha. split; [exact (A a Ha)|]. rewrite (owned_fp _ _ _ _ _ _ _ _ _ I'), <- OW. exact (proj2 (iv_given _ _ _ V _ Ha)).
Qed.

(** * The theorems *)

Lemma make_keyed h capacity : 0 <= capacity < 2 ^ 64 ->
  exists t h', make_hash_table capacity hash cmp h = Ok (t, h') /\ keyed h' t [] /\
    (forall y, owned h' t y -> get h y = None) /\ (forall y, ~ owned h' t y -> get h' y = get h y).
Proof.
  intros R. destruct (make_inv h capacity R) as (t & h' & E & _ & F). exists t, h'. split; [exact E|]. split; [|exact F].
  eapply K_make; eauto.
Qed.
Lemma get_keyed h t m k x : keyed h t m -> key_at h k x ->
  (forall e k' x' v, In (e, k', x', v) m -> C x x' = 0 -> k_hash_table_get cb t k h = Ok (e, h)) /\
  (missing C x m -> k_hash_table_get cb t k h = Ok (0, h)).
Proof. intros K. apply get_inv, keyed_inv, K. Qed.
Lemma put_new_keyed h t m k x v : keyed h t m -> given h t k x -> few m -> missing C x m ->
  exists e h', k_hash_table_put cb t k v h = Ok (0, h') /\ keyed h' t ((e, k, x, v) :: m) /\ kept t m ((e, k, x, v) :: m) h h'.
Proof.
  intros K G Fm A. destruct (put_new_inv h t m k x v (keyed_inv _ _ _ K) G Fm A) as (e & h' & E1 & E2 & _ & F).
  exists e, h'. split; [exact E1|]. split; [|exact F]. eapply K_op; [exact K|]. eapply KO_put_new; eauto.
Qed.
Lemma put_same_keyed h t m k x e k' x' v : keyed h t m -> key_at h k x -> In (e, k', x', v) m -> C x x' = 0 ->
  k_hash_table_put cb t k v h = Ok (0, h).
Proof. intros K. apply put_same_inv, keyed_inv, K. Qed.
Lemma put_replace_keyed h t m k x v e' k' x' w m' : keyed h t m -> given h t k x -> Permutation m ((e', k', x', w) :: m') ->
  C x x' = 0 -> w <> v ->
  exists e h', k_hash_table_put cb t k v h = Ok (e', h') /\ keyed h' t ((e, k, x, v) :: m') /\ kept t m ((e, k, x, v) :: m') h h' /\ e <> e' /\
    hash_elem_get_key e' h' = Ok (k', h') /\ hash_elem_get_value e' h' = Ok (w, h') /\ ~ owned h' t e'.
Proof.
  intros K G Q Cx N. destruct (put_replace_inv h t m k x v e' k' x' w m' (keyed_inv _ _ _ K) G Q Cx N) as (e & h' & E1 & E2 & _ & F & R).
  exists e, h'. split; [exact E1|]. split; [|split; [exact F|exact R]]. eapply K_op; [exact K|]. eapply KO_put_replace; eauto.
Qed.
Lemma pop_keyed h t m k x e k' x' v m' : keyed h t m -> key_at h k x -> Permutation m ((e, k', x', v) :: m') -> C x x' = 0 ->
  exists h', k_hash_table_pop cb t k h = Ok (e, h') /\ keyed h' t m' /\ kept t m m' h h' /\
    hash_elem_get_key e h' = Ok (k', h') /\ hash_elem_get_value e h' = Ok (v, h') /\ ~ owned h' t e.
Proof.
  intros K L Q Cx. destruct (pop_inv h t m k x e k' x' v m' (keyed_inv _ _ _ K) L Q Cx) as (h' & E1 & _ & R).
  exists h'. split; [exact E1|]. split; [|exact R]. eapply K_op; [exact K|]. eapply KO_pop; eauto.
Qed.
Lemma pop_none_keyed h t m k x : keyed h t m -> key_at h k x -> missing C x m -> k_hash_table_pop cb t k h = Ok (0, h).
Proof. intros K. apply pop_none_inv, keyed_inv, K. Qed.
Lemma detach_keyed h t m e k x v m' : keyed h t m -> Permutation m ((e, k, x, v) :: m') ->
  exists h', hash_table_detach t e h = Ok (tt, h') /\ keyed h' t m' /\ kept t m m' h h' /\
    hash_elem_get_key e h' = Ok (k, h') /\ hash_elem_get_value e h' = Ok (v, h') /\ ~ owned h' t e.
Proof.
  intros K Q. destruct (detach_inv h t m e k x v m' (keyed_inv _ _ _ K) Q) as (h' & E1 & _ & R).
  exists h'. split; [exact E1|]. split; [|exact R]. eapply K_op; [exact K|]. eapply KO_detach; eauto.
Qed.
Lemma remove_keyed h t m e k x v m' : keyed h t m -> Permutation m ((e, k, x, v) :: m') ->
  exists h', hash_table_remove t e h = Ok (tt, h') /\ keyed h' t m' /\ kept t m m' h h' /\ get h' e = None.
Proof.
  intros K Q. destruct (remove_inv h t m e k x v m' (keyed_inv _ _ _ K) Q) as (h' & E1 & _ & R).
  exists h'. split; [exact E1|]. split; [|exact R]. eapply K_op; [exact K|]. eapply KO_remove; eauto.
Qed.
Lemma pop_any_keyed h t m : keyed h t m ->
  (m = [] -> hash_table_pop_any t h = Ok (0, h)) /\
  (m <> [] -> exists e k x v m' h', Permutation m ((e, k, x, v) :: m') /\ hash_table_pop_any t h = Ok (e, h') /\ keyed h' t m' /\ kept t m m' h h' /\
    hash_elem_get_key e h' = Ok (k, h') /\ hash_elem_get_value e h' = Ok (v, h') /\ ~ owned h' t e).
Proof.
  intros K. destruct (pop_any_inv h t m (keyed_inv _ _ _ K)) as [A B]. split; [exact A|]. intros N.
  destruct (B N) as (e & k & x & v & m' & h' & Q & E1 & _ & R). exists e, k, x, v, m', h'. split; [exact Q|]. split; [exact E1|].
  split; [|exact R]. eapply K_op; [exact K|]. eapply KO_pop_any; eauto.
Qed.
Lemma look_keyed h t m n : keyed h t m -> (length m <= n)%nat ->
  hash_table_size t h = Ok (zlen m, h) /\ hash_table_empty t h = Ok (match m with [] => true | _ => false end, h) /\
  (forall a, In a m -> elem a <> 0 /\ hash_elem_get_key (elem a) h = Ok (address a, h) /\ hash_elem_get_value (elem a) h = Ok (value a, h)) /\
  (exists es, all_elements t n h = Ok (es, h) /\ Permutation es (map elem m) /\ NoDup es).
Proof.
  intros K Hn. pose proof (iv_history _ _ _ (keyed_inv _ _ _ K)) as Hh. destruct (size_history _ _ _ _ _ Hh) as [S1 S2].
  split; [|split; [|split]].
  - rewrite S1. unfold zlen. rewrite map_length. reflexivity.
  - rewrite S2. destruct m; reflexivity.
  - intros a Ha. apply (element_history _ _ _ _ _ _ _ _ Hh). apply in_map_iff. exists a. split; [reflexivity|exact Ha].
  - destruct (traversal_history _ _ _ _ _ n Hh) as (es & E & Q & N); [rewrite map_length; exact Hn|].
    exists es. split; [exact E|]. split; [|exact N]. rewrite map_map in Q. exact Q.
Qed.
Lemma keys_keyed h t m : keyed h t m ->
  (forall a, In a m -> given h t (address a) (content a)) /\
  (forall a b rest, Permutation m (a :: b :: rest) -> C (content a) (content b) <> 0).
Proof.
  intros K. pose proof (keyed_inv _ _ _ K) as V. split; [exact (iv_given _ _ _ V)|].
  intros a b rest Q. pose proof (Permutation_map strip Q) as Q'. cbn [map] in Q'.
  destruct (unique_history _ _ _ _ _ _ _ _ (iv_history _ _ _ V) Q') as [U _].
  change (a_key (strip a)) with (address a) in U. change (a_key (strip b)) with (address b) in U.
  rewrite (cmp_keys h (address a) (content a) (address b) (content b)) in U; [exact U| |].
  - apply (iv_given _ _ _ V). exact (perm_hd _ _ _ Q).
  - apply (iv_given _ _ _ V). apply (Permutation_in _ (Permutation_sym Q)). right; left; reflexivity.
Qed.
Lemma destroy_keyed h t m : keyed h t m ->
  exists h', destroy_hash_table t h = Ok (tt, h') /\ (forall y, owned h t y -> get h' y = None) /\
    (forall y, ~ owned h t y -> get h' y = get h y).
Proof. intros K. exact (destroy_history _ _ _ _ _ (iv_history _ _ _ (keyed_inv _ _ _ K))). Qed.
End Keys.
