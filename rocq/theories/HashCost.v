(** The keys that hash table functions compare (C108). *)
From Verif Require Import Base Heap ListModel ListSpec ListProofs HashModel HashSpec HashProofs HashAnySpec HashAny HashCostModel.

Lemma bnd_ext {A B} (m : M A) (f g : A -> M B) h : (forall a h', f a h' = g a h') -> bnd m f h = bnd m g h.
Proof. intros E. unfold bnd. destruct (m h) as [[a h']| | |]; [apply E|reflexivity..]. Qed.

Lemma get_loop_same fn n : forall t k le h,
  bnd (ht_get_loop_recorded fn n t k le) (fun r => ret (fst r)) h = ht_get_loop fn n t k le h.
Proof.
  induction n as [|n IH]; intros t k le h; cbn [ht_get_loop ht_get_loop_recorded]; [reflexivity|].
  destruct (le =? 0); [reflexivity|].
  rewrite bnd_assoc. apply bnd_ext; intros el h1. rewrite bnd_assoc. apply bnd_ext; intros c h2.
  rewrite bnd_assoc. apply bnd_ext; intros e h3. destruct (_ =? 0); [reflexivity|].
  rewrite bnd_assoc. apply bnd_ext; intros le' h4. rewrite <- (IH t k le' h4), bnd_assoc. apply bnd_ext. reflexivity.
Qed.
Lemma get_same fn t k h :
  bnd (hash_table_get_recorded fn t k) (fun r => ret (fst r)) h = hash_table_get fn t k h.
Proof.
  unfold hash_table_get_recorded, hash_table_get.
  rewrite bnd_assoc. apply bnd_ext; intros i h1. rewrite bnd_assoc. apply bnd_ext; intros l h2.
  destruct (l =? 0); [reflexivity|].
  rewrite bnd_assoc. apply bnd_ext; intros n h3. rewrite bnd_assoc. apply bnd_ext; intros le h4. apply get_loop_same.
Qed.
Lemma put_loop_same fn n : forall t i l k v le h,
  bnd (ht_put_loop_recorded fn n t i l k v le) (fun r => ret (fst r)) h = ht_put_loop fn n t i l k v le h.
Proof.
  induction n as [|n IH]; intros t i l k v le h; cbn [ht_put_loop ht_put_loop_recorded]; [reflexivity|].
  destruct (le =? 0).
  - rewrite bnd_assoc. apply bnd_ext; intros u h1. rewrite bnd_assoc. apply bnd_ext; reflexivity.
  - rewrite bnd_assoc. apply bnd_ext; intros el h1. rewrite bnd_assoc. apply bnd_ext; intros c h2.
    rewrite bnd_assoc. apply bnd_ext; intros e h3. destruct (_ =? 0).
    + rewrite bnd_assoc. apply bnd_ext; intros ov h4. destruct (ov =? v); [reflexivity|].
      rewrite bnd_assoc. apply bnd_ext; intros u h5. rewrite bnd_assoc. apply bnd_ext; reflexivity.
    + rewrite bnd_assoc. apply bnd_ext; intros le' h4. rewrite <- (IH t i l k v le' h4), bnd_assoc. apply bnd_ext. reflexivity.
Qed.
Lemma put_same fn t k v h :
  bnd (hash_table_put_recorded fn t k v) (fun r => ret (fst r)) h = hash_table_put fn t k v h.
Proof.
  unfold hash_table_put_recorded, hash_table_put.
  rewrite bnd_assoc. apply bnd_ext; intros i h1. rewrite bnd_assoc. apply bnd_ext; intros l h2.
  destruct (l =? 0).
  - rewrite bnd_assoc. apply bnd_ext; intros u h3. rewrite bnd_assoc. apply bnd_ext; intros u' h4.
    rewrite bnd_assoc. apply bnd_ext; intros u'' h5. rewrite bnd_assoc. apply bnd_ext; reflexivity.
  - rewrite bnd_assoc. apply bnd_ext; intros n h3. rewrite bnd_assoc. apply bnd_ext; intros le h4. apply put_loop_same.
Qed.
Lemma pop_same fn t k h :
  bnd (hash_table_pop_recorded fn t k) (fun r => ret (fst r)) h = hash_table_pop fn t k h.
Proof.
  unfold hash_table_pop_recorded, hash_table_pop. rewrite bnd_assoc.
  assert (G : bnd (hash_table_get fn t k) (fun e => do! (if e =? 0 then ret tt else hash_table_detach t e) in ret e) h =
              bnd (bnd (hash_table_get_recorded fn t k) (fun r => ret (fst r)))
                (fun e => do! (if e =? 0 then ret tt else hash_table_detach t e) in ret e) h).
  { unfold bnd at 1 3. rewrite get_same. reflexivity. }
  rewrite G, bnd_assoc. apply bnd_ext; intros [e log] h1. cbn [fst]. rewrite bnd_assoc. rewrite bnd_ret. reflexivity.
Qed.

Section Recorded.
Context (law : Prop) (fn : code) (hash cmp : Z).
Notation is_ht := (is_ht law fn hash cmp).
Notation index_of := (index_of fn hash).

Lemma get_loop_recorded h t i l size cap arr k pre xs n :
  get h t = Some (CHtab (mk_htab cap size hash cmp arr)) ->
  is_list h l (pairs (pre ++ xs)) -> (forall x, In x xs -> get h (n_he x) = Some (hcell t i x)) ->
  (length xs < n)%nat ->
  exists e seen rest, xs = seen ++ rest /\
    ht_get_loop_recorded fn n t k (hd_addr (pairs xs) 0) h = Ok ((e, map n_key seen), h).
Proof.
  intros Ht. revert pre n; induction xs as [|x xs IH]; intros pre n IL HC Hn; (destruct n as [|n]; [lia|]).
  - exists 0, [], []. split; reflexivity.
  - rewrite pairs_app in IL. cbn [pairs map] in IL. cbn [ht_get_loop_recorded pairs map hd_addr].
    destruct (il_mid _ _ _ _ _ _ IL) as (_ & Ne & _). rewrite (proj2 (Z.eqb_neq (n_le x) 0)) by exact Ne.
    rewrite (bnd_Ok _ _ _ _ _ (get_value_ok _ _ _ _ _ _ IL)). rewrite (step_ld_htab _ _ _ _ Ht).
    rewrite (step_ld_helem _ _ _ _ (HC x (or_introl eq_refl))). cbn [ht_cmp he_key hcell].
    destruct (call_cmp fn cmp k (n_key x) =? 0) eqn:E.
    + exists (n_he x), [x], xs. split; reflexivity.
    + rewrite (bnd_Ok _ _ _ _ _ (next_ok _ _ _ _ _ _ IL)).
      destruct (IH (pre ++ [x]) n) as (e & seen & rest & -> & EQ).
      * rewrite <- app_assoc, pairs_app. exact IL.
      * intros y Hy. apply HC. right; auto.
      * simpl in Hn; lia.
      * exists e, (x :: seen), rest. split; [reflexivity|]. fold (pairs (seen ++ rest)).
        rewrite (bnd_Ok _ _ _ _ _ EQ). reflexivity.
Qed.

Lemma put_loop_recorded h t i l size cap arr k v pre xs n :
  get h t = Some (CHtab (mk_htab cap size hash cmp arr)) ->
  is_list h l (pairs (pre ++ xs)) -> (forall x, In x xs -> get h (n_he x) = Some (hcell t i x)) ->
  (length xs < n)%nat ->
  exists seen rest, xs = seen ++ rest /\ forall r h',
    ht_put_loop fn n t i l k v (hd_addr (pairs xs) 0) h = Ok (r, h') ->
    ht_put_loop_recorded fn n t i l k v (hd_addr (pairs xs) 0) h = Ok ((r, map n_key seen), h').
Proof.
  intros Ht. revert pre n; induction xs as [|x xs IH]; intros pre n IL HC Hn; (destruct n as [|n]; [lia|]).
  - exists [], []. split; [reflexivity|]. intros r h'. cbn [ht_put_loop ht_put_loop_recorded pairs map hd_addr].
    change (0 =? 0) with true. cbv iota. unfold bnd, ret. destruct (add_element t i k v h) as [[u h1]| | |]; try discriminate.
    destruct (ht_size_inc t h1) as [[u1 h2]| | |]; try discriminate. intros E; injection E as <- <-. reflexivity.
  - rewrite pairs_app in IL. cbn [pairs map] in IL. cbn [ht_put_loop ht_put_loop_recorded pairs map hd_addr].
    destruct (il_mid _ _ _ _ _ _ IL) as (_ & Ne & _). rewrite (proj2 (Z.eqb_neq (n_le x) 0)) by exact Ne.
    pose proof (HC x (or_introl eq_refl)) as Hx.
    destruct (call_cmp fn cmp k (n_key x) =? 0) eqn:E.
    + exists [x], xs. split; [reflexivity|]. intros r h'.
      rewrite !(bnd_Ok _ _ _ _ _ (get_value_ok _ _ _ _ _ _ IL)), !(step_ld_htab _ _ _ _ Ht), !(step_ld_helem _ _ _ _ Hx).
      cbn [ht_cmp he_key hcell]. rewrite E.
      unfold hash_elem_get_value. rewrite !bnd_assoc, !(step_ld_helem _ _ _ _ Hx), !bnd_ret. cbn [he_value hcell].
      destruct (n_val x =? v); [intros Q; injection Q as <- <-; reflexivity|].
      unfold bnd, ret. destruct (list_remove l (n_le x) h) as [[u h1]| | |]; try discriminate.
      destruct (add_element t i k v h1) as [[u1 h2]| | |]; try discriminate. intros Q; injection Q as <- <-. reflexivity.
    + destruct (IH (pre ++ [x]) n) as (seen & rest & -> & EQ).
      * rewrite <- app_assoc, pairs_app. exact IL.
      * intros y Hy. apply HC. right; auto.
      * simpl in Hn; lia.
      * exists (x :: seen), rest. split; [reflexivity|]. intros r h'.
        rewrite !(bnd_Ok _ _ _ _ _ (get_value_ok _ _ _ _ _ _ IL)), !(step_ld_htab _ _ _ _ Ht), !(step_ld_helem _ _ _ _ Hx).
        cbn [ht_cmp he_key hcell]. rewrite E.
        rewrite !(bnd_Ok _ _ _ _ _ (next_ok _ _ _ _ _ _ IL)). fold (pairs (seen ++ rest)).
        intros Q. rewrite (bnd_Ok _ _ _ _ _ (EQ _ _ Q)). reflexivity.
Qed.

(** The elements of the bucket of a key. *)
Definition in_bucket (bs : list bkt) (k : Z) (seen : list ent) : Prop :=
  exists rest, Permutation (ents bs) (seen ++ rest) /\
    (law -> forall x, In x seen -> index_of (zlen bs) (n_key x) = index_of (zlen bs) k).

Lemma bucket_prefix h t arr bs k B1 l seen rest B2 : is_ht h t arr bs ->
  bs = B1 ++ (l, seen ++ rest) :: B2 -> zlen B1 = index_of (zlen bs) k -> in_bucket bs k seen.
Proof.
  intros I E L. exists (rest ++ ents B1 ++ ents B2). split.
  - rewrite E, ents_app, ents_cons. cbn [snd]. rewrite (Permutation_app_comm (ents B1)).
    rewrite <- !app_assoc. apply Permutation_app_head. apply Permutation_app_head. apply Permutation_app_comm.
  - intros La x Hx. destruct (ent_index law fn hash cmp _ _ _ _ _ _ _ x I E) as (Hi & _).
    { cbn [snd]. apply in_app_iff. auto. }
    rewrite (Hi La). exact L.
Qed.

Lemma get_recorded h t arr bs k : is_ht h t arr bs ->
  exists e seen, hash_table_get_recorded fn t k h = Ok ((e, map n_key seen), h) /\ in_bucket bs k seen.
Proof.
  intros I. pose proof (ih_cap _ _ _ _ _ _ _ _ I) as HC. pose proof (ih_table _ _ _ _ _ _ _ _ I) as Ht. pose proof (ih_slots _ _ _ _ _ _ _ _ I) as Ha.
  unfold hash_table_get_recorded. rewrite (bnd_Ok _ _ _ _ _ (bucket_index_ok fn hash cmp _ _ _ _ _ k (proj1 HC) Ht)).
  destruct (lookup_cases law fn hash cmp _ _ _ _ k I) as (B1 & l & xs & B2 & E & L & _).
  rewrite <- L. rewrite E in Ha. rewrite (bnd_Ok _ _ _ _ _ (ld_slot_ok _ _ _ _ _ _ Ht Ha)). cbn [fst].
  destruct (bucket_at law fn hash cmp _ _ _ _ _ _ _ I E) as [[E1 E2]|[IL HE]]; simpl in *.
  - subst l xs. exists 0, []. split; [reflexivity|]. exact (bucket_prefix _ _ _ _ _ _ _ [] [] _ I E L).
  - rewrite (proj2 (Z.eqb_neq l 0)) by (apply (il_nonnull _ _ _ _ IL); left; reflexivity).
    erewrite bnd_Ok by reflexivity. rewrite (bnd_Ok _ _ _ _ _ (get_first_ok _ _ _ IL)).
    destruct (get_loop_recorded h t (zlen B1) l _ _ _ k [] xs (S (length (mem h))) Ht IL) as (e & seen & rest & Ex & EQ).
    { intros x Hx. apply HE; auto. }
    { apply (ht_fuel _ _ _ IL). }
    exists e, seen. split; [exact EQ|]. subst xs. exact (bucket_prefix _ _ _ _ _ _ _ _ _ _ I E L).
Qed.

Lemma put_recorded h t arr bs k v : is_ht h t arr bs ->
  exists seen, in_bucket bs k seen /\ forall r h',
    hash_table_put fn t k v h = Ok (r, h') -> hash_table_put_recorded fn t k v h = Ok ((r, map n_key seen), h').
Proof.
  intros I. pose proof (ih_cap _ _ _ _ _ _ _ _ I) as HC. pose proof (ih_table _ _ _ _ _ _ _ _ I) as Ht. pose proof (ih_slots _ _ _ _ _ _ _ _ I) as Ha.
  unfold hash_table_put_recorded, hash_table_put.
  destruct (lookup_cases law fn hash cmp _ _ _ _ k I) as (B1 & l & xs & B2 & E & L & _).
  rewrite E in Ha.
  destruct (bucket_at law fn hash cmp _ _ _ _ _ _ _ I E) as [[E1 E2]|[IL HE]]; simpl in *.
  - subst l xs. exists []. split; [exact (bucket_prefix _ _ _ _ _ _ _ [] [] _ I E L)|]. intros r h'.
    rewrite !(bnd_Ok _ _ _ _ _ (bucket_index_ok fn hash cmp _ _ _ _ _ k (proj1 HC) Ht)), <- L.
    rewrite !(bnd_Ok _ _ _ _ _ (ld_slot_ok _ _ _ _ _ _ Ht Ha)). cbn [fst]. change (0 =? 0) with true. cbv iota.
    unfold bnd, ret. destruct (make_list h) as [[l h1]| | |]; try discriminate.
    destruct (st_slot _ _ _ h1) as [[u h2]| | |]; try discriminate.
    destruct (add_element _ _ _ _ h2) as [[u1 h3]| | |]; try discriminate.
    destruct (ht_size_inc _ h3) as [[u2 h4]| | |]; try discriminate. intros Q; injection Q as <- <-. reflexivity.
  - destruct (put_loop_recorded h t (zlen B1) l _ _ _ k v [] xs (S (length (mem h))) Ht IL) as (seen & rest & Ex & EQ).
    { intros x Hx. apply HE; auto. }
    { apply (ht_fuel _ _ _ IL). }
    exists seen. split; [subst xs; exact (bucket_prefix _ _ _ _ _ _ _ _ _ _ I E L)|]. intros r h'.
    rewrite !(bnd_Ok _ _ _ _ _ (bucket_index_ok fn hash cmp _ _ _ _ _ k (proj1 HC) Ht)), <- L.
    rewrite !(bnd_Ok _ _ _ _ _ (ld_slot_ok _ _ _ _ _ _ Ht Ha)). cbn [fst].
    rewrite (proj2 (Z.eqb_neq l 0)) by (apply (il_nonnull _ _ _ _ IL); left; reflexivity).
    assert (Fu : fuel h = Ok (S (length (mem h)), h)) by reflexivity. rewrite !(bnd_Ok _ _ _ _ _ Fu).
    rewrite !(bnd_Ok _ _ _ _ _ (get_first_ok _ _ _ IL)). apply EQ.
Qed.
End Recorded.

Lemma holds_seen law fn hash bs m k seen : holds bs m -> in_bucket law fn hash bs k seen ->
  exists m2, Permutation m (map assoc_of seen ++ m2) /\ map a_key (map assoc_of seen) = map n_key seen /\
    (law -> forall a, In a (map assoc_of seen) -> index_of fn hash (zlen bs) (a_key a) = index_of fn hash (zlen bs) k).
Proof.
  intros P (rest & Q & S). exists (map assoc_of rest). split; [|split].
  - unfold holds in P. rewrite P, Q, map_app. reflexivity.
  - rewrite map_map. reflexivity.
  - intros La a Ha. apply in_map_iff in Ha. destruct Ha as (x & <- & Hx). exact (S La x Hx).
Qed.

(** The layout of a table with laws. *)
Lemma ht_any fn hash cmp h t arr bs : is_ht True fn hash cmp h t arr bs -> is_ht False fn hash cmp h t arr bs.
Proof.
  intros [L1 L2 L3 L4 L5 L6 L7 L8]. constructor; auto; try tauto.
  clear - L5. revert L5. generalize 0 at 1 2. generalize (zlen bs). induction bs as [|b bs IH]; intros cap i; cbn [buckets_ok]; [auto|].
  intros [A B]. split; [|exact (IH _ _ B)]. destruct A as [A|[A1 A2]]; [left; exact A|right]. split; [exact A1|].
  intros x Hx. destruct (A2 x Hx) as [A3 _]. split; [exact A3|tauto].
Qed.
