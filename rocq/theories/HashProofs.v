From Verif Require Import Base Heap ListModel ListSpec ListProofs HashModel HashSpec.
From Coq Require Import ZifyBool ZifyNat.

(** An association as it is stored: list element, hash element, key, value. *)
Record ent := mk_ent { n_le : Z; n_he : Z; n_key : Z; n_val : Z }.
Definition pairs (xs : list ent) : list (Z * Z) := map (fun x => (n_le x, n_he x)) xs.
Definition assoc_of (x : ent) : assoc := (n_he x, n_key x, n_val x).
Definition hcell (t i : Z) (x : ent) : cell := CHelem (mk_helem t i (n_le x) (n_key x) (n_val x)).

(** A bucket: the list (or NULL) and what is in it. *)
Notation bkt := (prod Z (list ent)).
Definition cells (b : bkt) : list Z :=
  if fst b =? 0 then [] else footprint (fst b) (pairs (snd b)) ++ map n_he (snd b).
Definition ents (bs : list bkt) : list ent := concat (map snd bs).
Definition all_cells (bs : list bkt) : list Z := concat (map cells bs).

Lemma NoDup_app_split {A} (xs ys : list A) : NoDup (xs ++ ys) -> NoDup xs /\ NoDup ys /\ (forall x, In x xs -> ~ In x ys).
Proof.
  induction xs as [|a xs IH]; simpl; intros H; [repeat split; auto; constructor|].
  inversion H as [|? ? H1 H2]; subst. destruct (IH H2) as (A1 & A2 & A3). rewrite in_app_iff in H1.
  repeat split; auto; [constructor; tauto|]. intros x [<-|Hx]; [tauto|auto].
Qed.
Lemma NoDup_app_join {A} (xs ys : list A) : NoDup xs -> NoDup ys -> (forall x, In x xs -> ~ In x ys) -> NoDup (xs ++ ys).
Proof.
  induction xs as [|a xs IH]; simpl; intros H1 H2 H3; [auto|]. inversion H1 as [|? ? H4 H5]; subst.
  constructor; [rewrite in_app_iff; intros [X|X]; [tauto|]; exact (H3 a (or_introl eq_refl) X)|].
  apply IH; auto.
Qed.

(** Whether the hash and comparison functions obey their laws is kept apart
    from the layout of the table: what depends on the laws is stated under [law]. *)
Section Table.
Context (law : Prop) (fn : code) (hash cmp : Z).

Definition index_of (cap k : Z) : Z := u64 (call_hash fn hash k) mod cap.
Definition bucket_ok (cap : Z) (h : heap) (t i : Z) (b : bkt) : Prop :=
  (fst b = 0 /\ snd b = []) \/
  (is_list h (fst b) (pairs (snd b)) /\
   forall x, In x (snd b) -> get h (n_he x) = Some (hcell t i x) /\ (law -> index_of cap (n_key x) = i)).
Fixpoint buckets_ok (cap : Z) (h : heap) (t i : Z) (bs : list bkt) : Prop :=
  match bs with
  | [] => True
  | b :: bs => bucket_ok cap h t i b /\ buckets_ok cap h t (i + 1) bs
  end.
Fixpoint distinct (xs : list ent) : Prop :=
  match xs with
  | [] => True
  | x :: xs => (forall y, In y xs -> call_cmp fn cmp (n_key x) (n_key y) <> 0) /\ distinct xs
  end.

Record is_ht (h : heap) (t arr : Z) (bs : list bkt) : Prop := {
  ih_legal : law -> legal fn hash cmp;
  ih_table : get h t = Some (CHtab (mk_htab (zlen bs) (zlen (ents bs)) hash cmp arr));
  ih_slots : get h arr = Some (CSlots (map fst bs));
  ih_cap : 0 < zlen bs < 2 ^ 64;
  ih_buckets : buckets_ok (zlen bs) h t 0 bs;
  ih_nodup : NoDup (t :: arr :: all_cells bs);
  ih_distinct : law -> distinct (ents bs);
  ih_size : zlen (ents bs) <= 2 ^ 60
}.

Lemma buckets_app cap h t i xs ys :
  buckets_ok cap h t i (xs ++ ys) <-> buckets_ok cap h t i xs /\ buckets_ok cap h t (i + zlen xs) ys.
Proof.
  revert i; induction xs as [|b xs IH]; intros i; cbn [buckets_ok app].
  - change (zlen (@nil bkt)) with 0. rewrite Z.add_0_r. tauto.
  - rewrite IH, zlen_cons. replace (i + 1 + zlen xs) with (i + (1 + zlen xs)) by lia. tauto.
Qed.
Lemma ents_app xs ys : ents (xs ++ ys) = ents xs ++ ents ys.
Proof. unfold ents. rewrite map_app, concat_app. reflexivity. Qed.
Lemma ents_cons b ys : ents (b :: ys) = snd b ++ ents ys.
Proof. reflexivity. Qed.
Lemma all_cells_app xs ys : all_cells (xs ++ ys) = all_cells xs ++ all_cells ys.
Proof. unfold all_cells. rewrite map_app, concat_app. reflexivity. Qed.
Lemma all_cells_cons b ys : all_cells (b :: ys) = cells b ++ all_cells ys.
Proof. reflexivity. Qed.

Lemma bucket_frame cap h h' t i b :
  (forall x, In x (cells b) -> get h' x = get h x) -> bucket_ok cap h t i b -> bucket_ok cap h' t i b.
Proof.
  intros F [[E1 E2]|[I H]]; [left; auto|right].
  assert (N : fst b <> 0) by (apply (il_nonnull _ _ _ _ I); left; reflexivity).
  unfold cells in F. rewrite (proj2 (Z.eqb_neq _ _) N) in F. split.
  - eapply il_frame; [|exact I]. intros x Hx. apply F. apply in_app_iff. auto.
  - intros x Hx. destruct (H x Hx) as [H1 H2]. split; [|exact H2]. rewrite F; [exact H1|].
    apply in_app_iff. right. apply in_map. exact Hx.
Qed.
Lemma buckets_frame cap h h' t i bs :
  (forall x, In x (all_cells bs) -> get h' x = get h x) -> buckets_ok cap h t i bs -> buckets_ok cap h' t i bs.
Proof.
  revert i; induction bs as [|b bs IH]; intros i F; cbn [buckets_ok]; [auto|].
  rewrite all_cells_cons in F. intros [H1 H2]. split.
  - eapply bucket_frame; [|exact H1]. intros x Hx. apply F. apply in_app_iff; auto.
  - apply IH; auto. intros x Hx. apply F. apply in_app_iff; auto.
Qed.
Lemma bucket_alloc cap h t i b x : bucket_ok cap h t i b -> In x (cells b) -> get h x <> None.
Proof.
  intros [[E1 E2]|[I H]] Hx; unfold cells in Hx.
  - rewrite E1 in Hx. destruct Hx.
  - assert (N : fst b <> 0) by (apply (il_nonnull _ _ _ _ I); left; reflexivity).
    rewrite (proj2 (Z.eqb_neq _ _) N) in Hx. apply in_app_iff in Hx. destruct Hx as [Hx|Hx].
    + eapply il_alloc; eauto.
    + apply in_map_iff in Hx. destruct Hx as (y & <- & Hy). destruct (H y Hy) as [E _]. congruence.
Qed.
Lemma buckets_alloc cap h t i bs x : buckets_ok cap h t i bs -> In x (all_cells bs) -> get h x <> None.
Proof.
  revert i; induction bs as [|b bs IH]; intros i; cbn [buckets_ok]; [intros _ []|].
  intros [H1 H2]. rewrite all_cells_cons, in_app_iff. intros [Hx|Hx].
  - eapply bucket_alloc; eauto.
  - eapply IH; eauto.
Qed.

Lemma distinct_perm xs ys : legal fn hash cmp -> Permutation xs ys -> distinct xs -> distinct ys.
Proof.
  intros L P. induction P; cbn [distinct]; auto.
  - intros [H1 H2]. split; [|auto]. intros z Hz. apply H1. eapply Permutation_in; [symmetry|]; eauto.
  - intros [H1 [H2 H3]]. split; [|split; [|exact H3]].
    + intros z [<-|Hz]; [|auto]. intros E. apply (cmp_sym _ _ _ L) in E. exact (H1 x (or_introl eq_refl) E).
    + intros z Hz. apply H1. right; auto.
Qed.
Lemma distinct_app xs ys : legal fn hash cmp ->
  distinct (xs ++ ys) -> distinct xs /\ distinct ys.
Proof.
  intros L. induction xs as [|x xs IH]; cbn [distinct app]; [tauto|].
  intros [H1 H2]. apply IH in H2. destruct H2 as [H2 H3]. split; [|exact H3]. split; [|exact H2].
  intros y Hy. apply H1. apply in_app_iff; auto.
Qed.

(** Changing one bucket. *)
Lemma ht_update h h' t arr B1 b B2 b' n' :
  is_ht h t arr (B1 ++ b :: B2) ->
  get h' t = Some (CHtab (mk_htab (zlen (B1 ++ b :: B2)) n' hash cmp arr)) ->
  n' = zlen (ents (B1 ++ b' :: B2)) ->
  get h' arr = Some (CSlots (map fst (B1 ++ b' :: B2))) ->
  bucket_ok (zlen (B1 ++ b :: B2)) h' t (zlen B1) b' ->
  NoDup (cells b') ->
  (forall x, In x (cells b') -> In x (cells b) \/ get h x = None) ->
  (forall x, x <> t -> x <> arr -> ~ In x (cells b) -> ~ In x (cells b') -> get h' x = get h x) ->
  (law -> distinct (ents (B1 ++ b' :: B2))) -> zlen (ents (B1 ++ b' :: B2)) <= 2 ^ 60 ->
  is_ht h' t arr (B1 ++ b' :: B2).
Proof.
  intros I Ht Hn Ha Hb ND Hnew Hf Hd Hz.
  assert (HL : zlen (B1 ++ b' :: B2) = zlen (B1 ++ b :: B2)) by (rewrite !zlen_app, !zlen_cons; lia).
  pose proof (ih_nodup _ _ _ _ I) as N. pose proof (ih_buckets _ _ _ _ I) as HB.
  apply buckets_app in HB. destruct HB as [HB1 [HB HB2]]. rewrite Z.add_0_l in HB, HB2.
  rewrite all_cells_app, all_cells_cons in N.
  assert (Ht' : get h t <> None) by (rewrite (ih_table _ _ _ _ I); discriminate).
  assert (Ha' : get h arr <> None) by (rewrite (ih_slots _ _ _ _ I); discriminate).
  inversion N as [|? ? N1 N2]; subst. inversion N2 as [|? ? N3 N4]; subst.
  assert (P : Permutation (all_cells B1 ++ cells b ++ all_cells B2) (cells b ++ all_cells B1 ++ all_cells B2)).
  { apply Permutation_app_swap_app. }
  assert (NP : NoDup (cells b ++ all_cells B1 ++ all_cells B2)) by (eapply Permutation_NoDup; eauto).
  assert (D : forall x, In x (cells b) -> ~ In x (all_cells B1 ++ all_cells B2)).
  { intros x X Y. apply in_split in X. destruct X as (p & q & E). rewrite E, <- app_assoc in NP. simpl in NP.
    apply NoDup_remove_2 in NP. apply NP. rewrite !in_app_iff. rewrite in_app_iff in Y. tauto. }
  assert (AL : forall x, In x (all_cells B1 ++ all_cells B2) -> get h x <> None).
  { intros x X. apply in_app_iff in X.
    destruct X as [X|X]; [exact (buckets_alloc _ _ _ _ _ _ HB1 X)|exact (buckets_alloc _ _ _ _ _ _ HB2 X)]. }
  assert (D' : forall x, In x (cells b') -> ~ In x (all_cells B1 ++ all_cells B2)).
  { intros x X Y. destruct (Hnew x X) as [Z|Z]; [exact (D x Z Y)|exact (AL x Y Z)]. }
  assert (TA : forall x, x = t \/ x = arr -> ~ In x (cells b')).
  { intros x X Y. destruct (Hnew x Y) as [Z|Z].
    - destruct X as [->| ->]; [apply N1; right|apply N3]; rewrite !in_app_iff; auto.
    - destruct X as [->| ->]; congruence. }
  assert (FR : forall x, In x (all_cells B1 ++ all_cells B2) -> get h' x = get h x).
  { intros x X. apply Hf.
    - intros ->. apply N1. right. rewrite in_app_iff in *. rewrite in_app_iff. tauto.
    - intros ->. apply N3. rewrite in_app_iff in *. rewrite in_app_iff. tauto.
    - intros Y. exact (D x Y X).
    - intros Y. exact (D' x Y X). }
  constructor.
  - exact (ih_legal _ _ _ _ I).
  - rewrite HL. exact Ht.
  - exact Ha.
  - rewrite HL. exact (ih_cap _ _ _ _ I).
  - rewrite HL. apply buckets_app. rewrite Z.add_0_l. split; [|split].
    + eapply buckets_frame; [|exact HB1]. intros x Hx. apply FR. apply in_app_iff; auto.
    + exact Hb.
    + eapply buckets_frame; [|exact HB2]. intros x Hx. apply FR. apply in_app_iff; auto.
  - rewrite all_cells_app, all_cells_cons.
    assert (P' : Permutation (cells b' ++ all_cells B1 ++ all_cells B2) (all_cells B1 ++ cells b' ++ all_cells B2)).
    { apply Permutation_app_swap_app. }
    constructor; [|constructor].
    + simpl. rewrite !in_app_iff. intros [X|[X|[X|X]]].
      * apply N1. left; auto.
      * apply N1. right. rewrite !in_app_iff; auto.
      * exact (TA t (or_introl eq_refl) X).
      * apply N1. right. rewrite !in_app_iff; auto.
    + rewrite !in_app_iff. intros [X|[X|X]].
      * apply N3. rewrite !in_app_iff; auto.
      * exact (TA arr (or_intror eq_refl) X).
      * apply N3. rewrite !in_app_iff; auto.
    + eapply Permutation_NoDup; [exact P'|].
      apply NoDup_app_split in NP. destruct NP as (_ & NP & _).
      apply NoDup_app_join; auto.
  - exact Hd.
  - exact Hz.
Qed.

(** * Reading *)

Lemma step_ld_htab {B} (f : htab_c -> M B) a h c :
  get h a = Some (CHtab c) -> bnd (ld_htab a) f h = f c h.
Proof. intros H. unfold bnd, ld_htab. rewrite H. reflexivity. Qed.
Lemma step_ld_slots {B} (f : list Z -> M B) a h c :
  get h a = Some (CSlots c) -> bnd (ld_slots a) f h = f c h.
Proof. intros H. unfold bnd, ld_slots. rewrite H. reflexivity. Qed.
Lemma step_ld_helem {B} (f : helem_c -> M B) a h c :
  get h a = Some (CHelem c) -> bnd (ld_helem a) f h = f c h.
Proof. intros H. unfold bnd, ld_helem. rewrite H. reflexivity. Qed.

Lemma ld_slot_ok h t c (B1 : list bkt) b B2 :
  get h t = Some (CHtab c) -> get h (ht_table c) = Some (CSlots (map fst (B1 ++ b :: B2))) ->
  ld_slot t (zlen B1) h = Ok (fst b, h).
Proof.
  intros H1 H2. unfold ld_slot. rewrite (step_ld_htab _ _ _ _ H1), (step_ld_slots _ _ _ _ H2).
  rewrite map_app. cbn [map]. unfold lift. rewrite rd_app by (unfold zlen; rewrite map_length; reflexivity). reflexivity.
Qed.
Lemma st_slot_ok h t c (B1 : list bkt) (b : bkt) B2 v (xs : list ent) :
  get h t = Some (CHtab c) -> get h (ht_table c) = Some (CSlots (map fst (B1 ++ b :: B2))) ->
  st_slot t (zlen B1) v h = Ok (tt, put_cell h (ht_table c) (CSlots (map fst (B1 ++ (v, xs) :: B2)))).
Proof.
  intros H1 H2. unfold st_slot. rewrite (step_ld_htab _ _ _ _ H1), (step_ld_slots _ _ _ _ H2).
  rewrite !map_app. cbn [map fst]. unfold bnd, lift. rewrite wr_app by (unfold zlen; rewrite map_length; reflexivity).
  unfold st_slots. rewrite H2. reflexivity.
Qed.

Lemma index_range cap k : 0 < cap -> 0 <= index_of cap k < cap.
Proof. intros H. apply Z.mod_pos_bound. exact H. Qed.
Lemma bucket_index_ok h t cap size arr k : 0 < cap ->
  get h t = Some (CHtab (mk_htab cap size hash cmp arr)) -> bucket_index fn t k h = Ok (index_of cap k, h).
Proof.
  intros Hc H. unfold bucket_index. rewrite (step_ld_htab _ _ _ _ H). cbn [ht_capacity ht_hash].
  rewrite (proj2 (Z.eqb_neq cap 0)) by lia. reflexivity.
Qed.

Lemma split_bucket cap h t i (bs : list bkt) x : buckets_ok cap h t i bs -> In x (ents bs) ->
  exists B1 b B2, bs = B1 ++ b :: B2 /\ In x (snd b) /\ bucket_ok cap h t (i + zlen B1) b.
Proof.
  revert i; induction bs as [|b bs IH]; intros i; cbn [buckets_ok]; [intros _ []|].
  intros [H1 H2]. rewrite ents_cons, in_app_iff. intros [X|X].
  - exists [], b, bs. change (zlen (@nil bkt)) with 0. rewrite Z.add_0_r. auto.
  - destruct (IH (i + 1) H2 X) as (B1 & b' & B2 & -> & Y & Z).
    exists (b :: B1), b', B2. rewrite zlen_cons. replace (i + (1 + zlen B1)) with (i + 1 + zlen B1) by lia. auto.
Qed.

Lemma app_mid_unique {A} (a b c d : list A) x y : zlen a = zlen c -> a ++ x :: b = c ++ y :: d -> a = c /\ x = y /\ b = d.
Proof.
  intros L E. assert (L' : length a = length c) by (unfold zlen in L; lia).
  destruct (app_inv_len _ _ _ _ L' E) as [-> E']. injection E' as -> ->. auto.
Qed.

(** An element lies in the bucket of its key. *)
Lemma ent_index h t arr bs B1 b B2 x : is_ht h t arr bs -> bs = B1 ++ b :: B2 -> In x (snd b) ->
  (law -> index_of (zlen bs) (n_key x) = zlen B1) /\ get h (n_he x) = Some (hcell t (zlen B1) x) /\ is_list h (fst b) (pairs (snd b)).
Proof.
  intros I -> Hx. pose proof (ih_buckets _ _ _ _ I) as HB. apply buckets_app in HB. destruct HB as [_ [HB _]].
  rewrite Z.add_0_l in HB. destruct HB as [[_ E]|[IL H]]; [rewrite E in Hx; destruct Hx|].
  destruct (H x Hx). auto.
Qed.

Lemma lookup_cases h t arr bs k : is_ht h t arr bs ->
  exists B1 l xs B2, bs = B1 ++ (l, xs) :: B2 /\ zlen B1 = index_of (zlen bs) k /\
    ((exists pre x post, xs = pre ++ x :: post /\ (forall y, In y pre -> call_cmp fn cmp k (n_key y) <> 0) /\
        call_cmp fn cmp k (n_key x) = 0)
     \/ ((forall y, In y xs -> call_cmp fn cmp k (n_key y) <> 0) /\
         (law -> forall y, In y (ents bs) -> call_cmp fn cmp k (n_key y) <> 0))).
Proof.
  intros I. destruct (split_at bs (index_of (zlen bs) k)) as (B1 & [l xs] & B2 & E & L).
  { apply index_range. pose proof (ih_cap _ _ _ _ I). lia. }
  exists B1, l, xs, B2. split; [exact E|]. split; [exact L|].
  assert (D : (exists pre x post, xs = pre ++ x :: post /\ (forall y, In y pre -> call_cmp fn cmp k (n_key y) <> 0) /\
        call_cmp fn cmp k (n_key x) = 0) \/ (forall y, In y xs -> call_cmp fn cmp k (n_key y) <> 0)).
  { clear. induction xs as [|x xs IH]; [right; intros y []|].
    destruct (Z.eq_dec (call_cmp fn cmp k (n_key x)) 0) as [H|H].
    - left. exists [], x, xs. split; [reflexivity|]. split; [intros y []|exact H].
    - destruct IH as [(pre & y & post & -> & A & B)|A].
      + left. exists (x :: pre), y, post. split; [reflexivity|]. split; [|exact B]. intros z [<-|Hz]; auto.
      + right. intros z [<-|Hz]; auto. }
  destruct D as [D|D]; [left; exact D|right]. split; [exact D|]. intros La y Hy Hk.
  destruct (split_bucket _ _ _ _ _ _ (ih_buckets _ _ _ _ I) Hy) as (C1 & b & C2 & E2 & Hb & _).
  destruct (ent_index _ _ _ _ _ _ _ _ I E2 Hb) as (Hi & _).
  assert (HH : index_of (zlen bs) k = index_of (zlen bs) (n_key y)).
  { unfold index_of. rewrite (hash_cmp _ _ _ (ih_legal _ _ _ _ I La) _ _ Hk). reflexivity. }
  specialize (Hi La). rewrite E2 in E. apply app_mid_unique in E; [|congruence]. destruct E as (_ & -> & _). simpl in Hb. exact (D y Hb Hk).
Qed.

Lemma pairs_app xs ys : pairs (xs ++ ys) = pairs xs ++ pairs ys.
Proof. apply map_app. Qed.
Lemma handles_pairs xs : handles (pairs xs) = map n_le xs.
Proof. unfold handles, pairs. rewrite map_map. reflexivity. Qed.

(** The loop of hash_table_get. *)
Lemma ht_get_loop_ok h t i l size cap arr k pre xs n :
  get h t = Some (CHtab (mk_htab cap size hash cmp arr)) ->
  is_list h l (pairs (pre ++ xs)) -> (forall x, In x xs -> get h (n_he x) = Some (hcell t i x)) ->
  (length xs < n)%nat ->
  (forall y pr po, xs = pr ++ y :: po -> (forall z, In z pr -> call_cmp fn cmp k (n_key z) <> 0) ->
     call_cmp fn cmp k (n_key y) = 0 -> ht_get_loop fn n t k (hd_addr (pairs xs) 0) h = Ok (n_he y, h)) /\
  ((forall z, In z xs -> call_cmp fn cmp k (n_key z) <> 0) ->
     ht_get_loop fn n t k (hd_addr (pairs xs) 0) h = Ok (0, h)).
Proof.
  intros Ht. revert pre n; induction xs as [|x xs IH]; intros pre n IL HC Hn; (destruct n as [|n]; [lia|]).
  - split; [|reflexivity]. intros y pr po E. destruct pr; discriminate.
  - rewrite pairs_app in IL. cbn [pairs map] in IL. cbn [ht_get_loop pairs map hd_addr].
    destruct (il_mid _ _ _ _ _ _ IL) as (_ & Ne & _). rewrite (proj2 (Z.eqb_neq (n_le x) 0)) by exact Ne.
    rewrite (bnd_Ok _ _ _ _ _ (get_value_ok _ _ _ _ _ _ IL)). rewrite (step_ld_htab _ _ _ _ Ht).
    rewrite (step_ld_helem _ _ _ _ (HC x (or_introl eq_refl))). cbn [ht_cmp he_key].
    assert (IH' : (forall y pr po, xs = pr ++ y :: po -> (forall z, In z pr -> call_cmp fn cmp k (n_key z) <> 0) ->
       call_cmp fn cmp k (n_key y) = 0 -> ht_get_loop fn n t k (hd_addr (pairs xs) 0) h = Ok (n_he y, h)) /\
      ((forall z, In z xs -> call_cmp fn cmp k (n_key z) <> 0) -> ht_get_loop fn n t k (hd_addr (pairs xs) 0) h = Ok (0, h))).
    { apply (IH (pre ++ [x])).
      - rewrite <- app_assoc, pairs_app. exact IL.
      - intros y Hy. apply HC. right; auto.
      - simpl in Hn; lia. }
    destruct (call_cmp fn cmp k (n_key x) =? 0) eqn:E.
    + split.
      * intros y pr po Exs A B. destruct pr as [|z pr]; injection Exs as <- Exs; [reflexivity|].
        exfalso. apply (A x (or_introl eq_refl)). lia.
      * intros A. exfalso. apply (A x (or_introl eq_refl)). lia.
    + rewrite (bnd_Ok _ _ _ _ _ (next_ok _ _ _ _ _ _ IL)). split.
      * intros y pr po Exs A B. destruct pr as [|z pr]; injection Exs as <- Exs; [lia|].
        apply (proj1 IH' y pr po Exs); [|exact B]. intros w Hw. apply A. right; auto.
      * intros A. apply (proj2 IH'). intros w Hw. apply A. right; auto.
Qed.

Lemma ht_fuel h l xs : is_list h l (pairs xs) -> (length xs < S (length (mem h)))%nat.
Proof. intros I. apply il_fuel in I. unfold pairs in I. rewrite map_length in I. exact I. Qed.

(** The bucket of an index. *)
Lemma bucket_at h t arr bs B1 b B2 : is_ht h t arr bs -> bs = B1 ++ b :: B2 ->
  bucket_ok (zlen bs) h t (zlen B1) b.
Proof.
  intros I ->. pose proof (ih_buckets _ _ _ _ I) as HB. apply buckets_app in HB. destruct HB as [_ [HB _]].
  rewrite Z.add_0_l in HB. exact HB.
Qed.

Lemma hash_table_get_ok h t arr bs k : law -> is_ht h t arr bs ->
  (forall B1 l pre x post B2, bs = B1 ++ (l, pre ++ x :: post) :: B2 ->
     call_cmp fn cmp k (n_key x) = 0 -> hash_table_get fn t k h = Ok (n_he x, h)) /\
  ((forall y, In y (ents bs) -> call_cmp fn cmp k (n_key y) <> 0) -> hash_table_get fn t k h = Ok (0, h)).
Proof.
  intros La I. pose proof (ih_cap _ _ _ _ I) as HC. pose proof (ih_table _ _ _ _ I) as Ht. pose proof (ih_slots _ _ _ _ I) as Ha.
  unfold hash_table_get. rewrite (bnd_Ok _ _ _ _ _ (bucket_index_ok _ _ _ _ _ k (proj1 HC) Ht)).
  destruct (lookup_cases _ _ _ _ k I) as (B1 & l & xs & B2 & E & L & Cases).
  rewrite <- L. rewrite E in Ha. rewrite (bnd_Ok _ _ _ _ _ (ld_slot_ok _ _ _ _ _ _ Ht Ha)). cbn [fst].
  destruct (bucket_at _ _ _ _ _ _ _ I E) as [[E1 E2]|[IL HE]]; simpl in *.
  - subst l xs. rewrite Z.eqb_refl. split.
    + intros C1 l' pre x post C2 E' K. exfalso. destruct Cases as [(pr & y & po & X & _)|[_ Cases]]; [destruct pr; discriminate|].
      apply (Cases La x); [|exact K]. rewrite E', ents_app, ents_cons. simpl. rewrite !in_app_iff. simpl. tauto.
    + reflexivity.
  - rewrite (proj2 (Z.eqb_neq l 0)) by (apply (il_nonnull _ _ _ _ IL); left; reflexivity).
    erewrite bnd_Ok by reflexivity. rewrite (bnd_Ok _ _ _ _ _ (get_first_ok _ _ _ IL)).
    destruct (ht_get_loop_ok h t (zlen B1) l _ _ _ k [] xs (S (length (mem h))) Ht IL) as [G1 G2].
    { intros x Hx. apply HE; auto. }
    { apply (ht_fuel _ _ _ IL). }
    split.
    + intros C1 l' pre x post C2 E' K.
      assert (Hx : In x (snd (l', pre ++ x :: post))) by (simpl; apply in_app_iff; right; left; reflexivity).
      destruct (ent_index _ _ _ _ _ _ _ _ I E' Hx) as (Hi & _).
      assert (HH : index_of (zlen bs) k = index_of (zlen bs) (n_key x)).
      { unfold index_of. rewrite (hash_cmp _ _ _ (ih_legal _ _ _ _ I La) _ _ K). reflexivity. }
      specialize (Hi La). pose proof E' as E2. rewrite E in E2. apply app_mid_unique in E2; [|exact (eq_trans L (eq_trans HH Hi))]. destruct E2 as (-> & E2 & ->). injection E2 as -> ->.
      apply (G1 x pre post eq_refl); [|exact K]. intros z Hz K'.
      pose proof (ih_distinct _ _ _ _ I La) as D. rewrite E', ents_app, ents_cons in D. simpl in D.
      apply (distinct_app _ _ (ih_legal _ _ _ _ I La)) in D. destruct D as [_ D].
      apply (distinct_app _ _ (ih_legal _ _ _ _ I La)) in D. destruct D as [D _].
      clear - D Hz K K' I La. induction pre as [|w pre IH]; [destruct Hz|]. destruct D as [D1 D2]. destruct Hz as [<-|Hz]; [|auto].
      apply (D1 x); [apply in_app_iff; right; left; reflexivity|].
      pose proof (ih_legal _ _ _ _ I La) as Lg.
      eapply (cmp_trans _ _ _ Lg); [|exact K]. apply (cmp_sym _ _ _ Lg). exact K'.
    + intros A. apply G2. intros z Hz. apply A. rewrite E, ents_app, ents_cons. simpl. rewrite !in_app_iff. auto.
Qed.

(** * Modifying *)

Definition fp (t arr : Z) (bs : list bkt) : list Z := t :: arr :: all_cells bs.
(** What an operation does to the memory: [gone] leaves the table but stays
    allocated. *)
Record moved (t arr : Z) (bs bs' : list bkt) (h h' : heap) (gone : Z) : Prop := {
  mv_out : forall x, ~ In x (fp t arr bs) -> ~ In x (fp t arr bs') -> get h' x = get h x;
  mv_new : forall x, In x (fp t arr bs') -> ~ In x (fp t arr bs) -> get h x = None;
  mv_left : forall x, In x (fp t arr bs) -> ~ In x (fp t arr bs') -> get h' x = None \/ (x = gone /\ get h' x = get h x)
}.

Lemma update_moved h h' t arr B1 b B2 b' gone :
  (forall x, In x (cells b') -> In x (cells b) \/ get h x = None) ->
  (forall x, x <> t -> x <> arr -> ~ In x (cells b) -> ~ In x (cells b') -> get h' x = get h x) ->
  (forall x, In x (cells b) -> ~ In x (cells b') -> get h' x = None \/ (x = gone /\ get h' x = get h x)) ->
  moved t arr (B1 ++ b :: B2) (B1 ++ b' :: B2) h h' gone.
Proof.
  intros H1 H2 H3. unfold fp. constructor; unfold fp; intros x; rewrite !all_cells_app, !all_cells_cons; simpl; rewrite !in_app_iff; intros X Y.
  - apply H2; intuition congruence.
  - destruct (H1 x) as [Z|Z]; intuition.
  - apply H3; intuition.
Qed.

Lemma cells_eq l xs : l <> 0 -> cells (l, xs) = l :: map n_le xs ++ map n_he xs.
Proof.
  intros H. unfold cells. cbn [fst snd]. rewrite (proj2 (Z.eqb_neq _ _) H). unfold footprint. rewrite handles_pairs. reflexivity.
Qed.
Lemma ents_mid B1 l xs B2 : Permutation (ents (B1 ++ (l, xs) :: B2)) (xs ++ ents (B1 ++ B2)).
Proof. rewrite !ents_app, ents_cons. cbn [snd]. apply Permutation_app_swap_app. Qed.

Lemma run_ht_size_inc t h c : get h t = Some (CHtab c) -> 0 <= ht_size c < 2 ^ 64 - 1 ->
  ht_size_inc t h = Ok (tt, put_cell h t (CHtab (mk_htab (ht_capacity c) (ht_size c + 1) (ht_hash c) (ht_cmp c) (ht_table c)))).
Proof.
  intros H Hs. unfold ht_size_inc. rewrite (step_ld_htab _ _ _ _ H). unfold st_ht_size. rewrite (step_ld_htab _ _ _ _ H).
  rewrite u64_small by lia. unfold st_htab. rewrite H. reflexivity.
Qed.
Lemma run_ht_size_dec t h c : get h t = Some (CHtab c) -> 1 <= ht_size c < 2 ^ 64 ->
  ht_size_dec t h = Ok (tt, put_cell h t (CHtab (mk_htab (ht_capacity c) (ht_size c - 1) (ht_hash c) (ht_cmp c) (ht_table c)))).
Proof.
  intros H Hs. unfold ht_size_dec. rewrite (step_ld_htab _ _ _ _ H). unfold st_ht_size. rewrite (step_ld_htab _ _ _ _ H).
  rewrite u64_small by lia. unfold st_htab. rewrite H. reflexivity.
Qed.

Lemma add_element_ok h t c (B1 : list bkt) l ys B2 xs k v :
  get h t = Some (CHtab c) -> get h (ht_table c) = Some (CSlots (map fst (B1 ++ (l, ys) :: B2))) ->
  is_list h l (pairs xs) -> zlen xs < 2 ^ 60 ->
  exists x h', add_element t (zlen B1) k v h = Ok (tt, h') /\ n_key x = k /\ n_val x = v /\
    is_list h' l (pairs (xs ++ [x])) /\ get h' (n_he x) = Some (hcell t (zlen B1) x) /\
    get h (n_he x) = None /\ get h (n_le x) = None /\ n_he x <> n_le x /\ n_he x <> 0 /\
    (forall y, ~ In y (footprint l (pairs xs)) -> y <> n_he x -> y <> n_le x -> get h' y = get h y).
Proof.
  intros Ht Ha IL Hz. unfold add_element.
  destruct (alloc_spec (CHelem (mk_helem t (zlen B1) 0 k v)) h) as (he & h1 & EA & Ne & Fe & Ge).
  assert (Nt : t <> he) by congruence. assert (Na : ht_table c <> he) by congruence.
  rewrite (bnd_Ok _ _ _ _ _ EA).
  assert (Ht1 : get h1 t = Some (CHtab c)) by (rewrite Ge; gs; exact Ht).
  assert (Ha1 : get h1 (ht_table c) = Some (CSlots (map fst (B1 ++ (l, ys) :: B2)))) by (rewrite Ge; gs; exact Ha).
  assert (He1 : get h1 he = Some (CHelem (mk_helem t (zlen B1) 0 k v))) by (rewrite Ge; gs; reflexivity).
  rewrite (bnd_Ok _ _ _ _ _ (ld_slot_ok _ _ _ _ _ _ Ht1 Ha1)). cbn [fst].
  assert (Nl : ~ In he (footprint l (pairs xs))).
  { intros X. exact (il_alloc _ _ _ _ IL X Fe). }
  assert (IL1 : is_list h1 l (pairs xs)).
  { eapply il_frame; [|exact IL]. intros y Hy. rewrite Ge. rewrite (proj2 (Z.eqb_neq y he)); [reflexivity|]. congruence. }
  destruct (append_ok h1 l (pairs xs) he IL1) as (le & h2 & E2 & F2 & N2 & IL2 & O2).
  { unfold zlen, pairs in *. rewrite map_length. exact Hz. }
  rewrite (bnd_Ok _ _ _ _ _ E2).
  assert (Nle : he <> le) by congruence.
  assert (He2 : get h2 he = get h1 he). { apply O2. intros [X|X]; [congruence|tauto]. }
  rewrite He1 in He2. rewrite (step_ld_helem _ _ _ _ He2). cbn [he_table he_index he_key he_value].
  unfold st_helem. rewrite He2.
  exists (mk_ent le he k v). eexists. split; [reflexivity|]. cbn [n_key n_val n_he n_le].
  split; [reflexivity|]. split; [reflexivity|]. split.
  - rewrite pairs_app. cbn [pairs map n_le n_he]. eapply il_frame; [|exact IL2]. intros y Hy. rewrite get_put by exact Ne.
    rewrite (proj2 (Z.eqb_neq y he)); [reflexivity|]. intros ->.
    unfold footprint in Hy. rewrite handles_app in Hy. cbn [handles map fst] in Hy. change (map fst (pairs xs)) with (handles (pairs xs)) in Hy.
    simpl in Hy. rewrite in_app_iff in Hy. simpl in Hy. unfold footprint in Nl. simpl in Nl. intuition congruence.
  - split; [rewrite get_put by exact Ne; rewrite Z.eqb_refl; reflexivity|].
    split; [exact Fe|]. split; [rewrite Ge in F2; rewrite (proj2 (Z.eqb_neq le he)) in F2 by congruence; exact F2|].
    split; [exact Nle|]. split; [exact Ne|]. intros y Y1 Y2 Y3. rewrite get_put by exact Ne. rewrite (proj2 (Z.eqb_neq y he)) by exact Y2.
    rewrite O2; [|intros [X|X]; [congruence|tauto]]. rewrite Ge. rewrite (proj2 (Z.eqb_neq y he)) by exact Y2. reflexivity.
Qed.

Lemma zlen_map {A B} (f : A -> B) l : zlen (map f l) = zlen l.
Proof. unfold zlen. rewrite map_length. reflexivity. Qed.
Lemma Permutation_zlen {A} (l l' : list A) : Permutation l l' -> zlen l = zlen l'.
Proof. intros P. unfold zlen. rewrite (Permutation_length P). reflexivity. Qed.

Lemma distinct_new bs k : legal fn hash cmp -> distinct (ents bs) ->
  (forall y, In y (ents bs) -> call_cmp fn cmp k (n_key y) <> 0) ->
  forall x ys, n_key x = k -> Permutation ys (x :: ents bs) -> distinct ys.
Proof.
  intros L D A x ys K P. apply (distinct_perm (x :: ents bs)); [exact L|symmetry; exact P|].
  cbn [distinct]. split; [|exact D]. rewrite K. exact A.
Qed.

(** Putting a new key in a NULL slot. *)
Lemma put_new_null h t arr B1 B2 k v : is_ht h t arr (B1 ++ (0, []) :: B2) ->
  (law -> zlen B1 = index_of (zlen (B1 ++ (0, []) :: B2)) k) ->
  (law -> forall y, In y (ents (B1 ++ (0, []) :: B2)) -> call_cmp fn cmp k (n_key y) <> 0) ->
  zlen (ents (B1 ++ (0, []) :: B2)) < 2 ^ 60 ->
  exists l x h', (let! list := make_list in do! st_slot t (zlen B1) list in do! add_element t (zlen B1) k v in
     do! ht_size_inc t in ret 0) h = Ok (0, h') /\ n_key x = k /\ n_val x = v /\
    is_ht h' t arr (B1 ++ (l, [x]) :: B2) /\ moved t arr (B1 ++ (0, []) :: B2) (B1 ++ (l, [x]) :: B2) h h' 0.
Proof.
  intros I L A Hz. pose proof (ih_table _ _ _ _ I) as Ht. pose proof (ih_slots _ _ _ _ I) as Ha.
  pose proof (ih_nodup _ _ _ _ I) as ND. inversion ND as [|? ? ND1 ND2]; subst.
  assert (Nta : t <> arr) by (intros ->; apply ND1; left; reflexivity).
  destruct (make_list_ok h) as (l & h1 & E1 & F1 & N1 & IL1 & O1).
  rewrite (bnd_Ok _ _ _ _ _ E1).
  assert (Ntl : t <> l) by congruence. assert (Nal : arr <> l) by congruence.
  assert (Ht1 : get h1 t = get h t) by (apply O1; intros [X|[]]; congruence). rewrite Ht in Ht1.
  assert (Ha1 : get h1 arr = get h arr) by (apply O1; intros [X|[]]; congruence). rewrite Ha in Ha1.
  assert (Na0 : arr <> 0) by (eapply get_nonnull; eauto). assert (Nt0 : t <> 0) by (eapply get_nonnull; eauto).
  rewrite (bnd_Ok _ _ _ _ _ (st_slot_ok h1 t _ B1 (0, []) B2 l [] Ht1 Ha1)). cbn [ht_table].
  set (h2 := put_cell h1 arr (CSlots (map fst (B1 ++ (l, []) :: B2)))).
  assert (Ht2 : get h2 t = get h1 t) by (unfold h2; gs; reflexivity). rewrite Ht1 in Ht2.
  assert (Ha2 : get h2 arr = Some (CSlots (map fst (B1 ++ (l, []) :: B2)))) by (unfold h2; gs; reflexivity).
  assert (IL2 : is_list h2 l (pairs [])).
  { eapply il_frame; [|exact IL1]. intros x [<-|[]]. unfold h2. gs. reflexivity. }
  destruct (add_element_ok h2 t _ B1 l [] B2 [] k v Ht2 Ha2 IL2) as (x & h3 & E3 & K3 & V3 & IL3 & He3 & F3 & F3' & Nx & Nx0 & O3).
  { change (zlen (@nil ent)) with 0. lia. }
  rewrite (bnd_Ok _ _ _ _ _ E3).
  assert (Ht3 : get h3 t = get h2 t). { apply O3; [intros [X|[]]; congruence| |]; congruence. } rewrite Ht2 in Ht3.
  assert (Ha3 : get h3 arr = get h2 arr). { apply O3; [intros [X|[]]; congruence| |]; congruence. } rewrite Ha2 in Ha3.
  assert (P : Permutation (ents (B1 ++ (l, [x]) :: B2)) (x :: ents (B1 ++ (0, []) :: B2))).
  { rewrite (ents_mid B1 l [x] B2), (ents_mid B1 0 [] B2). reflexivity. }
  pose proof (zlen_nonneg (ents (B1 ++ (0, []) :: B2))) as Zp.
  rewrite (bnd_Ok _ _ _ _ _ (run_ht_size_inc t h3 _ Ht3 ltac:(cbn [ht_size]; lia))). cbn [ht_capacity ht_size ht_hash ht_cmp ht_table].
  exists l, x. eexists. split; [reflexivity|]. split; [exact K3|]. split; [exact V3|].
  assert (Cn : cells (l, [x]) = [l; n_le x; n_he x]) by (rewrite cells_eq by exact N1; reflexivity).
  assert (Hle : n_le x <> t /\ n_he x <> t) by (split; congruence).
  assert (Nle0 : n_le x <> l /\ n_he x <> l).
  { assert (get h2 l <> None) by (apply (il_alloc _ _ _ _ IL2); left; reflexivity). split; congruence. }
  assert (Q1 : forall y, In y (cells (l, [x])) -> In y (cells (0, [])) \/ get h y = None).
  { rewrite Cn. intros y Hy. right. destruct Hy as [<-|[<-|[<-|[]]]]; [exact F1| |].
    - unfold h2 in F3'. rewrite get_put in F3' by exact Na0. destruct (n_le x =? arr); [discriminate|]. rewrite <- O1; [exact F3'|].
      intros [X|[]]. symmetry in X. tauto.
    - unfold h2 in F3. rewrite get_put in F3 by exact Na0. destruct (n_he x =? arr); [discriminate|]. rewrite <- O1; [exact F3|].
      intros [X|[]]. symmetry in X. tauto. }
  assert (Q2 : forall y, y <> t -> y <> arr -> ~ In y (cells (0, [])) -> ~ In y (cells (l, [x])) ->
     get (put_cell h3 t (CHtab (mk_htab (zlen (B1 ++ (0, []) :: B2)) (zlen (ents (B1 ++ (0, []) :: B2)) + 1) hash cmp arr))) y = get h y).
  { intros y Y1 Y2 _ Y3. rewrite Cn in Y3. simpl in Y3. nots Y3. gs. rewrite O3; try congruence.
    - unfold h2. gs. apply O1. intros [X|[]]; congruence.
    - intros [X|[]]; congruence. }
  split.
  - eapply ht_update; [exact I| | | | | | | | |].
    + gs. reflexivity.
    + rewrite (Permutation_zlen _ _ P), zlen_cons. lia.
    + gs. rewrite Ha3, !map_app. reflexivity.
    + right. cbn [fst snd]. split.
      * eapply il_frame; [|exact IL3]. intros y Hy. assert (y <> t) by (unfold footprint in Hy; simpl in Hy; intuition congruence). gs. reflexivity.
      * intros y [<-|[]]. split; [|intros La; rewrite K3; symmetry; exact (L La)]. rewrite get_put by exact Nt0.
        rewrite (proj2 (Z.eqb_neq (n_he x) t)) by tauto. exact He3.
    + rewrite Cn. repeat constructor; simpl; intuition congruence.
    + exact Q1.
    + exact Q2.
    + intros La. eapply distinct_new; [exact (ih_legal _ _ _ _ I La)|exact (ih_distinct _ _ _ _ I La)|exact (A La)|exact K3|exact P].
    + rewrite (Permutation_zlen _ _ P), zlen_cons. lia.
  - apply update_moved; [exact Q1|exact Q2|]. intros y [].
Qed.

Lemma cells_mid l pre x post : l <> 0 ->
  Permutation (cells (l, pre ++ x :: post)) (n_le x :: n_he x :: cells (l, pre ++ post)).
Proof.
  intros N. rewrite !cells_eq by exact N. rewrite !map_app. cbn [map].
  change (l :: (map n_le pre ++ n_le x :: map n_le post) ++ map n_he pre ++ n_he x :: map n_he post)
    with ((l :: map n_le pre ++ n_le x :: map n_le post) ++ map n_he pre ++ n_he x :: map n_he post).
  transitivity ((n_le x :: l :: map n_le pre ++ map n_le post) ++ n_he x :: map n_he pre ++ map n_he post).
  - apply Permutation_app; [|symmetry; apply Permutation_middle].
    transitivity (l :: n_le x :: map n_le pre ++ map n_le post); [|constructor].
    constructor. symmetry. apply Permutation_middle.
  - cbn [app]. constructor. symmetry. apply (Permutation_middle (l :: map n_le pre ++ map n_le post)).
Qed.
Lemma cells_snoc l xs x : l <> 0 -> Permutation (cells (l, xs ++ [x])) (n_le x :: n_he x :: cells (l, xs)).
Proof. intros N. rewrite (cells_mid l xs x [] N), app_nil_r. reflexivity. Qed.
Lemma in_footprint l xs y : l <> 0 -> In y (footprint l (pairs xs)) -> In y (cells (l, xs)).
Proof. intros N. rewrite cells_eq by exact N. unfold footprint. rewrite handles_pairs. simpl. rewrite in_app_iff. tauto. Qed.

(** Facts about the cells of the table. *)
Record layout (t arr : Z) (b : bkt) : Prop := {
  ly_ta : t <> arr; ly_t : ~ In t (cells b); ly_arr : ~ In arr (cells b); ly_nodup : NoDup (cells b) }.
Lemma ht_layout h t arr B1 b B2 : is_ht h t arr (B1 ++ b :: B2) -> layout t arr b.
Proof.
  intros I. pose proof (ih_nodup _ _ _ _ I) as ND. rewrite all_cells_app, all_cells_cons in ND.
  inversion ND as [|? ? N1 N2]; subst. inversion N2 as [|? ? N3 N4]; subst.
  simpl in N1. rewrite !in_app_iff in N1, N3.
  constructor; try (intuition congruence). apply NoDup_app_split in N4. destruct N4 as (_ & N4 & _). apply NoDup_app_split in N4. tauto.
Qed.

Lemma index_mid h t arr B1 l xs B2 x : is_ht h t arr (B1 ++ (l, xs) :: B2) -> In x xs ->
  get h (n_he x) = Some (hcell t (zlen B1) x) /\ (law -> index_of (zlen (B1 ++ (l, xs) :: B2)) (n_key x) = zlen B1) /\
  is_list h l (pairs xs) /\ l <> 0.
Proof.
  intros I Hx. destruct (bucket_at _ _ _ _ _ _ _ I eq_refl) as [[E1 E2]|[IL HE]]; simpl in *.
  - subst xs. destruct Hx.
  - destruct (HE x Hx) as [H1 H2]. split; [exact H1|]. split; [exact H2|]. split; [exact IL|].
    apply (il_nonnull _ _ _ _ IL); left; reflexivity.
Qed.

(** Putting a new key in an existing bucket. *)
Lemma put_new_in h t arr B1 l xs B2 k v : is_ht h t arr (B1 ++ (l, xs) :: B2) -> l <> 0 ->
  (law -> zlen B1 = index_of (zlen (B1 ++ (l, xs) :: B2)) k) ->
  (law -> forall y, In y (ents (B1 ++ (l, xs) :: B2)) -> call_cmp fn cmp k (n_key y) <> 0) ->
  zlen (ents (B1 ++ (l, xs) :: B2)) < 2 ^ 60 ->
  exists x h', (do! add_element t (zlen B1) k v in do! ht_size_inc t in ret 0) h = Ok (0, h') /\ n_key x = k /\ n_val x = v /\
    is_ht h' t arr (B1 ++ (l, xs ++ [x]) :: B2) /\ moved t arr (B1 ++ (l, xs) :: B2) (B1 ++ (l, xs ++ [x]) :: B2) h h' 0.
Proof.
  intros I Nl L A Hz. pose proof (ih_table _ _ _ _ I) as Ht. pose proof (ih_slots _ _ _ _ I) as Ha.
  destruct (ht_layout _ _ _ _ _ _ I) as [Nta Nt Na NDb].
  destruct (bucket_at _ _ _ _ _ _ _ I eq_refl) as [[E1 E2]|[IL HE]]; [simpl in E1; congruence|]. cbn [fst snd] in IL, HE.
  assert (Na0 : arr <> 0) by (eapply get_nonnull; eauto). assert (Nt0 : t <> 0) by (eapply get_nonnull; eauto).
  assert (Zx : zlen xs < 2 ^ 60).
  { pose proof (Permutation_zlen _ _ (ents_mid B1 l xs B2)) as Z. rewrite zlen_app in Z.
    pose proof (zlen_nonneg (ents (B1 ++ B2))). lia. }
  destruct (add_element_ok h t _ B1 l xs B2 xs k v Ht Ha IL Zx) as (x & h3 & E3 & K3 & V3 & IL3 & He3 & F3 & F3' & Nx & Nx0 & O3).
  rewrite (bnd_Ok _ _ _ _ _ E3).
  assert (Bx : forall y, get h y <> None -> y <> n_he x /\ y <> n_le x) by (intros y Hy; split; congruence).
  assert (Tx := Bx t ltac:(congruence)). assert (Ax := Bx arr ltac:(congruence)).
  assert (FI : forall y, In y (footprint l (pairs xs)) -> In y (cells (l, xs))) by (intros y; apply in_footprint; exact Nl).
  assert (Ht3 : get h3 t = get h t). { apply O3; [intros X; apply Nt; auto| |]; tauto. } rewrite Ht in Ht3.
  assert (Ha3 : get h3 arr = get h arr). { apply O3; [intros X; apply Na; auto| |]; tauto. } rewrite Ha in Ha3.
  assert (P : Permutation (ents (B1 ++ (l, xs ++ [x]) :: B2)) (x :: ents (B1 ++ (l, xs) :: B2))).
  { rewrite (ents_mid B1 l (xs ++ [x]) B2), (ents_mid B1 l xs B2), <- app_assoc. symmetry. apply Permutation_middle. }
  pose proof (zlen_nonneg (ents (B1 ++ (l, xs) :: B2))) as Zp.
  rewrite (bnd_Ok _ _ _ _ _ (run_ht_size_inc t h3 _ Ht3 ltac:(cbn [ht_size]; lia))). cbn [ht_capacity ht_size ht_hash ht_cmp ht_table].
  exists x. eexists. split; [reflexivity|]. split; [exact K3|]. split; [exact V3|].
  pose proof (cells_snoc l xs x Nl) as Pc.
  assert (Cx : ~ In (n_le x) (cells (l, xs)) /\ ~ In (n_he x) (cells (l, xs))).
  { split; intros X; eapply bucket_alloc with (1 := bucket_at _ _ _ _ _ _ _ I eq_refl) in X; congruence. }
  assert (Q1 : forall y, In y (cells (l, xs ++ [x])) -> In y (cells (l, xs)) \/ get h y = None).
  { intros y Hy. apply (Permutation_in _ Pc) in Hy. simpl in Hy. destruct Hy as [<-|[<-|Hy]]; auto. }
  assert (Q2 : forall y, y <> t -> y <> arr -> ~ In y (cells (l, xs)) -> ~ In y (cells (l, xs ++ [x])) ->
     get (put_cell h3 t (CHtab (mk_htab (zlen (B1 ++ (l, xs) :: B2)) (zlen (ents (B1 ++ (l, xs) :: B2)) + 1) hash cmp arr))) y = get h y).
  { intros y Y1 Y2 Y4 Y3. gs. apply O3; [auto| |]; intros ->; apply Y3; apply (Permutation_in _ (Permutation_sym Pc)); simpl; auto. }
  split.
  - eapply ht_update; [exact I| | | | | | | | |].
    + gs. reflexivity.
    + rewrite (Permutation_zlen _ _ P), zlen_cons. lia.
    + gs. rewrite Ha3, !map_app. reflexivity.
    + right. cbn [fst snd]. split.
      * eapply il_frame; [|exact IL3]. intros y Hy. assert (y <> t).
        { intros ->. apply in_footprint in Hy; [|exact Nl]. apply (Permutation_in _ Pc) in Hy. simpl in Hy. intuition congruence. }
        gs. reflexivity.
      * intros y Hy. apply in_app_iff in Hy. destruct Hy as [Hy|[<-|[]]].
        -- assert (In (n_he y) (cells (l, xs))). { rewrite cells_eq by exact Nl. right. apply in_app_iff. right. apply in_map. exact Hy. }
           assert (n_he y <> t) by congruence. gs. destruct (HE y Hy) as [H1 H2]. split; [|exact H2].
           rewrite O3; [exact H1| |intros X; apply (proj2 Cx); congruence|intros X; apply (proj1 Cx); congruence].
           intros X. clear - NDb X Hy Nl. rewrite cells_eq in NDb by exact Nl. unfold footprint in X. rewrite handles_pairs in X.
           change (l :: map n_le xs ++ map n_he xs) with ((l :: map n_le xs) ++ map n_he xs) in NDb.
           apply NoDup_app_split in NDb. destruct NDb as (_ & _ & N). apply (N _ X). apply in_map. exact Hy.
        -- split; [|intros La; rewrite K3; symmetry; exact (L La)]. assert (n_he x <> t) by intuition congruence. gs. exact He3.
    + eapply Permutation_NoDup; [symmetry; exact Pc|]. constructor; [|constructor; tauto]. simpl. intuition congruence.
    + exact Q1.
    + exact Q2.
    + intros La. eapply distinct_new; [exact (ih_legal _ _ _ _ I La)|exact (ih_distinct _ _ _ _ I La)|exact (A La)|exact K3|exact P].
    + rewrite (Permutation_zlen _ _ P), zlen_cons. lia.
  - apply update_moved; [exact Q1|exact Q2|]. intros y Y1 Y2. exfalso. apply Y2. apply (Permutation_in _ (Permutation_sym Pc)). simpl; auto.
Qed.

(** Taking an element from a bucket. *)
Lemma bucket_remove h t arr B1 l pre x post B2 : is_ht h t arr (B1 ++ (l, pre ++ x :: post) :: B2) ->
  exists h', list_remove l (n_le x) h = Ok (tt, h') /\ get h' (n_le x) = None /\ is_list h' l (pairs (pre ++ post)) /\
    (forall y, ~ In y (footprint l (pairs (pre ++ x :: post))) -> get h' y = get h y).
Proof.
  intros I. destruct (index_mid _ _ _ _ _ _ _ x I) as (_ & _ & IL & Nl); [apply in_app_iff; right; left; reflexivity|].
  rewrite pairs_app in *. cbn [pairs map] in *. destruct (remove_ok _ _ _ _ _ _ IL) as (h' & E & G & IL' & F).
  exists h'. split; [exact E|]. split; [exact G|]. split; [exact IL'|]. rewrite pairs_app. exact F.
Qed.

Lemma he_not_le h t arr B1 l xs B2 x : is_ht h t arr (B1 ++ (l, xs) :: B2) -> In x xs ->
  ~ In (n_he x) (footprint l (pairs xs)).
Proof.
  intros I Hx. destruct (index_mid _ _ _ _ _ _ _ x I Hx) as (_ & _ & _ & Nl).
  destruct (ht_layout _ _ _ _ _ _ I) as [_ _ _ NDb]. rewrite cells_eq in NDb by exact Nl.
  unfold footprint. rewrite handles_pairs. intros X.
  change (l :: map n_le xs ++ map n_he xs) with ((l :: map n_le xs) ++ map n_he xs) in NDb.
  apply NoDup_app_split in NDb. destruct NDb as (_ & _ & N). apply (N _ X). apply in_map. exact Hx.
Qed.

(** The table after an element has been taken out of its bucket; [h'] is the
    heap when the size has been updated as well. *)
Lemma take_ht h t arr B1 l pre x post B2 h1 h' : is_ht h t arr (B1 ++ (l, pre ++ x :: post) :: B2) ->
  get h1 (n_le x) = None -> is_list h1 l (pairs (pre ++ post)) ->
  (forall y, y <> t -> ~ In y (footprint l (pairs (pre ++ x :: post))) -> get h1 y = get h y) ->
  get h' t = Some (CHtab (mk_htab (zlen (B1 ++ (l, pre ++ x :: post) :: B2)) (zlen (ents (B1 ++ (l, pre ++ x :: post) :: B2)) - 1) hash cmp arr)) ->
  (forall y, y <> t -> y <> n_he x -> get h' y = get h1 y) ->
  (get h' (n_he x) = None \/ get h' (n_he x) = get h (n_he x)) ->
  is_ht h' t arr (B1 ++ (l, pre ++ post) :: B2) /\
  moved t arr (B1 ++ (l, pre ++ x :: post) :: B2) (B1 ++ (l, pre ++ post) :: B2) h h' (n_he x).
Proof.
  intros I G IL F Ht F2 G2. assert (Hx : In x (pre ++ x :: post)) by (apply in_app_iff; right; left; reflexivity).
  destruct (index_mid _ _ _ _ _ _ _ x I Hx) as (Hex & Kx & IL0 & Nl).
  destruct (ht_layout _ _ _ _ _ _ I) as [Nta Nt Na NDb]. pose proof (cells_mid l pre x post Nl) as Pc.
  destruct (bucket_at _ _ _ _ _ _ _ I eq_refl) as [[E1 E2]|[_ HE]]; [simpl in E1; congruence|]. cbn [fst snd] in HE.
  pose proof (Permutation_NoDup Pc NDb) as NDb'. apply NoDup_cons_iff in NDb'. destruct NDb' as [N1 N2]. apply NoDup_cons_iff in N2. destruct N2 as [N3 N4].
  assert (Sub : forall y, In y (cells (l, pre ++ post)) -> In y (cells (l, pre ++ x :: post))).
  { intros y Hy. apply (Permutation_in _ (Permutation_sym Pc)). simpl; auto. }
  assert (FI : forall y, In y (footprint l (pairs (pre ++ x :: post))) -> In y (cells (l, pre ++ x :: post))) by (intros y; apply in_footprint; exact Nl).
  assert (HIn : In (n_he x) (cells (l, pre ++ x :: post)) /\ In (n_le x) (cells (l, pre ++ x :: post))).
  { split; apply (Permutation_in _ (Permutation_sym Pc)); simpl; auto. }
  assert (P : Permutation (ents (B1 ++ (l, pre ++ x :: post) :: B2)) (x :: ents (B1 ++ (l, pre ++ post) :: B2))).
  { rewrite (ents_mid B1 l (pre ++ x :: post) B2), (ents_mid B1 l (pre ++ post) B2), <- !app_assoc. symmetry.
    cbn [app]. apply Permutation_middle. }
  pose proof (Permutation_zlen _ _ P) as ZP. rewrite zlen_cons in ZP.
  assert (Q1 : forall y, In y (cells (l, pre ++ post)) -> In y (cells (l, pre ++ x :: post)) \/ get h y = None) by (intros y Hy; left; auto).
  assert (Q2 : forall y, y <> t -> y <> arr -> ~ In y (cells (l, pre ++ x :: post)) -> ~ In y (cells (l, pre ++ post)) -> get h' y = get h y).
  { intros y Y1 Y2 Y3 _. rewrite F2; [apply F; auto|exact Y1|]. intros ->. tauto. }
  split.
  - eapply ht_update; [exact I|exact Ht|lia| | | | | | |].
    + rewrite F2; [|congruence|intros ->; tauto]. rewrite F by (congruence || auto). rewrite (ih_slots _ _ _ _ I), !map_app. reflexivity.
    + right. cbn [fst snd]. split.
      * eapply il_frame; [|exact IL]. intros y Hy. apply in_footprint in Hy; [|exact Nl]. apply F2; intros ->; auto.
      * intros y Hy. assert (Hy' : In y (pre ++ x :: post)) by (apply in_app_iff in Hy; apply in_app_iff; simpl; tauto).
        destruct (HE y Hy') as [H1 H2]. split; [|exact H2].
        assert (Hc : In (n_he y) (cells (l, pre ++ post))). { rewrite cells_eq by exact Nl. right. apply in_app_iff. right. apply in_map. exact Hy. }
        rewrite F2; [|intros X; apply Nt; rewrite <- X; auto|intros X; congruence].
        rewrite F; [exact H1|intros X; apply Nt; rewrite <- X; auto|]. apply (he_not_le _ _ _ _ _ _ _ _ I Hy').
    + exact N4.
    + exact Q1.
    + exact Q2.
    + intros La. pose proof (distinct_perm _ _ (ih_legal _ _ _ _ I La) P (ih_distinct _ _ _ _ I La)) as D. apply D.
    + pose proof (ih_size _ _ _ _ I). lia.
  - apply update_moved; [exact Q1|exact Q2|]. intros y Y1 Y2. apply (Permutation_in _ Pc) in Y1. destruct Y1 as [<-|[<-|Y1]]; [| |tauto].
    + left. rewrite F2; [exact G|intros X; apply Nt; rewrite <- X; tauto|intros X; apply N1; rewrite X; left; reflexivity].
    + destruct G2 as [G2|G2]; auto.
Qed.

Lemma take_out h t arr B1 l pre x post B2 : is_ht h t arr (B1 ++ (l, pre ++ x :: post) :: B2) ->
  ~ In (n_he x) (fp t arr (B1 ++ (l, pre ++ post) :: B2)).
Proof.
  intros I. destruct (index_mid _ _ _ _ _ _ _ x I) as (_ & _ & _ & Nl); [apply in_app_iff; right; left; reflexivity|].
  pose proof (cells_mid l pre x post Nl) as Pc. pose proof (ih_nodup _ _ _ _ I) as ND.
  assert (PP : Permutation (fp t arr (B1 ++ (l, pre ++ x :: post) :: B2)) (n_he x :: n_le x :: fp t arr (B1 ++ (l, pre ++ post) :: B2))).
  { unfold fp. rewrite !all_cells_app, !all_cells_cons, Pc.
    transitivity ([n_le x; n_he x] ++ (t :: arr :: all_cells B1) ++ cells (l, pre ++ post) ++ all_cells B2); [|apply perm_swap].
    apply (Permutation_app_swap_app (t :: arr :: all_cells B1) [n_le x; n_he x]). }
  apply (Permutation_NoDup PP) in ND. apply NoDup_cons_iff in ND. destruct ND as [ND _]. intros X. apply ND. right. exact X.
Qed.

(** Replacing. *)
Lemma put_replace h t arr B1 l pre y post B2 k v : is_ht h t arr (B1 ++ (l, pre ++ y :: post) :: B2) ->
  call_cmp fn cmp k (n_key y) = 0 ->
  exists x h', (do! list_remove l (n_le y) in do! add_element t (zlen B1) k v in ret (n_he y)) h = Ok (n_he y, h') /\
    n_key x = k /\ n_val x = v /\
    is_ht h' t arr (B1 ++ (l, (pre ++ post) ++ [x]) :: B2) /\
    moved t arr (B1 ++ (l, pre ++ y :: post) :: B2) (B1 ++ (l, (pre ++ post) ++ [x]) :: B2) h h' (n_he y) /\
    get h' (n_he y) = get h (n_he y) /\ n_he x <> n_he y /\ ~ In (n_he y) (fp t arr (B1 ++ (l, (pre ++ post) ++ [x]) :: B2)).
Proof.
  intros I K. assert (Hy : In y (pre ++ y :: post)) by (apply in_app_iff; right; left; reflexivity).
  destruct (index_mid _ _ _ _ _ _ _ y I Hy) as (Hey & Ky & IL0 & Nl).
  pose proof (ih_table _ _ _ _ I) as Ht. pose proof (ih_slots _ _ _ _ I) as Ha.
  destruct (ht_layout _ _ _ _ _ _ I) as [Nta Nt Na NDb]. pose proof (cells_mid l pre y post Nl) as Pc.
  assert (Na0 : arr <> 0) by (eapply get_nonnull; eauto). assert (Nt0 : t <> 0) by (eapply get_nonnull; eauto).
  destruct (bucket_remove _ _ _ _ _ _ _ _ _ I) as (h1 & E1 & G1 & IL1 & F1).
  rewrite (bnd_Ok _ _ _ _ _ E1).
  assert (FI : forall z, In z (footprint l (pairs (pre ++ y :: post))) -> In z (cells (l, pre ++ y :: post))) by (intros z; apply in_footprint; exact Nl).
  assert (Ht1 : get h1 t = get h t) by (apply F1; auto). assert (Ha1 : get h1 arr = get h arr) by (apply F1; auto).
  assert (He1 : get h1 (n_he y) = get h (n_he y)) by (apply F1; exact (he_not_le _ _ _ _ _ _ _ _ I Hy)).
  pose proof (ih_size _ _ _ _ I) as Zs.
  assert (ZZ : zlen (pre ++ post) < 2 ^ 60).
  { pose proof (Permutation_zlen _ _ (ents_mid B1 l (pre ++ y :: post) B2)) as Z. rewrite !zlen_app, zlen_cons in Z. rewrite !zlen_app.
    pose proof (zlen_nonneg (ents (B1 ++ B2))). lia. }
  pose proof Ht1 as Ht1'. pose proof Ha1 as Ha1'. rewrite Ht in Ht1'. rewrite Ha in Ha1'.
  destruct (add_element_ok h1 t _ B1 l (pre ++ y :: post) B2 (pre ++ post) k v Ht1' Ha1' IL1 ZZ)
    as (x & h2 & E2 & K2 & V2 & IL2 & He2 & F2 & F2' & Nx & Nx0 & O2).
  rewrite (bnd_Ok _ _ _ _ _ E2). exists x, h2. split; [reflexivity|]. split; [exact K2|]. split; [exact V2|].
  pose proof (Permutation_NoDup Pc NDb) as NDb'. apply NoDup_cons_iff in NDb'. destruct NDb' as [N1 N2]. apply NoDup_cons_iff in N2. destruct N2 as [N3 N4].
  pose proof (cells_snoc l (pre ++ post) x Nl) as Pc2.
  assert (Sub : forall z, In z (cells (l, pre ++ post)) -> In z (cells (l, pre ++ y :: post))).
  { intros z Hz. apply (Permutation_in _ (Permutation_sym Pc)). simpl; auto. }
  assert (FI2 : forall z, In z (footprint l (pairs (pre ++ post))) -> In z (cells (l, pre ++ post))) by (intros z; apply in_footprint; exact Nl).
  assert (BB := bucket_at _ _ _ _ _ _ _ I eq_refl).
  assert (AL : forall z, In z (cells (l, pre ++ post)) -> get h1 z <> None).
  { intros z Hz. rewrite cells_eq in Hz by exact Nl. change (l :: map n_le (pre ++ post) ++ map n_he (pre ++ post)) with ((l :: map n_le (pre ++ post)) ++ map n_he (pre ++ post)) in Hz.
    apply in_app_iff in Hz. destruct Hz as [Hz|Hz].
    - apply (il_alloc _ _ _ _ IL1). unfold footprint. rewrite handles_pairs. exact Hz.
    - apply in_map_iff in Hz. destruct Hz as (w & <- & Hw).
      assert (Hw' : In w (pre ++ y :: post)) by (apply in_app_iff in Hw; apply in_app_iff; simpl; tauto).
      rewrite F1 by exact (he_not_le _ _ _ _ _ _ _ _ I Hw'). destruct (index_mid _ _ _ _ _ _ _ w I Hw') as (X & _). congruence. }
  assert (Cx : ~ In (n_le x) (cells (l, pre ++ post)) /\ ~ In (n_he x) (cells (l, pre ++ post))).
  { split; intros X; apply AL in X; congruence. }
  assert (Nhy : n_he x <> n_he y /\ n_le x <> n_he y) by (split; congruence).
  assert (FR : forall z, get h1 z = None -> get h z = None \/ z = n_le y).
  { intros z Hz. destruct (in_dec Z.eq_dec z (footprint l (pairs (pre ++ y :: post)))) as [X|X].
    - right. apply FI, (Permutation_in _ Pc) in X. destruct X as [X|[X|X]]; [auto|subst z; congruence|]. exfalso. exact (AL _ X Hz).
    - left. rewrite <- F1; auto. }
  assert (Q1 : forall z, In z (cells (l, (pre ++ post) ++ [x])) -> In z (cells (l, pre ++ y :: post)) \/ get h z = None).
  { assert (In (n_le y) (cells (l, pre ++ y :: post))) by (apply (Permutation_in _ (Permutation_sym Pc)); left; reflexivity).
    intros z Hz. apply (Permutation_in _ Pc2) in Hz. destruct Hz as [<-|[<-|Hz]]; [| |auto].
    - destruct (FR _ F2') as [X|X]; [auto|left; congruence].
    - destruct (FR _ F2) as [X|X]; [auto|left; congruence]. }
  assert (Q2 : forall z, z <> t -> z <> arr -> ~ In z (cells (l, pre ++ y :: post)) -> ~ In z (cells (l, (pre ++ post) ++ [x])) -> get h2 z = get h z).
  { intros z Y1 Y2 Y3 Y4. rewrite O2; [apply F1; auto|intros X; apply Y3; auto| |]; intros ->; apply Y4; apply (Permutation_in _ (Permutation_sym Pc2)); simpl; auto. }
  assert (TA : get h2 t = get h1 t /\ get h2 arr = get h1 arr).
  { split; apply O2; [intros X; apply Nt; auto|congruence|congruence|intros X; apply Na; auto|congruence|congruence]. }
  assert (HN : get h2 (n_he y) = get h (n_he y)).
  { rewrite O2; [exact He1| |intuition congruence|intuition congruence]. intros X. apply N3. auto. }
  split; [|split; [|split; [exact HN|split; [tauto|]]]].
  3: { pose proof (take_out _ _ _ _ _ _ _ _ _ I) as TO. unfold fp in *. rewrite !all_cells_app, !all_cells_cons in *. simpl in *.
    rewrite !in_app_iff in *. intros [X|[X|[X|[X|X]]]]; try tauto. apply (Permutation_in _ Pc2) in X. simpl in X. intuition congruence. }
  - eapply ht_update; [exact I| | | | | | | | |].
    + rewrite (proj1 TA). exact Ht1'.
    + pose proof (Permutation_zlen _ _ (ents_mid B1 l (pre ++ y :: post) B2)) as Z1.
      pose proof (Permutation_zlen _ _ (ents_mid B1 l ((pre ++ post) ++ [x]) B2)) as Z2.
      rewrite !zlen_app, zlen_cons in Z1, Z2. rewrite ?zlen_app in Z2. change (zlen (@nil ent)) with 0 in Z2. lia.
    + rewrite (proj2 TA), Ha1', !map_app. reflexivity.
    + right. cbn [fst snd]. split; [exact IL2|]. intros z Hz. apply in_app_iff in Hz. destruct Hz as [Hz|[<-|[]]].
      * assert (Hz' : In z (pre ++ y :: post)) by (apply in_app_iff in Hz; apply in_app_iff; simpl; tauto).
        destruct (index_mid _ _ _ _ _ _ _ z I Hz') as (X1 & X2 & _). split; [|exact X2].
        assert (Hc : In (n_he z) (cells (l, pre ++ post))). { rewrite cells_eq by exact Nl. right. apply in_app_iff. right. apply in_map. exact Hz. }
        rewrite O2; [rewrite F1 by exact (he_not_le _ _ _ _ _ _ _ _ I Hz'); exact X1| |intros X; apply (proj2 Cx); congruence|intros X; apply (proj1 Cx); congruence].
        intros X. rewrite cells_eq in N4 by exact Nl. unfold footprint in X. rewrite handles_pairs in X.
        change (l :: map n_le (pre ++ post) ++ map n_he (pre ++ post)) with ((l :: map n_le (pre ++ post)) ++ map n_he (pre ++ post)) in N4.
        apply NoDup_app_split in N4. destruct N4 as (_ & _ & N4). apply (N4 _ X). apply in_map. exact Hz.
      * split; [exact He2|]. intros La. rewrite K2. unfold index_of in *. rewrite (hash_cmp _ _ _ (ih_legal _ _ _ _ I La) _ _ K). exact (Ky La).
    + eapply Permutation_NoDup; [symmetry; exact Pc2|]. constructor; [|constructor; tauto]. simpl. intuition congruence.
    + exact Q1.
    + exact Q2.
    + intros La. assert (P : Permutation (ents (B1 ++ (l, pre ++ y :: post) :: B2)) (y :: ents (B1 ++ (l, pre ++ post) :: B2))).
      { rewrite (ents_mid B1 l (pre ++ y :: post) B2), (ents_mid B1 l (pre ++ post) B2), <- !app_assoc. symmetry. cbn [app]. apply Permutation_middle. }
      pose proof (distinct_perm _ _ (ih_legal _ _ _ _ I La) P (ih_distinct _ _ _ _ I La)) as [D1 D2].
      pose proof (ih_legal _ _ _ _ I La) as Lg.
      eapply distinct_new; [exact Lg|exact D2| |exact K2|].
      * intros z Hz X. apply (D1 z Hz). eapply (cmp_trans _ _ _ Lg); [|exact X]. apply (cmp_sym _ _ _ Lg). exact K.
      * rewrite (ents_mid B1 l ((pre ++ post) ++ [x]) B2), (ents_mid B1 l (pre ++ post) B2), <- !app_assoc.
        change ([x] ++ ents (B1 ++ B2)) with (x :: ents (B1 ++ B2)). rewrite !app_assoc. symmetry. apply Permutation_middle.
    + pose proof (Permutation_zlen _ _ (ents_mid B1 l (pre ++ y :: post) B2)) as Z1.
      pose proof (Permutation_zlen _ _ (ents_mid B1 l ((pre ++ post) ++ [x]) B2)) as Z2.
      rewrite !zlen_app, zlen_cons in Z1, Z2. rewrite ?zlen_app in Z2. change (zlen (@nil ent)) with 0 in Z2. lia.
  - apply update_moved; [exact Q1|exact Q2|]. intros z Y1 Y2. apply (Permutation_in _ Pc) in Y1. destruct Y1 as [<-|[<-|Y1]].
    + left. rewrite O2; [exact G1| |intros X; apply Y2|intros X; apply Y2]; try (rewrite X; apply (Permutation_in _ (Permutation_sym Pc2)); simpl; auto; fail).
      intros X. apply Y2. apply (Permutation_in _ (Permutation_sym Pc2)). simpl; auto.
    + right. auto.
    + exfalso. apply Y2. apply (Permutation_in _ (Permutation_sym Pc2)). simpl; auto.
Qed.

(** The loop of hash_table_put. *)
Lemma ht_put_loop_ok h t i l size cap arr k v pre xs n :
  get h t = Some (CHtab (mk_htab cap size hash cmp arr)) ->
  is_list h l (pairs (pre ++ xs)) -> (forall x, In x xs -> get h (n_he x) = Some (hcell t i x)) ->
  (length xs < n)%nat ->
  (forall y pr po, xs = pr ++ y :: po -> (forall z, In z pr -> call_cmp fn cmp k (n_key z) <> 0) ->
     call_cmp fn cmp k (n_key y) = 0 ->
     ht_put_loop fn n t i l k v (hd_addr (pairs xs) 0) h =
       if n_val y =? v then Ok (0, h)
       else (do! list_remove l (n_le y) in do! add_element t i k v in ret (n_he y)) h) /\
  ((forall z, In z xs -> call_cmp fn cmp k (n_key z) <> 0) ->
     ht_put_loop fn n t i l k v (hd_addr (pairs xs) 0) h = (do! add_element t i k v in do! ht_size_inc t in ret 0) h).
Proof.
  intros Ht. revert pre n; induction xs as [|x xs IH]; intros pre n IL HC Hn; (destruct n as [|n]; [lia|]).
  - split; [|reflexivity]. intros y pr po E. destruct pr; discriminate.
  - rewrite pairs_app in IL. cbn [pairs map] in IL. cbn [ht_put_loop pairs map hd_addr].
    destruct (il_mid _ _ _ _ _ _ IL) as (_ & Ne & _). rewrite (proj2 (Z.eqb_neq (n_le x) 0)) by exact Ne.
    rewrite (bnd_Ok _ _ _ _ _ (get_value_ok _ _ _ _ _ _ IL)). rewrite (step_ld_htab _ _ _ _ Ht).
    rewrite (step_ld_helem _ _ _ _ (HC x (or_introl eq_refl))). cbn [ht_cmp he_key].
    assert (IL' : is_list h l (pairs ((pre ++ [x]) ++ xs))) by (rewrite <- app_assoc, pairs_app; exact IL).
    destruct (IH (pre ++ [x]) n IL' (fun y Hy => HC y (or_intror Hy)) ltac:(simpl in Hn; lia)) as [IH1 IH2].
    destruct (call_cmp fn cmp k (n_key x) =? 0) eqn:E.
    + split.
      * intros y pr po Exs A B. destruct pr as [|z pr]; injection Exs as <- Exs.
        -- unfold hash_elem_get_value. rewrite bnd_assoc.
           rewrite (step_ld_helem _ _ _ _ (HC x (or_introl eq_refl))). rewrite bnd_ret. cbn [he_value].
           destruct (n_val x =? v); reflexivity.
        -- exfalso. apply (A x (or_introl eq_refl)). lia.
      * intros A. exfalso. apply (A x (or_introl eq_refl)). lia.
    + rewrite (bnd_Ok _ _ _ _ _ (next_ok _ _ _ _ _ _ IL)). split.
      * intros y pr po Exs A B. destruct pr as [|z pr]; injection Exs as <- Exs; [lia|].
        apply (IH1 y pr po Exs); [|exact B]. intros w Hw. apply A. right; auto.
      * intros A. apply IH2. intros w Hw. apply A. right; auto.
Qed.

Lemma distinct_unique xs x y k : legal fn hash cmp -> distinct xs -> In x xs -> In y xs ->
  call_cmp fn cmp k (n_key x) = 0 -> call_cmp fn cmp k (n_key y) = 0 -> x = y.
Proof.
  intros Lg. induction xs as [|z xs IH]; [intros _ []|]. intros [D1 D2] Hx Hy Kx Ky.
  assert (X : forall a b, call_cmp fn cmp k (n_key a) = 0 -> call_cmp fn cmp k (n_key b) = 0 -> call_cmp fn cmp (n_key a) (n_key b) = 0).
  { intros a b A B. eapply (cmp_trans _ _ _ Lg); [apply (cmp_sym _ _ _ Lg); exact A|exact B]. }
  destruct Hx as [<-|Hx], Hy as [<-|Hy]; [reflexivity| | |apply IH; auto].
  - exfalso. apply (D1 _ Hy). auto.
  - exfalso. apply (D1 _ Hx). auto.
Qed.
Lemma ents_take B1 l pre x post B2 :
  Permutation (ents (B1 ++ (l, pre ++ x :: post) :: B2)) (x :: ents (B1 ++ (l, pre ++ post) :: B2)).
Proof.
  rewrite (ents_mid B1 l (pre ++ x :: post) B2), (ents_mid B1 l (pre ++ post) B2), <- !app_assoc. symmetry.
  cbn [app]. apply Permutation_middle.
Qed.
Lemma get_entry h t arr bs x k : law -> is_ht h t arr bs -> In x (ents bs) -> call_cmp fn cmp k (n_key x) = 0 ->
  hash_table_get fn t k h = Ok (n_he x, h).
Proof.
  intros La I Hx K. destruct (split_bucket _ _ _ _ _ _ (ih_buckets _ _ _ _ I) Hx) as (B1 & [l xs] & B2 & E & Hb & _).
  simpl in Hb. apply in_split in Hb. destruct Hb as (pre & post & ->).
  exact (proj1 (hash_table_get_ok _ _ _ _ k La I) _ _ _ _ _ _ E K).
Qed.

Lemma put_ok h t arr bs k v : law -> is_ht h t arr bs ->
  ((forall y, In y (ents bs) -> call_cmp fn cmp k (n_key y) <> 0) -> zlen (ents bs) < 2 ^ 60 ->
     exists x bs' h', hash_table_put fn t k v h = Ok (0, h') /\ n_key x = k /\ n_val x = v /\
       Permutation (ents bs') (x :: ents bs) /\ is_ht h' t arr bs' /\ moved t arr bs bs' h h' 0) /\
  (forall y, In y (ents bs) -> call_cmp fn cmp k (n_key y) = 0 -> n_val y = v -> hash_table_put fn t k v h = Ok (0, h)) /\
  (forall y es, Permutation (ents bs) (y :: es) -> call_cmp fn cmp k (n_key y) = 0 -> n_val y <> v ->
     exists x bs' h', hash_table_put fn t k v h = Ok (n_he y, h') /\ n_key x = k /\ n_val x = v /\
       Permutation (ents bs') (x :: es) /\ is_ht h' t arr bs' /\ moved t arr bs bs' h h' (n_he y) /\
       get h' (n_he y) = get h (n_he y) /\ n_he x <> n_he y /\ ~ In (n_he y) (fp t arr bs')).
Proof.
  intros La I. pose proof (ih_cap _ _ _ _ I) as HC. pose proof (ih_table _ _ _ _ I) as Ht. pose proof (ih_slots _ _ _ _ I) as Ha.
  unfold hash_table_put. rewrite (bnd_Ok _ _ _ _ _ (bucket_index_ok _ _ _ _ _ k (proj1 HC) Ht)).
  pose proof (ih_legal _ _ _ _ I La) as Lg. pose proof (ih_distinct _ _ _ _ I La) as Di.
  destruct (lookup_cases _ _ _ _ k I) as (B1 & l & xs & B2 & E & L & Cases).
  rewrite <- L. pose proof Ha as Ha'. rewrite E in Ha'. rewrite (bnd_Ok _ _ _ _ _ (ld_slot_ok _ _ _ _ _ _ Ht Ha')). cbn [fst].
  destruct (bucket_at _ _ _ _ _ _ _ I E) as [[E1 E2]|[IL HE]]; simpl in E1, E2 || simpl in IL, HE.
  - subst l xs. rewrite Z.eqb_refl.
    assert (NO : forall y, In y (ents bs) -> call_cmp fn cmp k (n_key y) <> 0).
    { destruct Cases as [(pr & y & po & X & _)|[_ Cases]]; [destruct pr; discriminate|exact (Cases La)]. }
    split; [|split].
    + intros A Hz. rewrite E in *. destruct (put_new_null _ _ _ _ _ k v I (fun _ => L) (fun _ => A) Hz) as (l & x & h' & X1 & X2 & X3 & X4 & X5).
      exists x, (B1 ++ (l, [x]) :: B2), h'. split; [exact X1|]. split; [exact X2|]. split; [exact X3|]. split; [|auto].
      rewrite (ents_mid B1 l [x] B2), (ents_mid B1 0 [] B2). reflexivity.
    + intros y Hy K. destruct (NO y Hy K).
    + intros y es P K. destruct (NO y); [|exact K]. apply (Permutation_in _ (Permutation_sym P)). left; reflexivity.
  - assert (Nl : l <> 0) by (apply (il_nonnull _ _ _ _ IL); left; reflexivity).
    rewrite (proj2 (Z.eqb_neq l 0)) by exact Nl. erewrite bnd_Ok by reflexivity. rewrite (bnd_Ok _ _ _ _ _ (get_first_ok _ _ _ IL)).
    destruct (ht_put_loop_ok h t (zlen B1) l _ _ _ k v [] xs (S (length (mem h))) Ht IL) as [G1 G2].
    { intros x Hx. apply HE; auto. }
    { apply (ht_fuel _ _ _ IL). }
    assert (Sub : forall z, In z xs -> In z (ents bs)) by (intros z Hz; rewrite E, ents_app, ents_cons; simpl; rewrite !in_app_iff; auto).
    split; [|split].
    + intros A Hz. rewrite G2 by auto. rewrite E in *. destruct (put_new_in _ _ _ _ _ _ _ k v I Nl (fun _ => L) (fun _ => A) Hz) as (x & h' & X1 & X2 & X3 & X4 & X5).
      exists x, (B1 ++ (l, xs ++ [x]) :: B2), h'. split; [exact X1|]. split; [exact X2|]. split; [exact X3|]. split; [|auto].
      rewrite (ents_mid B1 l (xs ++ [x]) B2), (ents_mid B1 l xs B2), <- app_assoc. symmetry. apply Permutation_middle.
    + intros y Hy K V. destruct Cases as [(pr & x & po & X & A & B)|[_ Cases]]; [|destruct (Cases La y Hy K)].
      assert (x = y). { eapply (distinct_unique (ents bs)) with (k := k); eauto. apply Sub. rewrite X. apply in_app_iff; right; left; reflexivity. }
      subst x. rewrite (G1 y pr po X A B). rewrite (proj2 (Z.eqb_eq _ _) V). reflexivity.
    + intros y es P K V. assert (Hy : In y (ents bs)) by (apply (Permutation_in _ (Permutation_sym P)); left; reflexivity).
      destruct Cases as [(pr & x & po & X & A & B)|[_ Cases]]; [|destruct (Cases La y Hy K)].
      assert (x = y). { eapply (distinct_unique (ents bs)) with (k := k); eauto. apply Sub. rewrite X. apply in_app_iff; right; left; reflexivity. }
      subst x. rewrite (G1 y pr po X A B). rewrite (proj2 (Z.eqb_neq _ _) V). subst xs. rewrite E in *.
      destruct (put_replace _ _ _ _ _ _ _ _ _ k v I K) as (x & h' & X1 & X2 & X3 & X4 & X5 & X6 & X7).
      exists x, (B1 ++ (l, (pr ++ po) ++ [x]) :: B2), h'. split; [exact X1|]. split; [exact X2|]. split; [exact X3|]. split; [|auto].
      rewrite (ents_take B1 l pr y po B2) in P. apply Permutation_cons_inv in P. rewrite <- P.
      rewrite (ents_take B1 l (pr ++ po) x [] B2), app_nil_r. reflexivity.
Qed.

(** Detaching and removing. *)
Lemma find_entry h t arr bs x es : is_ht h t arr bs -> Permutation (ents bs) (x :: es) ->
  exists B1 l pre post B2, bs = B1 ++ (l, pre ++ x :: post) :: B2 /\ Permutation es (ents (B1 ++ (l, pre ++ post) :: B2)).
Proof.
  intros I P. assert (Hx : In x (ents bs)) by (apply (Permutation_in _ (Permutation_sym P)); left; reflexivity).
  destruct (split_bucket _ _ _ _ _ _ (ih_buckets _ _ _ _ I) Hx) as (B1 & [l xs] & B2 & E & Hb & _).
  simpl in Hb. apply in_split in Hb. destruct Hb as (pre & post & ->). exists B1, l, pre, post, B2. split; [exact E|].
  rewrite E, (ents_take B1 l pre x post B2) in P. apply Permutation_cons_inv in P. symmetry. exact P.
Qed.

(** Taking out the element [x] of the bucket [l]. *)
Lemma detach_at h t arr B1 l pre x post B2 : is_ht h t arr (B1 ++ (l, pre ++ x :: post) :: B2) ->
  exists h', hash_table_detach t (n_he x) h = Ok (tt, h') /\ is_ht h' t arr (B1 ++ (l, pre ++ post) :: B2) /\
    moved t arr (B1 ++ (l, pre ++ x :: post) :: B2) (B1 ++ (l, pre ++ post) :: B2) h h' (n_he x) /\
    get h' (n_he x) = get h (n_he x) /\ get h (n_he x) <> None /\ ~ In (n_he x) (fp t arr (B1 ++ (l, pre ++ post) :: B2)).
Proof.
  intros I. destruct (index_mid _ _ _ _ _ _ _ x I) as (Hex & _ & IL & Nl); [apply in_app_iff; right; left; reflexivity|].
  pose proof (ih_table _ _ _ _ I) as Ht. pose proof (ih_slots _ _ _ _ I) as Ha.
  assert (Nt0 : t <> 0) by (eapply get_nonnull; eauto).
  destruct (ht_layout _ _ _ _ _ _ I) as [Nta Nt Na NDb]. pose proof (cells_mid l pre x post Nl) as Pc.
  assert (Hx : In x (pre ++ x :: post)) by (apply in_app_iff; right; left; reflexivity).
  assert (FI : forall z, In z (footprint l (pairs (pre ++ x :: post))) -> In z (cells (l, pre ++ x :: post))) by (intros z; apply in_footprint; exact Nl).
  unfold hash_table_detach. rewrite (step_ld_helem _ _ _ _ Hex). cbn [hcell he_table he_index he_loc].
  rewrite (bnd_Ok _ _ _ _ _ (ld_slot_ok _ _ _ _ _ _ Ht Ha)). cbn [fst].
  destruct (bucket_remove _ _ _ _ _ _ _ _ _ I) as (h1 & E1 & G1 & IL1 & F1).
  rewrite (bnd_Ok _ _ _ _ _ E1).
  assert (Ht1 : get h1 t = get h t) by (apply F1; auto). rewrite Ht in Ht1.
  pose proof (ih_size _ _ _ _ I) as Zs. pose proof (Permutation_zlen _ _ (ents_take B1 l pre x post B2)) as ZP. rewrite zlen_cons in ZP. pose proof (zlen_nonneg (ents (B1 ++ (l, pre ++ post) :: B2))).
  rewrite (run_ht_size_dec t h1 _ Ht1) by (cbn [ht_size]; lia). cbn [ht_capacity ht_size ht_hash ht_cmp ht_table].
  eexists. split; [reflexivity|].
  assert (Hc : In (n_he x) (cells (l, pre ++ x :: post))) by (apply (Permutation_in _ (Permutation_sym Pc)); simpl; auto).
  assert (Nht : n_he x <> t) by (intros X; apply Nt; rewrite <- X; exact Hc).
  assert (G2 : get h1 (n_he x) = get h (n_he x)) by (apply F1; exact (he_not_le _ _ _ _ _ _ _ _ I Hx)).
  destruct (take_ht h t arr B1 l pre x post B2 h1 (put_cell h1 t (CHtab (mk_htab (zlen (B1 ++ (l, pre ++ x :: post) :: B2)) (zlen (ents (B1 ++ (l, pre ++ x :: post) :: B2)) - 1) hash cmp arr))) I G1 IL1) as [T1 T2].
  - intros y _ Hy. apply F1, Hy.
  - gs. reflexivity.
  - intros y Y1 Y2. gs. reflexivity.
  - right. gs. exact G2.
  - split; [exact T1|]. split; [exact T2|]. split; [gs; exact G2|]. split; [congruence|].
    exact (take_out _ _ _ _ _ _ _ _ _ I).
Qed.

Lemma detach_ok h t arr bs x es : is_ht h t arr bs -> Permutation (ents bs) (x :: es) ->
  exists bs' h', hash_table_detach t (n_he x) h = Ok (tt, h') /\ Permutation (ents bs') es /\ is_ht h' t arr bs' /\
    moved t arr bs bs' h h' (n_he x) /\ get h' (n_he x) = get h (n_he x) /\ get h (n_he x) <> None /\ ~ In (n_he x) (fp t arr bs').
Proof.
  intros I P. destruct (find_entry _ _ _ _ _ _ I P) as (B1 & l & pre & post & B2 & E & P').
  subst bs. destruct (detach_at _ _ _ _ _ _ _ _ _ I) as (h' & E & R).
  exists (B1 ++ (l, pre ++ post) :: B2), h'. split; [exact E|]. split; [symmetry; exact P'|exact R].
Qed.

Lemma remove_at h t arr B1 l pre x post B2 : is_ht h t arr (B1 ++ (l, pre ++ x :: post) :: B2) ->
  exists h', hash_table_remove t (n_he x) h = Ok (tt, h') /\ is_ht h' t arr (B1 ++ (l, pre ++ post) :: B2) /\
    moved t arr (B1 ++ (l, pre ++ x :: post) :: B2) (B1 ++ (l, pre ++ post) :: B2) h h' 0 /\
    get h' (n_he x) = None /\ ~ In (n_he x) (fp t arr (B1 ++ (l, pre ++ post) :: B2)).
Proof.
  intros I. destruct (detach_at _ _ _ _ _ _ _ _ _ I) as (h1 & E & I1 & M & G & A & N).
  set (bs := B1 ++ (l, pre ++ x :: post) :: B2) in *. set (bs' := B1 ++ (l, pre ++ post) :: B2) in *.
  unfold hash_table_remove. rewrite (bnd_Ok _ _ _ _ _ E). unfold destroy_hash_element, free. rewrite G.
  destruct (get h (n_he x)) as [c|] eqn:EG; [|congruence].
  assert (N0 : n_he x <> 0) by (eapply get_nonnull; eauto).
  eexists. split; [reflexivity|].
  assert (F : forall y, In y (fp t arr bs') -> get (drop_cell h1 (n_he x)) y = get h1 y).
  { intros y Hy. assert (y <> n_he x) by congruence. gs. reflexivity. }
  split; [|split; [|split; [|exact N]]].
  - destruct I1 as [L1 L2 L3 L4 L5 L6 L7 L8]. constructor; auto.
    + rewrite F by (left; reflexivity). exact L2.
    + rewrite F by (right; left; reflexivity). exact L3.
    + eapply buckets_frame; [|exact L5]. intros y Hy. apply F. right; right; exact Hy.
  - destruct M as [M1 M2 M3]. constructor.
    + intros y Y1 Y2. assert (y <> n_he x).
      { intros ->. apply Y1. right. right. unfold fp in *. assert (In x (ents bs)) by (apply (Permutation_in _ (Permutation_sym (ents_take B1 l pre x post B2))); left; reflexivity).
        destruct (split_bucket _ _ _ _ _ _ (ih_buckets _ _ _ _ I) H) as (C1 & [l' xs] & C2 & EB & X & B).
        rewrite EB, all_cells_app, all_cells_cons, !in_app_iff. right; left. destruct B as [[_ B]|[B _]]; [rewrite B in X; destruct X|].
        simpl in *. rewrite cells_eq by (apply (il_nonnull _ _ _ _ B); left; reflexivity). right. apply in_app_iff. right. apply in_map. exact X. }
      gs. auto.
    + exact M2.
    + intros y Y1 Y2. destruct (Z.eq_dec y (n_he x)) as [->|Ny].
      * left. gs. reflexivity.
      * gs. destruct (M3 y Y1 Y2) as [X|[X _]]; [auto|congruence].
  - gs. reflexivity.
Qed.

Lemma remove_element_ok h t arr bs x es : is_ht h t arr bs -> Permutation (ents bs) (x :: es) ->
  exists bs' h', hash_table_remove t (n_he x) h = Ok (tt, h') /\ Permutation (ents bs') es /\ is_ht h' t arr bs' /\
    moved t arr bs bs' h h' 0 /\ get h' (n_he x) = None /\ ~ In (n_he x) (fp t arr bs').
Proof.
  intros I P. destruct (find_entry _ _ _ _ _ _ I P) as (B1 & l & pre & post & B2 & E & P').
  subst bs. destruct (remove_at _ _ _ _ _ _ _ _ _ I) as (h' & E & R).
  exists (B1 ++ (l, pre ++ post) :: B2), h'. split; [exact E|]. split; [symmetry; exact P'|exact R].
Qed.

Lemma pop_ok h t arr bs k : law -> is_ht h t arr bs ->
  (forall x es, Permutation (ents bs) (x :: es) -> call_cmp fn cmp k (n_key x) = 0 ->
    exists bs' h', hash_table_pop fn t k h = Ok (n_he x, h') /\ Permutation (ents bs') es /\ is_ht h' t arr bs' /\
    moved t arr bs bs' h h' (n_he x) /\ get h' (n_he x) = get h (n_he x) /\ get h (n_he x) <> None /\ ~ In (n_he x) (fp t arr bs')) /\
  ((forall y, In y (ents bs) -> call_cmp fn cmp k (n_key y) <> 0) -> hash_table_pop fn t k h = Ok (0, h)).
Proof.
  intros La I. unfold hash_table_pop. split.
  - intros x es P K. assert (Hx : In x (ents bs)) by (apply (Permutation_in _ (Permutation_sym P)); left; reflexivity).
    rewrite (bnd_Ok _ _ _ _ _ (get_entry _ _ _ _ _ _ La I Hx K)).
    destruct (detach_ok _ _ _ _ _ _ I P) as (bs' & h1 & E & R). exists bs', h1. split; [|exact R].
    destruct R as (_ & _ & _ & _ & G & _). assert (N0 : n_he x <> 0) by (intros X; rewrite X in G; apply G; reflexivity).
    rewrite (proj2 (Z.eqb_neq _ _) N0). rewrite (bnd_Ok _ _ _ _ _ E). reflexivity.
  - intros A. rewrite (bnd_Ok _ _ _ _ _ (proj2 (hash_table_get_ok _ _ _ _ k La I) A)). reflexivity.
Qed.

(** * Traversal *)

Definition first_of (xs : list ent) : Z := match xs with [] => 0 | x :: _ => n_he x end.

Lemma is_full h t arr B1 l xs B2 : is_ht h t arr (B1 ++ (l, xs) :: B2) ->
  (if l =? 0 then ret false else let! b := list_empty l in ret (negb b)) h = Ok (match xs with [] => false | _ => true end, h).
Proof.
  intros I. destruct (bucket_at _ _ _ _ _ _ _ I eq_refl) as [[E1 E2]|[IL HE]]; simpl in *.
  - subst. reflexivity.
  - rewrite (proj2 (Z.eqb_neq l 0)) by (apply (il_nonnull _ _ _ _ IL); left; reflexivity).
    rewrite (bnd_Ok _ _ _ _ _ (empty_ok _ _ _ IL)). destruct xs; reflexivity.
Qed.

Lemma get_next_loop_ok h t arr bs B1 B2 n : is_ht h t arr bs -> bs = B1 ++ B2 -> (length B2 < n)%nat ->
  get_next_loop n t (zlen B1) h = Ok (first_of (ents B2), h).
Proof.
  intros I. pose proof (ih_table _ _ _ _ I) as Ht. pose proof (ih_slots _ _ _ _ I) as Ha.
  revert B1 n; induction B2 as [|[l xs] B2 IH]; intros B1 n E Hn; (destruct n as [|n]; [lia|]); cbn [get_next_loop];
    rewrite (step_ld_htab _ _ _ _ Ht); cbn [ht_capacity].
  - rewrite (proj2 (Z.ltb_ge (zlen B1) (zlen bs))); [reflexivity|]. rewrite E, app_nil_r. lia.
  - rewrite (proj2 (Z.ltb_lt (zlen B1) (zlen bs))).
    2: { rewrite E, zlen_app, zlen_cons. pose proof (zlen_nonneg B2). lia. }
    subst bs. rewrite (bnd_Ok _ _ _ _ _ (ld_slot_ok _ _ _ _ _ _ Ht Ha)). cbn [fst].
    rewrite (bnd_Ok _ _ _ _ _ (is_full _ _ _ _ _ _ _ I)). rewrite ents_cons. cbn [snd]. destruct xs as [|x xs].
    + replace (zlen B1 + 1) with (zlen (B1 ++ [(l, [])])) by (rewrite zlen_app; reflexivity).
      apply IH; [rewrite <- app_assoc; reflexivity|simpl in Hn; lia].
    + destruct (index_mid _ _ _ _ _ _ _ x I (or_introl eq_refl)) as (_ & _ & IL & _).
      rewrite (bnd_Ok _ _ _ _ _ (get_first_ok _ _ _ IL)). cbn [pairs map hd_addr].
      exact (get_value_ok h l [] (n_le x) (n_he x) (pairs xs) IL).
Qed.
Lemma get_next_ok h t arr bs B1 B2 : is_ht h t arr bs -> bs = B1 ++ B2 -> get_next t (zlen B1) h = Ok (first_of (ents B2), h).
Proof.
  intros I E. unfold get_next. rewrite (step_ld_htab _ _ _ _ (ih_table _ _ _ _ I)). cbn [ht_capacity].
  apply (get_next_loop_ok _ _ _ _ _ _ _ I E). rewrite E, zlen_app. unfold zlen. lia.
Qed.
Lemma get_any_ok h t arr bs : is_ht h t arr bs -> hash_table_get_any t h = Ok (first_of (ents bs), h).
Proof. intros I. exact (get_next_ok h t arr bs [] bs I eq_refl). Qed.

Lemma ents_split bs ys x zs : ents bs = ys ++ x :: zs ->
  exists B1 l pre post B2, bs = B1 ++ (l, pre ++ x :: post) :: B2 /\ zs = post ++ ents B2.
Proof.
  revert ys; induction bs as [|[l xs] bs IH]; intros ys E; [destruct ys; discriminate|].
  rewrite ents_cons in E. cbn [snd] in E.
  assert (C : (exists r, ys = xs ++ r /\ ents bs = r ++ x :: zs) \/ (exists post, xs = ys ++ x :: post /\ zs = post ++ ents bs)).
  { clear IH. revert ys E; induction xs as [|y xs IH]; intros ys E; [left; exists ys; auto|].
    destruct ys as [|y' ys]; injection E as -> E; [right; exists xs; auto|].
    destruct (IH _ E) as [(r & -> & R)|(post & -> & R)]; [left; exists r; auto|right; exists post; auto]. }
  destruct C as [(r & -> & R)|(post & -> & R)].
  - destruct (IH _ R) as (B1 & l' & pre & post & B2 & -> & ->). exists ((l, xs) :: B1), l', pre, post, B2. auto.
  - exists [], l, ys, post, bs. auto.
Qed.
Lemma get_other_ok h t arr bs ys x zs : is_ht h t arr bs -> ents bs = ys ++ x :: zs ->
  hash_table_get_other (n_he x) h = Ok (first_of zs, h) /\ n_he x <> 0.
Proof.
  intros I E. destruct (ents_split _ _ _ _ E) as (B1 & l & pre & post & B2 & -> & ->).
  destruct (index_mid _ _ _ _ _ _ _ x I) as (Hex & _ & IL & Nl); [apply in_app_iff; right; left; reflexivity|].
  split; [|eapply get_nonnull; eauto].
  unfold hash_table_get_other. rewrite (step_ld_helem _ _ _ _ Hex). cbn [hcell he_loc he_table he_index].
  rewrite pairs_app in IL. cbn [pairs map] in IL. rewrite (bnd_Ok _ _ _ _ _ (next_ok _ _ _ _ _ _ IL)).
  destruct post as [|y post].
  - cbn [map hd_addr]. replace (zlen B1 + 1) with (zlen (B1 ++ [(l, pre ++ [x])])) by (rewrite zlen_app; reflexivity).
    apply (get_next_ok _ _ _ _ _ _ I). rewrite <- app_assoc. reflexivity.
  - cbn [map hd_addr]. change (is_list h l (pairs pre ++ [(n_le x, n_he x)] ++ (n_le y, n_he y) :: pairs post)) in IL. rewrite app_assoc in IL.
    destruct (il_mid _ _ _ _ _ _ IL) as (_ & Ne & _). unfold truth. rewrite (proj2 (Z.eqb_neq (n_le y) 0)) by exact Ne.
    cbn [negb]. exact (get_value_ok _ _ _ _ _ _ IL).
Qed.
Lemma others_ok h t arr bs ys xs n : is_ht h t arr bs -> ents bs = ys ++ xs -> (length xs <= n)%nat ->
  others n (first_of xs) h = Ok (map n_he xs, h).
Proof.
  intros I. revert ys n; induction xs as [|x xs IH]; intros ys n E Hn; [destruct n; reflexivity|].
  destruct (get_other_ok _ _ _ _ _ _ _ I E) as [G N]. destruct n as [|n]; [simpl in Hn; lia|].
  cbn [first_of others]. rewrite (proj2 (Z.eqb_neq _ _) N). rewrite (bnd_Ok _ _ _ _ _ G).
  erewrite bnd_Ok; [reflexivity|]. apply (IH (ys ++ [x])); [rewrite <- app_assoc; exact E|simpl in Hn; lia].
Qed.

Lemma pop_any_loop_ok h t arr bs B1 B2 n : is_ht h t arr bs -> bs = B1 ++ B2 -> (length B2 < n)%nat ->
  (ents B2 = [] -> pop_any_loop n t (zlen B1) h = Ok (0, h)) /\
  (forall x xs, ents B2 = x :: xs -> exists C1 l post C2, bs = C1 ++ (l, x :: post) :: C2 /\
     pop_any_loop n t (zlen B1) h = (do! ht_size_dec t in list_pop_first l) h).
Proof.
  intros I. pose proof (ih_table _ _ _ _ I) as Ht. pose proof (ih_slots _ _ _ _ I) as Ha.
  revert B1 n; induction B2 as [|[l xs] B2 IH]; intros B1 n E Hn; (destruct n as [|n]; [lia|]); cbn [pop_any_loop];
    rewrite (step_ld_htab _ _ _ _ Ht); cbn [ht_capacity].
  - rewrite (proj2 (Z.ltb_ge (zlen B1) (zlen bs))); [split; [reflexivity|discriminate]|]. rewrite E, app_nil_r. lia.
  - rewrite (proj2 (Z.ltb_lt (zlen B1) (zlen bs))).
    2: { rewrite E, zlen_app, zlen_cons. pose proof (zlen_nonneg B2). lia. }
    rewrite E in Ha. rewrite (bnd_Ok _ _ _ _ _ (ld_slot_ok _ _ _ _ _ _ Ht Ha)). cbn [fst].
    pose proof I as I'. rewrite E in I'.
    rewrite (bnd_Ok _ _ _ _ _ (is_full _ _ _ _ _ _ _ I')). rewrite ents_cons. cbn [snd]. destruct xs as [|x xs].
    + replace (zlen B1 + 1) with (zlen (B1 ++ [(l, [])])) by (rewrite zlen_app; reflexivity).
      apply (IH (B1 ++ [(l, [])])); [rewrite <- app_assoc; exact E|simpl in Hn; lia].
    + split; [discriminate|]. intros y ys Ey. injection Ey as <- _. exists B1, l, xs, B2. auto.
Qed.
Lemma pop_any_ok h t arr bs : is_ht h t arr bs ->
  (ents bs = [] -> hash_table_pop_any t h = Ok (0, h)) /\
  (forall x xs, ents bs = x :: xs ->
    exists bs' h', hash_table_pop_any t h = Ok (n_he x, h') /\ Permutation (ents bs') xs /\ is_ht h' t arr bs' /\
    moved t arr bs bs' h h' (n_he x) /\ get h' (n_he x) = get h (n_he x) /\ get h (n_he x) <> None /\ ~ In (n_he x) (fp t arr bs')).
Proof.
  intros I. destruct (pop_any_loop_ok h t arr bs [] bs (S (Z.to_nat (zlen bs))) I eq_refl) as [A B].
  { unfold zlen. lia. }
  unfold hash_table_pop_any. rewrite (step_ld_htab _ _ _ _ (ih_table _ _ _ _ I)). cbn [ht_capacity].
  split; [exact A|]. intros x xs E. destruct (B x xs E) as (B1 & l & post & B2 & -> & EB).
  change (zlen (@nil bkt)) with 0 in EB. rewrite EB. clear A B EB.
  pose proof (ih_table _ _ _ _ I) as Ht. pose proof (ih_slots _ _ _ _ I) as Ha.
  assert (Nt0 : t <> 0) by (eapply get_nonnull; eauto).
  destruct (index_mid _ _ _ _ _ _ _ x I (or_introl eq_refl)) as (Hex & _ & IL & Nl).
  destruct (ht_layout _ _ _ _ _ _ I) as [Nta Nt Na NDb]. pose proof (cells_mid l [] x post Nl) as Pc. cbn [app] in Pc.
  pose proof (ih_size _ _ _ _ I) as Zs. assert (ZP : 1 <= zlen (ents (B1 ++ (l, x :: post) :: B2))).
  { rewrite E, zlen_cons. pose proof (zlen_nonneg xs). lia. }
  rewrite (bnd_Ok _ _ _ _ _ (run_ht_size_dec t h _ Ht ltac:(cbn [ht_size]; lia))). cbn [ht_capacity ht_size ht_hash ht_cmp ht_table].
  set (h1 := put_cell h t _).
  assert (O1 : forall y, y <> t -> get h1 y = get h y) by (intros y Y; unfold h1; gs; reflexivity).
  assert (FI : forall z, In z (footprint l (pairs (x :: post))) -> In z (cells (l, x :: post))) by (intros z; apply in_footprint; exact Nl).
  assert (IL1 : is_list h1 l (pairs (x :: post))).
  { eapply il_frame; [|exact IL]. intros y Hy. apply O1. intros ->. apply Nt; auto. }
  destruct (pop_first_ok _ _ _ IL1) as (h2 & E2 & IL2 & F2 & G2).
  exists (B1 ++ (l, post) :: B2), h2. split; [exact E2|].
  assert (Hc : In (n_he x) (cells (l, x :: post))) by (apply (Permutation_in _ (Permutation_sym Pc)); simpl; auto).
  assert (Nht : n_he x <> t) by (intros X; apply Nt; rewrite <- X; exact Hc).
  assert (Gx : get h2 (n_he x) = get h (n_he x)).
  { rewrite F2; [apply O1; exact Nht|]. exact (he_not_le _ _ _ _ _ _ _ _ I (or_introl eq_refl)). }
  split.
  { pose proof (ents_take B1 l [] x post B2) as P. cbn [app] in P. rewrite E in P. apply Permutation_cons_inv in P. symmetry. exact P. }
  destruct (take_ht h t arr B1 l [] x post B2 h2 h2 I) as [T1 T2].
  - apply G2. discriminate.
  - exact IL2.
  - intros y Y1 Y2. rewrite F2; [apply O1; exact Y1|exact Y2].
  - rewrite F2; [|intros X; apply Nt; auto]. unfold h1. gs. reflexivity.
  - reflexivity.
  - right. exact Gx.
  - split; [exact T1|]. split; [exact T2|]. split; [exact Gx|]. split; [congruence|]. exact (take_out h t arr B1 l [] x post B2 I).
Qed.

(** * Destruction *)

Lemma destroy_bucket_ok h t i l pre xs n :
  is_list h l (pairs (pre ++ xs)) -> (forall x, In x xs -> get h (n_he x) = Some (hcell t i x)) ->
  NoDup (map n_he xs) -> (forall x, In x xs -> ~ In (n_he x) (footprint l (pairs (pre ++ xs)))) -> (length xs < n)%nat ->
  exists h', destroy_bucket n (hd_addr (pairs xs) 0) h = Ok (tt, h') /\
    (forall x, In x (map n_he xs) -> get h' x = None) /\ (forall x, ~ In x (map n_he xs) -> get h' x = get h x).
Proof.
  revert h pre n; induction xs as [|x xs IH]; intros h pre n IL HC ND HN Hn; (destruct n as [|n]; [lia|]).
  - exists h. split; [reflexivity|]. split; [intros y []|reflexivity].
  - pose proof IL as IL0. rewrite pairs_app in IL. cbn [pairs map] in IL. cbn [destroy_bucket pairs map hd_addr].
    destruct (il_mid _ _ _ _ _ _ IL) as (_ & Ne & _). rewrite (proj2 (Z.eqb_neq (n_le x) 0)) by exact Ne.
    rewrite (bnd_Ok _ _ _ _ _ (get_value_ok _ _ _ _ _ _ IL)).
    pose proof (HC x (or_introl eq_refl)) as Hx. assert (N0 : n_he x <> 0) by (eapply get_nonnull; eauto).
    assert (EF : destroy_hash_element (n_he x) h = Ok (tt, drop_cell h (n_he x))) by (unfold destroy_hash_element, free; rewrite Hx; reflexivity).
    rewrite (bnd_Ok _ _ _ _ _ EF). set (h1 := drop_cell h (n_he x)).
    assert (IL1 : is_list h1 l (pairs (pre ++ x :: xs))).
    { eapply il_frame; [|exact IL0]. intros y Hy. assert (y <> n_he x). { intros ->. exact (HN x (or_introl eq_refl) Hy). } unfold h1. gs. reflexivity. }
    pose proof IL1 as IL2. rewrite pairs_app in IL2. cbn [pairs map] in IL2.
    rewrite (bnd_Ok _ _ _ _ _ (next_ok _ _ _ _ _ _ IL2)).
    cbn [map] in ND. apply NoDup_cons_iff in ND. destruct ND as [ND1 ND2].
    destruct (IH h1 (pre ++ [x]) n) as (h' & E & A & F).
    + rewrite <- app_assoc. exact IL1.
    + intros y Hy. assert (n_he y <> n_he x). { intros X. apply ND1. rewrite <- X. apply in_map. exact Hy. }
      unfold h1. gs. apply HC. right; exact Hy.
    + exact ND2.
    + intros y Hy. rewrite <- app_assoc. apply HN. right; exact Hy.
    + simpl in Hn. lia.
    + exists h'. split; [exact E|]. split.
      * intros y [<-|Hy]; [|auto]. rewrite F by exact ND1. unfold h1. gs. reflexivity.
      * intros y Hy. cbn [map] in Hy. simpl in Hy. nots Hy. rewrite F by tauto. unfold h1. gs. reflexivity.
Qed.

Lemma destroy_buckets_ok h0 t arr bs : is_ht h0 t arr bs -> forall B2 B1 n h, bs = B1 ++ B2 -> (length B2 < n)%nat ->
  (forall x, In x (all_cells B1) -> get h x = None) -> (forall x, ~ In x (all_cells B1) -> get h x = get h0 x) ->
  exists h', destroy_buckets n t (zlen B1) h = Ok (tt, h') /\
    (forall x, In x (all_cells bs) -> get h' x = None) /\ (forall x, ~ In x (all_cells bs) -> get h' x = get h0 x).
Proof.
  intros I. pose proof (ih_table _ _ _ _ I) as Ht0. pose proof (ih_slots _ _ _ _ I) as Ha0. pose proof (ih_nodup _ _ _ _ I) as ND.
  apply NoDup_cons_iff in ND. destruct ND as [N1 ND]. apply NoDup_cons_iff in ND. destruct ND as [N2 ND].
  induction B2 as [|b B2 IH]; intros B1 n h E Hn A F; (destruct n as [|n]; [lia|]); cbn [destroy_buckets].
  - rewrite app_nil_r in E. subst B1. exists h. split; [|auto].
    assert (Ht : get h t = get h0 t) by (apply F; intros X; apply N1; right; exact X). rewrite Ht0 in Ht.
    rewrite (step_ld_htab _ _ _ _ Ht). cbn [ht_capacity]. rewrite Z.ltb_irrefl. reflexivity.
  - assert (S1 : forall x, In x (all_cells B1) -> In x (all_cells bs)) by (intros x X; rewrite E, all_cells_app, in_app_iff; auto).
    assert (Ht : get h t = get h0 t) by (apply F; intros X; apply N1; right; auto). rewrite Ht0 in Ht.
    assert (Ha : get h arr = get h0 arr) by (apply F; intros X; apply N2; auto). rewrite Ha0 in Ha.
    rewrite (step_ld_htab _ _ _ _ Ht). cbn [ht_capacity].
    rewrite (proj2 (Z.ltb_lt (zlen B1) (zlen bs))).
    2: { rewrite E, zlen_app, zlen_cons. pose proof (zlen_nonneg B2). lia. }
    rewrite E in Ha. rewrite (bnd_Ok _ _ _ _ _ (ld_slot_ok _ _ _ _ _ _ Ht Ha)). cbn [fst].
    rewrite E, all_cells_app, all_cells_cons in ND. apply NoDup_app_split in ND. destruct ND as (ND1 & ND2 & ND3).
    apply NoDup_app_split in ND2. destruct ND2 as (ND4 & ND5 & ND6).
    assert (NB : forall x, In x (cells b) -> ~ In x (all_cells B1)).
    { intros x X Y. apply (ND3 x Y). apply in_app_iff; auto. }
    assert (step : exists h1, (if fst b =? 0 then ret tt else let! k := fuel in let! le := list_get_first (fst b) in do! destroy_bucket k le in
        let! list := ld_slot t (zlen B1) in destroy_list list) h = Ok (tt, h1) /\
        (forall x, In x (cells b) -> get h1 x = None) /\ (forall x, ~ In x (cells b) -> get h1 x = get h x)).
    { pose proof (bucket_at _ _ _ _ _ _ _ I E) as BO.
      apply (bucket_frame _ h0 h) in BO; [|intros x X; apply F; auto].
      destruct b as [l xs]. destruct BO as [[E1 E2]|[IL HE]]; cbn [fst snd] in *.
      - subst. exists h. split; [reflexivity|]. split; [intros x []|reflexivity].
      - assert (Nl : l <> 0) by (apply (il_nonnull _ _ _ _ IL); left; reflexivity).
        rewrite (proj2 (Z.eqb_neq l 0)) by exact Nl. erewrite bnd_Ok by reflexivity. rewrite (bnd_Ok _ _ _ _ _ (get_first_ok _ _ _ IL)).
        pose proof ND4 as NC. rewrite cells_eq in NC by exact Nl. change (l :: map n_le xs ++ map n_he xs) with ((l :: map n_le xs) ++ map n_he xs) in NC.
        apply NoDup_app_split in NC. destruct NC as (NC1 & NC2 & NC3).
        assert (FE : footprint l (pairs xs) = l :: map n_le xs) by (unfold footprint; rewrite handles_pairs; reflexivity).
        destruct (destroy_bucket_ok h t (zlen B1) l [] xs (S (length (mem h))) IL) as (h1 & E1 & A1 & F1).
        + intros x X. apply HE, X.
        + exact NC2.
        + intros x X Y. cbn [app] in Y. rewrite FE in Y. apply (NC3 _ Y). apply in_map. exact X.
        + exact (ht_fuel _ _ _ IL).
        + rewrite (bnd_Ok _ _ _ _ _ E1).
          assert (HS : forall x, In x (map n_he xs) -> In x (cells (l, xs))) by (intros x X; rewrite cells_eq by exact Nl; right; apply in_app_iff; auto).
          assert (Ht1 : get h1 t = get h t). { apply F1. intros X. apply N1. right. rewrite E, all_cells_app, all_cells_cons, !in_app_iff. auto. }
          assert (Ha1 : get h1 arr = get h arr). { apply F1. intros X. apply N2. rewrite E, all_cells_app, all_cells_cons, !in_app_iff. auto. }
          rewrite Ht in Ht1. rewrite Ha in Ha1. rewrite (bnd_Ok _ _ _ _ _ (ld_slot_ok _ _ _ _ _ _ Ht1 Ha1)). cbn [fst].
          assert (IL1 : is_list h1 l (pairs xs)).
          { eapply il_frame; [|exact IL]. intros y Hy. apply F1. rewrite FE in Hy. auto. }
          destruct (destroy_list_ok _ _ _ IL1) as (h2 & E2 & A2 & F2). exists h2. split; [exact E2|]. rewrite FE in A2, F2.
          rewrite cells_eq by exact Nl. change (l :: map n_le xs ++ map n_he xs) with ((l :: map n_le xs) ++ map n_he xs). split.
          * intros x X. apply in_app_iff in X. destruct X as [X|X]; [auto|].
            rewrite F2; [auto|]. intros Y. exact (NC3 _ Y X).
          * intros x X. rewrite in_app_iff in X. rewrite F2 by tauto. apply F1. tauto. }
    destruct step as (h1 & E1 & A1 & F1). rewrite (bnd_Ok _ _ _ _ _ E1).
    replace (zlen B1 + 1) with (zlen (B1 ++ [b])) by (rewrite zlen_app; reflexivity).
    apply IH.
    + rewrite <- app_assoc. exact E.
    + simpl in Hn. lia.
    + intros x X. rewrite all_cells_app, all_cells_cons, !in_app_iff in X. destruct (in_dec Z.eq_dec x (cells b)) as [Y|Y]; [auto|].
      rewrite F1 by exact Y. apply A. simpl in X. tauto.
    + intros x X. rewrite all_cells_app, all_cells_cons, !in_app_iff in X. rewrite F1 by tauto. apply F. tauto.
Qed.

Lemma destroy_ok h t arr bs : is_ht h t arr bs ->
  exists h', destroy_hash_table t h = Ok (tt, h') /\
    (forall x, In x (fp t arr bs) -> get h' x = None) /\ (forall x, ~ In x (fp t arr bs) -> get h' x = get h x).
Proof.
  intros I. unfold destroy_hash_table. rewrite (step_ld_htab _ _ _ _ (ih_table _ _ _ _ I)). cbn [ht_capacity].
  destruct (destroy_buckets_ok h t arr bs I bs [] (S (Z.to_nat (zlen bs))) h eq_refl) as (h1 & E1 & A1 & F1).
  { unfold zlen. lia. } { intros x []. } { reflexivity. }
  change (zlen (@nil bkt)) with 0 in E1. rewrite (bnd_Ok _ _ _ _ _ E1).
  pose proof (ih_nodup _ _ _ _ I) as ND. apply NoDup_cons_iff in ND. destruct ND as [N1 ND]. apply NoDup_cons_iff in ND. destruct ND as [N2 ND].
  pose proof (ih_table _ _ _ _ I) as Ht. pose proof (ih_slots _ _ _ _ I) as Ha.
  assert (Nt0 : t <> 0) by (eapply get_nonnull; eauto). assert (Na0 : arr <> 0) by (eapply get_nonnull; eauto).
  assert (Nta : t <> arr) by (intros ->; apply N1; left; reflexivity).
  assert (Ht1 : get h1 t = get h t) by (apply F1; intros X; apply N1; right; exact X). rewrite Ht in Ht1.
  assert (Ha1 : get h1 arr = get h arr) by (apply F1; exact N2). rewrite Ha in Ha1.
  rewrite (step_ld_htab _ _ _ _ Ht1). cbn [ht_table].
  assert (EF : free arr h1 = Ok (tt, drop_cell h1 arr)) by (unfold free; rewrite Ha1; reflexivity).
  rewrite (bnd_Ok _ _ _ _ _ EF). unfold free.
  assert (Ht2 : get (drop_cell h1 arr) t = get h1 t) by (gs; reflexivity). rewrite Ht2, Ht1.
  eexists. split; [reflexivity|]. split.
  - intros x [<-|[<-|X]].
    + gs. reflexivity.
    + gs. reflexivity.
    + assert (x <> t) by (intros ->; apply N1; right; exact X). assert (x <> arr) by congruence. gs. auto.
  - intros x X. unfold fp in X. simpl in X. nots X. gs. apply F1. tauto.
Qed.

Lemma ht_size_ok h t arr bs : is_ht h t arr bs -> hash_table_size t h = Ok (zlen (ents bs), h).
Proof. intros I. unfold hash_table_size. rewrite (step_ld_htab _ _ _ _ (ih_table _ _ _ _ I)). reflexivity. Qed.
Lemma ht_empty_ok h t arr bs : is_ht h t arr bs -> hash_table_empty t h = Ok (match ents bs with [] => true | _ => false end, h).
Proof.
  intros I. unfold hash_table_empty. rewrite (step_ld_htab _ _ _ _ (ih_table _ _ _ _ I)). cbn [ht_size].
  destruct (ents bs) as [|x xs]; [reflexivity|]. rewrite zlen_cons. pose proof (zlen_nonneg xs).
  rewrite (proj2 (Z.eqb_neq (1 + zlen xs) 0)) by lia. reflexivity.
Qed.
End Table.

(** * Creation *)

Lemma good_size_step g0 g1 gs c : 0 < g1 -> good_size (g0 :: g1 :: gs) c = if g0 <? c then good_size (g1 :: gs) c else Ok g0.
Proof. intros H. cbn [good_size]. unfold truth. rewrite (proj2 (Z.eqb_neq g1 0)) by lia. reflexivity. Qed.

Fixpoint incr (g : Z) (gs : list Z) : Prop := match gs with [] => True | g1 :: r => g < g1 /\ incr g1 r end.
Lemma incr_ge gs : forall g x, incr g gs -> In x (g :: gs) -> g <= x.
Proof.
  induction gs as [|g1 gs IH]; intros g x H [<-|Hx]; try lia; [destruct Hx|]. destruct H as [H1 H2].
  pose proof (IH g1 x H2 Hx). lia.
Qed.
Lemma good_size_gen capacity gs : forall g0, 0 < g0 -> incr g0 gs ->
  exists c, good_size (g0 :: gs ++ [0]) capacity = Ok c /\ In c (g0 :: gs) /\
    (capacity <= c \/ (c = last (g0 :: gs) 0 /\ c < capacity)) /\ (forall g, In g (g0 :: gs) -> capacity <= g -> c <= g).
Proof.
  induction gs as [|g1 gs IH]; intros g0 P H.
  - exists g0. split; [reflexivity|]. split; [left; reflexivity|]. split; [simpl; lia|]. intros g [<-|[]]; lia.
  - destruct H as [H1 H2]. cbn [app]. rewrite good_size_step by lia. destruct (g0 <? capacity) eqn:E.
    + destruct (IH g1 ltac:(lia) H2) as (c & E1 & I1 & B1 & M1). exists c. split; [exact E1|]. split; [right; exact I1|].
      split; [exact B1|]. intros g [<-|Hg] Cg; [lia|auto].
    + exists g0. split; [reflexivity|]. split; [left; reflexivity|]. split; [lia|]. intros g Hg _. apply (incr_ge (g1 :: gs)); [split|]; auto.
Qed.
Lemma good_size_ok capacity : exists c, good_size GOOD_SIZES capacity = Ok c /\ In c GOOD_SIZES /\ 53 <= c <= 1610612741 /\
  (capacity <= c \/ (c = 1610612741 /\ 1610612741 < capacity)) /\ (forall g, In g GOOD_SIZES -> capacity <= g -> g = 0 \/ c <= g).
Proof.
  destruct (good_size_gen capacity (removelast (tl GOOD_SIZES)) 53) as (c & E & I & B & M); [lia|cbn; lia|].
  change (53 :: removelast (tl GOOD_SIZES) ++ [0]) with GOOD_SIZES in E.
  assert (S : forall g, In g GOOD_SIZES -> g = 0 \/ In g (53 :: removelast (tl GOOD_SIZES))).
  { change GOOD_SIZES with ((53 :: removelast (tl GOOD_SIZES)) ++ [0]) at 1. intros g Hg. apply in_app_iff in Hg.
    destruct Hg as [Hg|[<-|[]]]; auto. }
  exists c. split; [exact E|]. split.
  { change GOOD_SIZES with ((53 :: removelast (tl GOOD_SIZES)) ++ [0]). apply in_app_iff. left; exact I. }
  change (last (53 :: removelast (tl GOOD_SIZES)) 0) with 1610612741 in B.
  split; [|split; [lia|intros g Hg Cg; destruct (S g Hg); auto]].
  clear - I. cbn in I. repeat (destruct I as [<-|I]; [lia|]). destruct I.
Qed.

Definition empty_buckets (c : Z) : list bkt := repeat (0, []) (Z.to_nat c).
Lemma empty_buckets_facts c : 0 <= c -> zlen (empty_buckets c) = c /\ ents (empty_buckets c) = [] /\ all_cells (empty_buckets c) = [] /\
  map fst (empty_buckets c) = repeat 0 (Z.to_nat c).
Proof.
  intros H. unfold empty_buckets. split; [unfold zlen; rewrite repeat_length; lia|].
  generalize (Z.to_nat c) as n. induction n as [|n (IH1 & IH2 & IH3)]; [auto|]. cbn [repeat].
  rewrite ents_cons, all_cells_cons. cbn [map fst snd]. rewrite IH1, IH2, IH3. auto.
Qed.
Lemma empty_buckets_ok law fn hash cap h t i n : buckets_ok law fn hash cap h t i (repeat (0, []) n).
Proof. revert i; induction n as [|n IH]; intros i; cbn [repeat buckets_ok]; [auto|]. split; [left; auto|apply IH]. Qed.

Lemma make_ok (law : Prop) fn hash cmp capacity h : (law -> legal fn hash cmp) ->
  exists c t arr h', good_size GOOD_SIZES capacity = Ok c /\ make_hash_table capacity hash cmp h = Ok (t, h') /\
    is_ht law fn hash cmp h' t arr (empty_buckets c) /\ get h t = None /\ get h arr = None /\
    (forall x, x <> t -> x <> arr -> get h' x = get h x).
Proof.
  intros Lg. destruct (good_size_ok capacity) as (c & E & _ & R & _). exists c. unfold make_hash_table.
  destruct (alloc_spec (CHtab (mk_htab 0 0 0 0 0)) h) as (t & h1 & E1 & N1 & F1 & G1). rewrite (bnd_Ok _ _ _ _ _ E1).
  unfold lift at 1. rewrite E. unfold bnd at 1.
  destruct (alloc_spec (CSlots (repeat 0 (Z.to_nat c))) h1) as (arr & h2 & E2 & N2 & F2 & G2). rewrite (bnd_Ok _ _ _ _ _ E2).
  assert (Nta : t <> arr). { intros ->. rewrite G1, Z.eqb_refl in F2. discriminate. }
  assert (Ht2 : get h2 t = Some (CHtab (mk_htab 0 0 0 0 0))). { rewrite G2, (proj2 (Z.eqb_neq t arr)) by exact Nta. rewrite G1, Z.eqb_refl. reflexivity. }
  unfold st_htab. unfold bnd. rewrite Ht2. exists t, arr. eexists. split; [reflexivity|]. split; [reflexivity|].
  destruct (empty_buckets_facts c ltac:(lia)) as (X1 & X2 & X3 & X4).
  split; [|split; [exact F1|]; split].
  - constructor.
    + exact Lg.
    + rewrite X1, X2. gs. reflexivity.
    + rewrite X4. gs. rewrite G2, Z.eqb_refl. reflexivity.
    + rewrite X1. lia.
    + apply empty_buckets_ok.
    + rewrite X3. repeat constructor; simpl; intuition congruence.
    + intros _. rewrite X2. exact Logic.I.
    + rewrite X2. change (zlen (@nil ent)) with 0. lia.
  - rewrite G1 in F2. destruct (arr =? t); [discriminate|exact F2].
  - intros x A B. gs. rewrite G2, (proj2 (Z.eqb_neq x arr)) by exact B. rewrite G1, (proj2 (Z.eqb_neq x t)) by exact A. reflexivity.
Qed.

(** * Ownership *)

Lemma bucket_elem_handles h l es e : is_list h l es -> (bucket_elem h l e <-> In e (handles es)).
Proof.
  intros I. pose proof (il_head _ _ _ I) as Hl. split.
  - intros B. induction B as [c Hc N|e c B IH He N].
    + rewrite Hl in Hc. injection Hc as <-. simpl in *. destruct es as [|[a v] es]; simpl in *; [congruence|auto].
    + unfold handles in IH. apply in_map_iff in IH. destruct IH as ([a v] & X & IH). simpl in X; subst a.
      apply in_split in IH. destruct IH as (pre & post & ->). destruct (il_mid _ _ _ _ _ _ I) as (G & _).
      rewrite He in G. injection G as ->. cbn [le_next] in N |- *. destruct post as [|[b w] post]; [simpl in N; congruence|].
      cbn [hd_addr]. rewrite handles_app. apply in_app_iff. right. right. left. reflexivity.
  - revert e. assert (G : forall pre post, es = pre ++ post -> forall e, In e (handles pre) -> bucket_elem h l e).
    { induction pre as [|[a v] pre IH] using rev_ind; intros post E e He; [destruct He|].
      rewrite handles_app in He. apply in_app_iff in He. destruct He as [He|[<-|[]]].
      { apply (IH ((a, v) :: post)); [rewrite E, <- app_assoc; reflexivity|exact He]. }
      rewrite <- app_assoc in E. cbn [app] in E. cbn [fst].
      pose proof I as I'. rewrite E in I'. destruct (il_mid _ _ _ _ _ _ I') as (_ & Na & _).
      destruct pre as [|[b w] pre] using rev_ind.
      - assert (EQ : hd_addr es 0 = a) by (rewrite E; reflexivity). rewrite EQ in Hl.
        exact (BE_first h l _ Hl Na).
      - clear IHpre. rewrite <- app_assoc in E, I'. cbn [app] in E, I'. destruct (il_mid _ _ _ _ _ _ I') as (G & _).
        apply (BE_next h l b _) in G; [exact G| |exact Na].
        apply (IH ((a, v) :: post)); [rewrite E, <- app_assoc; reflexivity|].
        rewrite handles_app. apply in_app_iff. right. left. reflexivity. }
    intros e He. apply (G es []); [rewrite app_nil_r; reflexivity|exact He].
Qed.

Lemma owned_fp law fn hash cmp h t arr bs x : is_ht law fn hash cmp h t arr bs -> (owned h t x <-> In x (fp t arr bs)).
Proof.
  intros I. pose proof (ih_table _ _ _ _ _ _ _ _ I) as Ht. pose proof (ih_slots _ _ _ _ _ _ _ _ I) as Ha.
  assert (BK : forall l, bucket h t l -> exists B1 xs B2, bs = B1 ++ (l, xs) :: B2 /\ is_list h l (pairs xs) /\ l <> 0).
  { intros l B. destruct B as [c s l Hc Hs Hl Nl]. rewrite Ht in Hc. injection Hc as <-. cbn [ht_table] in Hs. rewrite Ha in Hs.
    injection Hs as <-. apply in_map_iff in Hl. destruct Hl as ([l' xs] & X & Hl). simpl in X; subst l'.
    apply in_split in Hl. destruct Hl as (B1 & B2 & E). exists B1, xs, B2. split; [exact E|].
    destruct (bucket_at _ _ _ _ _ _ _ _ _ _ _ I E) as [[E1 E2]|[IL _]]; simpl in *; [congruence|auto]. }
  split.
  - intros O. unfold fp. destruct O as [|c Hc|l B|l e B BE|l e c B BE He].
    + left; reflexivity.
    + rewrite Ht in Hc. injection Hc as <-. right; left; reflexivity.
    + destruct (BK l B) as (B1 & xs & B2 & -> & IL & Nl). right; right. rewrite all_cells_app, all_cells_cons, !in_app_iff.
      right; left. rewrite cells_eq by exact Nl. left; reflexivity.
    + destruct (BK l B) as (B1 & xs & B2 & -> & IL & Nl). right; right. rewrite all_cells_app, all_cells_cons, !in_app_iff.
      right; left. rewrite cells_eq by exact Nl. right. apply (proj1 (bucket_elem_handles _ _ _ _ IL)) in BE. rewrite handles_pairs in BE.
      apply in_app_iff; auto.
    + destruct (BK l B) as (B1 & xs & B2 & -> & IL & Nl). right; right. rewrite all_cells_app, all_cells_cons, !in_app_iff.
      right; left. rewrite cells_eq by exact Nl. right. apply (proj1 (bucket_elem_handles _ _ _ _ IL)) in BE. rewrite handles_pairs in BE.
      apply in_map_iff in BE. destruct BE as (y & <- & Hy). apply in_app_iff. right. apply in_map_iff. exists y. split; [|exact Hy].
      apply in_split in Hy. destruct Hy as (pre & post & ->). rewrite pairs_app in IL. cbn [pairs map] in IL.
      destruct (il_mid _ _ _ _ _ _ IL) as (G & _). rewrite He in G. injection G as ->. reflexivity.
  - unfold fp. intros [<-|[<-|Hx]].
    + apply O_table.
    + exact (O_slots h t _ Ht).
    + unfold all_cells in Hx. apply in_concat in Hx. destruct Hx as (cs & Hc & Hx). apply in_map_iff in Hc. destruct Hc as ([l xs] & <- & Hb).
      assert (Nl : l <> 0) by (intros ->; destruct Hx).
      assert (B : bucket h t l). { eapply Bucket; [exact Ht|exact Ha| |exact Nl]. apply in_map_iff. exists (l, xs); auto. }
      apply in_split in Hb. destruct Hb as (B1 & B2 & E).
      destruct (bucket_at _ _ _ _ _ _ _ _ _ _ _ I E) as [[E1 E2]|[IL _]]; simpl in *; [congruence|].
      rewrite cells_eq in Hx by exact Nl. destruct Hx as [<-|Hx]; [apply O_list; exact B|].
      apply in_app_iff in Hx. rewrite <- handles_pairs in Hx. destruct Hx as [Hx|Hx].
      * apply O_lelem with (l := l); [exact B|]. apply (bucket_elem_handles _ _ _ _ IL). exact Hx.
      * apply in_map_iff in Hx. destruct Hx as (y & <- & Hy). apply in_split in Hy. destruct Hy as (pre & post & ->).
        pose proof IL as IL'. rewrite pairs_app in IL'. cbn [pairs map] in IL'. destruct (il_mid _ _ _ _ _ _ IL') as (G & _).
        apply (O_helem h t l (n_le y) _ B) in G; [exact G|]. apply (bucket_elem_handles _ _ _ _ IL).
        rewrite handles_pairs. apply in_map. apply in_app_iff. right; left; reflexivity.
Qed.

Lemma ht_frame law fn hash cmp h h' t arr bs : is_ht law fn hash cmp h t arr bs -> (forall x, In x (fp t arr bs) -> get h' x = get h x) ->
  is_ht law fn hash cmp h' t arr bs.
Proof.
  intros [L1 L2 L3 L4 L5 L6 L7 L8] F. constructor; auto.
  - rewrite F by (left; reflexivity). exact L2.
  - rewrite F by (right; left; reflexivity). exact L3.
  - eapply buckets_frame; [|exact L5]. intros y Hy. apply F. right; right; exact Hy.
Qed.

(** * Histories *)

(** [m] is what the table holds. *)
Definition holds (bs : list bkt) (m : list assoc) : Prop := Permutation m (map assoc_of (ents bs)).

Lemma holds_in bs m e k v : holds bs m -> In (e, k, v) m -> exists x, In x (ents bs) /\ n_he x = e /\ n_key x = k /\ n_val x = v.
Proof.
  intros P H. apply (Permutation_in _ P), in_map_iff in H. destruct H as (x & E & Hx).
  exists x. split; [exact Hx|]. unfold assoc_of in E. injection E as <- <- <-. auto.
Qed.
Lemma holds_absent fn cmp bs m k : holds bs m -> (absent fn cmp k m <-> forall y, In y (ents bs) -> call_cmp fn cmp k (n_key y) <> 0).
Proof.
  intros P. unfold absent. split; intros A.
  - intros y Hy. apply (A (assoc_of y)). apply (Permutation_in _ (Permutation_sym P)). apply in_map. exact Hy.
  - intros a Ha. apply (Permutation_in _ P), in_map_iff in Ha. destruct Ha as (y & <- & Hy). exact (A y Hy).
Qed.
Lemma holds_cons bs m e k v m' : holds bs m -> Permutation m ((e, k, v) :: m') ->
  exists x es, Permutation (ents bs) (x :: es) /\ n_he x = e /\ n_key x = k /\ n_val x = v /\ Permutation m' (map assoc_of es).
Proof.
  intros P Q. assert (R : Permutation ((e, k, v) :: m') (map assoc_of (ents bs))) by (rewrite <- Q; exact P).
  apply Permutation_map_inv in R. destruct R as ([|x es] & E & R); [discriminate|]. cbn [map] in E. unfold assoc_of in E at 1.
  injection E as -> -> -> ->. exists x, es. split; [exact R|]. auto.
Qed.
Lemma holds_zlen bs m : holds bs m -> zlen m = zlen (ents bs).
Proof. intros P. unfold zlen. rewrite (Permutation_length P), map_length. reflexivity. Qed.

(** Handles of elements are distinct. *)
Lemma handles_nodup law fn hash cmp h t arr bs : is_ht law fn hash cmp h t arr bs -> NoDup (map n_he (ents bs)).
Proof.
  intros I. pose proof (ih_nodup _ _ _ _ _ _ _ _ I) as ND. apply NoDup_cons_iff in ND. destruct ND as [_ ND]. apply NoDup_cons_iff in ND. destruct ND as [_ ND].
        pose proof (ih_buckets _ _ _ _ _ _ _ _ I) as HB. clear - ND HB. revert HB. generalize 0 at 1. generalize (zlen bs) at 1.
        induction bs as [|[l zs] bs IH]; intros cap i HB; [constructor|]. rewrite all_cells_cons in ND. rewrite ents_cons, map_app. cbn [snd].
        destruct HB as [HB1 HB2]. apply NoDup_app_split in ND. destruct ND as (ND1 & ND2 & ND3).
        assert (SUB : forall bs cap i, buckets_ok law fn hash cap h t i bs -> forall x, In x (map n_he (ents bs)) -> In x (all_cells bs)).
        { clear. induction bs as [|[l zs] bs IH]; intros cap i HB x Hx; [destruct Hx|]. rewrite ents_cons, map_app, in_app_iff in Hx. cbn [snd] in Hx.
          destruct HB as [HB1 HB2]. rewrite all_cells_cons, in_app_iff. destruct Hx as [Hx|Hx]; [left|right; exact (IH _ _ HB2 _ Hx)].
          destruct HB1 as [[_ X]|[IL _]]; simpl in *; [subst; destruct Hx|].
          rewrite cells_eq by (apply (il_nonnull _ _ _ _ IL); left; reflexivity). right. apply in_app_iff; auto. }
        destruct HB1 as [[_ X]|[IL _]]; cbn [fst snd] in *.
        - subst zs. simpl. exact (IH ND2 _ _ HB2).
        - rewrite cells_eq in ND1, ND3 by (apply (il_nonnull _ _ _ _ IL); left; reflexivity).
          apply NoDup_app_join; [|exact (IH ND2 _ _ HB2)|].
          + apply NoDup_cons_iff in ND1. destruct ND1 as [_ ND1]. apply NoDup_app_split in ND1. tauto.
          + intros x Hx Hx'. apply (ND3 x); [right; apply in_app_iff; auto|]. exact (SUB _ _ _ HB2 _ Hx').
Qed.

(** The effect of one operation. *)
Lemma op_effect fn hash cmp h t arr bs m h' r m' : is_ht True fn hash cmp h t arr bs -> holds bs m ->
  ht_op fn cmp t h m h' r m' ->
  exists bs' gone, is_ht True fn hash cmp h' t arr bs' /\ holds bs' m' /\ moved t arr bs bs' h h' gone /\
    (gone = 0 \/ (get h' gone = get h gone /\ ~ In gone (fp t arr bs') /\ exists k v, In (gone, k, v) m)).
Proof.
  intros I P O.
  assert (NEW : forall x bs' m1 es h1 k v e, Permutation m1 (map assoc_of es) -> Permutation (ents bs') (x :: es) -> is_ht True fn hash cmp h1 t arr bs' ->
    n_key x = k -> n_val x = v -> hash_table_get fn t k h1 = Ok (e, h1) -> holds bs' ((e, k, v) :: m1)).
  { intros x bs' m1 es h1 k v e P1 Q I1 K V G.
    rewrite (get_entry _ _ _ _ _ _ _ _ x k Logic.I I1) in G.
    - injection G as <-. unfold holds. rewrite Q. cbn [map]. unfold assoc_of at 1. rewrite K, V. apply perm_skip. exact P1.
    - apply (Permutation_in _ (Permutation_sym Q)). left; reflexivity.
    - rewrite K. apply (cmp_refl _ _ _ (ih_legal _ _ _ _ _ _ _ _ I Logic.I)). }
  destruct O as [k v r e Sp A E G|k v r e k' Hin K E|k v r e k' w e' m' Pm K V E G|k r e k' v m' Pm K E|k r A E|e k v m' Pm E|e k v m' Pm E|r k v m' Pm E|r Em E].
  - destruct (put_ok _ _ _ _ _ _ _ _ k v Logic.I I) as [N _]. destruct N as (x & bs' & h1 & E1 & Kx & Vx & Q & I1 & Mv).
    + apply (proj1 (holds_absent fn cmp bs m k P)). exact A.
    + unfold sparse in Sp. rewrite (holds_zlen _ _ P) in Sp. exact Sp.
    + rewrite E in E1. injection E1 as -> <-. exists bs', 0. split; [exact I1|]. split; [|auto].
      exact (NEW x bs' m (ents bs) h' k v e P Q I1 Kx Vx G).
  - destruct (put_ok _ _ _ _ _ _ _ _ k v Logic.I I) as (_ & S & _). destruct (holds_in _ _ _ _ _ P Hin) as (x & Hx & <- & Kx & Vx).
    rewrite (S x Hx) in E; [|congruence|exact Vx]. injection E as <- <-. exists bs, 0. split; [exact I|]. split; [exact P|].
    split; [|auto]. constructor; intros x' X Y; try reflexivity; tauto.
  - destruct (put_ok _ _ _ _ _ _ _ _ k v Logic.I I) as (_ & _ & S). destruct (holds_cons _ _ _ _ _ _ P Pm) as (y & es & Q & <- & Ky & Vy & P').
    destruct (S y es Q) as (x & bs' & h1 & E1 & Kx & Vx & Q' & I1 & Mv & Gy & NN); [congruence|congruence|].
    rewrite E in E1. injection E1 as -> <-. exists bs', (n_he y). split; [exact I1|]. split; [exact (NEW x bs' m' es h' k v e P' Q' I1 Kx Vx G)|].
    split; [exact Mv|]. right. split; [exact Gy|]. split; [apply NN|]. exists k', w. apply (Permutation_in _ (Permutation_sym Pm)). left; reflexivity.
  - destruct (pop_ok _ _ _ _ _ _ _ _ k Logic.I I) as [S _]. destruct (holds_cons _ _ _ _ _ _ P Pm) as (y & es & Q & <- & Ky & Vy & P').
    destruct (S y es Q) as (bs' & h1 & E1 & Q' & I1 & Mv & Gy & NN); [congruence|].
    rewrite E in E1. injection E1 as -> <-. exists bs', (n_he y). split; [exact I1|]. split; [unfold holds; rewrite Q'; exact P'|].
    split; [exact Mv|]. right. split; [exact Gy|]. split; [apply NN|]. exists k', v. apply (Permutation_in _ (Permutation_sym Pm)). left; reflexivity.
  - destruct (pop_ok _ _ _ _ _ _ _ _ k Logic.I I) as [_ S]. rewrite S in E by (apply (proj1 (holds_absent fn cmp bs m k P)); exact A).
    injection E as <- <-. exists bs, 0. split; [exact I|]. split; [exact P|].
    split; [|auto]. constructor; intros x' X Y; try reflexivity; tauto.
  - destruct (holds_cons _ _ _ _ _ _ P Pm) as (y & es & Q & <- & Ky & Vy & P').
    destruct (detach_ok _ _ _ _ _ _ _ _ _ _ I Q) as (bs' & h1 & E1 & Q' & I1 & Mv & Gy & NN).
    rewrite E in E1. injection E1 as <-. exists bs', (n_he y). split; [exact I1|]. split; [unfold holds; rewrite Q'; exact P'|].
    split; [exact Mv|]. right. split; [exact Gy|]. split; [apply NN|]. exists k, v. apply (Permutation_in _ (Permutation_sym Pm)). left; reflexivity.
  - destruct (holds_cons _ _ _ _ _ _ P Pm) as (y & es & Q & <- & Ky & Vy & P').
    destruct (remove_element_ok _ _ _ _ _ _ _ _ _ _ I Q) as (bs' & h1 & E1 & Q' & I1 & Mv & Gy & NN).
    rewrite E in E1. injection E1 as <-. exists bs', 0. split; [exact I1|]. split; [unfold holds; rewrite Q'; exact P'|]. auto.
  - destruct (pop_any_ok _ _ _ _ _ _ _ _ I) as [_ S]. destruct (holds_cons _ _ _ _ _ _ P Pm) as (y & es & Q & Hy & Ky & Vy & P').
    destruct (ents bs) as [|x xs] eqn:EE; [apply Permutation_nil in Q; discriminate|].
    destruct (S x xs eq_refl) as (bs' & h1 & E1 & Q' & I1 & Mv & Gy & NN).
    rewrite E in E1. injection E1 as -> <-. exists bs', (n_he x).
    assert (x = y).
    { pose proof (handles_nodup _ _ _ _ _ _ _ _ I) as ND.
      rewrite EE in ND. cbn [map] in ND. apply NoDup_cons_iff in ND. destruct ND as [ND _].
      assert (Hin : In y (x :: xs)) by (apply (Permutation_in _ (Permutation_sym Q)); left; reflexivity).
      destruct Hin as [<-|Hin]; [reflexivity|]. exfalso. apply ND. rewrite <- Hy. apply in_map. exact Hin. }
    subst y. apply Permutation_cons_inv in Q. split; [exact I1|]. split.
    + unfold holds. rewrite Q', Q. exact P'.
    + split; [exact Mv|]. right. split; [exact Gy|]. split; [apply NN|]. exists k, v. apply (Permutation_in _ (Permutation_sym Pm)). left; reflexivity.
  - destruct (pop_any_ok _ _ _ _ _ _ _ _ I) as [S _]. rewrite S in E.
    + injection E as <- <-. exists bs, 0. split; [exact I|]. split; [exact P|].
      split; [|auto]. constructor; intros x' X Y; try reflexivity; tauto.
    + subst m. unfold holds in P. apply Permutation_nil in P. destruct (ents bs); [reflexivity|discriminate].
Qed.

Lemma buckets_change fn fn' hash cap h t bs : forall i, (forall x, In x (ents bs) -> call_hash fn' hash (n_key x) = call_hash fn hash (n_key x)) ->
  buckets_ok True fn hash cap h t i bs -> buckets_ok True fn' hash cap h t i bs.
Proof.
  induction bs as [|b bs IH]; intros i F; cbn [buckets_ok]; [auto|]. intros [B H]. rewrite ents_cons in F. split; [|apply IH; [intros x X; apply F, in_app_iff; auto|exact H]].
  destruct B as [E|[I G]]; [left; exact E|right]. split; [exact I|]. intros x X. destruct (G x X) as [G1 G2]. split; [exact G1|]. intros L. rewrite <- (G2 L). unfold index_of.
  rewrite F by (apply in_app_iff; auto). reflexivity.
Qed.
Lemma distinct_change fn fn' cmp xs : (forall x y, In x xs -> In y xs -> call_cmp fn' cmp (n_key x) (n_key y) = 0 -> call_cmp fn cmp (n_key x) (n_key y) = 0) ->
  distinct fn cmp xs -> distinct fn' cmp xs.
Proof.
  induction xs as [|x xs IH]; intros F; cbn [distinct]; [auto|]. intros [A D]. split; [|apply IH; [intros y z Y Z; apply F; right; assumption|exact D]].
  intros y Y E. apply (A y Y). apply F; [left; reflexivity|right; exact Y|exact E].
Qed.
Lemma ht_change fn fn' hash cmp h t arr bs : is_ht True fn hash cmp h t arr bs -> legal fn' hash cmp ->
  (forall x, In x (ents bs) -> call_hash fn' hash (n_key x) = call_hash fn hash (n_key x)) ->
  (forall x y, In x (ents bs) -> In y (ents bs) -> call_cmp fn' cmp (n_key x) (n_key y) = 0 -> call_cmp fn cmp (n_key x) (n_key y) = 0) ->
  is_ht True fn' hash cmp h t arr bs.
Proof.
  intros [I1 I2 I3 I4 I5 I6 I7 I8] L F G. constructor; auto.
  - eapply buckets_change; eauto.
  - intros T. eapply distinct_change; eauto.
Qed.
Lemma history_ht fn cmp h t m : ht_history fn cmp h t m ->
  exists hash arr bs, is_ht True fn hash cmp h t arr bs /\ holds bs m.
Proof.
  induction 1 as [fn cmp h capacity hash t h' R Lg E|fn cmp h t m r h' m' H (hash & arr & bs & I & P) O|fn cmp h t m m' H (hash & arr & bs & I & P) Q|fn cmp h t m h' H (hash & arr & bs & I & P) F
    |fn cmp fn' h t m c H (hash & arr & bs & I & P) G L F1 F2].
  - destruct (make_ok True fn hash cmp capacity h (fun _ => Lg)) as (c & t1 & arr & h1 & Ec & E1 & I & _).
    rewrite E in E1. injection E1 as <- <-. exists hash, arr, (empty_buckets c). split; [exact I|].
    destruct (good_size_ok capacity) as (c' & Ec' & _ & R' & _). rewrite Ec in Ec'. injection Ec' as <-.
    destruct (empty_buckets_facts c ltac:(lia)) as (_ & X & _). unfold holds. rewrite X. constructor.
  - destruct (op_effect _ _ _ _ _ _ _ _ _ _ _ I P O) as (bs' & gone & I' & P' & _). exists hash, arr, bs'. auto.
  - exists hash, arr, bs. split; [exact I|]. unfold holds. rewrite <- Q. exact P.
  - exists hash, arr, bs. split; [|exact P]. eapply ht_frame; [exact I|]. intros x Hx. apply F. apply (owned_fp _ _ _ _ _ _ _ _ _ I). exact Hx.
  - exists hash, arr, bs. split; [|exact P]. pose proof (ih_table _ _ _ _ _ _ _ _ I) as T. rewrite G in T. injection T as ->. cbn [ht_hash] in L, F1.
    assert (J : forall x, In x (ents bs) -> In (assoc_of x) m). { intros x X. eapply Permutation_in; [symmetry; exact P|]. apply in_map, X. }
    apply (ht_change fn' fn); [exact I|exact L| |].
    + intros x X. exact (F1 _ (J x X)).
    + intros x y X Y. exact (F2 _ _ (J x X) (J y Y)).
Qed.

Lemma make_history fn hash cmp capacity h : 0 <= capacity < 2 ^ 64 -> legal fn hash cmp ->
  exists t h', make_hash_table capacity hash cmp h = Ok (t, h') /\ ht_history fn cmp h' t [].
Proof.
  intros R Lg. destruct (make_ok True fn hash cmp capacity h (fun _ => Lg)) as (c & t & arr & h1 & _ & E & _).
  exists t, h1. split; [exact E|]. eapply HH_make; eauto.
Qed.

Lemma get_history fn cmp h t m k : ht_history fn cmp h t m ->
  (forall e k' v, In (e, k', v) m -> call_cmp fn cmp k k' = 0 -> hash_table_get fn t k h = Ok (e, h)) /\
  (absent fn cmp k m -> hash_table_get fn t k h = Ok (0, h)).
Proof.
  intros H. destruct (history_ht _ _ _ _ _ H) as (hash & arr & bs & I & P). split.
  - intros e k' v Hin K. destruct (holds_in _ _ _ _ _ P Hin) as (x & Hx & <- & <- & <-). exact (get_entry _ _ _ _ _ _ _ _ _ _ Logic.I I Hx K).
  - intros A. apply (proj2 (hash_table_get_ok _ _ _ _ _ _ _ _ k Logic.I I)). apply (proj1 (holds_absent fn cmp bs m k P)). exact A.
Qed.

Lemma elem_at law fn hash cmp h t arr bs x : is_ht law fn hash cmp h t arr bs -> In x (ents bs) -> exists i, get h (n_he x) = Some (hcell t i x).
Proof.
  intros I Hx. destruct (split_bucket _ _ _ _ _ _ _ _ _ (ih_buckets _ _ _ _ _ _ _ _ I) Hx) as (B1 & b & B2 & E & Hb & _).
  exists (zlen B1). apply (ent_index _ _ _ _ _ _ _ _ _ _ _ _ I E Hb).
Qed.
Lemma elem_readable h t i x : get h (n_he x) = Some (hcell t i x) ->
  n_he x <> 0 /\ hash_elem_get_key (n_he x) h = Ok (n_key x, h) /\ hash_elem_get_value (n_he x) h = Ok (n_val x, h).
Proof.
  intros G. unfold hash_elem_get_key, hash_elem_get_value. rewrite !(step_ld_helem _ _ _ _ G).
  split; [eapply get_nonnull; eauto|auto].
Qed.
Lemma element_history fn cmp h t m e k v : ht_history fn cmp h t m -> In (e, k, v) m ->
  e <> 0 /\ hash_elem_get_key e h = Ok (k, h) /\ hash_elem_get_value e h = Ok (v, h).
Proof.
  intros H Hin. destruct (history_ht _ _ _ _ _ H) as (hash & arr & bs & I & P).
  destruct (holds_in _ _ _ _ _ P Hin) as (x & Hx & <- & <- & <-). destruct (elem_at _ _ _ _ _ _ _ _ _ I Hx) as (i & G).
  exact (elem_readable _ _ _ _ G).
Qed.

Lemma distinct_in_perm fn cmp x y xs : distinct fn cmp (x :: xs) -> In y xs -> call_cmp fn cmp (n_key x) (n_key y) <> 0.
Proof. intros [D _]. auto. Qed.
Lemma unique_history fn cmp h t m a b rest : ht_history fn cmp h t m -> Permutation m (a :: b :: rest) ->
  call_cmp fn cmp (a_key a) (a_key b) <> 0 /\ a_elem a <> a_elem b.
Proof.
  intros H Q. destruct (history_ht _ _ _ _ _ H) as (hash & arr & bs & I & P).
  assert (R : Permutation (a :: b :: rest) (map assoc_of (ents bs))) by (rewrite <- Q; exact P).
  apply Permutation_map_inv in R. destruct R as ([|x [|y es]] & E & R); try discriminate.
  injection E as -> -> _. split.
  - pose proof (distinct_perm _ _ _ _ _ (ih_legal _ _ _ _ _ _ _ _ I Logic.I) R (ih_distinct _ _ _ _ _ _ _ _ I Logic.I)) as [D _].
    apply D. left; reflexivity.
  - pose proof (handles_nodup _ _ _ _ _ _ _ _ I) as ND. apply (Permutation_NoDup (Permutation_map n_he R)) in ND. cbn [map] in ND.
    apply NoDup_cons_iff in ND. destruct ND as [ND _]. intros X. apply ND. left. symmetry. exact X.
Qed.

Lemma put_new_history fn cmp h t m k v : ht_history fn cmp h t m -> sparse m -> absent fn cmp k m ->
  exists e h', hash_table_put fn t k v h = Ok (0, h') /\ ht_history fn cmp h' t ((e, k, v) :: m).
Proof.
  intros H Sp A. destruct (history_ht _ _ _ _ _ H) as (hash & arr & bs & I & P).
  destruct (put_ok _ _ _ _ _ _ _ _ k v Logic.I I) as [N _]. destruct N as (x & bs' & h1 & E1 & Kx & Vx & Q & I1 & Mv).
  - apply (proj1 (holds_absent fn cmp bs m k P)). exact A.
  - unfold sparse in Sp. rewrite (holds_zlen _ _ P) in Sp. exact Sp.
  - assert (Hx : In x (ents bs')) by (apply (Permutation_in _ (Permutation_sym Q)); left; reflexivity).
    exists (n_he x), h1. split; [exact E1|].
    eapply HH_op; [exact H|]. apply HO_put_new with (r := 0); auto.
    apply (get_entry _ _ _ _ _ _ _ _ _ _ Logic.I I1 Hx). rewrite Kx. apply (cmp_refl _ _ _ (ih_legal _ _ _ _ _ _ _ _ I Logic.I)).
Qed.
Lemma put_same_history fn cmp h t m k e k' v : ht_history fn cmp h t m -> In (e, k', v) m -> call_cmp fn cmp k k' = 0 ->
  hash_table_put fn t k v h = Ok (0, h).
Proof.
  intros H Hin K. destruct (history_ht _ _ _ _ _ H) as (hash & arr & bs & I & P).
  destruct (holds_in _ _ _ _ _ P Hin) as (x & Hx & <- & <- & <-).
  exact (proj1 (proj2 (put_ok _ _ _ _ _ _ _ _ k (n_val x) Logic.I I)) x Hx K eq_refl).
Qed.
Lemma put_replace_history fn cmp h t m k v e' k' w m' : ht_history fn cmp h t m -> Permutation m ((e', k', w) :: m') ->
  call_cmp fn cmp k k' = 0 -> w <> v ->
  exists e h', hash_table_put fn t k v h = Ok (e', h') /\ ht_history fn cmp h' t ((e, k, v) :: m') /\ e <> e' /\
    hash_elem_get_key e' h' = Ok (k', h') /\ hash_elem_get_value e' h' = Ok (w, h') /\ ~ owned h' t e'.
Proof.
  intros H Pm K V. destruct (history_ht _ _ _ _ _ H) as (hash & arr & bs & I & P).
  destruct (holds_cons _ _ _ _ _ _ P Pm) as (y & es & Q & <- & <- & <- & P').
  destruct (proj2 (proj2 (put_ok _ _ _ _ _ _ _ _ k v Logic.I I)) y es Q K V) as (x & bs' & h1 & E1 & Kx & Vx & Q' & I1 & Mv & Gy & Nxy & NN).
  assert (Hx : In x (ents bs')) by (apply (Permutation_in _ (Permutation_sym Q')); left; reflexivity).
  assert (Hy : In y (ents bs)) by (apply (Permutation_in _ (Permutation_sym Q)); left; reflexivity).
  destruct (elem_at _ _ _ _ _ _ _ _ _ I Hy) as (i & G). rewrite <- Gy in G. destruct (elem_readable _ _ _ _ G) as (_ & G1 & G2).
  exists (n_he x), h1. split; [exact E1|]. split.
  - eapply HH_op; [exact H|]. eapply HO_put_replace with (r := n_he y); eauto.
    apply (get_entry _ _ _ _ _ _ _ _ _ _ Logic.I I1 Hx). rewrite Kx. apply (cmp_refl _ _ _ (ih_legal _ _ _ _ _ _ _ _ I Logic.I)).
  - split; [exact Nxy|]. split; [exact G1|]. split; [exact G2|]. rewrite (owned_fp _ _ _ _ _ _ _ _ _ I1).
    exact NN.
Qed.

Lemma pop_history fn cmp h t m k e k' v m' : ht_history fn cmp h t m -> Permutation m ((e, k', v) :: m') -> call_cmp fn cmp k k' = 0 ->
  exists h', hash_table_pop fn t k h = Ok (e, h') /\ ht_history fn cmp h' t m' /\
    hash_elem_get_key e h' = Ok (k', h') /\ hash_elem_get_value e h' = Ok (v, h') /\ ~ owned h' t e.
Proof.
  intros H Pm K. destruct (history_ht _ _ _ _ _ H) as (hash & arr & bs & I & P).
  destruct (holds_cons _ _ _ _ _ _ P Pm) as (y & es & Q & <- & <- & <- & P').
  destruct (proj1 (pop_ok _ _ _ _ _ _ _ _ k Logic.I I) y es Q K) as (bs' & h1 & E1 & Q' & I1 & Mv & Gy & _ & NN).
  assert (Hy : In y (ents bs)) by (apply (Permutation_in _ (Permutation_sym Q)); left; reflexivity).
  destruct (elem_at _ _ _ _ _ _ _ _ _ I Hy) as (i & G). rewrite <- Gy in G. destruct (elem_readable _ _ _ _ G) as (_ & G1 & G2).
  exists h1. split; [exact E1|]. split; [|split; [exact G1|split; [exact G2|rewrite (owned_fp _ _ _ _ _ _ _ _ _ I1); exact NN]]].
  eapply HH_op; [exact H|]. eapply HO_pop with (r := n_he y); eauto.
Qed.
Lemma pop_none_history fn cmp h t m k : ht_history fn cmp h t m -> absent fn cmp k m -> hash_table_pop fn t k h = Ok (0, h).
Proof.
  intros H A. destruct (history_ht _ _ _ _ _ H) as (hash & arr & bs & I & P).
  apply (proj2 (pop_ok _ _ _ _ _ _ _ _ k Logic.I I)). apply (proj1 (holds_absent fn cmp bs m k P)). exact A.
Qed.
Lemma detach_history fn cmp h t m e k v m' : ht_history fn cmp h t m -> Permutation m ((e, k, v) :: m') ->
  exists h', hash_table_detach t e h = Ok (tt, h') /\ ht_history fn cmp h' t m' /\
    hash_elem_get_key e h' = Ok (k, h') /\ hash_elem_get_value e h' = Ok (v, h') /\ ~ owned h' t e.
Proof.
  intros H Pm. destruct (history_ht _ _ _ _ _ H) as (hash & arr & bs & I & P).
  destruct (holds_cons _ _ _ _ _ _ P Pm) as (y & es & Q & <- & <- & <- & P').
  destruct (detach_ok _ _ _ _ _ _ _ _ _ _ I Q) as (bs' & h1 & E1 & Q' & I1 & Mv & Gy & _ & NN).
  assert (Hy : In y (ents bs)) by (apply (Permutation_in _ (Permutation_sym Q)); left; reflexivity).
  destruct (elem_at _ _ _ _ _ _ _ _ _ I Hy) as (i & G). rewrite <- Gy in G. destruct (elem_readable _ _ _ _ G) as (_ & G1 & G2).
  exists h1. split; [exact E1|]. split; [|split; [exact G1|split; [exact G2|rewrite (owned_fp _ _ _ _ _ _ _ _ _ I1); exact NN]]].
  eapply HH_op; [exact H|]. eapply HO_detach; eauto.
Qed.
Lemma remove_history fn cmp h t m e k v m' : ht_history fn cmp h t m -> Permutation m ((e, k, v) :: m') ->
  exists h', hash_table_remove t e h = Ok (tt, h') /\ ht_history fn cmp h' t m' /\ get h' e = None.
Proof.
  intros H Pm. destruct (history_ht _ _ _ _ _ H) as (hash & arr & bs & I & P).
  destruct (holds_cons _ _ _ _ _ _ P Pm) as (y & es & Q & <- & <- & <- & P').
  destruct (remove_element_ok _ _ _ _ _ _ _ _ _ _ I Q) as (bs' & h1 & E1 & Q' & I1 & Mv & Gy & NN).
  exists h1. split; [exact E1|]. split; [|exact Gy]. eapply HH_op; [exact H|]. eapply HO_remove; eauto.
Qed.
Lemma pop_any_history fn cmp h t m : ht_history fn cmp h t m ->
  (m = [] -> hash_table_pop_any t h = Ok (0, h)) /\
  (m <> [] -> exists e k v m' h', Permutation m ((e, k, v) :: m') /\ hash_table_pop_any t h = Ok (e, h') /\ ht_history fn cmp h' t m' /\
    hash_elem_get_key e h' = Ok (k, h') /\ hash_elem_get_value e h' = Ok (v, h') /\ ~ owned h' t e).
Proof.
  intros H. destruct (history_ht _ _ _ _ _ H) as (hash & arr & bs & I & P). destruct (pop_any_ok _ _ _ _ _ _ _ _ I) as [A B]. split.
  - intros ->. apply A. unfold holds in P. apply Permutation_nil in P. destruct (ents bs); [reflexivity|discriminate].
  - intros N. destruct (ents bs) as [|y es] eqn:E.
    { exfalso. apply N. unfold holds in P. rewrite E in P. apply Permutation_sym, Permutation_nil in P. exact P. }
    destruct (B y es eq_refl) as (bs' & h1 & E1 & Q' & I1 & Mv & Gy & _ & NN).
    assert (Hy : In y (ents bs)) by (rewrite E; left; reflexivity).
    destruct (elem_at _ _ _ _ _ _ _ _ _ I Hy) as (i & G). rewrite <- Gy in G. destruct (elem_readable _ _ _ _ G) as (_ & G1 & G2).
    assert (PM : Permutation m ((n_he y, n_key y, n_val y) :: map assoc_of es)).
    { unfold holds in P. rewrite E in P. exact P. }
    exists (n_he y), (n_key y), (n_val y), (map assoc_of es), h1. split; [exact PM|]. split; [exact E1|].
    split; [|split; [exact G1|split; [exact G2|rewrite (owned_fp _ _ _ _ _ _ _ _ _ I1); exact NN]]].
    eapply HH_op; [exact H|]. eapply HO_pop_any; eauto.
Qed.
Lemma size_history fn cmp h t m : ht_history fn cmp h t m ->
  hash_table_size t h = Ok (zlen m, h) /\ hash_table_empty t h = Ok (match m with [] => true | _ => false end, h).
Proof.
  intros H. destruct (history_ht _ _ _ _ _ H) as (hash & arr & bs & I & P). rewrite (holds_zlen _ _ P).
  split; [exact (ht_size_ok _ _ _ _ _ _ _ _ I)|]. rewrite (ht_empty_ok _ _ _ _ _ _ _ _ I). pose proof (Permutation_length P) as L. rewrite map_length in L.
  destruct m, (ents bs); simpl in L; try discriminate; reflexivity.
Qed.
Lemma traversal_history fn cmp h t m n : ht_history fn cmp h t m -> (length m <= n)%nat ->
  exists es, all_elements t n h = Ok (es, h) /\ Permutation es (map a_elem m) /\ NoDup es.
Proof.
  intros H Hn. destruct (history_ht _ _ _ _ _ H) as (hash & arr & bs & I & P). exists (map n_he (ents bs)).
  pose proof (Permutation_length P) as L. rewrite map_length in L. split; [|split].
  - unfold all_elements. rewrite (bnd_Ok _ _ _ _ _ (get_any_ok _ _ _ _ _ _ _ _ I)).
    apply (others_ok _ _ _ _ _ _ _ _ [] _ _ I eq_refl). lia.
  - rewrite (Permutation_map a_elem P), map_map. apply Permutation_refl'. apply map_ext. reflexivity.
  - exact (handles_nodup _ _ _ _ _ _ _ _ I).
Qed.
Lemma capacity_make fn hash cmp capacity h : legal fn hash cmp ->
  exists t h' c slots, make_hash_table capacity hash cmp h = Ok (t, h') /\ get h' t = Some (CHtab c) /\
    get h' (ht_table c) = Some (CSlots slots) /\ zlen slots = ht_capacity c /\
    In (ht_capacity c) GOOD_SIZES /\ 0 < ht_capacity c /\
    (capacity <= ht_capacity c \/ (forall g, In g GOOD_SIZES -> g < capacity /\ g <= ht_capacity c)) /\
    (forall g, In g GOOD_SIZES -> 0 < g -> capacity <= g -> ht_capacity c <= g).
Proof.
  intros Lg. destruct (make_ok True fn hash cmp capacity h (fun _ => Lg)) as (c & t & arr & h1 & Ec & E & I & _).
  destruct (good_size_ok capacity) as (c' & Ec' & I1 & R & B & Mi). rewrite Ec in Ec'. injection Ec' as <-.
  destruct (empty_buckets_facts c ltac:(lia)) as (X1 & X2 & X3 & X4).
  exists t, h1. eexists _, _. split; [exact E|]. split; [exact (ih_table _ _ _ _ _ _ _ _ I)|].
  cbn [ht_capacity ht_table]. split; [exact (ih_slots _ _ _ _ _ _ _ _ I)|]. rewrite X1. rewrite zlen_map. split; [exact X1|]. split; [exact I1|].
  split; [lia|]. split.
  - destruct B as [B|[B1 B2]]; [left; exact B|right]. subst c. intros g Hg.
    assert (g <= 1610612741); [|lia]. clear - Hg. cbn in Hg. repeat (destruct Hg as [<-|Hg]; [lia|]). destruct Hg.
  - intros g Hg Pg Cg. destruct (Mi g Hg Cg); [lia|assumption].
Qed.
Lemma foreign_op fn cmp h t m h' r m' : ht_history fn cmp h t m -> ht_op fn cmp t h m h' r m' ->
  (forall x, ~ owned h t x -> get h x <> None -> get h' x = get h x /\ ~ owned h' t x) /\
  (forall x, ~ owned h t x -> ~ owned h' t x -> get h' x = get h x) /\
  (forall x, owned h t x -> ~ owned h' t x -> get h' x = None \/
     (get h' x = get h x /\ (exists k v, In (x, k, v) m) /\ (forall k v, ~ In (x, k, v) m'))) /\
  (forall x, owned h' t x -> get h' x <> None).
Proof.
  intros H O. destruct (history_ht _ _ _ _ _ H) as (hash & arr & bs & I & P).
  destruct (op_effect _ _ _ _ _ _ _ _ _ _ _ I P O) as (bs' & gone & I' & P' & [M1 M2 M3] & G).
  assert (OW : forall x, owned h t x <-> In x (fp t arr bs)) by (intros x; exact (owned_fp _ _ _ _ _ _ _ _ _ I)).
  assert (OW' : forall x, owned h' t x <-> In x (fp t arr bs')) by (intros x; exact (owned_fp _ _ _ _ _ _ _ _ _ I')).
  assert (AL : forall x, owned h' t x -> get h' x <> None).
  { intros x. rewrite OW'. unfold fp. intros [<-|[<-|X]].
    - rewrite (ih_table _ _ _ _ _ _ _ _ I'). discriminate.
    - rewrite (ih_slots _ _ _ _ _ _ _ _ I'). discriminate.
    - exact (buckets_alloc _ _ _ _ _ _ _ _ _ (ih_buckets _ _ _ _ _ _ _ _ I') X). }
  split; [|split; [|split]].
  - intros x X A. rewrite OW in X. assert (X' : ~ In x (fp t arr bs')) by (intros Y; apply A, M2; auto).
    rewrite OW'. auto.
  - intros x X Y. rewrite OW in X. rewrite OW' in Y. auto.
  - intros x X Y. pose proof Y as Y'. rewrite OW in X. rewrite OW' in Y. destruct (M3 x X Y) as [Z|[-> Z]]; [auto|].
    destruct G as [->|(G1 & G2 & G3)]; [left; reflexivity|]. right. split; [exact Z|]. split; [exact G3|].
    intros k v Hin. destruct (holds_in _ _ _ _ _ P' Hin) as (y & Hy & <- & _).
    apply G2. right; right.
    destruct (split_bucket _ _ _ _ _ _ _ _ _ (ih_buckets _ _ _ _ _ _ _ _ I') Hy) as (C1 & [l xs] & C2 & -> & W & B).
    rewrite all_cells_app, all_cells_cons, !in_app_iff. right; left. destruct B as [[_ B]|[B _]]; [rewrite B in W; destruct W|].
    simpl in *. rewrite cells_eq by (apply (il_nonnull _ _ _ _ B); left; reflexivity). right. apply in_app_iff. right. apply in_map. exact W.
  - exact AL.
Qed.
Lemma destroy_history fn cmp h t m : ht_history fn cmp h t m ->
  exists h', destroy_hash_table t h = Ok (tt, h') /\ (forall x, owned h t x -> get h' x = None) /\
    (forall x, ~ owned h t x -> get h' x = get h x).
Proof.
  intros H. destruct (history_ht _ _ _ _ _ H) as (hash & arr & bs & I & P).
  destruct (destroy_ok _ _ _ _ _ _ _ _ I) as (h' & E & A & F). exists h'. split; [exact E|].
  split; intros x; rewrite (owned_fp _ _ _ _ _ _ _ _ x I); auto.
Qed.
Lemma make_foreign fn hash cmp capacity h : legal fn hash cmp ->
  exists t h', make_hash_table capacity hash cmp h = Ok (t, h') /\
    (forall x, owned h' t x -> get h x = None /\ get h' x <> None) /\ (forall x, ~ owned h' t x -> get h' x = get h x).
Proof.
  intros Lg. destruct (make_ok True fn hash cmp capacity h (fun _ => Lg)) as (c & t & arr & h1 & Ec & E & I & F1 & F2 & F3).
  destruct (good_size_ok capacity) as (c' & Ec' & _ & R & _). rewrite Ec in Ec'. injection Ec' as <-.
  destruct (empty_buckets_facts c ltac:(lia)) as (_ & _ & X & _).
  exists t, h1. split; [exact E|]. assert (OW : forall x, owned h1 t x <-> x = t \/ x = arr).
  { intros x. rewrite (owned_fp _ _ _ _ _ _ _ _ x I). unfold fp. rewrite X. simpl. intuition congruence. }
  split; intros x; rewrite OW.
  - intros [->| ->]; (split; [assumption|]).
    + rewrite (ih_table _ _ _ _ _ _ _ _ I). discriminate.
    + rewrite (ih_slots _ _ _ _ _ _ _ _ I). discriminate.
  - intros Y. apply F3; tauto.
Qed.
