(** Hash tables without laws: the representation of HashProofs.v with nothing
    known of the hash and comparison functions. *)
From Verif Require Import Base Heap ListModel ListSpec ListProofs HashModel HashSpec HashProofs HashAnySpec.
From Coq Require Import ZifyBool ZifyNat.

Notation is_any fn := (is_ht False fn).

(** The layout does not depend on what the functions answer. *)
Lemma any_code fn fn' hash cmp h t arr bs : is_any fn hash cmp h t arr bs -> is_any fn' hash cmp h t arr bs.
Proof.
  intros [L1 L2 L3 L4 L5 L6 L7 L8]. constructor; auto; try tauto.
  clear - L5. revert L5. generalize 0 at 1 2. generalize (zlen bs). induction bs as [|b bs IH]; intros cap i; cbn [buckets_ok]; [auto|].
  intros [A B]. split; [|exact (IH _ _ B)]. destruct A as [A|[A1 A2]]; [left; exact A|right]. split; [exact A1|].
  intros x Hx. destruct (A2 x Hx) as [A3 _]. split; [exact A3|tauto].
Qed.

Lemma in_ents B1 l xs B2 x : In x xs -> In x (ents (B1 ++ (l, xs) :: B2)).
Proof. intros H. rewrite ents_app, ents_cons. cbn [snd]. rewrite !in_app_iff. auto. Qed.

Section Code.
Context (fn : code) (hash cmp : Z).

(** A lookup gives NULL or some element that compared equal. *)
Lemma get_any h t arr bs k : is_any fn hash cmp h t arr bs ->
  hash_table_get fn t k h = Ok (0, h) \/
  (exists x, In x (ents bs) /\ call_cmp fn cmp k (n_key x) = 0 /\ hash_table_get fn t k h = Ok (n_he x, h)).
Proof.
  intros I. pose proof (ih_cap _ _ _ _ _ _ _ _ I) as HC. pose proof (ih_table _ _ _ _ _ _ _ _ I) as Ht.
  pose proof (ih_slots _ _ _ _ _ _ _ _ I) as Ha.
  unfold hash_table_get. rewrite (bnd_Ok _ _ _ _ _ (bucket_index_ok _ _ _ _ _ _ _ _ k (proj1 HC) Ht)).
  destruct (lookup_cases _ _ _ _ _ _ _ _ k I) as (B1 & l & xs & B2 & E & L & Cases).
  rewrite <- L. rewrite E in Ha. rewrite (bnd_Ok _ _ _ _ _ (ld_slot_ok _ _ _ _ _ _ Ht Ha)). cbn [fst].
  destruct (bucket_at _ _ _ _ _ _ _ _ _ _ _ I E) as [[E1 E2]|[IL HE]]; cbn [fst snd] in *.
  - left. subst l. rewrite Z.eqb_refl. reflexivity.
  - rewrite (proj2 (Z.eqb_neq l 0)) by (apply (il_nonnull _ _ _ _ IL); left; reflexivity).
    erewrite !bnd_Ok by reflexivity. rewrite !(bnd_Ok _ _ _ _ _ (get_first_ok _ _ _ IL)).
    destruct (ht_get_loop_ok fn hash cmp h t (zlen B1) l _ _ _ k [] xs (S (length (mem h))) Ht IL) as [G1 G2].
    { intros x Hx. apply HE; auto. }
    { apply (ht_fuel _ _ _ IL). }
    destruct Cases as [(pre & x & post & X & A & B)|[A _]]; [right|left; exact (G2 A)].
    exists x. split; [|split; [exact B|exact (G1 x pre post X A B)]].
    rewrite E. apply in_ents. rewrite X. apply in_app_iff. right; left; reflexivity.
Qed.

Lemma put_any h t arr bs k v : is_any fn hash cmp h t arr bs -> zlen (ents bs) < 2 ^ 60 ->
  (exists x bs' h', hash_table_put fn t k v h = Ok (0, h') /\ n_key x = k /\ n_val x = v /\
     Permutation (ents bs') (x :: ents bs) /\ is_any fn hash cmp h' t arr bs' /\ moved t arr bs bs' h h' 0) \/
  (exists y, In y (ents bs) /\ call_cmp fn cmp k (n_key y) = 0 /\ n_val y = v /\ hash_table_put fn t k v h = Ok (0, h)) \/
  (exists y es x bs' h', Permutation (ents bs) (y :: es) /\ call_cmp fn cmp k (n_key y) = 0 /\ n_val y <> v /\
     hash_table_put fn t k v h = Ok (n_he y, h') /\ n_key x = k /\ n_val x = v /\
     Permutation (ents bs') (x :: es) /\ is_any fn hash cmp h' t arr bs' /\ moved t arr bs bs' h h' (n_he y) /\
     get h' (n_he y) = get h (n_he y) /\ n_he x <> n_he y /\ ~ In (n_he y) (fp t arr bs')).
Proof.
  intros I Hz. pose proof (ih_cap _ _ _ _ _ _ _ _ I) as HC. pose proof (ih_table _ _ _ _ _ _ _ _ I) as Ht.
  pose proof (ih_slots _ _ _ _ _ _ _ _ I) as Ha.
  unfold hash_table_put. rewrite (bnd_Ok _ _ _ _ _ (bucket_index_ok _ _ _ _ _ _ _ _ k (proj1 HC) Ht)).
  destruct (lookup_cases _ _ _ _ _ _ _ _ k I) as (B1 & l & xs & B2 & E & L & Cases).
  rewrite <- L. rewrite E in Ha. rewrite (bnd_Ok _ _ _ _ _ (ld_slot_ok _ _ _ _ _ _ Ht Ha)). cbn [fst].
  destruct (bucket_at _ _ _ _ _ _ _ _ _ _ _ I E) as [[E1 E2]|[IL HE]]; cbn [fst snd] in *.
  - subst l xs. rewrite Z.eqb_refl. left. rewrite E in *.
    destruct (put_new_null False fn hash cmp _ _ _ _ _ k v I (fun F => match F with end) (fun F => match F with end) Hz) as (l & x & h' & X1 & X2 & X3 & X4 & X5).
    exists x, (B1 ++ (l, [x]) :: B2), h'. split; [exact X1|]. split; [exact X2|]. split; [exact X3|]. split; [|auto].
    rewrite (ents_mid B1 l [x] B2), (ents_mid B1 0 [] B2). reflexivity.
  - assert (Nl : l <> 0) by (apply (il_nonnull _ _ _ _ IL); left; reflexivity).
    rewrite (proj2 (Z.eqb_neq l 0)) by exact Nl. erewrite !bnd_Ok by reflexivity. rewrite !(bnd_Ok _ _ _ _ _ (get_first_ok _ _ _ IL)).
    destruct (ht_put_loop_ok fn hash cmp h t (zlen B1) l _ _ _ k v [] xs (S (length (mem h))) Ht IL) as [G1 G2].
    { intros x Hx. apply HE; auto. }
    { apply (ht_fuel _ _ _ IL). }
    destruct Cases as [(pr & y & po & X & A & B)|[A _]].
    + assert (Hy : In y (ents bs)). { rewrite E. apply in_ents. rewrite X. apply in_app_iff. right; left; reflexivity. }
      rewrite (G1 y pr po X A B). destruct (n_val y =? v) eqn:V.
      * right; left. exists y. split; [exact Hy|]. split; [exact B|]. split; [lia|reflexivity].
      * right; right. subst xs. rewrite E in *.
        destruct (put_replace False fn hash cmp _ _ _ _ _ _ _ _ _ k v I B) as (x & h' & X1 & X2 & X3 & X4 & X5 & X6 & X7).
        exists y, (ents (B1 ++ (l, pr ++ po) :: B2)), x, (B1 ++ (l, (pr ++ po) ++ [x]) :: B2), h'.
        split; [apply ents_take|]. split; [exact B|]. split; [lia|]. split; [exact X1|]. split; [exact X2|]. split; [exact X3|].
        split; [|auto]. rewrite (ents_take B1 l (pr ++ po) x [] B2), app_nil_r. reflexivity.
    + left. rewrite (G2 A). rewrite E in *.
      destruct (put_new_in False fn hash cmp _ _ _ _ _ _ _ k v I Nl (fun F => match F with end) (fun F => match F with end) Hz) as (x & h' & X1 & X2 & X3 & X4 & X5).
      exists x, (B1 ++ (l, xs ++ [x]) :: B2), h'. split; [exact X1|]. split; [exact X2|]. split; [exact X3|]. split; [|auto].
      rewrite (ents_mid B1 l (xs ++ [x]) B2), (ents_mid B1 l xs B2), <- app_assoc. symmetry. apply Permutation_middle.
Qed.

Lemma in_perm (x : ent) xs : In x xs -> exists es, Permutation xs (x :: es).
Proof. intros H. apply in_split in H. destruct H as (a & b & ->). exists (a ++ b). symmetry. apply Permutation_middle. Qed.

Lemma pop_any_key h t arr bs k : is_any fn hash cmp h t arr bs ->
  (hash_table_get fn t k h = Ok (0, h) /\ hash_table_pop fn t k h = Ok (0, h)) \/
  (exists x es bs' h', Permutation (ents bs) (x :: es) /\ call_cmp fn cmp k (n_key x) = 0 /\ hash_table_get fn t k h = Ok (n_he x, h) /\
     hash_table_pop fn t k h = Ok (n_he x, h') /\ Permutation (ents bs') es /\ is_any fn hash cmp h' t arr bs' /\
     moved t arr bs bs' h h' (n_he x) /\ get h' (n_he x) = get h (n_he x) /\ get h (n_he x) <> None /\ ~ In (n_he x) (fp t arr bs')).
Proof.
  intros I. destruct (get_any _ _ _ _ k I) as [G|(x & Hx & K & G)].
  - left. split; [exact G|]. unfold hash_table_pop. rewrite (bnd_Ok _ _ _ _ _ G). reflexivity.
  - right. destruct (in_perm _ _ Hx) as (es & P).
    destruct (detach_ok _ _ _ _ _ _ _ _ _ _ I P) as (bs' & h1 & E & R). exists x, es, bs', h1.
    split; [exact P|]. split; [exact K|]. split; [exact G|]. split; [|exact R].
    destruct R as (_ & _ & _ & _ & N & _). assert (N0 : n_he x <> 0) by (intros X; rewrite X in N; apply N; reflexivity).
    unfold hash_table_pop. rewrite (bnd_Ok _ _ _ _ _ G), (proj2 (Z.eqb_neq _ _) N0), (bnd_Ok _ _ _ _ _ E). reflexivity.
Qed.

End Code.

(** A loop over the table finds the handles of the entries. *)
Lemma all_elements_any fn hash cmp h t arr bs n es : is_any fn hash cmp h t arr bs -> all_elements t n h = Ok (es, h) ->
  es = map n_he (ents bs).
Proof.
  intros I. unfold all_elements. rewrite (bnd_Ok _ _ _ _ _ (get_any_ok _ _ _ _ _ _ _ _ I)).
  assert (G : forall n xs ys es, ents bs = ys ++ xs -> others n (first_of xs) h = Ok (es, h) -> es = map n_he xs).
  { clear n es. induction n as [|n IH]; intros xs ys es E.
    - destruct xs as [|x xs]; cbn [first_of map]; [intros X; injection X as <-; reflexivity|].
      assert (Hx : In x (ents bs)) by (rewrite E; apply in_app_iff; right; left; reflexivity).
      destruct (elem_at _ _ _ _ _ _ _ _ _ I Hx) as (i & G). destruct (elem_readable _ _ _ _ G) as (N & _).
      cbn [others]. rewrite (proj2 (Z.eqb_neq _ _) N). discriminate.
    - destruct xs as [|x xs]; cbn [first_of map]; [intros X; injection X as <-; reflexivity|].
      assert (Hx : In x (ents bs)) by (rewrite E; apply in_app_iff; right; left; reflexivity).
      destruct (elem_at _ _ _ _ _ _ _ _ _ I Hx) as (i & G). destruct (elem_readable _ _ _ _ G) as (N & _).
      cbn [others]. rewrite (proj2 (Z.eqb_neq _ _) N). rewrite (bnd_Ok _ _ _ _ _ (proj1 (get_other_ok _ _ _ _ _ _ _ _ _ _ _ I E))).
      unfold bnd. destruct (others n (first_of xs) h) as [[es1 h1]| | |] eqn:R; try discriminate.
      intros X. injection X as <- ->. f_equal. apply (IH xs (ys ++ [x]) es1); [|exact R]. rewrite <- app_assoc. exact E. }
  intros E. exact (G n (ents bs) [] es eq_refl E).
Qed.
Lemma elements_any fn hash cmp h t arr bs n : is_any fn hash cmp h t arr bs -> (length (ents bs) <= n)%nat ->
  all_elements t n h = Ok (map n_he (ents bs), h).
Proof.
  intros I L. unfold all_elements. rewrite (bnd_Ok _ _ _ _ _ (get_any_ok _ _ _ _ _ _ _ _ I)).
  apply (others_ok _ _ _ _ _ _ _ _ [] _ _ I eq_refl). exact L.
Qed.

Lemma map_elem es : map a_elem (map assoc_of es) = map n_he es.
Proof. rewrite map_map. apply map_ext. reflexivity. Qed.
Lemma holds_elems bs m : holds bs m -> Permutation (map a_elem m) (map n_he (ents bs)).
Proof. intros P. rewrite (Permutation_map a_elem P), map_elem. reflexivity. Qed.
Lemma perm_head (a b : Z) l l' : NoDup (b :: l') -> Permutation l l' -> Permutation (b :: l') (a :: l) -> a = b.
Proof.
  intros ND P Q. assert (H : In a (b :: l')) by (apply (Permutation_in _ (Permutation_sym Q)); left; reflexivity).
  destruct H as [H|H]; [auto|]. exfalso. apply (Permutation_NoDup Q) in ND. apply NoDup_cons_iff in ND. destruct ND as [ND _].
  apply ND. apply (Permutation_in _ (Permutation_sym P)). exact H.
Qed.
(** The entry of a handle. *)
Lemma same_entry fn hash cmp h t arr bs x y : is_any fn hash cmp h t arr bs -> In x (ents bs) -> In y (ents bs) -> n_he x = n_he y -> x = y.
Proof.
  intros I Hx Hy E. pose proof (handles_nodup _ _ _ _ _ _ _ _ I) as ND. apply in_split in Hx. destruct Hx as (a & b & X). rewrite X in *.
  apply in_app_iff in Hy. destruct Hy as [Hy|[Hy|Hy]]; [|exact Hy|].
  - exfalso. rewrite map_app in ND. apply NoDup_app_split in ND. destruct ND as (_ & _ & ND). apply (ND (n_he y)); [apply in_map; exact Hy|]. left. exact E.
  - exfalso. rewrite map_app in ND. apply NoDup_app_split in ND. destruct ND as (_ & ND & _). cbn [map] in ND. apply NoDup_cons_iff in ND.
    destruct ND as [ND _]. apply ND. rewrite E. apply in_map. exact Hy.
Qed.

(** Taking out an entry whose handle is that of an association. *)
Lemma holds_out fn hash cmp h t arr bs m r k v x es : is_any fn hash cmp h t arr bs -> holds bs ((r, k, v) :: m) ->
  Permutation (ents bs) (x :: es) -> n_he x = r -> n_key x = k /\ n_val x = v /\ Permutation m (map assoc_of es).
Proof.
  intros I P Q E. assert (Hx : In x (ents bs)) by (apply (Permutation_in _ (Permutation_sym Q)); left; reflexivity).
  destruct (holds_in _ _ r k v P (or_introl eq_refl)) as (y & Hy & Ey & Ky & Vy).
  assert (x = y) by (eapply same_entry; eauto; congruence). subst y. split; [exact Ky|]. split; [exact Vy|].
  unfold holds in P. rewrite Q in P. cbn [map] in P. unfold assoc_of in P at 1. rewrite Ey, Ky, Vy in P.
  apply Permutation_cons_inv in P. exact P.
Qed.

Lemma elem_nonzero fn hash cmp h t arr bs x : is_any fn hash cmp h t arr bs -> In x (ents bs) -> n_he x <> 0.
Proof. intros I Hx. destruct (elem_at _ _ _ _ _ _ _ _ _ I Hx) as (i & G). exact (proj1 (elem_readable _ _ _ _ G)). Qed.

Definition fn0 : code := mk_code (fun _ _ => 0) (fun _ _ _ => 0).

(** Every history leads to a table with these associations. *)
Lemma any_table hash cmp h t m : any_history hash cmp h t m ->
  exists arr bs, is_any fn0 hash cmp h t arr bs /\ holds bs m.
Proof.
  induction 1 as [h capacity t h' R E
    |fn h t m k v e h' n es H (arr & bs & I & P) Sp E A Q
    |fn h t m k v h' n es H (arr & bs & I & P) Sp E A Q
    |fn h t r k' w m k v e h' n es H (arr & bs & I & P) Sp E A Q
    |fn h t r k' v m k h' H (arr & bs & I & P) E
    |fn h t m k h' H (arr & bs & I & P) E
    |h t e k v m h' H (arr & bs & I & P) E
    |h t e k v m h' H (arr & bs & I & P) E
    |h t r k v m h' H (arr & bs & I & P) E
    |h t m m' H (arr & bs & I & P) Q
    |h t m h' H (arr & bs & I & P) F].
  - destruct (make_ok False fn0 hash cmp capacity h (fun F => match F with end)) as (c & t1 & arr & h1 & Ec & E1 & I & _).
    rewrite E in E1. injection E1 as <- <-. exists arr, (empty_buckets c). split; [exact I|].
    destruct (good_size_ok capacity) as (c' & Ec' & _ & R' & _). rewrite Ec in Ec'. injection Ec' as <-.
    destruct (empty_buckets_facts c ltac:(lia)) as (_ & X & _). unfold holds. rewrite X. constructor.
  - apply (any_code _ fn) in I. unfold sparse in Sp. rewrite (holds_zlen _ _ P) in Sp.
    destruct (put_any fn hash cmp h t arr bs k v I Sp) as [(x & bs' & h1 & E1 & Kx & Vx & Q1 & I1 & _)|[(y & _ & _ & _ & E1)|(y & ys & x & bs' & h1 & Qy & _ & _ & E1 & _)]];
      rewrite E in E1; injection E1 as E1.
    + subst h1. rewrite (all_elements_any _ _ _ _ _ _ _ _ _ I1 A) in Q.
      assert (e = n_he x).
      { pose proof (Permutation_map n_he Q1) as Q2. cbn [map] in Q2. apply (perm_head _ _ (map a_elem m) (map n_he (ents bs))).
        - apply (Permutation_NoDup Q2). exact (handles_nodup _ _ _ _ _ _ _ _ I1).
        - apply holds_elems. exact P.
        - rewrite <- Q2. exact Q. }
      exists arr, bs'. split; [exact (any_code _ _ _ _ _ _ _ _ I1)|]. unfold holds. rewrite Q1. cbn [map]. unfold assoc_of at 1.
      rewrite Kx, Vx, <- H0. apply perm_skip. exact P.
    + exfalso. subst h'. rewrite (all_elements_any _ _ _ _ _ _ _ _ _ I A) in Q. apply Permutation_length in Q. cbn [length] in Q.
      pose proof (Permutation_length (holds_elems _ _ P)). lia.
    + exfalso. apply (elem_nonzero _ _ _ _ _ _ _ y I); [apply (Permutation_in _ (Permutation_sym Qy)); left; reflexivity|congruence].
  - apply (any_code _ fn) in I. unfold sparse in Sp. rewrite (holds_zlen _ _ P) in Sp.
    destruct (put_any fn hash cmp h t arr bs k v I Sp) as [(x & bs' & h1 & E1 & Kx & Vx & Q1 & I1 & _)|[(y & _ & _ & _ & E1)|(y & ys & x & bs' & h1 & Qy & _ & _ & E1 & _)]];
      rewrite E in E1; injection E1 as E1.
    + exfalso. subst h1. rewrite (all_elements_any _ _ _ _ _ _ _ _ _ I1 A) in Q. apply Permutation_length in Q.
      pose proof (Permutation_length (Permutation_map n_he Q1)) as Z1. cbn [length map] in Z1.
      pose proof (Permutation_length (holds_elems _ _ P)). lia.
    + subst h'. exists arr, bs. split; [exact (any_code _ _ _ _ _ _ _ _ I)|exact P].
    + exfalso. apply (elem_nonzero _ _ _ _ _ _ _ y I); [apply (Permutation_in _ (Permutation_sym Qy)); left; reflexivity|congruence].
  - apply (any_code _ fn) in I. unfold sparse in Sp. rewrite (holds_zlen _ _ P) in Sp.
    assert (N0 : r <> 0). { destruct (holds_in _ _ r k' w P (or_introl eq_refl)) as (y & Hy & <- & _). exact (elem_nonzero _ _ _ _ _ _ _ _ I Hy). }
    destruct (put_any fn hash cmp h t arr bs k v I Sp) as [(x & bs' & h1 & E1 & Kx & Vx & Q1 & I1 & _)|[(y & _ & _ & _ & E1)|(y & ys & x & bs' & h1 & Qy & _ & _ & E1 & Kx & Vx & Q1 & I1 & _)]];
      rewrite E in E1; injection E1 as E0 E1; try congruence.
    subst h1. destruct (holds_out _ _ _ _ _ _ _ _ _ _ _ _ _ I P Qy (eq_sym E0)) as (_ & _ & P').
    rewrite (all_elements_any _ _ _ _ _ _ _ _ _ I1 A) in Q.
    assert (e = n_he x).
    { pose proof (Permutation_map n_he Q1) as Q2. cbn [map] in Q2. apply (perm_head _ _ (map a_elem m) (map n_he ys)).
      - apply (Permutation_NoDup Q2). exact (handles_nodup _ _ _ _ _ _ _ _ I1).
      - rewrite (Permutation_map a_elem P'), map_elem. reflexivity.
      - rewrite <- Q2. exact Q. }
    exists arr, bs'. split; [exact (any_code _ _ _ _ _ _ _ _ I1)|]. unfold holds. rewrite Q1. cbn [map]. unfold assoc_of at 1.
    rewrite Kx, Vx, <- H0. apply perm_skip. exact P'.
  - apply (any_code _ fn) in I.
    assert (N0 : r <> 0). { destruct (holds_in _ _ r k' v P (or_introl eq_refl)) as (y & Hy & <- & _). exact (elem_nonzero _ _ _ _ _ _ _ _ I Hy). }
    destruct (pop_any_key fn hash cmp h t arr bs k I) as [[_ E1]|(x & ys & bs' & h1 & Qy & _ & _ & E1 & Q1 & I1 & _)]; rewrite E in E1; injection E1 as E0 E1; [congruence|].
    subst h1. destruct (holds_out _ _ _ _ _ _ _ _ _ _ _ _ _ I P Qy (eq_sym E0)) as (_ & _ & P').
    exists arr, bs'. split; [exact (any_code _ _ _ _ _ _ _ _ I1)|]. unfold holds. rewrite Q1. exact P'.
  - apply (any_code _ fn) in I.
    destruct (pop_any_key fn hash cmp h t arr bs k I) as [[_ E1]|(x & ys & bs' & h1 & Qy & _ & _ & E1 & Q1 & I1 & _)]; rewrite E in E1; injection E1 as E1.
    + subst h'. exists arr, bs. split; [exact (any_code _ _ _ _ _ _ _ _ I)|exact P].
    + exfalso. apply (elem_nonzero _ _ _ _ _ _ _ x I); [apply (Permutation_in _ (Permutation_sym Qy)); left; reflexivity|congruence].
  - destruct (holds_cons _ _ _ _ _ _ P (Permutation_refl _)) as (y & ys & Qy & <- & Ky & Vy & P').
    destruct (detach_ok _ _ _ _ _ _ _ _ _ _ I Qy) as (bs' & h1 & E1 & Q' & I1 & _). rewrite E in E1. injection E1 as <-.
    exists arr, bs'. split; [exact I1|]. unfold holds. rewrite Q'. exact P'.
  - destruct (holds_cons _ _ _ _ _ _ P (Permutation_refl _)) as (y & ys & Qy & <- & Ky & Vy & P').
    destruct (remove_element_ok _ _ _ _ _ _ _ _ _ _ I Qy) as (bs' & h1 & E1 & Q' & I1 & _). rewrite E in E1. injection E1 as <-.
    exists arr, bs'. split; [exact I1|]. unfold holds. rewrite Q'. exact P'.
  - assert (NE : exists x xs, ents bs = x :: xs).
    { destruct (ents bs) as [|x xs] eqn:X; [|eauto]. unfold holds in P. rewrite X in P. cbn [map] in P.
      apply Permutation_sym, Permutation_nil in P. discriminate. }
    destruct NE as (x & xs & X). destruct (pop_any_ok _ _ _ _ _ _ _ _ I) as [_ S].
    destruct (S x xs X) as (bs' & h1 & E1 & Q' & I1 & _). rewrite E in E1. injection E1 as E0 E1. subst h1.
    assert (Qy : Permutation (ents bs) (x :: xs)) by (rewrite X; reflexivity).
    destruct (holds_out _ _ _ _ _ _ _ _ _ _ _ _ _ I P Qy (eq_sym E0)) as (_ & _ & P').
    exists arr, bs'. split; [exact I1|]. unfold holds. rewrite Q'. exact P'.
  - exists arr, bs. split; [exact I|]. unfold holds. rewrite <- Q. exact P.
  - exists arr, bs. split; [|exact P]. eapply ht_frame; [exact I|]. intros x Hx. apply F. apply (owned_fp _ _ _ _ _ _ _ _ _ I). exact Hx.
Qed.

(** What the moves of cells mean for the caller. *)
Lemma moved_confined fn fn' hash cmp h h' t arr bs bs' r : is_any fn hash cmp h t arr bs -> is_any fn' hash cmp h' t arr bs' ->
  moved t arr bs bs' h h' r -> confined t r h h'.
Proof.
  intros I I' [M1 M2 M3].
  assert (OW : forall x, owned h t x <-> In x (fp t arr bs)) by (intros x; exact (owned_fp _ _ _ _ _ _ _ _ _ I)).
  assert (OW' : forall x, owned h' t x <-> In x (fp t arr bs')) by (intros x; exact (owned_fp _ _ _ _ _ _ _ _ _ I')).
  split; [|split; [|split]].
  - intros x X A. rewrite OW in X. assert (X' : ~ In x (fp t arr bs')) by (intros Y; apply A, M2; auto).
    rewrite OW'. auto.
  - intros x. rewrite OW'. unfold fp. intros [<-|[<-|X]].
    + rewrite (ih_table _ _ _ _ _ _ _ _ I'). discriminate.
    + rewrite (ih_slots _ _ _ _ _ _ _ _ I'). discriminate.
    + exact (buckets_alloc _ _ _ _ _ _ _ _ _ (ih_buckets _ _ _ _ _ _ _ _ I') X).
  - intros x X Y. rewrite OW in X. rewrite OW' in Y. auto.
  - intros x X Y N. rewrite OW in X. rewrite OW' in Y. destruct (M3 x X Y) as [Z|[Z _]]; [exact Z|congruence].
Qed.
Lemma readable_any fn hash cmp h t arr bs x : is_any fn hash cmp h t arr bs -> In x (ents bs) -> readable h (n_he x) (n_key x) (n_val x).
Proof. intros I Hx. destruct (elem_at _ _ _ _ _ _ _ _ _ I Hx) as (i & G). exact (elem_readable _ _ _ _ G). Qed.
Lemma readable_out fn hash cmp h h' t arr bs x : is_any fn hash cmp h t arr bs -> In x (ents bs) -> get h' (n_he x) = get h (n_he x) ->
  readable h' (n_he x) (n_key x) (n_val x).
Proof. intros I Hx E. destruct (elem_at _ _ _ _ _ _ _ _ _ I Hx) as (i & G). rewrite <- E in G. exact (elem_readable _ _ _ _ G). Qed.
