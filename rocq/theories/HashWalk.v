(** A loop over a hash table looks at every slot once (C115). *)
From Verif Require Import Base Heap ListModel ListSpec ListProofs HashModel HashSpec HashProofs HashAnySpec HashAny HashCost HashWalkModel.

(** ** The recording functions are the functions of the model *)
Lemma bnd_id {A} (m : M A) h : bnd m ret h = m h.
Proof. unfold bnd. destruct (m h) as [[a h']| | |]; reflexivity. Qed.
Definition plain {A B} (m : M (A * B)) : M A := let! r := m in ret (fst r).
Lemma plain_cong {A B C} (m : M (A * B)) (m' : M A) (f : A * B -> M C) (g : A -> M C) h :
  (forall h, plain m h = m' h) -> (forall a h', f a h' = g (fst a) h') -> bnd m f h = bnd m' g h.
Proof.
  intros E F. unfold bnd. specialize (E h). unfold plain, bnd in E.
  destruct (m h) as [[a h']| | |]; rewrite <- E; [apply F|reflexivity..].
Qed.
Lemma next_loop_same n : forall t i h, plain (get_next_loop_recorded n t i) h = get_next_loop n t i h.
Proof.
  induction n as [|n IH]; intros t i h; unfold plain; cbn [get_next_loop get_next_loop_recorded]; [reflexivity|].
  rewrite bnd_assoc. apply bnd_ext; intros c h1. destruct (i <? _); [|reflexivity].
  rewrite bnd_assoc. apply bnd_ext; intros l h2. rewrite bnd_assoc. apply bnd_ext; intros b h3. destruct b.
  - rewrite bnd_assoc. apply bnd_ext; intros e h4. rewrite bnd_assoc. rewrite <- (bnd_id (list_elem_get_value e) h4). apply bnd_ext. reflexivity.
  - rewrite bnd_assoc. rewrite <- (IH t (i + 1) h3). apply bnd_ext. reflexivity.
Qed.
Lemma next_same t i h : plain (get_next_recorded t i) h = get_next t i h.
Proof. unfold plain, get_next_recorded, get_next. rewrite bnd_assoc. apply bnd_ext; intros c h1. apply next_loop_same. Qed.
Lemma any_same t h : plain (hash_table_get_any_recorded t) h = hash_table_get_any t h.
Proof. apply next_same. Qed.
Lemma other_same e h : plain (hash_table_get_other_recorded e) h = hash_table_get_other e h.
Proof.
  unfold plain, hash_table_get_other_recorded, hash_table_get_other. rewrite bnd_assoc. apply bnd_ext; intros c h1.
  rewrite bnd_assoc. apply bnd_ext; intros le h2. destruct (truth le); [|apply next_same].
  rewrite bnd_assoc. rewrite <- (bnd_id (list_elem_get_value le) h2). apply bnd_ext. reflexivity.
Qed.
Lemma others_same n : forall e h, plain (others_recorded n e) h = others n e h.
Proof.
  induction n as [|n IH]; intros e h; unfold plain; cbn [others others_recorded]; (destruct (e =? 0); [reflexivity|]); [reflexivity|].
  rewrite bnd_assoc. apply plain_cong; [intros; apply other_same|]. intros a h1. rewrite bnd_assoc.
  apply plain_cong; [intros; apply IH|]. reflexivity.
Qed.
Lemma all_same t n h : plain (all_elements_recorded t n) h = all_elements t n h.
Proof.
  unfold plain, all_elements_recorded, all_elements. rewrite bnd_assoc. apply plain_cong; [intros; apply any_same|].
  intros a h1. rewrite bnd_assoc. rewrite <- (others_same n (fst a) h1). apply bnd_ext. reflexivity.
Qed.

(** ** The slots looked at *)
Lemma numbers_app i a b : numbers i (a + b) = numbers i a ++ numbers (i + Z.of_nat a) b.
Proof.
  revert i; induction a as [|a IH]; intros i; cbn [Nat.add numbers app]; [f_equal; lia|].
  rewrite IH. do 3 f_equal. lia.
Qed.
Definition nobody (b : Z * list ent) : bool := match snd b with [] => true | _ => false end.
(** How many buckets the loop of get_next looks at. *)
Fixpoint looks (bs : list (Z * list ent)) : nat :=
  match bs with [] => 0%nat | b :: bs => S (if nobody b then looks bs else 0) end.

Section Walk.
Context (law : Prop) (fn : code) (hash cmp : Z).
Notation is_ht := (HashProofs.is_ht law fn hash cmp).

Lemma next_loop_recorded h t arr bs B1 B2 n : is_ht h t arr bs -> bs = B1 ++ B2 -> (length B2 < n)%nat ->
  get_next_loop_recorded n t (zlen B1) h = Ok ((first_of (ents B2), numbers (zlen B1) (looks B2)), h).
Proof.
  intros I. pose proof (ih_table _ _ _ _ _ _ _ _ I) as Ht. pose proof (ih_slots _ _ _ _ _ _ _ _ I) as Ha.
  revert B1 n; induction B2 as [|[l xs] B2 IH]; intros B1 n E Hn; (destruct n as [|n]; [lia|]); cbn [get_next_loop_recorded];
    rewrite (step_ld_htab _ _ _ _ Ht); cbn [ht_capacity].
  - rewrite (proj2 (Z.ltb_ge (zlen B1) (zlen bs))); [reflexivity|]. rewrite E, app_nil_r. lia.
  - rewrite (proj2 (Z.ltb_lt (zlen B1) (zlen bs))).
    2: { rewrite E, zlen_app, zlen_cons. pose proof (zlen_nonneg B2). lia. }
    subst bs. rewrite (bnd_Ok _ _ _ _ _ (ld_slot_ok _ _ _ _ _ _ Ht Ha)). cbn [fst].
    rewrite (bnd_Ok _ _ _ _ _ (is_full _ _ _ _ _ _ _ _ _ _ _ I)). rewrite ents_cons. cbn [snd]. destruct xs as [|x xs].
    + cbn [looks nobody snd numbers]. replace (zlen B1 + 1) with (zlen (B1 ++ [(l, [])])) by (rewrite zlen_app; reflexivity).
      erewrite bnd_Ok; [|apply IH; [rewrite <- app_assoc; reflexivity|simpl in Hn; lia]]. reflexivity.
    + cbn [looks nobody snd numbers].
      destruct (index_mid _ _ _ _ _ _ _ _ _ _ _ x I (or_introl eq_refl)) as (_ & _ & IL & _).
      rewrite (bnd_Ok _ _ _ _ _ (get_first_ok _ _ _ IL)). cbn [pairs map hd_addr].
      erewrite bnd_Ok; [|exact (get_value_ok h l [] (n_le x) (n_he x) (pairs xs) IL)]. reflexivity.
Qed.
Lemma next_recorded h t arr bs B1 B2 : is_ht h t arr bs -> bs = B1 ++ B2 ->
  get_next_recorded t (zlen B1) h = Ok ((first_of (ents B2), numbers (zlen B1) (looks B2)), h).
Proof.
  intros I E. unfold get_next_recorded. rewrite (step_ld_htab _ _ _ _ (ih_table _ _ _ _ _ _ _ _ I)). cbn [ht_capacity].
  apply (next_loop_recorded _ _ _ _ _ _ _ I E). rewrite E, zlen_app. unfold zlen. lia.
Qed.
Lemma other_recorded h t arr B1 l pre x post B2 : is_ht h t arr (B1 ++ (l, pre ++ x :: post) :: B2) ->
  hash_table_get_other_recorded (n_he x) h =
    Ok ((first_of (post ++ ents B2), match post with [] => numbers (zlen B1 + 1) (looks B2) | _ => [] end), h) /\ n_he x <> 0.
Proof.
  intros I.
  destruct (index_mid _ _ _ _ _ _ _ _ _ _ _ x I) as (Hex & _ & IL & Nl); [apply in_app_iff; right; left; reflexivity|].
  split; [|eapply get_nonnull; eauto].
  unfold hash_table_get_other_recorded. rewrite (step_ld_helem _ _ _ _ Hex). cbn [hcell he_loc he_table he_index].
  rewrite pairs_app in IL. cbn [pairs map] in IL. rewrite (bnd_Ok _ _ _ _ _ (next_ok _ _ _ _ _ _ IL)).
  destruct post as [|y post].
  - cbn [map hd_addr app]. replace (zlen B1 + 1) with (zlen (B1 ++ [(l, pre ++ [x])])) by (rewrite zlen_app; reflexivity).
    apply (next_recorded _ _ _ _ _ _ I). rewrite <- app_assoc. reflexivity.
  - cbn [map hd_addr]. change (is_list h l (pairs pre ++ [(n_le x, n_he x)] ++ (n_le y, n_he y) :: pairs post)) in IL. rewrite app_assoc in IL.
    destruct (il_mid _ _ _ _ _ _ IL) as (_ & Ne & _). unfold truth. rewrite (proj2 (Z.eqb_neq (n_le y) 0)) by exact Ne.
    cbn [negb]. erewrite bnd_Ok; [|exact (get_value_ok _ _ _ _ _ _ IL)]. reflexivity.
Qed.

(** Where the loop of get_next ends. *)
Lemma looks_end B : (ents B = [] /\ looks B = length B) \/
  exists C1 l y ys C2, B = C1 ++ (l, y :: ys) :: C2 /\ ents C1 = [] /\ looks B = S (length C1).
Proof.
  induction B as [|[l xs] B IH]; [left; split; reflexivity|]. cbn [looks nobody snd]. rewrite ents_cons. cbn [snd].
  destruct xs as [|y ys].
  - destruct IH as [[E1 E2]|(C1 & l' & y & ys & C2 & -> & E1 & E2)].
    + left. cbn [app length]. split; [exact E1|rewrite E2; reflexivity].
    + right. exists ((l, []) :: C1), l', y, ys, C2. split; [reflexivity|]. split; [rewrite ents_cons; exact E1|]. cbn [length]. rewrite E2; reflexivity.
  - right. exists [], l, y, ys, B. split; [reflexivity|]. split; reflexivity.
Qed.

Lemma others_at h t arr : forall n B1 l pre x post B2, is_ht h t arr (B1 ++ (l, pre ++ x :: post) :: B2) ->
  (length (x :: post ++ ents B2) <= n)%nat ->
  others_recorded n (n_he x) h = Ok ((map n_he (x :: post ++ ents B2), numbers (zlen B1 + 1) (length B2)), h).
Proof.
  induction n as [|n IH]; intros B1 l pre x post B2 I Hn; [simpl in Hn; lia|].
  destruct (other_recorded _ _ _ _ _ _ _ _ _ I) as [G N]. cbn [others_recorded]. rewrite (proj2 (Z.eqb_neq _ _) N).
  rewrite (bnd_Ok _ _ _ _ _ G). cbn [fst snd]. destruct post as [|y post].
  - cbn [app] in *. destruct (looks_end B2) as [[E1 E2]|(C1 & l' & y & ys & C2 & -> & E1 & E2)].
    + rewrite E1, E2. cbn [first_of]. assert (Z0 : others_recorded n 0 h = Ok (([], []), h)) by (destruct n; reflexivity).
      rewrite (bnd_Ok _ _ _ _ _ Z0). cbn [fst snd map]. rewrite app_nil_r. reflexivity.
    + assert (E3 : ents (C1 ++ (l', y :: ys) :: C2) = y :: ys ++ ents C2) by (rewrite ents_app, E1, ents_cons; reflexivity).
      rewrite E2, E3 in *. cbn [first_of].
      assert (X : others_recorded n (n_he y) h =
        Ok ((map n_he (y :: ys ++ ents C2), numbers (zlen (B1 ++ (l, pre ++ [x]) :: C1) + 1) (length C2)), h)).
      { apply (IH (B1 ++ (l, pre ++ [x]) :: C1) l' [] y ys C2); [|cbn [length] in Hn |- *; lia].
        rewrite <- app_assoc. exact I. }
      rewrite (bnd_Ok _ _ _ _ _ X). cbn [fst snd]. unfold ret. do 3 f_equal.
      rewrite app_length. cbn [length]. replace (length C1 + S (length C2))%nat with (S (length C1) + length C2)%nat by lia.
      rewrite numbers_app. f_equal. f_equal. rewrite zlen_app, zlen_cons. unfold zlen. lia.
  - cbn [app first_of] in *.
    assert (X : others_recorded n (n_he y) h = Ok ((map n_he (y :: post ++ ents B2), numbers (zlen B1 + 1) (length B2)), h)).
    { apply (IH B1 l (pre ++ [x]) y post B2); [rewrite <- app_assoc; exact I|cbn [length] in *; lia]. }
    rewrite (bnd_Ok _ _ _ _ _ X). reflexivity.
Qed.

Lemma all_recorded h t arr bs n : is_ht h t arr bs -> (length (ents bs) <= n)%nat ->
  all_elements_recorded t n h = Ok ((map n_he (ents bs), numbers 0 (length bs)), h).
Proof.
  intros I Hn. unfold all_elements_recorded, hash_table_get_any_recorded.
  change (get_next_recorded t 0) with (get_next_recorded t (zlen (@nil (Z * list ent)))).
  rewrite (bnd_Ok _ _ _ _ _ (next_recorded h t arr bs [] bs I eq_refl)). cbn [fst snd].
  change (zlen (@nil (Z * list ent))) with 0.
  destruct (looks_end bs) as [[E1 E2]|(C1 & l' & y & ys & C2 & -> & E1 & E2)].
  - rewrite E1, E2. cbn [first_of]. assert (Z0 : others_recorded n 0 h = Ok (([], []), h)) by (destruct n; reflexivity).
    rewrite (bnd_Ok _ _ _ _ _ Z0). cbn [fst snd map]. rewrite app_nil_r. reflexivity.
  - assert (E3 : ents (C1 ++ (l', y :: ys) :: C2) = y :: ys ++ ents C2) by (rewrite ents_app, E1, ents_cons; reflexivity).
    rewrite E2, E3 in *. cbn [first_of].
    rewrite (bnd_Ok _ _ _ _ _ (others_at h t arr n C1 l' [] y ys C2 I Hn)). cbn [fst snd]. unfold ret. do 3 f_equal.
    rewrite app_length. cbn [length]. replace (length C1 + S (length C2))%nat with (S (length C1) + length C2)%nat by lia.
    rewrite numbers_app. f_equal. f_equal. unfold zlen. lia.
Qed.
End Walk.
