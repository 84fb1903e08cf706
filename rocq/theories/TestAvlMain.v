(** The tree tests pass: the programs. *)
From Verif Require Import Base Heap Sep AvlModel AvlSpec AvlProofs AvlHist AvlProps PriorqModel PriorqSpec PriorqProps TestAvlModel TestAvl.
From Coq Require Import Permutation ZifyBool ZifyNat.

Section tests.
  Variables (call : AvlModel.comparator) (cmp : Z).
  Notation f := (fun k1 k2 => call cmp k1 k2 0).
  Notation hist := (avl_history call cmp 0).
  Notation start l := (List.hd 0 (handles l)).

  Lemma count_forward h t size : forall m2 m1 fuel, hist h t (m1 ++ m2) -> zlen m1 + zlen m2 <= size -> (length m2 <= fuel)%nat ->
    count_nodes avl_tree_next fuel (start m2) (zlen m1) size h = Ok (zlen m1 + zlen m2, h).
  Proof.
    induction m2 as [|a m2 IH]; intros m1 fuel H L F.
    { change (zlen (@nil assoc)) with 0. rewrite Z.add_0_r. destruct fuel; reflexivity. }
    destruct fuel as [|fuel]; [cbn in F; lia|]. pose proof (nonnull _ _ _ _ _ _ _ H) as N. rewrite zlen_cons in *. pose proof (zlen_nonneg m2) as Nn.
    cbn [handles map List.hd count_nodes]. rewrite (proj2 (Z.eqb_neq _ _) N). rewrite run_check by lia.
    rewrite (run_bnd _ _ _ _ _ (next_of _ _ _ _ _ _ _ H)).
    replace (zlen m1 + 1) with (zlen (m1 ++ [a])) by (rewrite zlen_app; reflexivity).
    rewrite (IH (m1 ++ [a]) fuel); [rewrite zlen_app; do 2 f_equal; change (zlen [a]) with 1; lia|rewrite <- app_assoc; exact H| |cbn in F; lia].
    rewrite zlen_app. change (zlen [a]) with 1. lia.
  Qed.
  Lemma count_backward h t size : forall r m2 n fuel, hist h t (rev r ++ m2) -> n + zlen r <= size -> (length r <= fuel)%nat ->
    count_nodes avl_tree_previous fuel (start r) n size h = Ok (n + zlen r, h).
  Proof.
    induction r as [|a r IH]; intros m2 n fuel H L F.
    { change (zlen (@nil assoc)) with 0. rewrite Z.add_0_r. destruct fuel; reflexivity. }
    destruct fuel as [|fuel]; [cbn in F; lia|]. cbn [rev] in H. rewrite <- app_assoc in H. cbn [app] in H.
    pose proof (nonnull _ _ _ _ _ _ _ H) as N. rewrite zlen_cons in *. pose proof (zlen_nonneg r) as Nn.
    cbn [handles map List.hd count_nodes]. rewrite (proj2 (Z.eqb_neq _ _) N). rewrite run_check by lia.
    pose proof (prev_of _ _ _ _ _ _ _ H) as P. rewrite rev_involutive in P. rewrite (run_bnd _ _ _ _ _ P).
    rewrite (IH (a :: m2) (n + 1) fuel); [do 2 f_equal; lia|exact H|lia|cbn in F; lia].
  Qed.
  Lemma zlen_nat {A} (l : list A) : Z.to_nat (zlen l) = length l.
  Proof. unfold zlen. apply Nat2Z.id. Qed.
  Lemma test_tree_size_ok h t m : hist h t m -> test_tree_size t (zlen m) h = Ok (tt, h).
  Proof.
    intros H. destruct (root_cell call cmp h t m H) as (tr & _ & _ & G & _). unfold test_tree_size. unfold bnd at 1, ld_avl. rewrite G.
    rewrite run_check by apply Z.eqb_refl. rewrite zlen_nat.
    rewrite (run_bnd _ _ _ _ _ (first_of _ _ _ _ _ H)). rewrite (run_bnd _ _ _ _ _ (count_forward h t (zlen m) m [] _ H (Z.le_refl _) (le_n _))).
    rewrite run_check by apply Z.eqb_refl. rewrite (run_bnd _ _ _ _ _ (last_of _ _ _ _ _ H)).
    assert (X : count_nodes avl_tree_previous (length m) (start (rev m)) 0 (zlen m) h = Ok (0 + zlen (rev m), h)).
    { apply (count_backward h t (zlen m) (rev m) []); [rewrite rev_involutive, app_nil_r; exact H| |rewrite rev_length; apply le_n].
      unfold zlen. rewrite rev_length. lia. }
    rewrite (run_bnd _ _ _ _ _ X). unfold check. replace (0 + zlen (rev m) =? zlen m) with true; [reflexivity|].
    unfold zlen. rewrite rev_length. symmetry. apply Z.eqb_eq. lia.
  Qed.

  Lemma sorted_pair m1 a m2 b : increasing f (m1 ++ a :: m2) -> In b m2 -> f (a_key a) (a_key b) < 0.
  Proof.
    induction m1 as [|c m1 IH]; cbn [app]; intros H I; inversion H as [|? ? H1 H2]; subst; [rewrite Forall_forall in H2; exact (H2 b I)|exact (IH H1 I)].
  Qed.
  Lemma key_of h t m1 a m2 : hist h t (m1 ++ a :: m2) -> avl_elem_get_key (a_elem a) h = Ok (a_key a, h) /\ avl_elem_get_value (a_elem a) h = Ok (a_value a, h).
  Proof.
    intros H. destruct a as [[e k] v]. apply (C28_element call cmp 0 h t _ e k v H). apply in_or_app. right. left. reflexivity.
  Qed.

  Lemma order_ok h t : forall m2 m1 a fuel, hist h t (m1 ++ a :: m2) -> (length m2 <= fuel)%nat -> order_loop call cmp fuel (a_elem a) h = Ok (tt, h).
  Proof.
    induction m2 as [|b m2 IH]; intros m1 a fuel H F.
    { destruct fuel; cbn [order_loop]; rewrite (run_bnd _ _ _ _ _ (next_of _ _ _ _ _ _ _ H)); reflexivity. }
    destruct fuel as [|fuel]; [cbn in F; lia|]. cbn [order_loop]. rewrite (run_bnd _ _ _ _ _ (next_of _ _ _ _ _ _ _ H)). cbn [handles map List.hd].
    assert (H' : hist h t ((m1 ++ [a]) ++ b :: m2)) by (rewrite <- app_assoc; exact H).
    pose proof (nonnull _ _ _ _ _ _ _ H') as N. rewrite (proj2 (Z.eqb_neq _ _) N).
    rewrite (run_bnd _ _ _ _ _ (proj1 (key_of _ _ _ _ _ H))), (run_bnd _ _ _ _ _ (proj1 (key_of _ _ _ _ _ H'))).
    rewrite run_check; [apply (IH (m1 ++ [a]) b fuel H'); cbn in F; lia|].
    apply Z.ltb_lt. destruct (C28_sorted _ _ _ _ _ _ H) as [S _]. exact (sorted_pair m1 a (b :: m2) b S (or_introl eq_refl)).
  Qed.
  Lemma verify_order_ok h t m : hist h t m -> verify_order call cmp (length m) t h = Ok (tt, h).
  Proof.
    intros H. unfold verify_order. rewrite (run_bnd _ _ _ _ _ (first_of _ _ _ _ _ H)). destruct m as [|a m]; [reflexivity|]. cbn [handles map List.hd].
    pose proof (nonnull _ _ _ _ [] _ _ H) as N. rewrite (proj2 (Z.eqb_neq _ _) N). apply (order_ok h t m []); [exact H|cbn; lia].
  Qed.

  (** The tree [t] of the heap [h0] is still there next to another one. *)
  Lemma beside h0 t m h c mc : hist h0 t m -> around (get h0) h c mc -> hist h t m.
  Proof.
    intros H [A1 A2]. eapply AH_other; [exact H|]. intros x X. apply A2. intros Y. exact (alloc_get h0 t m x call cmp 0 H X (A1 x Y)).
  Qed.

  Lemma copy_loop_ok h0 t c : forall todo done h mc fuel, hist h0 t (done ++ todo) -> hist h c mc -> around (get h0) h c mc -> map a_pair mc = map a_pair todo ->
    (length todo <= fuel)%nat ->
    exists h', copy_loop call fuel c (start todo) h = Ok (tt, h') /\ hist h' c [] /\ around (get h0) h' c [].
  Proof.
    induction todo as [|a todo IH]; intros done h mc fuel H0 H A E F.
    { destruct mc; [|discriminate]. exists h. split; [destruct fuel; reflexivity|]. auto. }
    destruct fuel as [|fuel]; [cbn in F; lia|]. destruct mc as [|[[e k] v] mc]; [discriminate|]. cbn [map] in E. injection E as Ek Ev E.
    assert (P : f (a_key a) k = 0).
    { cbn in Ek. rewrite Ek. destruct (history_avl _ _ _ _ _ _ H) as (P & _). pose proof (cmp_flip _ P (a_key a) (a_key a)). cbv beta in *. lia. }
    destruct (pop_step call cmp (get h0) h c [] e k (a_key a) v mc H A P) as (h1 & h2 & R1 & N & V & R2 & H2 & A2 & O).
    pose proof (beside h0 t _ h c _ H0 A) as Ht. pose proof (beside h0 t _ h2 c _ H0 A2) as Ht2.
    assert (Ht1 : hist h1 t (done ++ a :: todo)).
    { eapply AH_other; [exact Ht|]. intros x X. apply O. intros Y. exact (alloc_get h0 t _ x call cmp 0 H0 X (proj1 A x Y)). }
    assert (H0' : hist h0 t ((done ++ [a]) ++ todo)) by (rewrite <- app_assoc; exact H0).
    destruct (IH (done ++ [a]) h2 mc fuel H0' H2 A2 E ltac:(cbn in F; lia)) as (h' & R & Q). exists h'. split; [|exact Q].
    cbn [handles map List.hd copy_loop]. rewrite (proj2 (Z.eqb_neq _ _) (nonnull _ _ _ _ _ _ _ Ht)).
    rewrite (run_bnd _ _ _ _ _ (proj1 (key_of _ _ _ _ _ Ht))), (run_bnd _ _ _ _ _ R1).
    rewrite run_check by (unfold truth; rewrite (proj2 (Z.eqb_neq _ _) N); reflexivity).
    rewrite (run_bnd _ _ _ _ _ (proj2 (key_of _ _ _ _ _ Ht1))), (run_bnd _ _ _ _ _ V).
    rewrite run_check by (apply Z.eqb_eq; cbn in Ev; congruence). rewrite (run_bnd _ _ _ _ _ R2).
    rewrite (run_bnd _ _ _ _ _ (next_of _ _ _ _ _ _ _ Ht2)). exact R.
  Qed.
  Lemma verify_copy_ok h t m : hist h t m -> exists h', verify_copy call (length m) t h = Ok (tt, h') /\ forall x, get h' x = get h x.
  Proof.
    intros H. destruct (C34_copy call cmp 0 h t m H) as (c & h1 & mc & R & E & Hc & Ht & _ & F1 & F2 & _).
    destruct (copy_loop_ok h t c m [] h1 mc (length m) H Hc (conj F1 F2) E (le_n _)) as (h2 & R2 & H2 & [A1 A2]).
    destruct (C35_destroy call cmp 0 h2 c [] H2) as (h3 & R3 & D1 & D2). exists h3. split.
    - unfold verify_copy. rewrite (run_bnd _ _ _ _ _ R), (run_bnd _ _ _ _ _ (first_of _ _ _ _ _ Ht)), (run_bnd _ _ _ _ _ R2).
      rewrite (run_bnd _ _ _ _ _ (proj2 (C28_size _ _ _ _ _ _ H2))). rewrite run_check by reflexivity. exact R3.
    - intros x. destruct (in_dec Z.eq_dec x (footprint c [])) as [I|I]; [rewrite (D1 x I), (A1 x I); reflexivity|rewrite (D2 x I); exact (A2 x I)].
  Qed.

  Lemma verify_tree_ok h t m : hist h t m -> exists h', verify_tree call cmp t (zlen m) h = Ok (tt, h') /\ forall x, get h' x = get h x.
  Proof.
    intros H. destruct (verify_copy_ok h t m H) as (h' & R & S). exists h'. split; [|exact S]. unfold verify_tree. rewrite zlen_nat. cbv zeta.
    rewrite (run_bnd _ _ _ _ _ (verify_structure_ok _ _ _ _ _ H)), (run_bnd _ _ _ _ _ (test_tree_size_ok _ _ _ H)),
      (run_bnd _ _ _ _ _ (verify_height_ok _ _ _ _ _ H)), (run_bnd _ _ _ _ _ (verify_order_ok _ _ _ H)). exact R.
  Qed.

  Lemma same_around base h h' t m : around base h t m -> (forall x, get h' x = get h x) -> around base h' t m.
  Proof. intros [A1 A2] S. split; [exact A1|]. intros x X. rewrite S. exact (A2 x X). Qed.

  Lemma remove_elements_ok base t ys : forall xs h m, hist h t m -> around base h t m -> proper m -> Permutation (map a_value m) (xs ++ ys) ->
    exists h' m', remove_elements call t xs h = Ok (tt, h') /\ hist h' t m' /\ around base h' t m' /\ proper m' /\ Permutation (map a_value m') ys.
  Proof.
    induction xs as [|x xs IH]; intros h m H A P Q.
    { exists h, m. repeat (split; [reflexivity || assumption|]). exact Q. }
    assert (I : In x (map a_value m)) by (eapply Permutation_in; [symmetry; exact Q|left; reflexivity]).
    apply in_map_iff in I as ([[e k] v] & V & I). cbn in V. subst v. apply in_split in I as (m1 & m2 & ->).
    assert (K : k = x) by (apply proper_app in P as [_ P]; inversion P as [|? ? K]; exact K). subst k.
    assert (Z : f x x = 0) by (destruct (history_avl _ _ _ _ _ _ H) as (T & _); pose proof (cmp_flip _ T x x); cbv beta in *; lia).
    destruct (pop_step call cmp base h t m1 e x x x m2 H A Z) as (h1 & h2 & R1 & N & _ & R2 & H2 & A2 & _).
    destruct (IH h2 (m1 ++ m2) H2 A2) as (h' & m' & R & Rest).
    - apply proper_app in P as [P1 P2]. inversion P2. apply proper_app. auto.
    - rewrite map_app in *. cbn [map app] in Q. change (a_value (e, x, x)) with x in Q. apply (Permutation_cons_inv (a := x)).
      rewrite <- Q. symmetry. rewrite <- Permutation_middle. reflexivity.
    - exists h', m'. split; [|exact Rest]. cbn [remove_elements]. rewrite (run_bnd _ _ _ _ _ R1).
      rewrite run_check by (unfold truth; rewrite (proj2 (Z.eqb_neq _ _) N); reflexivity). rewrite (run_bnd _ _ _ _ _ R2). exact R.
  Qed.

  Lemma perm_zlen {A} (l l' : list A) : Permutation l l' -> zlen l = zlen l'.
  Proof. intros P. unfold zlen. rewrite (Permutation_length P). reflexivity. Qed.
  Lemma zlen_map {A B} (g : A -> B) l : zlen (map g l) = zlen l.
  Proof. unfold zlen. rewrite map_length. reflexivity. Qed.

  Lemma do_tree_ok h t m xs : hist h t m -> proper m -> Permutation (map a_value m) xs ->
    exists h', do_tree call cmp t xs h = Ok (tt, h') /\ hist h' t [] /\
      (forall x, ~ In x (footprint t m) -> get h' x = get h x) /\ (forall x, In x (handles m) -> get h' x = None).
  Proof.
    intros H P Q. pose proof (around_start h t m) as A. set (base := fun x => if in_dec Z.eq_dec x (footprint t m) then None else get h x) in A.
    set (n := Z.to_nat (zlen xs / 2)).
    assert (Len : forall l, Permutation (map a_value l) xs -> zlen l = zlen xs) by (intros l X; rewrite <- (perm_zlen _ _ X), zlen_map; reflexivity).
    destruct (verify_tree_ok h t m H) as (h1 & R1 & S1). rewrite (Len m Q) in R1.
    destruct (remove_elements_ok base t (skipn n xs) (firstn n xs) h1 m (same_history _ _ _ _ _ _ _ H S1) (same_around _ _ _ _ _ A S1) P)
      as (h2 & m2 & R2 & H2 & A2 & P2 & Q2); [rewrite firstn_skipn; exact Q|].
    assert (L2 : zlen m2 = zlen xs - zlen xs / 2).
    { rewrite <- (zlen_map a_value m2), (perm_zlen _ _ Q2). unfold zlen. rewrite skipn_length. subst n. fold (zlen xs). pose proof (zlen_nonneg xs) as Nn.
      assert (0 <= zlen xs / 2 <= zlen xs) by (split; [apply Z.div_pos; lia|apply Z.div_le_upper_bound; lia]). unfold zlen in *. lia. }
    destruct (verify_tree_ok h2 t m2 H2) as (h3 & R3 & S3). rewrite L2 in R3.
    destruct (remove_elements_ok base t [] (skipn n xs) h3 m2 (same_history _ _ _ _ _ _ _ H2 S3) (same_around _ _ _ _ _ A2 S3) P2)
      as (h4 & m4 & R4 & H4 & A4 & P4 & Q4); [rewrite app_nil_r; exact Q2|].
    assert (m4 = []) as ->. { symmetry in Q4. apply Permutation_nil in Q4. destruct m4; [reflexivity|discriminate]. }
    destruct (verify_tree_ok h4 t [] H4) as (h5 & R5 & S5). exists h5. split; [|split].
    - unfold do_tree. cbv zeta. fold n. rewrite (run_bnd _ _ _ _ _ R1), (run_bnd _ _ _ _ _ R2), (run_bnd _ _ _ _ _ R3), (run_bnd _ _ _ _ _ R4). exact R5.
    - exact (same_history _ _ _ _ _ _ _ H4 S5).
    - destruct A4 as [_ A4]. split; intros x X.
      + rewrite S5, A4; [|intros [<-|[]]; apply X; left; reflexivity]. unfold base. destruct (in_dec Z.eq_dec x (footprint t m)); [tauto|reflexivity].
      + rewrite S5, A4.
        * unfold base. destruct (in_dec Z.eq_dec x (footprint t m)) as [_|C]; [reflexivity|]. destruct C. right. exact X.
        * intros [<-|[]]. destruct (C28_sorted _ _ _ _ _ _ H) as [_ D]. unfold footprint in D. inversion D. auto.
  Qed.

  (** ** Trees made from trees *)
  Lemma enter_from_ok h0 t m c step : hist h0 t m -> proper m -> forall todo d h mc fuel,
    (forall d' a r, d ++ todo = d' ++ a :: r -> In a m /\ forall h, hist h t m -> step (a_elem a) h = Ok (start r, h)) ->
    hist h c mc -> around (get h0) h c mc -> proper mc -> zlen mc + zlen todo < 2 ^ 60 -> different call cmp (map a_value todo) ->
    fresh_from call cmp mc (map a_value todo) -> (length todo <= fuel)%nat ->
    exists h' mc', enter_from call step fuel c (start todo) h = Ok (tt, h') /\ hist h' c mc' /\ around (get h0) h' c mc' /\ proper mc' /\
      Permutation (map a_value mc') (map a_value mc ++ map a_value todo).
  Proof.
    intros H0 Pm. induction todo as [|a todo IH]; intros d h mc fuel Step H A P L D F Fu.
    { exists h, mc. split; [destruct fuel; reflexivity|]. cbn [map]. rewrite app_nil_r. auto. }
    destruct fuel as [|fuel]; [cbn in Fu; lia|]. rewrite zlen_cons in L. pose proof (zlen_nonneg todo) as Nn. cbn [map] in D, F.
    destruct (Step d a todo eq_refl) as [Ia St]. pose proof (proj1 (history_avl _ _ _ _ _ _ H)) as T.
    destruct (put_step call cmp (get h0) h c mc (a_value a) (a_value a) H A ltac:(unfold sparse; lia)) as (e & m1 & m2 & h1 & E & R & H1 & A1 & _).
    { intros b Ib. exact (F b _ Ib (or_introl eq_refl)). }
    inversion D as [|? ? Dx Dxs]; subst.
    destruct (IH (d ++ [a]) h1 (m1 ++ (e, a_value a, a_value a) :: m2) fuel) as (h' & mc' & R' & H' & A' & P' & Q).
    - intros d' b r Eq. apply (Step d' b r). rewrite <- Eq, <- app_assoc. reflexivity.
    - exact H1.
    - exact A1.
    - apply proper_app in P as [Pm1 Pm2]. apply proper_app. split; [exact Pm1|]. constructor; [reflexivity|exact Pm2].
    - rewrite zlen_app, zlen_cons in *. lia.
    - exact Dxs.
    - intros b y Ib Iy. apply in_app_iff in Ib. destruct Ib as [Ib|[<-|Ib]].
      + apply F; [apply in_or_app; auto|right; exact Iy].
      + cbn [a_key fst snd]. apply (flip_ne call cmp); [exact T|]. rewrite Forall_forall in Dx. exact (Dx y Iy).
      + apply F; [apply in_or_app; auto|right; exact Iy].
    - cbn in Fu. lia.
    - exists h', mc'. split.
      + pose proof (beside h0 t m h c _ H0 A) as Ht. pose proof (beside h0 t m h1 c _ H0 A1) as Ht1.
        destruct (in_split _ _ Ia) as (p1 & p2 & ->).
        cbn [handles map List.hd enter_from]. rewrite (proj2 (Z.eqb_neq _ _) (nonnull _ _ _ _ _ _ _ Ht)).
        rewrite (run_bnd _ _ _ _ _ (proj2 (key_of _ _ _ _ _ Ht))), (run_bnd _ _ _ _ _ R), run_check by reflexivity.
        rewrite (run_bnd _ _ _ _ _ (St h1 Ht1)). exact R'.
      + repeat (split; [assumption|]). rewrite Q, !map_app. cbn [map]. change (a_value (e, a_value a, a_value a)) with (a_value a).
        rewrite <- !app_assoc. apply Permutation_app_head. cbn [app]. apply Permutation_middle.
  Qed.

  Lemma different_perm xs ys : total_preorder f -> Permutation xs ys -> different call cmp xs -> different call cmp ys.
  Proof.
    intros T P. induction P as [|x l l' P IH|x y l|l l' l'' P1 IH1 P2 IH2]; intros D.
    - exact D.
    - inversion D as [|? ? A B]; subst. constructor; [|exact (IH B)]. rewrite Forall_forall in *. intros z Iz. apply A. eapply Permutation_in; [symmetry; exact P|exact Iz].
    - inversion D as [|? ? A B]; subst. inversion B as [|? ? A' B']; subst. inversion A as [|? ? A1 A2]; subst.
      constructor; [constructor; [apply (flip_ne call cmp); [exact T|exact A1]|exact A']|]. constructor; [exact A2|exact B'].
    - auto.
  Qed.

  Definition leaves (h0 h : heap) (t : Z) (m : list assoc) (xs : list Z) : Prop :=
    hist h t m /\ around (get h0) h t m /\ proper m /\ Permutation (map a_value m) xs.

  Lemma enter_data_ok h xs : total_preorder f -> different call cmp xs -> zlen xs < 2 ^ 60 ->
    exists t h' m, enter_data call cmp xs h = Ok (t, h') /\ enter_avl_data call cmp xs h = Ok (t, h') /\ leaves h h' t m xs.
  Proof.
    intros T D L. destruct (make_step call cmp h T) as (t & h1 & R1 & H1 & A1).
    destruct (enter_elements_ok call cmp (get h) t xs h1 [] T H1 A1) as (h' & m & E1 & E2 & H' & A' & P & Q); [constructor|exact L|exact D|intros a x []|].
    exists t, h', m. unfold enter_data, enter_avl_data. rewrite !(run_bnd _ _ _ _ _ R1), (run_bnd _ _ _ _ _ E1), (run_bnd _ _ _ _ _ E2).
    repeat (split; [reflexivity || assumption|]). exact Q.
  Qed.
  Lemma enter_again_ok h0 t m xs step todo : hist h0 t m -> proper m -> Permutation (map a_value m) xs -> different call cmp xs -> zlen xs < 2 ^ 60 ->
    Permutation todo m -> (forall d a r, todo = d ++ a :: r -> forall h, hist h t m -> step (a_elem a) h = Ok (start r, h)) ->
    forall c h1, make_avl_tree cmp h0 = Ok (c, h1) -> hist h1 c [] -> around (get h0) h1 c [] ->
    exists h' mc, enter_from call step (length xs) c (start todo) h1 = Ok (tt, h') /\ leaves h0 h' c mc xs.
  Proof.
    intros H P Q D L Qt Step c h1 R1 H1 A1. pose proof (proj1 (history_avl _ _ _ _ _ _ H)) as T.
    assert (Qx : Permutation (map a_value todo) xs) by (rewrite <- Q; apply Permutation_map; exact Qt).
    destruct (enter_from_ok h0 t m c step H P todo [] h1 [] (length xs)) as (h' & mc & R & H' & A' & P' & Q'); auto.
    - intros d' a r E. cbn [app] in E. split; [|exact (Step d' a r E)]. eapply Permutation_in; [exact Qt|]. rewrite E. apply in_or_app. right. left. reflexivity.
    - constructor.
    - rewrite <- (zlen_map a_value todo), (perm_zlen _ _ Qx). exact L.
    - eapply different_perm; [exact T|symmetry; exact Qx|exact D].
    - intros a x [].
    - rewrite <- (map_length a_value todo), (Permutation_length Qx). apply le_n.
    - exists h', mc. split; [exact R|]. repeat (split; [assumption|]). rewrite Q'. exact Qx.
  Qed.
  Lemma enter_ordered_ok h0 t m xs : hist h0 t m -> proper m -> Permutation (map a_value m) xs -> different call cmp xs -> zlen xs < 2 ^ 60 ->
    (exists c h' mc, enter_ordered_data call cmp (length xs) t h0 = Ok (c, h') /\ leaves h0 h' c mc xs) /\
    (exists c h' mc, enter_reverse_data call cmp (length xs) t h0 = Ok (c, h') /\ leaves h0 h' c mc xs).
  Proof.
    intros H P Q D L. pose proof (proj1 (history_avl _ _ _ _ _ _ H)) as T.
    destruct (make_step call cmp h0 T) as (c & h1 & R1 & H1 & A1). pose proof (beside h0 t m h1 c _ H A1) as Ht. split.
    - destruct (enter_again_ok h0 t m xs avl_tree_next m H P Q D L (Permutation_refl _)) with (c := c) (h1 := h1) as (h' & mc & R & Lv); auto.
      { intros d a r -> h Hh. exact (next_of _ _ _ _ _ _ _ Hh). }
      exists c, h', mc. split; [|exact Lv]. unfold enter_ordered_data. rewrite (run_bnd _ _ _ _ _ R1), (run_bnd _ _ _ _ _ (first_of _ _ _ _ _ Ht)), (run_bnd _ _ _ _ _ R). reflexivity.
    - destruct (enter_again_ok h0 t m xs avl_tree_previous (rev m) H P Q D L) with (c := c) (h1 := h1) as (h' & mc & R & Lv); auto.
      { symmetry. apply Permutation_rev. }
      { intros d a r E h Hh. assert (Em : m = rev r ++ a :: rev d).
        { rewrite <- (rev_involutive m), E, rev_app_distr. cbn [rev]. rewrite <- app_assoc. reflexivity. }
        rewrite Em in Hh. pose proof (prev_of _ _ _ _ _ _ _ Hh) as X. rewrite rev_involutive in X. exact X. }
      exists c, h', mc. split; [|exact Lv]. unfold enter_reverse_data. rewrite (run_bnd _ _ _ _ _ R1), (run_bnd _ _ _ _ _ (last_of _ _ _ _ _ Ht)), (run_bnd _ _ _ _ _ R). reflexivity.
  Qed.

  Lemma in_fp x t (m : list assoc) : In x (footprint t m) <-> x = t \/ In x (handles m).
  Proof. unfold footprint. cbn [In]. intuition congruence. Qed.

  Lemma avltest_ok h xs : total_preorder f -> different call cmp xs -> zlen xs < 2 ^ 60 ->
    exists h' t1 t2 t3, avltest call cmp xs h = Ok (tt, h') /\ NoDup [t1; t2; t3] /\
      (forall t, In t [t1; t2; t3] -> get h t = None /\ hist h' t []) /\ (forall x, ~ In x [t1; t2; t3] -> get h' x = get h x).
  Proof.
    intros T D L.
    destruct (enter_data_ok h xs T D L) as (t1 & h1 & m1 & R1 & _ & H1 & A1 & P1 & Q1).
    destruct (enter_ordered_ok h1 t1 m1 xs H1 P1 Q1 D L) as ((t2 & h2 & m2 & R2 & H2 & A2 & P2 & Q2) & _).
    pose proof (beside _ _ _ _ _ _ H1 A2) as H12.
    destruct (enter_ordered_ok h2 t1 m1 xs H12 P1 Q1 D L) as (_ & (t3 & h3 & m3 & R3 & H3 & A3 & P3 & Q3)).
    pose proof (beside _ _ _ _ _ _ H12 A3) as H13. pose proof (beside _ _ _ _ _ _ H2 A3) as H23.
    assert (N1 := fun x => alloc_get h1 t1 m1 x call cmp 0 H1). assert (N2 := fun x => alloc_get h2 t2 m2 x call cmp 0 H2).
    assert (N12 := fun x => alloc_get h2 t1 m1 x call cmp 0 H12).
    assert (D12 : forall x, In x (footprint t1 m1) -> In x (footprint t2 m2) -> False) by (intros x X Y; exact (N1 x X (proj1 A2 x Y))).
    assert (D13 : forall x, In x (footprint t1 m1) -> In x (footprint t3 m3) -> False) by (intros x X Y; exact (N12 x X (proj1 A3 x Y))).
    assert (D23 : forall x, In x (footprint t2 m2) -> In x (footprint t3 m3) -> False) by (intros x X Y; exact (N2 x X (proj1 A3 x Y))).
    destruct (do_tree_ok h3 t1 m1 xs H13 P1 Q1) as (h4 & R4 & H14 & O4 & C4).
    assert (H24 : hist h4 t2 m2) by (eapply AH_other; [exact H23|]; intros x X; apply O4; intros Y; exact (D12 x Y X)).
    assert (H34 : hist h4 t3 m3) by (eapply AH_other; [exact H3|]; intros x X; apply O4; intros Y; exact (D13 x Y X)).
    destruct (do_tree_ok h4 t2 m2 xs H24 P2 Q2) as (h5 & R5 & H25 & O5 & C5).
    assert (T1 : In t1 (footprint t1 m1)) by (left; reflexivity). assert (T2 : In t2 (footprint t2 m2)) by (left; reflexivity).
    assert (T3 : In t3 (footprint t3 m3)) by (left; reflexivity).
    assert (H15 : hist h5 t1 []) by (eapply AH_other; [exact H14|]; intros x [<-|[]]; apply O5; intros Y; exact (D12 t1 T1 Y)).
    assert (H35 : hist h5 t3 m3) by (eapply AH_other; [exact H34|]; intros x X; apply O5; intros Y; exact (D23 x Y X)).
    destruct (do_tree_ok h5 t3 m3 xs H35 P3 Q3) as (h6 & R6 & H36 & O6 & C6).
    assert (H16 : hist h6 t1 []) by (eapply AH_other; [exact H15|]; intros x [<-|[]]; apply O6; intros Y; exact (D13 t1 T1 Y)).
    assert (H26 : hist h6 t2 []) by (eapply AH_other; [exact H25|]; intros x [<-|[]]; apply O6; intros Y; exact (D23 t2 T2 Y)).
    assert (B : forall x, In x (footprint t1 m1) \/ In x (footprint t2 m2) \/ In x (footprint t3 m3) -> get h x = None).
    { intros x [X|[X|X]]; [exact (proj1 A1 x X)| |].
      - rewrite <- (proj2 A1 x); [exact (proj1 A2 x X)|]. intros Y. exact (D12 x Y X).
      - rewrite <- (proj2 A1 x), <- (proj2 A2 x); [exact (proj1 A3 x X)| |]; intros Y; [exact (D23 x Y X)|exact (D13 x Y X)]. }
    exists h6, t1, t2, t3. split; [|split; [|split]].
    - unfold avltest. rewrite (run_bnd _ _ _ _ _ R1), (run_bnd _ _ _ _ _ R2), (run_bnd _ _ _ _ _ R3), (run_bnd _ _ _ _ _ R4), (run_bnd _ _ _ _ _ R5). exact R6.
    - constructor; [|constructor; [|constructor; [intros []|constructor]]].
      + intros [E|[E|[]]]; [apply (D12 t1 T1); rewrite <- E; exact T2|apply (D13 t1 T1); rewrite <- E; exact T3].
      + intros [E|[]]. apply (D23 t2 T2). rewrite <- E. exact T3.
    - intros t [<-|[<-|[<-|[]]]]; (split; [apply B; auto|assumption]).
    - intros x X. assert (X1 : x <> t1) by (intros ->; apply X; left; reflexivity). assert (X2 : x <> t2) by (intros ->; apply X; right; left; reflexivity).
      assert (X3 : x <> t3) by (intros ->; apply X; right; right; left; reflexivity).
      destruct (in_dec Z.eq_dec x (footprint t3 m3)) as [I3|I3].
      { rewrite (B x) by auto. apply C6. apply in_fp in I3. tauto. }
      rewrite (O6 x I3). destruct (in_dec Z.eq_dec x (footprint t2 m2)) as [I2|I2].
      { rewrite (B x) by auto. apply C5. apply in_fp in I2. tauto. }
      rewrite (O5 x I2). destruct (in_dec Z.eq_dec x (footprint t1 m1)) as [I1|I1].
      { rewrite (B x) by auto. apply C4. apply in_fp in I1. tauto. }
      rewrite (O4 x I1), (proj2 A3 x I3), (proj2 A2 x I2). exact (proj2 A1 x I1).
  Qed.

  (** ** Priority queues *)
  Lemma legal : total_preorder f -> PriorqSpec.comparator f.
  Proof. intros T. split; [exact (cmp_flip f T)|exact (cmp_trans f T)]. Qed.
  Lemma enter_pr_ok junk xs : forall q m, total_preorder f -> history f anything q m -> zlen m + zlen xs < 2 ^ 60 ->
    exists q', enter_pr_data f junk q xs = Ok q' /\ history f anything q' (rev xs ++ m).
  Proof.
    induction xs as [|x xs IH]; intros q m T H L; [exists q; split; [reflexivity|exact H]|]. rewrite zlen_cons in L. pose proof (zlen_nonneg xs) as Nn.
    destruct (C37_multiset f q m (legal T) H) as (_ & _ & En & _). destruct (En junk x) as (q1 & R1 & H1); [unfold room; lia|].
    destruct (IH q1 (x :: m) T H1) as (q' & R & H'); [rewrite zlen_cons; lia|]. exists q'. cbn [enter_pr_data]. rewrite R1. split; [exact R|].
    cbn [rev]. rewrite <- app_assoc. exact H'.
  Qed.
  Lemma dequeue_loop_ok h t m : hist h t m -> proper m -> forall todo d q mq fuel, m = d ++ todo -> history f anything q mq ->
    Permutation mq (map a_value todo) -> (length todo <= fuel)%nat -> dequeue_loop f fuel q (start todo) h = Ok (true, h).
  Proof.
    intros H P. pose proof (proj1 (history_avl _ _ _ _ _ _ H)) as T.
    induction todo as [|a todo IH]; intros d q mq fuel E Hq Q F.
    { symmetry in Q. apply Permutation_nil in Q. subst mq. destruct (C37_multiset f q [] (legal T) Hq) as (_ & Em & _).
      destruct fuel; cbn [dequeue_loop]; rewrite (proj2 Em eq_refl); reflexivity. }
    destruct fuel as [|fuel]; [cbn in F; lia|]. subst m.
    assert (Ne : mq <> []) by (intros ->; apply Permutation_nil in Q; discriminate).
    destruct (C37_multiset f q mq (legal T) Hq) as (_ & Em & _).
    assert (Eq : priorq_empty q = false) by (destruct (priorq_empty q); [exfalso; apply Ne; apply Em; reflexivity|reflexivity]).
    destruct (C36_least f q mq (legal T) Hq Ne) as (q' & x & m' & _ & R & Ix & Le & Q' & Hq').
    assert (Ka : forall b, In b (d ++ a :: todo) -> a_key b = a_value b) by (apply Forall_forall; exact P).
    assert (X : x = a_value a).
    { assert (Ix' : In x (map a_value (a :: todo))) by (eapply Permutation_in; [exact Q|exact Ix]). destruct Ix' as [<-|Ix']; [reflexivity|exfalso].
      apply in_map_iff in Ix' as (b & <- & Ib). destruct (C28_sorted _ _ _ _ _ _ H) as [S _]. pose proof (sorted_pair d a todo b S Ib) as Lt.
      rewrite (Ka a (in_elt a d todo)), (Ka b (in_or_app d (a :: todo) b (or_intror (or_intror Ib)))) in Lt.
      assert (Ia : In (a_value a) mq) by (eapply Permutation_in; [symmetry; exact Q|left; reflexivity]). specialize (Le _ Ia).
      pose proof (cmp_flip _ T (a_value b) (a_value a)). pose proof (cmp_flip _ T (a_value a) (a_value b)). cbv beta in *. lia. }
    subst x. cbn [dequeue_loop handles map List.hd]. rewrite Eq. unfold lift at 1. unfold bnd at 1. rewrite R. cbn [fst snd].
    rewrite (run_bnd _ _ _ _ _ (proj2 (key_of _ _ _ _ _ H))). rewrite Z.eqb_refl. cbn [negb].
    rewrite (run_bnd _ _ _ _ _ (next_of _ _ _ _ _ _ _ H)). apply (IH (d ++ [a]) q' m').
    - rewrite <- app_assoc. reflexivity.
    - exact Hq'.
    - apply (Permutation_cons_inv (a := a_value a)). rewrite <- Q'. exact Q.
    - cbn in F. lia.
  Qed.
  Lemma test_correctness_ok h junk xs : total_preorder f -> different call cmp xs -> zlen xs < 2 ^ 60 ->
    exists h', test_correctness call cmp junk xs h = Ok (true, h') /\ forall x, get h' x = get h x.
  Proof.
    intros T D L. destruct (enter_data_ok h xs T D L) as (t & h1 & m & _ & R1 & H1 & A1 & P1 & Q1).
    destruct (enter_pr_ok junk xs make_priority_queue [] T (H_new _ _ I) L) as (q & R2 & Hq). rewrite app_nil_r in Hq.
    assert (R3 : dequeue_loop f (length xs) q (start m) h1 = Ok (true, h1)).
    { apply (dequeue_loop_ok h1 t m H1 P1 m [] q (rev xs)); [reflexivity|exact Hq| |].
      - rewrite <- Permutation_rev. symmetry. exact Q1.
      - rewrite <- (map_length a_value m), (Permutation_length Q1). apply le_n. }
    destruct (C35_destroy call cmp 0 h1 t m H1) as (h2 & R4 & C1 & C2). exists h2. split.
    - unfold test_correctness. cbv zeta. rewrite (run_bnd _ _ _ _ _ R1), (run_bnd _ _ _ _ _ (first_of _ _ _ _ _ H1)).
      unfold lift at 1. unfold bnd at 1. rewrite R2. rewrite (run_bnd _ _ _ _ _ R3). cbv iota. rewrite (run_bnd _ _ _ _ _ R4). reflexivity.
    - intros x. destruct (in_dec Z.eq_dec x (footprint t m)) as [X|X].
      + rewrite (C1 x X), (proj1 A1 x X). reflexivity.
      + rewrite (C2 x X). exact (proj2 A1 x X).
  Qed.
End tests.
