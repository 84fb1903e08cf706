(** Proofs about AVL trees that are changed while they are traversed. *)
From Verif Require Import Base Heap AvlModel AvlSpec AvlHist AvlProps AvlIterSpec.
From Coq Require Import Permutation ZifyBool.

Lemma step_free {B} (f : unit -> M B) a h c : get h a = Some c -> bnd (free a) f h = f tt (drop_cell h a).
Proof. intros H. unfold bnd, free. rewrite H. reflexivity. Qed.

Lemma drop_same h e : get (drop_cell h e) e = None.
Proof. rewrite get_drop, Z.eqb_refl. reflexivity. Qed.
Lemma drop_other h e x : x <> e -> get (drop_cell h e) x = get h x.
Proof. intros N. rewrite get_drop, (proj2 (Z.eqb_neq _ _) N). reflexivity. Qed.

Lemma confined_refl t m h : confined t m h m h.
Proof. split; [|split]; intros x; tauto. Qed.
Lemma confined_trans t m1 h1 m2 h2 m3 h3 : confined t m1 h1 m2 h2 -> confined t m2 h2 m3 h3 -> confined t m1 h1 m3 h3.
Proof.
  intros (A1 & A2 & A3) (B1 & B2 & B3).
  assert (D : forall x, In x (footprint t m2) \/ ~ In x (footprint t m2)) by (intros x; destruct (in_dec Z.eq_dec x (footprint t m2)); auto).
  split; [|split]; intros x X Y.
  - pose proof (A1 x X Y) as N. apply (B1 x N). rewrite A2 by auto. exact Y.
  - destruct (D x) as [E|E]; [|rewrite B2, A2 by auto; reflexivity].
    rewrite B3 by auto. destruct (get h1 x) eqn:G; [|reflexivity]. destruct (A1 x X ltac:(congruence) E).
  - destruct (D x) as [E|E]; [auto|]. rewrite B2 by auto. auto.
Qed.

Section Tree.
Context (call : comparator) (cmp obj : Z).
Notation history := (avl_history call cmp obj).
Notation f := (fun k1 k2 => call cmp k1 k2 obj).

Lemma first_history h t m : history h t m -> avl_tree_get_first t h = Ok (hd 0 (handles m), h).
Proof using. intros H. exact (first_avl _ _ _ _ _ _ (history_avl _ _ _ _ _ _ H)). Qed.

(** An operation and the freeing of the element that has left the tree. *)
Lemma op_confined h t m1 e k v m2 m' h1 r : history h t (m1 ++ (e, k, v) :: m2) -> avl_op call f t h (m1 ++ (e, k, v) :: m2) h1 r m' ->
  ~ In e (footprint t m') -> (forall a, In a (m1 ++ m2) -> In (a_elem a) (footprint t m')) ->
  forall h', get h' e = None -> (forall x, x <> e -> get h' x = get h1 x) -> confined t (m1 ++ (e, k, v) :: m2) h m' h'.
Proof using.
  intros H O N K h' G F. destruct (C35_operation _ _ _ _ _ _ _ _ _ H O) as (P1 & P2 & P3 & _).
  assert (J : In e (footprint t (m1 ++ (e, k, v) :: m2))).
  { right. unfold handles. rewrite map_app. apply in_app_iff. right. left. reflexivity. }
  split; [|split]; intros x X Y.
  - apply (P1 x X Y).
  - rewrite F by congruence. auto.
  - destruct X as [<-|X]; [destruct Y; left; reflexivity|].
    apply in_map_iff in X. destruct X as (a & <- & Ha). apply in_app_iff in Ha. cbn [In] in Ha.
    destruct Ha as [Ha|[<-|Ha]]; [|exact G|]; destruct Y; apply K, in_app_iff; auto.
Qed.
Lemma handle_in t m a : In a m -> In (a_elem a) (footprint t m).
Proof using. intros H. right. apply in_map. exact H. Qed.

Lemma remove_step h t m1 e k v m2 : history h t (m1 ++ (e, k, v) :: m2) ->
  exists h', avl_tree_remove t e h = Ok (tt, h') /\ history h' t (m1 ++ m2) /\ get h' e = None /\
    confined t (m1 ++ (e, k, v) :: m2) h (m1 ++ m2) h' /\ ~ In e (footprint t (m1 ++ m2)).
Proof using.
  intros H. destruct (C28_remove _ _ _ _ _ _ _ _ _ _ H) as (h' & R & H' & G). exists h'. split; [exact R|]. split; [exact H'|]. split; [exact G|].
  destruct (C28_sorted _ _ _ _ _ _ H) as [_ ND].
  assert (N : ~ In e (footprint t (m1 ++ m2))).
  { unfold footprint, handles in *. rewrite map_app in *. cbn [map a_elem fst] in ND.
    change (t :: map a_elem m1 ++ e :: map a_elem m2) with ((t :: map a_elem m1) ++ e :: map a_elem m2) in ND.
    apply NoDup_remove_2 in ND. exact ND. }
  split; [|exact N]. eapply (op_confined h t m1 e k v m2 (m1 ++ m2) h' 0 H); [|exact N| |exact G|reflexivity].
  - eapply AO_remove; [reflexivity|exact R].
  - intros a Ha. apply handle_in. exact Ha.
Qed.

Lemma keep_cons p a m : keep p (a :: m) = if p (a_key a) (a_value a) then keep p m else a :: keep p m.
Proof using. unfold keep. cbn [filter]. destruct (p (a_key a) (a_value a)); reflexivity. Qed.
Lemma remove_loop_history p t m2 : forall m1 h n, history h t (m1 ++ m2) -> (length m2 < n)%nat ->
  exists h', remove_loop n t p (hd 0 (handles m2)) h = Ok (handles m2, h') /\ history h' t (m1 ++ keep p m2) /\
    confined t (m1 ++ m2) h (m1 ++ keep p m2) h' /\ (forall a, In a m2 -> p (a_key a) (a_value a) = true -> ~ In (a_elem a) (footprint t (m1 ++ keep p m2))).
Proof using.
  induction m2 as [|[[e k] v] m2 IH]; intros m1 h n H Hn; (destruct n as [|n]; [simpl in Hn; lia|]).
  - exists h. split; [reflexivity|]. split; [exact H|]. split; [apply confined_refl|]. intros a [].
  - destruct (C28_element _ _ _ _ _ _ e k v H) as (N & Gk & Gv); [apply in_app_iff; right; left; reflexivity|].
    destruct (C30_step _ _ _ _ _ _ _ _ _ _ H) as [Go _]. cbn [handles map hd a_elem fst remove_loop]. change (map a_elem m2) with (handles m2).
    rewrite (proj2 (Z.eqb_neq _ _) N). rewrite (bnd_Ok _ _ _ _ _ Gk), (bnd_Ok _ _ _ _ _ Gv), (bnd_Ok _ _ _ _ _ Go).
    rewrite keep_cons. cbn [a_key a_value fst snd].
    destruct (p k v) eqn:Ep.
    + destruct (remove_step _ _ _ _ _ _ _ H) as (h1 & R & H1 & G1 & C1 & N1). rewrite (bnd_Ok _ _ _ _ _ R).
      destruct (IH m1 h1 n H1) as (h2 & L & H2 & C2 & G2); [simpl in Hn; lia|]. rewrite (bnd_Ok _ _ _ _ _ L).
      exists h2. split; [reflexivity|]. split; [exact H2|]. split; [eapply confined_trans; eassumption|].
      intros a [<-|Ha] Pa; [|auto]. cbn [a_elem fst]. intros J. apply N1. destruct J as [J|J]; [left; exact J|right].
      unfold handles, keep in *. rewrite map_app in *. apply in_app_iff in J. apply in_app_iff. destruct J as [J|J]; [auto|right].
      apply in_map_iff in J. destruct J as (b & <- & J). apply filter_In in J. apply in_map. tauto.
    + rewrite bnd_ret. destruct (IH (m1 ++ [(e, k, v)]) h n) as (h2 & L & H2 & C2 & G2); [rewrite <- app_assoc; exact H|simpl in Hn; lia|].
      rewrite <- !app_assoc in H2. rewrite <- !app_assoc in C2. cbn [app] in *. rewrite (bnd_Ok _ _ _ _ _ L).
      exists h2. split; [reflexivity|]. split; [exact H2|]. split; [exact C2|].
      intros a [<-|Ha] Pa; [cbn [a_key a_value fst snd] in Pa; congruence|]. specialize (G2 a Ha Pa). rewrite <- app_assoc in G2. exact G2.
Qed.
Lemma remove_if_history h t m p n : history h t m -> (length m < n)%nat ->
  exists h', remove_if n t p h = Ok (handles m, h') /\ history h' t (keep p m) /\
    (forall a, In a m -> p (a_key a) (a_value a) = true -> get h' (a_elem a) = None) /\ confined t m h (keep p m) h'.
Proof using.
  intros H Hn. destruct (remove_loop_history p t m [] h n H Hn) as (h' & L & H' & C & G). exists h'. unfold remove_if.
  rewrite (bnd_Ok _ _ _ _ _ (first_history _ _ _ H)). split; [exact L|]. split; [exact H'|]. split; [|exact C].
  intros a Ha Pa. destruct C as (_ & _ & C). apply C; [apply handle_in; exact Ha|exact (G a Ha Pa)].
Qed.

Lemma drain_history t m : forall h n, history h t m -> (length m < n)%nat ->
  exists h', drain n t h = Ok (map a_pair m, h') /\ history h' t [] /\ confined t m h [] h'.
Proof using.
  induction m as [|[[e k] v] m IH]; intros h n H Hn; (destruct n as [|n]; [simpl in Hn; lia|]); cbn [drain];
    destruct (C28_pop_first _ _ _ _ _ _ H) as [P1 P2].
  - rewrite (bnd_Ok _ _ _ _ _ (P1 eq_refl)). exists h. split; [reflexivity|]. split; [exact H|apply confined_refl].
  - destruct (P2 _ _ _ _ eq_refl) as (h1 & R & H1 & Gk & Gv & N1). destruct (C28_element _ _ _ _ _ _ e k v H) as (N & _); [left; reflexivity|].
    rewrite (bnd_Ok _ _ _ _ _ R), (proj2 (Z.eqb_neq _ _) N), (bnd_Ok _ _ _ _ _ Gk), (bnd_Ok _ _ _ _ _ Gv).
    destruct (get h1 e) as [c|] eqn:Ge.
    2:{ exfalso. unfold avl_elem_get_key, ld_aelem, bnd in Gk. rewrite Ge in Gk. discriminate. }
    unfold destroy_avl_element. rewrite (step_free _ _ _ _ Ge).
    assert (H1' : history (drop_cell h1 e) t m).
    { eapply AH_other; [exact H1|]. intros x Hx. apply drop_other. congruence. }
    destruct (IH _ n H1') as (h2 & L & H2 & C2); [simpl in Hn; lia|]. rewrite (bnd_Ok _ _ _ _ _ L).
    exists h2. split; [reflexivity|]. split; [exact H2|]. eapply confined_trans; [|exact C2].
    apply (op_confined h t [] e k v m m h1 e H).
    + apply (AO_pop_first call f t h ((e, k, v) :: m) h1 e R).
    + exact N1.
    + intros a Ha. apply handle_in. exact Ha.
    + apply drop_same.
    + intros x Nx. apply drop_other. exact Nx.
Qed.

Lemma update_loop_history g t m2 : forall m1 h n, history h t (m1 ++ m2) -> (length m2 < n)%nat ->
  exists m2' h', update_loop n call t g (hd 0 (handles m2)) h = Ok (tt, h') /\ history h' t (m1 ++ m2') /\
    map a_pair m2' = map (fun a => (a_key a, g (a_value a))) m2 /\ confined t (m1 ++ m2) h (m1 ++ m2') h'.
Proof using.
  induction m2 as [|[[e k] v] m2 IH]; intros m1 h n H Hn; (destruct n as [|n]; [simpl in Hn; lia|]).
  - exists [], h. split; [reflexivity|]. split; [exact H|]. split; [reflexivity|apply confined_refl].
  - destruct (C28_element _ _ _ _ _ _ e k v H) as (N & Gk & Gv); [apply in_app_iff; right; left; reflexivity|].
    destruct (C30_step _ _ _ _ _ _ _ _ _ _ H) as [Go _]. cbn [handles map hd a_elem fst update_loop]. change (map a_elem m2) with (handles m2).
    rewrite (proj2 (Z.eqb_neq _ _) N). rewrite (bnd_Ok _ _ _ _ _ Gk), (bnd_Ok _ _ _ _ _ Gv), (bnd_Ok _ _ _ _ _ Go).
    pose proof (history_avl _ _ _ _ _ _ H) as (TP & _).
    assert (K0 : call cmp k k obj = 0) by (pose proof (cmp_flip _ TP k k); cbv beta in *; lia).
    destruct (put_replace_avl call cmp obj h t _ k (g v) m1 (e, k, v) m2 (history_avl _ _ _ _ _ _ H) eq_refl K0)
      as (e' & h1 & n1 & _ & R & A1 & _ & G & [K V] & _ & _ & Ne & _). cbn [a_elem fst] in *.
    assert (N1 : ~ In e (footprint t (m1 ++ (e', k, g v) :: m2))).
    { apply (not_in_after_put call cmp obj); [exact Ne|]. exact (avl_out _ _ _ _ _ _ _ _ _ (history_avl _ _ _ _ _ _ H) eq_refl). }
    rewrite (bnd_Ok _ _ _ _ _ R). rewrite (proj2 (Z.eqb_neq _ _) N).
    assert (O : avl_op call f t h (m1 ++ (e, k, v) :: m2) h1 e (m1 ++ (e', k, g v) :: m2)).
    { eapply AO_put_replace; [reflexivity|exact K0|exact R|exact G]. }
    assert (H1 : history h1 t (m1 ++ (e', k, g v) :: m2)) by (eapply AH_op; [exact H|exact O]).
    destruct (get h1 e) as [c|] eqn:Ge.
    2:{ exfalso. cbn [a_elem fst] in *. unfold avl_elem_get_key, ld_aelem, bnd in K. rewrite Ge in K. discriminate. }
    unfold destroy_avl_element. rewrite (step_free _ _ _ _ Ge).
    assert (H1' : history (drop_cell h1 e) t (m1 ++ (e', k, g v) :: m2)).
    { eapply AH_other; [exact H1|]. intros x Hx. apply drop_other. intros ->; exact (N1 Hx). }
    destruct (IH (m1 ++ [(e', k, g v)]) (drop_cell h1 e) n) as (m2' & h2 & L & H2 & P2 & C2);
      [rewrite <- app_assoc; exact H1'|simpl in Hn; lia|].
    rewrite <- !app_assoc in C2. rewrite <- app_assoc in H2. cbn [app] in *.
    exists ((e', k, g v) :: m2'), h2. split; [exact L|]. split; [exact H2|]. split; [cbn [map]; f_equal; exact P2|].
    eapply confined_trans; [|exact C2]. apply (op_confined h t m1 e k v m2 _ h1 e H O).
    + exact N1.
    + intros a Ha. apply handle_in. apply in_app_iff in Ha. apply in_app_iff. cbn [In]. tauto.
    + apply drop_same.
    + intros x Nx. apply drop_other. exact Nx.
Qed.
Lemma update_all_history h t m g n : history h t m -> (length m < n)%nat ->
  exists m' h', update_all n call t g h = Ok (tt, h') /\ history h' t m' /\
    map a_pair m' = map (fun a => (a_key a, g (a_value a))) m /\ confined t m h m' h'.
Proof using.
  intros H Hn. destruct (update_loop_history g t m [] h n H Hn) as (m' & h' & L & R). exists m', h'. unfold update_all.
  rewrite (bnd_Ok _ _ _ _ _ (first_history _ _ _ H)). split; [exact L|exact R].
Qed.
End Tree.
