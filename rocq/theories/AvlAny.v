(** AVL trees whose comparison function may be anything: proofs. Most of these
    are the proofs of AvlHist.v, less what they say about the order. *)
From Verif Require Import Base Heap Sep AvlModel AvlSpec AvlProofs AvlDetach AvlReads AvlHist AvlAnySpec.
From Coq Require Import Permutation.

Section any.
  Variables (cmp obj : Z).
  Let dummy : comparator := fun _ _ _ _ => 0.
  Local Notation repr := (AvlHist.repr cmp obj).
  Local Notation elem_cell := (AvlHist.elem_cell cmp obj).
  Local Notation in_full := (AvlHist.in_full cmp obj).
  Local Notation keys_full := (AvlHist.keys_full cmp obj).
  Local Notation triple_only := (AvlHist.triple_only dummy cmp obj).
  Local Notation fp_mid := (AvlHist.fp_mid dummy cmp obj).

  Definition is_tree (h : heap) (T : Z) (m : list assoc) : Prop :=
    zlen m <= 2 ^ 60 /\ exists t, repr h T m t.

  Lemma any_holds h T m x : is_tree h T m -> In x m -> holds h x /\ a_elem x <> 0.
  Proof.
    intros (_ & t & R) I. destruct (elem_cell _ _ _ _ _ R I) as (l & r & p & b & G).
    split; [eapply holds_cell; exact G|eapply get_nonnull; exact G].
  Qed.
  Lemma any_nodup h T m : is_tree h T m -> NoDup (footprint T m).
  Proof.
    intros (_ & t & E0 & B & H). destruct H as [N _]. rewrite <- E0. eapply Permutation_NoDup; [apply keys_full|exact N].
  Qed.
  Lemma any_alloc h T m x : is_tree h T m -> In x (footprint T m) -> get h x <> None.
  Proof.
    intros (_ & t & E0 & B & H) I. eapply hp_get; [exact H|]. rewrite in_full, E0. exact I.
  Qed.
  Lemma make_any h : exists T h', make_avl_tree_2 cmp obj h = Ok (T, h') /\ is_tree h' T [] /\
    get h T = None /\ (forall x, x <> T -> get h' x = get h x).
  Proof.
    destruct (t_alloc [] (CAvl (mk_avl cmp obj 0 0)) h) as (T & D & h' & R & [-> HT] & H & F1 & F2 & F3).
    { split; [constructor|]. intros x c []. }
    exists T, h'. split; [exact R|]. split; [|split].
    - split; [vm_compute; discriminate|]. exists E. split; [reflexivity|]. split; [exact I|]. exact H.
    - apply F1; [intros []|left; reflexivity].
    - intros x Hx. apply F2; [intros []|]. intros [I|[]]. cbn [fst] in I. congruence.
  Qed.
  Lemma detach_any h T m m1 x m2 : is_tree h T m -> m = m1 ++ x :: m2 ->
    exists h', avl_tree_detach T (a_elem x) h = Ok (tt, h') /\ is_tree h' T (m1 ++ m2) /\
      only h h' (footprint T m) (footprint T (m1 ++ m2)) /\ holds h' x /\ get h' (a_elem x) <> None.
  Proof.
    intros (Z0 & t & R) Em. pose proof R as (E0 & B & H).
    assert (E1 : elems t = m1 ++ x :: m2) by congruence.
    destruct (zip_elem t x m1 m2 E1) as (c & l & b & r & Et & Em1 & Em2).
    assert (SZ : 1 <= zlen m <= 2 ^ 60).
    { split; auto. rewrite Em. rewrite zlen_app, zlen_cons. pose proof (zlen_nonneg m1). pose proof (zlen_nonneg m2). lia. }
    rewrite Et in B. destruct (detach_ok T cmp obj (zlen m) c l (a_elem x) (a_key x) (a_value x) b r B SZ) as (t' & q & B' & E' & TR).
    assert (Et' : elems t' = m1 ++ m2) by (rewrite E', Em1, Em2, <- !app_assoc; reflexivity).
    assert (Lm : zlen (m1 ++ m2) = zlen m - 1).
    { rewrite Em. rewrite !zlen_app, zlen_cons. lia. }
    rewrite <- Lm in TR.
    eapply (t_perm (full T cmp obj (zlen m) [] t)) in TR; [|rewrite Et; symmetry; apply full_plug].
    destruct (triple_only h T m t _ _ R TR) as (u & D' & h' & Run & [-> ->] & H' & ON).
    assert (Ix : In (a_elem x) (handles m)) by (rewrite Em; unfold handles; rewrite map_app; apply in_or_app; right; left; reflexivity).
    destruct (ON (m1 ++ m2) t' _ (Permutation_refl _) Et' ltac:(intros y [<-|[]]; exact Ix)) as [O1 O2].
    exists h'. split; [exact Run|]. destruct (hp_split _ _ _ H') as (H1 & H2 & H3).
    assert (Gx : get h' (a_elem x) = Some (CAelem (mk_aelem (a_key x) (a_value x) 0 0 q 0))) by (apply H2; left; reflexivity).
    split.
    - split; [lia|].
      exists t'. split; auto.
    - split; [exact O1|]. split; [eapply holds_cell; exact Gx|rewrite Gx; discriminate].
  Qed.
  Lemma any_out h T m m1 x m2 : is_tree h T m -> m = m1 ++ x :: m2 -> ~ In (a_elem x) (footprint T (m1 ++ m2)).
  Proof.
    intros A Em. pose proof (any_nodup _ _ _ A) as ND. rewrite Em in ND. unfold footprint, handles in *. rewrite map_app in *. cbn [map] in ND.
    apply (NoDup_remove_2 (T :: map a_elem m1) (map a_elem m2) (a_elem x) ND).
  Qed.
  Lemma any_frame h h' T m : is_tree h T m -> (forall x, In x (footprint T m) -> get h' x = get h x) -> is_tree h' T m.
  Proof.
    intros (Z0 & t & E0 & B & H) F. split; auto. exists t. split; auto. split; auto.
    destruct H as [N G]. split; auto. intros x c Ix. rewrite F; [apply G; exact Ix|]. rewrite <- E0, <- (in_full T (zlen m)). apply in_keys. eauto.
  Qed.
  Lemma remove_any h T m m1 x m2 : is_tree h T m -> m = m1 ++ x :: m2 ->
    exists h', avl_tree_remove T (a_elem x) h = Ok (tt, h') /\ is_tree h' T (m1 ++ m2) /\
      only h h' (footprint T m) (footprint T (m1 ++ m2)) /\ get h' (a_elem x) = None.
  Proof.
    intros A Em. destruct (detach_any h T m m1 x m2 A Em) as (h1 & Run & A1 & (O1 & O2 & O3) & Hx & Gx).
    pose proof (any_out _ _ _ _ _ _ A Em) as NI.
    destruct (get h1 (a_elem x)) as [c|] eqn:G; [|congruence]. clear Gx.
    destruct (t_free [] (a_elem x) c h1) as (u & D & h' & R2 & [-> ->] & _ & _ & F2 & F3).
    { split; [constructor; [intros []|constructor]|]. intros y d [J|[]]. injection J as <- <-. exact G. }
    exists h'. split; [unfold avl_tree_remove, bnd; rewrite Run; exact R2|].
    assert (FR : forall y, y <> a_elem x -> get h' y = get h1 y).
    { intros y Hy. apply F2; [intros [J|[]]; cbn [fst] in J; congruence|intros []]. }
    split.
    - eapply any_frame; [exact A1|]. intros y Iy. apply FR. intros ->. auto.
    - split; [|apply F3; [left; reflexivity|intros []]]. split; auto. split.
      + intros y N1 N2. rewrite FR; auto. intros ->. apply N1. right. rewrite Em. unfold handles. rewrite map_app. apply in_or_app. right; left; reflexivity.
      + intros y Iy. rewrite FR; auto. intros ->. auto.
  Qed.
  Lemma first_any h T m : is_tree h T m -> avl_tree_get_first T h = Ok (List.hd 0 (handles m), h).
  Proof. intros (_ & t & E0 & B & H). rewrite <- E0. apply (first_ok T cmp obj (zlen m) t). exact H. Qed.
  Lemma last_any h T m : is_tree h T m -> avl_tree_get_last T h = Ok (last (handles m) 0, h).
  Proof. intros (_ & t & E0 & B & H). rewrite <- E0. apply (last_ok T cmp obj (zlen m) t). exact H. Qed.
  Lemma empty_any h T m : is_tree h T m -> avl_tree_empty T h = Ok (match m with [] => true | _ => false end, h).
  Proof. intros (_ & t & E0 & B & H). rewrite <- E0. apply (empty_ok T cmp obj (zlen m) t). exact H. Qed.
  Lemma size_any h T m : is_tree h T m -> avl_tree_size T h = Ok (zlen m, h).
  Proof.
    intros (_ & t & E0 & B & H). unfold avl_tree_size, bnd, ld_avl.
    assert (G : get h T = Some (CAvl (mk_avl cmp obj (root t) (zlen m)))) by (apply H; left; reflexivity). rewrite G. reflexivity.
  Qed.
  Lemma next_any h T m m1 x m2 : is_tree h T m -> m = m1 ++ x :: m2 -> avl_tree_next (a_elem x) h = Ok (List.hd 0 (handles m2), h).
  Proof.
    intros (_ & t & E0 & B & H) Em. assert (E1 : elems t = m1 ++ x :: m2) by congruence.
    destruct (zip_elem t x m1 m2 E1) as (c & l & b & r & Et & Em1 & Em2). rewrite Em2.
    apply (next_ok T cmp obj (zlen m) c l (a_elem x) (a_key x) (a_value x) b r). eapply hp_perm; [symmetry; apply full_plug|]. rewrite <- Et. exact H.
  Qed.
  Lemma previous_any h T m m1 x m2 : is_tree h T m -> m = m1 ++ x :: m2 -> avl_tree_previous (a_elem x) h = Ok (last (handles m1) 0, h).
  Proof.
    intros (_ & t & E0 & B & H) Em. assert (E1 : elems t = m1 ++ x :: m2) by congruence.
    destruct (zip_elem t x m1 m2 E1) as (c & l & b & r & Et & Em1 & Em2). rewrite Em1.
    apply (previous_ok T cmp obj (zlen m) c l (a_elem x) (a_key x) (a_value x) b r). eapply hp_perm; [symmetry; apply full_plug|]. rewrite <- Et. exact H.
  Qed.
  Lemma pop_first_any h T x m : is_tree h T (x :: m) ->
    exists h', avl_tree_pop_first T h = Ok (a_elem x, h') /\ is_tree h' T m /\
      only h h' (footprint T (x :: m)) (footprint T m) /\ holds h' x /\ get h' (a_elem x) <> None.
  Proof.
    intros A. destruct (detach_any h T (x :: m) [] x m A eq_refl) as (h1 & Run & X). exists h1. split; auto.
    unfold avl_tree_pop_first, bnd. rewrite (first_any _ _ _ A). cbn [handles map List.hd].
    destruct (any_holds _ _ _ x A ltac:(left; reflexivity)) as [_ NZ]. rewrite (proj2 (Z.eqb_neq _ _) NZ). rewrite Run. reflexivity.
  Qed.
  Lemma pop_last_any h T x m : is_tree h T (m ++ [x]) ->
    exists h', avl_tree_pop_last T h = Ok (a_elem x, h') /\ is_tree h' T m /\
      only h h' (footprint T (m ++ [x])) (footprint T m) /\ holds h' x /\ get h' (a_elem x) <> None.
  Proof.
    intros A. destruct (detach_any h T (m ++ [x]) m x [] A eq_refl) as (h1 & Run & X). rewrite app_nil_r in X. exists h1. split; auto.
    unfold avl_tree_pop_last, bnd. rewrite (last_any _ _ _ A). rewrite handles_last. cbn [handles map last].
    destruct (any_holds _ _ _ x A ltac:(apply in_or_app; right; left; reflexivity)) as [_ NZ]. rewrite (proj2 (Z.eqb_neq _ _) NZ). rewrite Run. reflexivity.
  Qed.
  Lemma any_first_empty h T : is_tree h T [] -> avl_tree_pop_first T h = Ok (0, h).
  Proof. intros A. unfold avl_tree_pop_first, bnd. rewrite (first_any _ _ _ A). reflexivity. Qed.
  Lemma any_last_empty h T : is_tree h T [] -> avl_tree_pop_last T h = Ok (0, h).
  Proof. intros A. unfold avl_tree_pop_last, bnd. rewrite (last_any _ _ _ A). reflexivity. Qed.
  Lemma any_forward h T m n : is_tree h T m -> forall m1 m2, m = m1 ++ m2 ->
    walk avl_tree_next n (List.hd 0 (handles m2)) h = if (length m2 <=? n)%nat then Ok (handles m2, h) else NoFuel.
  Proof.
    intros A. induction n as [|n IH]; intros m1 m2 Em.
    - destruct m2 as [|x m2]; [reflexivity|]. cbn [handles map List.hd walk length Nat.leb].
      destruct (any_holds _ _ _ x A ltac:(rewrite Em; apply in_or_app; right; left; reflexivity)) as [_ NZ].
      rewrite (proj2 (Z.eqb_neq _ _) NZ). reflexivity.
    - destruct m2 as [|x m2]; [reflexivity|]. cbn [handles map List.hd walk length Nat.leb].
      destruct (any_holds _ _ _ x A ltac:(rewrite Em; apply in_or_app; right; left; reflexivity)) as [_ NZ].
      rewrite (proj2 (Z.eqb_neq _ _) NZ). unfold bnd. rewrite (next_any _ _ _ _ _ _ A Em).
      rewrite (IH (m1 ++ [x]) m2) by (rewrite <- app_assoc; exact Em). destruct (length m2 <=? n)%nat; reflexivity.
  Qed.
  Lemma any_backward h T m n : is_tree h T m -> forall m1 m2, m = m1 ++ m2 ->
    walk avl_tree_previous n (last (handles m1) 0) h = if (length m1 <=? n)%nat then Ok (rev (handles m1), h) else NoFuel.
  Proof.
    intros A. induction n as [|n IH]; intros m1 m2 Em;
      (destruct m1 as [|x m1 _] using rev_ind; [reflexivity|]; rewrite handles_last; cbn [handles map last walk];
       rewrite app_length; cbn [length]; rewrite Nat.add_1_r; cbn [Nat.leb];
       destruct (any_holds _ _ _ x A ltac:(rewrite Em; apply in_or_app; left; apply in_or_app; right; left; reflexivity)) as [_ NZ];
       rewrite (proj2 (Z.eqb_neq _ _) NZ)).
    - reflexivity.
    - rewrite <- app_assoc in Em. unfold bnd. rewrite (previous_any _ _ _ _ _ _ A Em). rewrite (IH m1 _ Em).
      destruct (length m1 <=? n)%nat; [|reflexivity]. unfold handles. rewrite map_app, rev_app_distr. reflexivity.
  Qed.
  Lemma forward_any h T m n : is_tree h T m ->
    traverse_forward T n h = if (length m <=? n)%nat then Ok (handles m, h) else NoFuel.
  Proof. intros A. unfold traverse_forward, bnd. rewrite (first_any _ _ _ A). apply (any_forward h T m n A [] m eq_refl). Qed.
  Lemma backward_any h T m n : is_tree h T m ->
    traverse_backward T n h = if (length m <=? n)%nat then Ok (rev (handles m), h) else NoFuel.
  Proof. intros A. unfold traverse_backward, bnd. rewrite (last_any _ _ _ A). apply (any_backward h T m n A m []). rewrite app_nil_r. reflexivity. Qed.
  Lemma copy_any h T m : is_tree h T m ->
    exists T' h' m', avl_tree_copy T h = Ok (T', h') /\ map a_pair m' = map a_pair m /\ is_tree h' T' m' /\ is_tree h' T m /\
      apart (footprint T' m') (footprint T m) /\
      (forall x, In x (footprint T' m') -> get h x = None) /\ (forall x, ~ In x (footprint T' m') -> get h' x = get h x) /\
      exists n c c', get h' T = Some (CAvl c) /\ get h' T' = Some (CAvl c') /\
        height_in h' (av_root c) n /\ height_in h' (av_root c') n.
  Proof.
    intros (Z0 & t & E0 & B & H).
    assert (HS : elems t = [] -> zlen m = 0) by (intros X; rewrite <- E0, X; reflexivity).
    destruct (copy_ok T cmp obj (zlen m) t HS h H) as (T' & D & h' & Run & (t' & S' & PX) & H' & F1 & F2 & F3).
    exists T', h', (elems t'). split; [exact Run|].
    pose proof (same_elems _ _ S') as SE. rewrite E0 in SE. split; [exact SE|].
    assert (Lm : zlen (elems t') = zlen m). { unfold zlen. rewrite <- (map_length a_pair (elems t')), SE, map_length. reflexivity. }
    apply (hp_perm _ _ _ PX) in H'. destruct (hp_split _ _ _ H') as (H1 & H2 & H3).
    split. { split; [lia|]. exists t'. split; [reflexivity|]. split; [eapply same_bal; eauto|]. rewrite Lm. exact H1. }
    split. { split; auto. exists t. split; auto. }
    assert (AP : apart (footprint T' (elems t')) (footprint T m)).
    { intros x Ix Jx. rewrite <- E0 in Jx. rewrite <- (in_full T' (zlen m)) in Ix. rewrite <- (in_full T (zlen m)) in Jx. exact (H3 x Ix Jx). }
    split; [exact AP|].
    assert (K : forall x, In x (keys D) <-> In x (footprint T' (elems t')) \/ In x (footprint T m)).
    { intros x. rewrite <- E0. rewrite <- (in_full T' (zlen m)), <- (in_full T (zlen m)), <- in_app_iff, <- keys_app.
      split; apply Permutation_in; apply keys_perm; [|symmetry]; exact PX. }
    assert (K0 : forall x, In x (keys (full T cmp obj (zlen m) [] t)) <-> In x (footprint T m)) by (intros x; rewrite in_full, E0; reflexivity).
    split; [|split].
    - intros x Ix. apply F1; [rewrite K0; apply AP; exact Ix|rewrite K; auto].
    - intros x Nx. destruct (in_dec Z.eq_dec x (footprint T m)) as [J|J].
      + rewrite <- K0 in J. apply in_keys in J as (c & J). rewrite (proj2 H2 _ _ J), (proj2 H _ _ J). reflexivity.
      + apply F2; [rewrite K0; exact J|]. rewrite K. tauto.
    - exists (height t), (mk_avl cmp obj (root t) (zlen m)), (mk_avl cmp obj (root t') (zlen m)).
      split; [apply H2; left; reflexivity|]. split; [apply H1; left; reflexivity|]. cbn [av_root]. split.
      + apply (height_in_ok h' t 0 []). rewrite app_nil_r. apply (hp_app_r _ [_] _ H2).
      + rewrite <- (same_height _ _ S'). apply (height_in_ok h' t' 0 []). rewrite app_nil_r. apply (hp_app_r _ [_] _ H1).
  Qed.
  Lemma destroy_any h T m : is_tree h T m -> exists h', destroy_avl_tree T h = Ok (tt, h') /\
    (forall x, In x (footprint T m) -> get h' x = None) /\ (forall x, ~ In x (footprint T m) -> get h' x = get h x).
  Proof.
    intros (Z0 & t & E0 & B & H).
    destruct (destroy_ok T cmp obj (zlen m) t h H) as (u & D & h' & Run & [-> ->] & _ & F1 & F2 & F3).
    assert (K0 : forall x, In x (keys (full T cmp obj (zlen m) [] t)) <-> In x (footprint T m)) by (intros x; rewrite in_full, E0; reflexivity).
    exists h'. split; [exact Run|]. split; intros x Hx.
    - apply F3; [rewrite K0; exact Hx|intros []].
    - apply F2; [rewrite K0; exact Hx|intros []].
  Qed.
  Lemma balance_any h T m x : is_tree h T m -> In x m -> exists c hl hr, get h (a_elem x) = Some (CAelem c) /\
    height_in h (ae_left c) hl /\ height_in h (ae_right c) hr /\ -1 <= hr - hl <= 1 /\ ae_balance c = hr - hl.
  Proof.
    intros (_ & t & E0 & B & H) I. apply in_split in I as (m1 & m2 & Em). rewrite Em in E0.
    destruct (zip_elem _ _ _ _ E0) as (c & l & b & r & -> & _ & _).
    eapply hp_perm in H; [|symmetry; apply full_plug]. apply bal_plug in B as [(B1 & B2 & B3 & B4) _].
    unfold full in H. set (X := hd _ _ _ _ _ _) in H. cbn [cells] in H. clearbody X.
    exists (mk_aelem (a_key x) (a_value x) (root l) (root r) (par 0 c) b), (height l), (height r).
    split; [apply H; apply in_or_app; right; left; reflexivity|]. cbn [ae_left ae_right ae_balance].
    split; [|split; [|split; [lia|lia]]].
    - eapply (height_in_ok h l (a_elem x)). eapply hp_perm; [|exact H].
      instantiate (1 := (a_elem x, CAelem (mk_aelem (a_key x) (a_value x) (root l) (root r) (par 0 c) b)) :: cells (a_elem x) r ++ X). perm.
    - eapply (height_in_ok h r (a_elem x)). eapply hp_perm; [|exact H].
      instantiate (1 := (a_elem x, CAelem (mk_aelem (a_key x) (a_value x) (root l) (root r) (par 0 c) b)) :: cells (a_elem x) l ++ X). perm.
  Qed.

  (** ** Lookups *)
  Section lookup.
    Variables (call : comparator) (T R size k : Z).
    Let f k1 k2 := call cmp k1 k2 obj.
    Let tc : Z * cell := (T, CAvl (mk_avl cmp obj R size)).
    Fixpoint find_t (t : tree) : Z :=
      match t with
      | E => 0
      | N l a k' _ _ r => if f k k' <? 0 then find_t l else if f k k' >? 0 then find_t r else a
      end.
    Lemma find_member t : null_or_member (fun k' => f k k' = 0) (elems t) (find_t t).
    Proof.
      induction t as [|l IHl a k' v' b r IHr]; cbn [find_t elems]; [left; reflexivity|].
      destruct (f k k' <? 0) eqn:C1; [|destruct (f k k' >? 0) eqn:C2].
      - destruct IHl as [->|(k1 & v1 & I & P)]; [left; reflexivity|right]. exists k1, v1. split; [apply in_or_app; auto|exact P].
      - destruct IHr as [->|(k1 & v1 & I & P)]; [left; reflexivity|right]. exists k1, v1. split; [apply in_or_app; right; right; auto|exact P].
      - right. exists k', v'. split; [apply in_or_app; right; left; reflexivity|lia].
    Qed.
    Lemma get_any_loop n : forall t q D cnt, (Z.to_nat (height t) < n)%nat ->
      reads (cells q t ++ tc :: D) (get_loop call n T k obj (root t) cnt) (find_t t, cnt + put_count f k t).
    Proof.
      induction n as [|n IH]; intros t q D cnt Hn; [lia|]. cbn [get_loop].
      destruct t as [|l a k' v' b r].
      - cbn [root truth Z.eqb negb put_count find_t]. rewrite Z.add_0_r. apply r_ret.
      - cbn [height] in Hn. pose proof (height_pos l). pose proof (height_pos r). cbn [put_count find_t].
        apply truth_root; [discriminate|].
        fields. norm. eapply r_ld_avl; [unfold tc; intac|]. fields. eapply r_ld_aelem; [intac|]. fields. cbv zeta. change (call cmp k k' obj) with (f k k').
        destruct (f k k' <? 0) eqn:C1; [|destruct (f k k' >? 0) eqn:C2].
        + replace (f k k' =? 0) with false by lia. replace (f k k' >? 0) with false by lia.
          replace (cnt + (put_count f k l + 1)) with (cnt + 1 + put_count f k l) by lia.
          eapply r_perm; [|apply (IH l a ((a, CAelem (mk_aelem k' v' (root l) (root r) q b)) :: cells a r ++ D) (cnt + 1) ltac:(lia))].
          unfold tc. perm.
        + replace (f k k' =? 0) with false by lia.
          replace (cnt + (put_count f k r + 1)) with (cnt + 1 + put_count f k r) by lia.
          eapply r_perm; [|apply (IH r a ((a, CAelem (mk_aelem k' v' (root l) (root r) q b)) :: cells a l ++ D) (cnt + 1) ltac:(lia))].
          unfold tc. perm.
        + replace (f k k' =? 0) with true by lia. apply r_ret.
    Qed.
    Fixpoint before_t (g : Z -> bool) (t : tree) (cand : Z) : Z :=
      match t with
      | E => cand
      | N l a k' _ _ r => if g (f k k') then before_t g l cand else before_t g r a
      end.
    Fixpoint after_t (g : Z -> bool) (t : tree) (cand : Z) : Z :=
      match t with
      | E => cand
      | N l a k' _ _ r => if g (f k k') then after_t g r cand else after_t g l a
      end.
    Lemma before_member g t : forall cand, before_t g t cand = cand \/
      exists k' v, In (before_t g t cand, k', v) (elems t) /\ g (f k k') = false.
    Proof.
      induction t as [|l IHl a k' v' b r IHr]; intros cand; cbn [before_t elems]; [left; reflexivity|].
      destruct (g (f k k')) eqn:G.
      - destruct (IHl cand) as [->|(k1 & v1 & I & P)]; [left; reflexivity|right]. exists k1, v1. split; [apply in_or_app; auto|exact P].
      - right. destruct (IHr a) as [->|(k1 & v1 & I & P)].
        + exists k', v'. split; [apply in_or_app; right; left; reflexivity|exact G].
        + exists k1, v1. split; [apply in_or_app; right; right; auto|exact P].
    Qed.
    Lemma after_member g t : forall cand, after_t g t cand = cand \/
      exists k' v, In (after_t g t cand, k', v) (elems t) /\ g (f k k') = false.
    Proof.
      induction t as [|l IHl a k' v' b r IHr]; intros cand; cbn [after_t elems]; [left; reflexivity|].
      destruct (g (f k k')) eqn:G.
      - destruct (IHr cand) as [->|(k1 & v1 & I & P)]; [left; reflexivity|right]. exists k1, v1. split; [apply in_or_app; right; right; auto|exact P].
      - right. destruct (IHl a) as [->|(k1 & v1 & I & P)].
        + exists k', v'. split; [apply in_or_app; right; left; reflexivity|exact G].
        + exists k1, v1. split; [apply in_or_app; auto|exact P].
    Qed.
    Lemma before_any_loop g n : forall t q D cand cnt, (Z.to_nat (height t) < n)%nat ->
      reads (cells q t ++ tc :: D) (before_loop call g n T k obj (root t) cand cnt)
        (before_t g t cand, cnt + path call cmp obj k g t).
    Proof.
      induction n as [|n IH]; intros t q D cand cnt Hn; [lia|]. cbn [before_loop].
      destruct t as [|l a k' v' b r].
      - cbn [root truth Z.eqb negb path before_t]. rewrite Z.add_0_r. apply r_ret.
      - cbn [height] in Hn. pose proof (height_pos l). pose proof (height_pos r). cbn [path before_t].
        apply truth_root; [discriminate|].
        fields. norm. eapply r_ld_avl; [unfold tc; intac|]. fields. eapply r_ld_aelem; [intac|]. fields. cbv zeta. change (call cmp k k' obj) with (f k k').
        destruct (g (f k k')); rewrite Z.add_assoc.
        + eapply r_perm; [|apply (IH l a ((a, CAelem (mk_aelem k' v' (root l) (root r) q b)) :: cells a r ++ D) cand (cnt + 1) ltac:(lia))].
          unfold tc. perm.
        + eapply r_perm; [|apply (IH r a ((a, CAelem (mk_aelem k' v' (root l) (root r) q b)) :: cells a l ++ D) a (cnt + 1) ltac:(lia))].
          unfold tc. perm.
    Qed.
    Lemma after_any_loop g n : forall t q D cand cnt, (Z.to_nat (height t) < n)%nat ->
      reads (cells q t ++ tc :: D) (after_loop call g n T k obj (root t) cand cnt)
        (after_t g t cand, cnt + path call cmp obj k (fun x => negb (g x)) t).
    Proof.
      induction n as [|n IH]; intros t q D cand cnt Hn; [lia|]. cbn [after_loop].
      destruct t as [|l a k' v' b r].
      - cbn [root truth Z.eqb negb path after_t]. rewrite Z.add_0_r. apply r_ret.
      - cbn [height] in Hn. pose proof (height_pos l). pose proof (height_pos r). cbn [path after_t].
        apply truth_root; [discriminate|].
        fields. norm. eapply r_ld_avl; [unfold tc; intac|]. fields. eapply r_ld_aelem; [intac|]. fields. cbv zeta. change (call cmp k k' obj) with (f k k').
        destruct (g (f k k')); cbn [negb]; rewrite Z.add_assoc.
        + eapply r_perm; [|apply (IH r a ((a, CAelem (mk_aelem k' v' (root l) (root r) q b)) :: cells a l ++ D) cand (cnt + 1) ltac:(lia))].
          unfold tc. perm.
        + eapply r_perm; [|apply (IH l a ((a, CAelem (mk_aelem k' v' (root l) (root r) q b)) :: cells a r ++ D) a (cnt + 1) ltac:(lia))].
          unfold tc. perm.
    Qed.
  End lookup.

  Lemma get_any call h T m k : is_tree h T m ->
    exists e n, avl_tree_get_counted call T k h = Ok ((e, n), h) /\ avl_tree_get call T k h = Ok (e, h) /\
      logarithmic n (zlen m) /\ null_or_member (fun k' => call cmp k k' obj = 0) m e.
  Proof.
    intros (_ & t & E0 & B & H). exists (find_t call k t), (put_count (fun k1 k2 => call cmp k1 k2 obj) k t).
    assert (R : avl_tree_get_counted call T k h = Ok ((find_t call k t, put_count (fun k1 k2 => call cmp k1 k2 obj) k t), h)).
    { unfold avl_tree_get_counted. revert h H. change (reads (full T cmp obj (zlen m) [] t) (let! t0 := ld_avl T in let! n := fuel in get_loop call n T k (av_obj t0) (av_root t0) 0)
        (find_t call k t, put_count (fun k1 k2 => call cmp k1 k2 obj) k t)).
      shape. norm. eapply r_ld_avl; [intac|]. fields. apply r_fuel. intros n Hn.
      eapply r_perm; [|apply (get_any_loop call T (root t) (zlen m) k n t 0 [] 0)]; [perm|]. cbn [length] in Hn. pose proof (cells_len 0 t). lia. }
    split; [exact R|]. split; [unfold avl_tree_get, bnd; rewrite R; reflexivity|]. split.
    - rewrite <- E0. apply count_log; auto. apply put_count_height.
    - rewrite <- E0. apply find_member.
  Qed.
  Lemma neighbour_any call h T m k g : is_tree h T m ->
    (exists e n, (let! t0 := ld_avl T in let! n := fuel in before_loop call g n T k (av_obj t0) (av_root t0) 0 0) h
        = Ok ((e, n), h) /\ logarithmic n (zlen m) /\ null_or_member (fun k' => g (call cmp k k' obj) = false) m e) /\
    (exists e n, (let! t0 := ld_avl T in let! n := fuel in after_loop call g n T k (av_obj t0) (av_root t0) 0 0) h
        = Ok ((e, n), h) /\ logarithmic n (zlen m) /\ null_or_member (fun k' => g (call cmp k k' obj) = false) m e).
  Proof.
    intros (_ & t & E0 & B & H). split.
    - exists (before_t call k g t 0), (path call cmp obj k g t). split; [|split].
      + revert h H. change (reads (full T cmp obj (zlen m) [] t)
          (let! t0 := ld_avl T in let! n := fuel in before_loop call g n T k (av_obj t0) (av_root t0) 0 0)
          (before_t call k g t 0, path call cmp obj k g t)).
        shape. norm. eapply r_ld_avl; [intac|]. fields. apply r_fuel. intros n Hn.
        eapply r_perm; [|apply (before_any_loop call T (root t) (zlen m) k g n t 0 [] 0 0)]; [perm|].
        cbn [length] in Hn. pose proof (cells_len 0 t). lia.
      + rewrite <- E0. apply count_log; auto. apply path_height.
      + rewrite <- E0. apply before_member.
    - exists (after_t call k g t 0), (path call cmp obj k (fun x => negb (g x)) t). split; [|split].
      + revert h H. change (reads (full T cmp obj (zlen m) [] t)
          (let! t0 := ld_avl T in let! n := fuel in after_loop call g n T k (av_obj t0) (av_root t0) 0 0)
          (after_t call k g t 0, path call cmp obj k (fun x => negb (g x)) t)).
        shape. norm. eapply r_ld_avl; [intac|]. fields. apply r_fuel. intros n Hn.
        eapply r_perm; [|apply (after_any_loop call T (root t) (zlen m) k g n t 0 [] 0 0)]; [perm|].
        cbn [length] in Hn. pose proof (cells_len 0 t). lia.
      + rewrite <- E0. apply count_log; auto. apply path_height.
      + rewrite <- E0. apply after_member.
  Qed.

  (** ** put *)
  Lemma put_any_elems f e k v t : bal t -> exists m1 o m2, elems t = m1 ++ o ++ m2 /\
    elems (fst (put_t f e k v t)) = m1 ++ (e, k, v) :: m2 /\
    ((o = [] /\ forall c, put_old f k c t = []) \/
     (exists x, o = [x] /\ f k (a_key x) = 0 /\
        forall c, exists l r p b, put_old f k c t = [(a_elem x, CAelem (mk_aelem (a_key x) (a_value x) l r p b))])).
  Proof.
    induction t as [|l IHl a k' v' b r IHr]; intros B.
    - exists [], [], []. split; [reflexivity|]. split; [reflexivity|]. left. auto.
    - rewrite put_elems by auto. destruct B as (B1 & B2 & B3 & B4). cbn [elems put_old].
      destruct (f k k' <? 0) eqn:C1; [|destruct (f k k' >? 0) eqn:C2].
      + destruct (IHl B3) as (m1 & o & m2 & H1 & H2 & H3). exists m1, o, (m2 ++ (a, k', v') :: elems r).
        rewrite H1, H2, <- !app_assoc. split; [reflexivity|]. split; [reflexivity|].
        destruct H3 as [[E0 H3]|(x & E0 & Hx & H3)]; [left|right; exists x]; auto.
      + destruct (IHr B4) as (m1 & o & m2 & H1 & H2 & H3). exists (elems l ++ (a, k', v') :: m1), o, m2.
        rewrite H1, H2, <- !app_assoc. split; [reflexivity|]. split; [reflexivity|].
        destruct H3 as [[E0 H3]|(x & E0 & Hx & H3)]; [left|right; exists x]; auto.
      + exists (elems l), [(a, k', v')], (elems r). split; [reflexivity|]. split; [reflexivity|]. right.
        exists (a, k', v'). cbn [a_elem a_key a_value fst snd]. split; [reflexivity|]. split; [lia|]. intros c. eauto.
  Qed.
  Lemma put_any call h T m k v : is_tree h T m -> sparse m ->
    exists m1 o m2 r e h' n, m = m1 ++ o ++ m2 /\ avl_tree_put_counted call T k v h = Ok ((r, n), h') /\
      avl_tree_put call T k v h = Ok (r, h') /\ taken r o /\
      is_tree h' T (m1 ++ (e, k, v) :: m2) /\ only h h' (footprint T m) (footprint T (m1 ++ (e, k, v) :: m2)) /\
      logarithmic n (zlen m) /\ get h e = None /\
      forall x, In x o -> call cmp k (a_key x) obj = 0 /\ holds h' x /\ get h' (a_elem x) <> None /\
        ~ In (a_elem x) (footprint T (m1 ++ (e, k, v) :: m2)).
  Proof.
    intros A Sp. pose proof A as (Z0 & t & R). pose proof R as (E0 & B & H).
    assert (SZ : 0 <= zlen m <= 2 ^ 60) by (pose proof (zlen_nonneg m); lia).
    destruct (triple_only h T m t _ _ R (put_tree_ok call cmp obj T (zlen m) t k v B SZ ltac:(intros ->; rewrite <- E0; reflexivity)))
      as (r & D' & h' & Run & (e & He & -> & PX) & H' & ON).
    set (f := fun k1 k2 : Z => call cmp k1 k2 obj) in *.
    destruct (put_any_elems f e k v t B) as (m1 & o & m2 & Em & Et & Ho).
    set (m' := m1 ++ (e, k, v) :: m2) in *.
    assert (Lm : zlen m' = zlen m + grown (put_old f k [] t)).
    { rewrite <- E0, Em. unfold m'. destruct Ho as [[-> Ho]|(x & -> & _ & Ho)].
      - rewrite Ho. cbn [grown app]. rewrite !zlen_app, zlen_cons. lia.
      - destruct (Ho []) as (pl & pr & pp & pb & ->). cbn [grown app]. rewrite !zlen_app, !zlen_cons. lia. }
    assert (IX : incl (keys (put_old f k [] t)) (handles m)).
    { rewrite <- E0, Em. destruct Ho as [[_ Ho]|(x & -> & _ & Ho)].
      - rewrite Ho. intros y [].
      - destruct (Ho []) as (pl & pr & pp & pb & ->). intros y [<-|[]]. unfold handles. rewrite map_app. apply in_or_app. right; left; reflexivity. }
    rewrite <- Lm in PX. destruct (ON m' _ _ PX Et IX) as [O1 O2].
    apply (hp_perm _ _ _ PX) in H'. destruct (hp_split _ _ _ H') as (H1 & H2 & H3).
    assert (G01 : grown (put_old f k [] t) <= 1) by (destruct (put_old f k [] t); cbn [grown]; lia).
    assert (A' : is_tree h' T m').
    { split; [unfold sparse in Sp; lia|]. exists (fst (put_t f e k v t)). split; auto. split; [apply put_t_bal; auto|]. exact H1. }
    assert (FR : forall x, In x o -> f k (a_key x) = 0 /\ holds h' x /\ get h' (a_elem x) <> None /\ ~ In (a_elem x) (footprint T m')).
    { intros x Ix. destruct Ho as [[-> _]|(y & -> & Hy & Ho)]; [destruct Ix|]. destruct Ix as [<-|[]]. split; [exact Hy|].
      destruct (Ho []) as (pl & pr & pp & pb & Eo). rewrite Eo in *.
      assert (Gx : get h' (a_elem y) = Some (CAelem (mk_aelem (a_key y) (a_value y) pl pr pp pb))) by (apply H2; left; reflexivity).
      split; [eapply holds_cell; exact Gx|]. split; [rewrite Gx; discriminate|].
      intros J. rewrite <- Et, <- (in_full T (zlen m')) in J. apply (H3 _ J). left; reflexivity. }
    exists m1, o, m2, (removed (put_old f k [] t)), e, h', (put_count f k t).
    split; [congruence|]. split; [exact Run|]. split; [unfold avl_tree_put, bnd; rewrite Run; reflexivity|]. split.
    { destruct Ho as [[-> Ho]|(x & -> & _ & Ho)].
      - rewrite Ho. left. auto.
      - destruct (Ho []) as (pl & pr & pp & pb & ->). right. destruct x as [[xe xk] xv]. exists xk, xv. reflexivity. }
    split; [exact A'|]. split; [exact O1|]. split; [rewrite <- E0; apply count_log; auto; apply put_count_height|].
    split; [|exact FR].
    apply O1; [|unfold m'; rewrite fp_mid; auto].
    intros Ie. pose proof (any_nodup _ _ _ A') as ND. unfold m' in *.
    assert (J : In e (footprint T (m1 ++ m2))).
    { rewrite <- E0, Em in Ie. destruct Ho as [[-> Ho]|(x & -> & _ & Ho)]; [exact Ie|]. cbn [app] in Ie. rewrite fp_mid in Ie.
      destruct Ie as [->|Ie]; [|exact Ie]. exfalso.
      destruct (FR x ltac:(left; reflexivity)) as (_ & _ & _ & N). apply N. rewrite fp_mid. auto. }
    unfold footprint, handles in ND, J. rewrite map_app in ND, J. cbn [map a_elem fst] in ND.
    apply (NoDup_remove_2 (T :: map a_elem m1) (map a_elem m2) e ND). exact J.
  Qed.
  Lemma pop_any call h T m k : is_tree h T m ->
    (avl_tree_pop call T k h = Ok (0, h) /\ avl_tree_get call T k h = Ok (0, h)) \/
    exists m1 x m2 h', m = m1 ++ x :: m2 /\ call cmp k (a_key x) obj = 0 /\ avl_tree_pop call T k h = Ok (a_elem x, h') /\
      avl_tree_get call T k h = Ok (a_elem x, h) /\
      is_tree h' T (m1 ++ m2) /\ only h h' (footprint T m) (footprint T (m1 ++ m2)) /\ holds h' x /\ get h' (a_elem x) <> None.
  Proof.
    intros A. destruct (get_any call h T m k A) as (e & n & _ & R & _ & [->|(k' & v & I & Hk)]).
    - left. split; [|exact R]. unfold avl_tree_pop, bnd. rewrite R. reflexivity.
    - right. pose proof (proj2 (any_holds _ _ _ _ A I)) as NZ. apply in_split in I as (m1 & m2 & Em).
      destruct (detach_any h T m m1 (e, k', v) m2 A Em) as (h1 & Run & A' & ON & HO & G).
      exists m1, (e, k', v), m2, h1. split; [exact Em|]. split; [exact Hk|]. split.
      { unfold avl_tree_pop, bnd. rewrite R. cbn [a_elem fst] in *. rewrite (proj2 (Z.eqb_neq _ _) NZ), Run. reflexivity. }
      auto.
  Qed.

  (** ** Histories *)
  Lemma handles_inj m x y : NoDup (handles m) -> In x m -> In y m -> a_elem x = a_elem y -> x = y.
  Proof.
    intros ND. induction m as [|c m IH]; [intros []|]. cbn [handles map] in ND. apply NoDup_cons_iff in ND as [N1 N2].
    intros [->|Ia] [->|Ib] H; auto.
    - destruct N1. rewrite H. apply in_map. exact Ib.
    - destruct N1. rewrite <- H. apply in_map. exact Ia.
  Qed.
  Lemma split_unique (h1 h2 g1 g2 : list Z) e : h1 ++ e :: h2 = g1 ++ e :: g2 -> ~ In e h1 -> ~ In e g1 -> h1 = g1 /\ h2 = g2.
  Proof.
    revert g1. induction h1 as [|x h1 IH]; intros [|y g1] H N1 N2; cbn [app] in H.
    - injection H as ->. auto.
    - injection H as -> H. destruct N2. left; reflexivity.
    - injection H as -> H. destruct N1. left; reflexivity.
    - injection H as -> H. destruct (IH g1 H) as [-> ->]; auto; intros J; [apply N1|apply N2]; right; exact J.
  Qed.
  Lemma nodup_split (m1 m2 : list assoc) x : NoDup (handles (m1 ++ x :: m2)) -> ~ In (a_elem x) (handles m1).
  Proof.
    unfold handles. rewrite map_app. cbn [map]. intros ND J. apply (NoDup_remove_2 _ _ _ ND). apply in_or_app. auto.
  Qed.
  Lemma split_same (m1 m2 g1 g2 : list assoc) x y : NoDup (handles (m1 ++ x :: m2)) -> m1 ++ x :: m2 = g1 ++ y :: g2 ->
    a_elem x = a_elem y -> m1 = g1 /\ x = y /\ m2 = g2.
  Proof.
    intros ND E0 Exy. pose proof ND as ND'. rewrite E0 in ND'.
    assert (x = y) as <-.
    { eapply handles_inj; [exact ND| | |exact Exy]; [|rewrite E0]; apply in_or_app; right; left; reflexivity. }
    pose proof (nodup_split _ _ _ ND) as N1. pose proof (nodup_split _ _ _ ND') as N2.
    clear ND ND' Exy. revert g1 E0 N2. induction m1 as [|a m1 IH]; intros [|c g1] E0 N2; cbn [app] in E0.
    - injection E0 as ->. auto.
    - injection E0 as -> E0. destruct N2. left; reflexivity.
    - injection E0 as -> E0. destruct N1. left; reflexivity.
    - injection E0 as -> E0. destruct (IH) with (g1 := g1) as (-> & _ & ->); auto; intros J; [apply N1|apply N2]; right; exact J.
  Qed.
  (** A new element is at one place only. *)
  Lemma insert_same (m1 m2 g1 g2 : list assoc) x y : m1 ++ m2 = g1 ++ g2 -> ~ In (a_elem x) (handles (m1 ++ m2)) ->
    handles (m1 ++ x :: m2) = handles (g1 ++ y :: g2) -> m1 = g1 /\ m2 = g2 /\ a_elem x = a_elem y.
  Proof.
    revert g1. induction m1 as [|a m1 IH]; intros [|c g1] E0 N H; cbn [app handles map] in *.
    - injection H as H _. auto.
    - exfalso. injection H as H1 H2. destruct m2 as [|d m2]; [discriminate|]. injection E0 as -> E0. apply N. left. symmetry. exact H1.
    - exfalso. injection H as H1 H2. change (handles (m1 ++ x :: m2) = handles g2) in H2. apply N.
      destruct g2 as [|d g2]; [discriminate|]. injection E0 as <- E0.
      change (In (a_elem x) (handles (a :: m1 ++ m2))). rewrite E0.
      cbn [handles map]. right. change (In (a_elem x) (handles g2)).
      assert (J : In (a_elem x) (handles (m1 ++ x :: m2))) by (unfold handles; rewrite map_app; apply in_or_app; right; left; reflexivity).
      rewrite H2 in J. cbn [handles map] in J. destruct J as [J|J]; [|exact J]. exfalso. apply N. left. exact J.
    - injection E0 as -> E0. injection H as H. destruct (IH g1 E0) as (-> & -> & E1); auto. intros J. apply N. right. exact J.
  Qed.
  Lemma put_same h T m1 o m2 g1 p g2 r e k v e' : is_tree h T (m1 ++ o ++ m2) -> m1 ++ o ++ m2 = g1 ++ p ++ g2 ->
    taken r o -> taken r p -> get h e = None -> handles (m1 ++ (e, k, v) :: m2) = handles (g1 ++ (e', k, v) :: g2) ->
    m1 ++ (e, k, v) :: m2 = g1 ++ (e', k, v) :: g2.
  Proof.
    intros A E0 To Tp G H. pose proof (any_nodup _ _ _ A) as ND. apply NoDup_cons_iff in ND as [_ ND].
    assert (NZ : forall x, In x (m1 ++ o ++ m2) -> a_elem x <> 0) by (intros x Ix; apply (any_holds _ _ _ _ A Ix)).
    assert (NE : ~ In e (handles (m1 ++ o ++ m2))) by (intros J; apply (any_alloc _ _ _ e A); [right; exact J|exact G]).
    destruct To as [[-> ->]|(k1 & v1 & ->)], Tp as [[E1 ->]|(k2 & v2 & ->)]; cbn [app] in *.
    - destruct (insert_same m1 m2 g1 g2 (e, k, v) (e', k, v) E0 NE H) as (-> & -> & E2). cbn [a_elem fst] in E2. rewrite E2. reflexivity.
    - exfalso. apply (NZ (0, k2, v2)); [|reflexivity]. rewrite E0. apply in_or_app. right; left; reflexivity.
    - exfalso. apply (NZ (r, k1, v1)); [|exact E1]. apply in_or_app. right; left; reflexivity.
    - destruct (split_same m1 m2 g1 g2 (r, k1, v1) (r, k2, v2) ND E0 eq_refl) as (-> & _ & ->).
      unfold handles in H. rewrite !map_app in H. apply app_inv_head in H. cbn [map a_elem fst] in H. injection H as ->. reflexivity.
  Qed.
  Lemma any_tree h T m : any_history cmp obj h T m -> is_tree h T m.
  Proof.
    induction 1 as [h t h' R|call h t m1 o m2 k v r h' e n _ IH Sp R To F|call h t m1 k' v m2 k r h' _ IH R
      |h t m1 e k v m2 h' _ IH R|h t m1 e k v m2 h' _ IH R|h t m r h' _ IH R|h t m r h' _ IH R
      |h t m t' h' m' n _ IH R1 Ep R2|h t m h' _ IH F].
    - destruct (make_any h) as (T' & h1 & Run & A & _). rewrite Run in R. injection R as <- <-. exact A.
    - destruct (put_any call h t _ k v IH Sp) as (g1 & p & g2 & r' & e' & h1 & n' & Em & _ & Run & Tp & A & _ & _ & G & _).
      rewrite Run in R. injection R as <- <-. rewrite (forward_any _ _ _ n A) in F. destruct (length _ <=? n)%nat; [|discriminate F].
      injection F as F. rewrite <- (put_same h t g1 p g2 m1 o m2 r' e' k v e); auto. rewrite <- Em. exact IH.
    - destruct (pop_any call h t _ k IH) as [[R' _]|(g1 & x & g2 & h1 & Em & _ & R' & _ & A & _)].
      + exfalso. rewrite R' in R. injection R as R _.
        destruct (any_holds _ _ _ (r, k', v) IH ltac:(apply in_or_app; right; left; reflexivity)) as [_ NZ]. cbn [a_elem fst] in NZ. congruence.
      + rewrite R' in R. injection R as R <-. pose proof (any_nodup _ _ _ IH) as ND. apply NoDup_cons_iff in ND as [_ ND].
        destruct (split_same _ _ _ _ (r, k', v) x ND Em ltac:(symmetry; exact R)) as (-> & _ & ->). exact A.
    - destruct (detach_any h t _ m1 (e, k, v) m2 IH eq_refl) as (h1 & Run & A & _). change (a_elem (e, k, v)) with e in Run.
      rewrite Run in R. injection R as <-. exact A.
    - destruct (remove_any h t _ m1 (e, k, v) m2 IH eq_refl) as (h1 & Run & A & _). change (a_elem (e, k, v)) with e in Run.
      rewrite Run in R. injection R as <-. exact A.
    - destruct m as [|x m].
      + rewrite (any_first_empty h t IH) in R. injection R as <- <-. exact IH.
      + destruct (pop_first_any h t x m IH) as (h1 & Run & A & _). rewrite Run in R. injection R as <- <-. exact A.
    - destruct m as [|x m _] using rev_ind.
      + rewrite (any_last_empty h t IH) in R. injection R as <- <-. exact IH.
      + destruct (pop_last_any h t x m IH) as (h1 & Run & A & _). rewrite Run in R. injection R as <- <-. rewrite removelast_last. exact A.
    - destruct (copy_any h t m IH) as (T' & h1 & m1 & Run & Ep1 & A & _). rewrite Run in R1. injection R1 as <- <-.
      rewrite (forward_any _ _ _ n A) in R2. destruct (length m1 <=? n)%nat; [|discriminate]. injection R2 as R2.
      rewrite (pairs_handles m' m1); auto. congruence.
    - eapply any_frame; eauto.
  Qed.
  Lemma only_confined T h m h' m' : only h h' (footprint T m) (footprint T m') -> confined T h m h' m'.
  Proof.
    intros (O1 & O2 & O3). split; [|split; auto]. intros x N G.
    assert (N' : ~ In x (footprint T m')) by (intros J; apply G; apply O1; auto). auto.
  Qed.
End any.
