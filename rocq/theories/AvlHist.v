(** AVL trees: the operations on trees with a history. *)
From Verif Require Import Base Heap Sep AvlModel AvlSpec AvlProofs AvlDetach AvlReads.
From Coq Require Import Permutation.

(** ** The height *)
Lemma height_pow t : bal t -> 809 ^ height t <= (zlen (elems t) + 1) * 500 ^ height t.
Proof.
  induction t as [|l IHl a k v b r IHr]; intros B; cbn [height elems].
  - change (zlen (@nil assoc)) with 0. reflexivity.
  - destruct B as (B1 & B2 & B3 & B4). specialize (IHl B3). specialize (IHr B4).
    pose proof (height_pos l). pose proof (height_pos r). rewrite zlen_app, zlen_cons.
    pose proof (zlen_nonneg (elems l)). pose proof (zlen_nonneg (elems r)).
    set (nl := zlen (elems l)) in *. set (nr := zlen (elems r)) in *. clearbody nl nr.
    assert (S1 : forall x, 0 <= x -> 809 ^ (1 + x) = 809 * 809 ^ x) by (intros; rewrite Z.pow_add_r by lia; reflexivity).
    assert (S2 : forall x, 0 <= x -> 500 ^ (1 + x) = 500 * 500 ^ x) by (intros; rewrite Z.pow_add_r by lia; reflexivity).
    assert (C : height r = height l \/ height r = 1 + height l \/ height l = 1 + height r) by lia.
    destruct C as [C|[C|C]]; rewrite C in *.
    + replace (Z.max (height l) (height l)) with (height l) by lia. rewrite S1, S2 by lia.
      pose proof (Z.pow_nonneg 809 (height l) ltac:(lia)). pose proof (Z.pow_nonneg 500 (height l) ltac:(lia)).
      set (A := 809 ^ height l) in *. set (B := 500 ^ height l) in *. clearbody A B. clear - IHl IHr H H0 H1 H2 H3 H4. nia.
    + replace (Z.max (height l) (1 + height l)) with (1 + height l) by lia. rewrite !S1, !S2 in * by lia.
      pose proof (Z.pow_nonneg 809 (height l) ltac:(lia)). pose proof (Z.pow_nonneg 500 (height l) ltac:(lia)).
      set (A := 809 ^ height l) in *. set (B := 500 ^ height l) in *. clearbody A B. clear - IHl IHr H H0 H1 H2 H3 H4. nia.
    + replace (Z.max (1 + height r) (height r)) with (1 + height r) by lia. rewrite !S1, !S2 in * by lia.
      pose proof (Z.pow_nonneg 809 (height r) ltac:(lia)). pose proof (Z.pow_nonneg 500 (height r) ltac:(lia)).
      set (A := 809 ^ height r) in *. set (B := 500 ^ height r) in *. clearbody A B. clear - IHl IHr H H0 H1 H2 H3 H4. nia.
Qed.
Lemma height_log n size : 0 <= n -> 0 <= size -> 809 ^ n <= (size + 1) * 500 ^ n -> logarithmic n size.
Proof.
  intros Hn Hs H. unfold logarithmic.
  assert (N29 : 0 <= 29 * n) by lia. assert (N20 : 0 <= 20 * n) by lia. assert (S1 : 0 <= size + 1 <= size + 2) by lia.
  assert (P5 : 0 < 500 ^ n) by (apply Z.pow_pos_nonneg; lia).
  assert (P8 : 0 <= 809 ^ n) by (apply Z.pow_nonneg; lia).
  assert (Q : 0 < 500 ^ (29 * n)) by (apply Z.pow_pos_nonneg; lia).
  assert (M : (size + 1) ^ 29 <= (size + 2) ^ 29) by (apply Z.pow_le_mono_l; exact S1).
  assert (A : (2 ^ 20 * 500 ^ 29) ^ n <= (809 ^ 29) ^ n).
  { apply Z.pow_le_mono_l. split; [apply Z.mul_nonneg_nonneg; apply Z.pow_nonneg; discriminate|]. vm_compute. discriminate. }
  rewrite Z.pow_mul_l, <- !Z.pow_mul_r in A by (exact Hn || discriminate).
  assert (B : (809 ^ n) ^ 29 <= ((size + 1) * 500 ^ n) ^ 29) by (apply Z.pow_le_mono_l; split; [exact P8|exact H]).
  rewrite Z.pow_mul_l, <- !Z.pow_mul_r in B by (exact Hn || discriminate).
  rewrite (Z.mul_comm n 29) in B.
  apply Z.le_trans with ((size + 1) ^ 29); [|exact M].
  apply Z.mul_le_mono_pos_r with (500 ^ (29 * n)); [exact Q|]. exact (Z.le_trans _ _ _ A B).
Qed.
Lemma count_log t n : bal t -> 0 <= n <= height t -> logarithmic n (zlen (elems t)).
Proof.
  intros B H. pose proof (height_log (height t) (zlen (elems t)) ltac:(lia) (zlen_nonneg _) (height_pow t B)) as L.
  assert (M : 20 * n <= 20 * height t) by lia. unfold logarithmic in *. eapply Z.le_trans; [|exact L]. apply Z.pow_le_mono_r; [reflexivity|exact M].
Qed.
Lemma height_in_ok h t : forall q D, hp h (cells q t ++ D) -> height_in h (root t) (height t).
Proof.
  induction t as [|l IHl a k v b r IHr]; intros q D H.
  - apply HI_null.
  - cbn [root height]. cbn [cells] in H. eapply HI_elem.
    + apply H. left. reflexivity.
    + cbn [ae_left]. eapply (IHl a). eapply hp_perm; [|exact H]. instantiate (1 := (a, CAelem (mk_aelem k v (root l) (root r) q b)) :: cells a r ++ D). perm.
    + cbn [ae_right]. eapply (IHr a). eapply hp_perm; [|exact H]. instantiate (1 := (a, CAelem (mk_aelem k v (root l) (root r) q b)) :: cells a l ++ D). perm.
Qed.

(** ** The invariant *)
Section hist.
  Variables (call : comparator) (cmp obj : Z).
  Let f k1 k2 := call cmp k1 k2 obj.

  Definition repr (h : heap) (T : Z) (m : list assoc) (t : tree) : Prop :=
    elems t = m /\ bal t /\ hp h (full T cmp obj (zlen m) [] t).
  Definition is_avl (h : heap) (T : Z) (m : list assoc) : Prop :=
    total_preorder f /\ increasing f m /\ zlen m <= 2 ^ 60 /\ exists t, repr h T m t.

  Lemma keys_full T size t : Permutation (keys (full T cmp obj size [] t)) (footprint T (elems t)).
  Proof.
    unfold full, hd, footprint. cbn [top pcells par app keys map fst]. constructor. apply keys_cells.
  Qed.
  Lemma in_full T size t x : In x (keys (full T cmp obj size [] t)) <-> In x (footprint T (elems t)).
  Proof. split; apply Permutation_in; [|symmetry]; apply keys_full. Qed.

  (** What a triple between two trees says about memory. *)
  Definition only (h h' : heap) (fp fp' : list Z) : Prop :=
    (forall x, ~ In x fp -> In x fp' -> get h x = None) /\
    (forall x, ~ In x fp -> ~ In x fp' -> get h' x = get h x) /\
    (forall x, In x fp' -> get h' x <> None).
  Lemma triple_only {A} h T m t (op : M A) Q : repr h T m t ->
    triple (full T cmp obj (zlen m) [] t) op Q ->
    exists r D' h', op h = Ok (r, h') /\ Q r D' /\ hp h' D' /\
      (forall m' t' X, Permutation D' (full T cmp obj (zlen m') [] t' ++ X) -> elems t' = m' -> incl (keys X) (handles m) ->
         only h h' (footprint T m) (footprint T m') /\ (forall x, In x (footprint T m) -> ~ In x (footprint T m') -> ~ In x (keys X) -> get h' x = None)).
  Proof.
    intros (E0 & B & H) R. destruct (R h H) as (r & D' & h' & Run & q & H' & F1 & F2 & F3).
    exists r, D', h'. split; auto. split; auto. split; auto. intros m' t' X PX E1 IX.
    assert (K : forall x, In x (keys D') <-> In x (footprint T m') \/ In x (keys X)).
    { intros x. rewrite <- E1, <- (in_full T (zlen (elems t')) t'). rewrite E1. rewrite <- in_app_iff, <- keys_app.
      split; apply Permutation_in; apply keys_perm; [|symmetry]; exact PX. }
    assert (K0 : forall x, In x (keys (full T cmp obj (zlen m) [] t)) <-> In x (footprint T m)).
    { intros x. rewrite in_full, E0. reflexivity. }
    assert (IX' : forall x, In x (keys X) -> In x (footprint T m)) by (intros x I; right; auto).
    split; [split; [|split]|].
    - intros x N I. apply F1; [rewrite K0; auto|rewrite K; auto].
    - intros x N1 N2. apply F2; [rewrite K0; auto|]. rewrite K. intros [I|I]; auto.
    - intros x I. eapply hp_get; [exact H'|]. rewrite K. auto.
    - intros x I1 N2 N3. apply F3; [rewrite K0; auto|]. rewrite K. tauto.
  Qed.
  Lemma hp_split h D1 D2 : hp h (D1 ++ D2) -> hp h D1 /\ hp h D2 /\ forall x, In x (keys D1) -> ~ In x (keys D2).
  Proof.
    intros H. split; [eapply hp_app_l; exact H|]. split; [eapply hp_app_r; exact H|].
    destruct H as [N _]. rewrite keys_app in N. intros x. apply nodup_app_not. exact N.
  Qed.

  (** An element outside of trees that still has its key and value. *)
  Definition holds (h : heap) (x : assoc) : Prop :=
    avl_elem_get_key (a_elem x) h = Ok (a_key x, h) /\ avl_elem_get_value (a_elem x) h = Ok (a_value x, h).
  Lemma holds_cell h x l r p b : get h (a_elem x) = Some (CAelem (mk_aelem (a_key x) (a_value x) l r p b)) -> holds h x.
  Proof.
    intros H. unfold holds, avl_elem_get_key, avl_elem_get_value, bnd, ld_aelem. rewrite H. split; reflexivity.
  Qed.
  Lemma elem_cell h T m t x : repr h T m t -> In x m ->
    exists l r p b, get h (a_elem x) = Some (CAelem (mk_aelem (a_key x) (a_value x) l r p b)).
  Proof.
    intros (E0 & B & H) I. apply in_split in I as (m1 & m2 & Em). rewrite Em in E0.
    destruct (zip_elem _ _ _ _ E0) as (c & l & b & r & -> & _ & _).
    eapply hp_perm in H; [|symmetry; apply full_plug]. exists (root l), (root r), (par 0 c), b.
    apply H. unfold full. apply in_or_app. right. left. reflexivity.
  Qed.
  Lemma avl_holds h T m x : is_avl h T m -> In x m -> holds h x /\ a_elem x <> 0.
  Proof.
    intros (_ & _ & _ & t & R) I. destruct (elem_cell _ _ _ _ _ R I) as (l & r & p & b & G).
    split; [eapply holds_cell; exact G|eapply get_nonnull; exact G].
  Qed.
  Lemma avl_nodup h T m : is_avl h T m -> NoDup (footprint T m).
  Proof.
    intros (_ & _ & _ & t & E0 & B & H). destruct H as [N _]. rewrite <- E0. eapply Permutation_NoDup; [apply keys_full|exact N].
  Qed.
  Lemma avl_alloc h T m x : is_avl h T m -> In x (footprint T m) -> get h x <> None.
  Proof.
    intros (_ & _ & _ & t & E0 & B & H) I. eapply hp_get; [exact H|]. rewrite in_full, E0. exact I.
  Qed.

  (** ** make *)
  Lemma make_avl h : total_preorder f -> exists T h', make_avl_tree_2 cmp obj h = Ok (T, h') /\ is_avl h' T [] /\
    get h T = None /\ (forall x, x <> T -> get h' x = get h x).
  Proof.
    intros P. destruct (t_alloc [] (CAvl (mk_avl cmp obj 0 0)) h) as (T & D & h' & R & [-> HT] & H & F1 & F2 & F3).
    { split; [constructor|]. intros x c []. }
    exists T, h'. split; [exact R|]. split; [|split].
    - split; auto. split; [constructor|]. split; [vm_compute; discriminate|]. exists E. split; [reflexivity|]. split; [exact I|]. exact H.
    - apply F1; [intros []|left; reflexivity].
    - intros x Hx. apply F2; [intros []|]. intros [I|[]]. cbn [fst] in I. congruence.
  Qed.

  (** ** put *)
  Lemma put_within_ok T size t k v n : bal t -> 0 <= size <= 2 ^ 60 -> (t = E -> size = 0) -> (Z.to_nat (height t) <= n)%nat ->
    triple (full T cmp obj size [] t) (avl_tree_put_within n call T k v)
      (fun r X => exists e, e <> 0 /\ r = (removed (put_old f k [] t), put_count f k t) /\
         Permutation X (full T cmp obj (size + grown (put_old f k [] t)) [] (fst (put_t f e k v t)) ++ put_old f k [] t)).
  Proof.
    intros B Hs H0 Hn. unfold avl_tree_put_within, make_element. eapply t_bnd; [apply t_alloc|]. intros e X [-> He].
    apply t_ok. intros O. destruct t as [|l a k' v' b r].
    - rewrite H0 by reflexivity. shape. run. cbn [root Z.eqb]. run. apply t_ret. exists e. split; [exact He|]. split; [reflexivity|].
      cbn [put_old put_t fst grown]. shape. perm.
    - set (t := N l a k' v' b r) in *. assert (NE : t <> E) by discriminate.
      assert (NZ : (root t =? 0) = false).
      { apply (root_nonnull _ 0 t ((e, CAelem (mk_aelem k v 0 0 0 0)) :: hd T cmp obj size [] (root t)) O NE). unfold full.
        set (X := hd T cmp obj size [] (root t)). cbn [par]. clearbody X. perm. }
      eapply t_ld_avl. { right. left. reflexivity. }
      cbn [av_root top]. rewrite NZ. eapply t_seq.
      { apply (put_ok call cmp obj T e k v n t [] size B NE); auto. }
      cbn [p_removed p_count]. apply t_ret. exists e. split; auto.
  Qed.
  Lemma put_tree_ok T size t k v : bal t -> 0 <= size <= 2 ^ 60 -> (t = E -> size = 0) ->
    triple (full T cmp obj size [] t) (avl_tree_put_counted call T k v)
      (fun r X => exists e, e <> 0 /\ r = (removed (put_old f k [] t), put_count f k t) /\
         Permutation X (full T cmp obj (size + grown (put_old f k [] t)) [] (fst (put_t f e k v t)) ++ put_old f k [] t)).
  Proof.
    intros B Hs H0. unfold avl_tree_put_counted. eapply t_bnd; [apply t_fuel|]. intros n D [-> Hn].
    apply put_within_ok; auto. unfold full in Hn. rewrite app_length in Hn. cbn [par] in Hn. pose proof (cells_len 0 t). lia.
  Qed.
  Lemma get_run h T m t k : total_preorder f -> increasing f m -> repr h T m t ->
    (forall m1 x m2, m = m1 ++ x :: m2 -> f k (a_key x) = 0 -> avl_tree_get_counted call T k h = Ok ((a_elem x, put_count f k t), h)) /\
    (absent f k m -> avl_tree_get_counted call T k h = Ok ((0, put_count f k t), h)).
  Proof.
    intros P I (E0 & B & H). unfold avl_tree_get_counted.
    assert (G : forall res, (forall n, (Z.to_nat (height t) < n)%nat ->
        reads (cells 0 t ++ [(T, CAvl (mk_avl cmp obj (root t) (zlen m)))]) (get_loop call n T k obj (root t) 0) res) ->
        reads (full T cmp obj (zlen m) [] t) (let! t0 := ld_avl T in let! n := fuel in get_loop call n T k (av_obj t0) (av_root t0) 0) res).
    { intros res G. shape. norm. eapply r_ld_avl; [intac|]. fields. apply r_fuel. intros n Hn.
      eapply r_perm; [|apply G]; [perm|]. cbn [length] in Hn. pose proof (cells_len 0 t). lia. }
    split.
    - intros m1 x m2 Em Hx. apply (G (a_elem x, put_count f k t)); auto. intros n Hn.
      rewrite Em in I. destruct (around f P k x m1 m2 I Hx) as [A1 A2].
      apply (proj1 (get_loop_ok call cmp obj T (root t) (zlen m) k P n t 0 [] 0 Hn) m1 x m2); auto. congruence.
    - intros AB. apply (G (0, put_count f k t)); auto. intros n Hn.
      destruct (cmp_cases f P k m I) as [(m1 & m2 & Em & A1 & A2 & _)|(m1 & x & m2 & Em & X & _)].
      + apply (proj2 (get_loop_ok call cmp obj T (root t) (zlen m) k P n t 0 [] 0 Hn) m1 m2); auto. congruence.
      + exfalso. apply (AB x); auto. rewrite Em. apply in_or_app. right; left; reflexivity.
  Qed.
  Lemma get_avl h T m k : is_avl h T m ->
    (forall x, In x m -> f k (a_key x) = 0 -> avl_tree_get call T k h = Ok (a_elem x, h)) /\
    (absent f k m -> avl_tree_get call T k h = Ok (0, h)).
  Proof.
    intros (P & I & _ & t & R). destruct (get_run h T m t k P I R) as [G1 G2]. unfold avl_tree_get. split.
    - intros x Ix Hx. apply in_split in Ix as (m1 & m2 & Em). unfold bnd. rewrite (G1 _ _ _ Em Hx). reflexivity.
    - intros AB. unfold bnd. rewrite (G2 AB). reflexivity.
  Qed.
  Lemma get_count h T m k : is_avl h T m -> exists r n, avl_tree_get_counted call T k h = Ok ((r, n), h) /\ avl_tree_get call T k h = Ok (r, h) /\ logarithmic n (zlen m).
  Proof.
    intros (P & I & _ & t & R). destruct (get_run h T m t k P I R) as [G1 G2].
    assert (L : logarithmic (put_count f k t) (zlen m)).
    { destruct R as (E0 & B & _). rewrite <- E0. apply count_log; auto. apply put_count_height. }
    destruct (cmp_cases f P k m I) as [(m1 & m2 & Em & A1 & A2 & AB)|(m1 & x & m2 & Em & X & _)].
    - exists 0, (put_count f k t). rewrite (G2 AB). split; auto. split; auto. unfold avl_tree_get, bnd. rewrite (G2 AB). reflexivity.
    - exists (a_elem x), (put_count f k t). rewrite (G1 _ _ _ Em X). split; auto. split; auto. unfold avl_tree_get, bnd. rewrite (G1 _ _ _ Em X). reflexivity.
  Qed.

  Lemma put_new_avl h T m k v m1 m2 : is_avl h T m -> sparse m -> m = m1 ++ m2 -> all_below f k m1 -> all_above f k m2 ->
    exists e h' n, avl_tree_put_counted call T k v h = Ok ((0, n), h') /\ avl_tree_put call T k v h = Ok (0, h') /\
      let m' := m1 ++ (e, k, v) :: m2 in
      is_avl h' T m' /\ only h h' (footprint T m) (footprint T m') /\ avl_tree_get call T k h' = Ok (e, h') /\
      get h e = None /\ logarithmic n (zlen m).
  Proof.
    intros A Sp Em A1 A2. destruct A as (P & I & Z0 & t & R). pose proof R as (E0 & B & H).
    assert (SZ : 0 <= zlen m <= 2 ^ 60) by (unfold sparse in Sp; pose proof (zlen_nonneg m); lia).
    destruct (triple_only h T m t _ _ R (put_tree_ok T (zlen m) t k v B SZ ltac:(intros ->; rewrite <- E0; reflexivity)))
      as (r & D' & h' & Run & (e & He & -> & PX) & H' & ON).
    destruct (put_new f P e k v t m1 m2 B ltac:(congruence) A1 A2) as [N1 N2].
    rewrite (N2 []) in *. cbn [removed grown] in *.
    set (m' := m1 ++ (e, k, v) :: m2) in *. assert (Lm : zlen m' = zlen m + 1).
    { unfold m'. rewrite Em. rewrite !zlen_app, zlen_cons. lia. }
    rewrite <- Lm in PX. destruct (ON m' _ [] PX N1 ltac:(intros x [])) as [O1 O2].
    exists e, h', (put_count f k t). split; [exact Run|]. split; [unfold avl_tree_put, bnd; rewrite Run; reflexivity|]. cbv zeta.
    assert (A' : is_avl h' T m').
    { split; auto. split; [eapply increasing_insert; eauto; rewrite <- Em; auto|]. split; [unfold sparse in Sp; lia|].
      exists (fst (put_t f e k v t)). split; auto. split; [apply put_t_bal; auto|]. eapply hp_perm; [|exact H']. rewrite app_nil_r in PX. exact PX. }
    split; [exact A'|]. split; [exact O1|]. split.
    { apply (proj1 (get_avl h' T m' k A') (e, k, v)); [apply in_or_app; right; left; reflexivity|]. apply f_refl; auto. }
    split.
    - apply O1; [|right; unfold m', handles; rewrite map_app; apply in_or_app; right; left; reflexivity].
      pose proof (avl_nodup _ _ _ A') as ND. intros Ie.
      assert (In e (T :: handles m1 ++ handles m2)).
      { rewrite Em in Ie. unfold footprint, handles in Ie. rewrite map_app in Ie. exact Ie. }
      unfold footprint, m', handles in ND. rewrite map_app in ND. cbn [map a_elem fst] in ND.
      apply (NoDup_remove_2 (T :: map a_elem m1) (map a_elem m2) e ND). exact H0.
    - rewrite <- E0. apply count_log; auto. apply put_count_height.
  Qed.

  Lemma put_replace_avl h T m k v m1 x m2 : is_avl h T m -> m = m1 ++ x :: m2 -> f k (a_key x) = 0 ->
    exists e h' n, avl_tree_put_counted call T k v h = Ok ((a_elem x, n), h') /\ avl_tree_put call T k v h = Ok (a_elem x, h') /\
      let m' := m1 ++ (e, k, v) :: m2 in
      is_avl h' T m' /\ only h h' (footprint T m) (footprint T m') /\ avl_tree_get call T k h' = Ok (e, h') /\
      holds h' x /\ get h' (a_elem x) <> None /\ get h e = None /\ e <> a_elem x /\ logarithmic n (zlen m).
  Proof.
    intros A Em Hx. destruct A as (P & I & Z0 & t & R). pose proof R as (E0 & B & H).
    assert (SZ : 0 <= zlen m <= 2 ^ 60) by (pose proof (zlen_nonneg m); lia).
    destruct (triple_only h T m t _ _ R (put_tree_ok T (zlen m) t k v B SZ ltac:(intros ->; rewrite <- E0; reflexivity)))
      as (r & D' & h' & Run & (e & He & -> & PX) & H' & ON).
    pose proof I as I0. rewrite Em in I0. destruct (around f P k x m1 m2 I0 Hx) as [A1 A2].
    destruct (put_replace f P e k v t m1 x m2 B ltac:(congruence) Hx A1 A2) as [N1 N2].
    destruct (N2 []) as (pl & pr & pp & pb & Eo). rewrite Eo in *. cbn [removed grown] in *.
    set (m' := m1 ++ (e, k, v) :: m2) in *. assert (Lm : zlen m' = zlen m + 0).
    { unfold m'. rewrite Em. rewrite !zlen_app, !zlen_cons. lia. }
    rewrite <- Lm in PX.
    assert (Ix : In (a_elem x) (handles m)) by (rewrite Em; unfold handles; rewrite map_app; apply in_or_app; right; left; reflexivity).
    destruct (ON m' _ _ PX N1 ltac:(intros y [<-|[]]; exact Ix)) as [O1 O2].
    exists e, h', (put_count f k t). split; [exact Run|]. split; [unfold avl_tree_put, bnd; rewrite Run; reflexivity|]. cbv zeta.
    apply (hp_perm _ _ _ PX) in H'. destruct (hp_split _ _ _ H') as (H1 & H2 & H3).
    assert (A' : is_avl h' T m').
    { split; auto. split; [|split; [lia|]].
      - eapply increasing_insert; eauto. eapply increasing_remove. rewrite <- Em. exact I.
      - exists (fst (put_t f e k v t)). split; auto. split; [apply put_t_bal; auto|]. exact H1. }
    split; [exact A'|]. split; [exact O1|]. split.
    { apply (proj1 (get_avl h' T m' k A') (e, k, v)); [apply in_or_app; right; left; reflexivity|]. apply f_refl; auto. }
    assert (Gx : get h' (a_elem x) = Some (CAelem (mk_aelem (a_key x) (a_value x) pl pr pp pb))) by (apply H2; left; reflexivity).
    split; [eapply holds_cell; exact Gx|]. split; [rewrite Gx; discriminate|].
    assert (NEx : e <> a_elem x).
    { intros ->. apply (H3 (a_elem x)); [|left; reflexivity]. rewrite in_full, N1. right. unfold m', handles. rewrite map_app. apply in_or_app. right; left; reflexivity. }
    split; [|split; [exact NEx|rewrite <- E0; apply count_log; auto; apply put_count_height]].
    apply O1; [|right; unfold m', handles; rewrite map_app; apply in_or_app; right; left; reflexivity].
    pose proof (avl_nodup _ _ _ A') as ND. intros Ie.
    unfold footprint, m', handles in ND. rewrite map_app in ND. cbn [map a_elem fst] in ND.
    apply (NoDup_remove_2 (T :: map a_elem m1) (map a_elem m2) e ND).
    rewrite Em in Ie. unfold footprint, handles in Ie. rewrite map_app in Ie. cbn [map] in Ie.
    change (In e ((T :: map a_elem m1) ++ a_elem x :: map a_elem m2)) in Ie. apply in_or_app. apply in_app_or in Ie as [Ie|[Ie|Ie]]; auto. congruence.
  Qed.

  (** ** detach and its users *)
  Lemma detach_avl h T m m1 x m2 : is_avl h T m -> m = m1 ++ x :: m2 ->
    exists h', avl_tree_detach T (a_elem x) h = Ok (tt, h') /\ is_avl h' T (m1 ++ m2) /\
      only h h' (footprint T m) (footprint T (m1 ++ m2)) /\ holds h' x /\ get h' (a_elem x) <> None.
  Proof.
    intros (P & I & Z0 & t & R) Em. pose proof R as (E0 & B & H).
    assert (E1 : elems t = m1 ++ x :: m2) by congruence.
    destruct (zip_elem t x m1 m2 E1) as (c & l & b & r & Et & Em1 & Em2).
    assert (SZ : 1 <= zlen m <= 2 ^ 60).
    { split; auto. rewrite Em. rewrite zlen_app, zlen_cons. pose proof (zlen_nonneg m1). pose proof (zlen_nonneg m2). lia. }
    rewrite Et in B. destruct (detach_ok T cmp obj (zlen m) c l (a_elem x) (a_key x) (a_value x) b r B SZ) as (t' & q & B' & E' & TR).
    assert (Et' : elems t' = m1 ++ m2) by (rewrite E', Em1, Em2, <- !app_assoc; reflexivity).
    assert (Lm : zlen (m1 ++ m2) = zlen m - 1).
    { rewrite Em. rewrite !zlen_app, zlen_cons. lia. }
    rewrite <- Lm in TR.
    eapply (t_perm (full T cmp obj (zlen m) [] t)) in TR; [|rewrite Et; symmetry; apply full_plug].
    destruct (triple_only h T m t _ _ R TR) as (u & D' & h' & Run & [-> ->] & H' & ON).
    assert (Ix : In (a_elem x) (handles m)) by (rewrite Em; unfold handles; rewrite map_app; apply in_or_app; right; left; reflexivity).
    destruct (ON (m1 ++ m2) t' _ (Permutation_refl _) Et' ltac:(intros y [<-|[]]; exact Ix)) as [O1 O2].
    exists h'. split; [exact Run|]. destruct (hp_split _ _ _ H') as (H1 & H2 & H3).
    assert (Gx : get h' (a_elem x) = Some (CAelem (mk_aelem (a_key x) (a_value x) 0 0 q 0))) by (apply H2; left; reflexivity).
    split.
    - split; auto. split; [eapply increasing_remove; rewrite <- Em; exact I|]. split; [lia|].
      exists t'. split; auto.
    - split; [exact O1|]. split; [eapply holds_cell; exact Gx|rewrite Gx; discriminate].
  Qed.
  Lemma avl_out h T m m1 x m2 : is_avl h T m -> m = m1 ++ x :: m2 -> ~ In (a_elem x) (footprint T (m1 ++ m2)).
  Proof.
    intros A Em. pose proof (avl_nodup _ _ _ A) as ND. rewrite Em in ND. unfold footprint, handles in *. rewrite map_app in *. cbn [map] in ND.
    apply (NoDup_remove_2 (T :: map a_elem m1) (map a_elem m2) (a_elem x) ND).
  Qed.
  (** Freed cells do not matter to a tree they do not belong to. *)
  Lemma avl_frame h h' T m : is_avl h T m -> (forall x, In x (footprint T m) -> get h' x = get h x) -> is_avl h' T m.
  Proof.
    intros (P & I & Z0 & t & E0 & B & H) F. split; auto. split; auto. split; auto. exists t. split; auto. split; auto.
    destruct H as [N G]. split; auto. intros x c Ix. rewrite F; [apply G; exact Ix|]. rewrite <- E0, <- (in_full T (zlen m)). apply in_keys. eauto.
  Qed.
  Lemma remove_avl h T m m1 x m2 : is_avl h T m -> m = m1 ++ x :: m2 ->
    exists h', avl_tree_remove T (a_elem x) h = Ok (tt, h') /\ is_avl h' T (m1 ++ m2) /\
      only h h' (footprint T m) (footprint T (m1 ++ m2)) /\ get h' (a_elem x) = None.
  Proof.
    intros A Em. destruct (detach_avl h T m m1 x m2 A Em) as (h1 & Run & A1 & (O1 & O2 & O3) & Hx & Gx).
    pose proof (avl_out _ _ _ _ _ _ A Em) as NI.
    destruct (get h1 (a_elem x)) as [c|] eqn:G; [|congruence]. clear Gx.
    destruct (t_free [] (a_elem x) c h1) as (u & D & h' & R2 & [-> ->] & _ & _ & F2 & F3).
    { split; [constructor; [intros []|constructor]|]. intros y d [J|[]]. injection J as <- <-. exact G. }
    exists h'. split; [unfold avl_tree_remove, bnd; rewrite Run; exact R2|].
    assert (FR : forall y, y <> a_elem x -> get h' y = get h1 y).
    { intros y Hy. apply F2; [intros [J|[]]; cbn [fst] in J; congruence|intros []]. }
    split.
    - eapply avl_frame; [exact A1|]. intros y Iy. apply FR. intros ->. auto.
    - split; [|apply F3; [left; reflexivity|intros []]]. split; auto. split.
      + intros y N1 N2. rewrite FR; auto. intros ->. apply N1. right. rewrite Em. unfold handles. rewrite map_app. apply in_or_app. right; left; reflexivity.
      + intros y Iy. rewrite FR; auto. intros ->. auto.
  Qed.
  Lemma pop_avl h T m k m1 x m2 : is_avl h T m -> m = m1 ++ x :: m2 -> f k (a_key x) = 0 ->
    exists h', avl_tree_pop call T k h = Ok (a_elem x, h') /\ is_avl h' T (m1 ++ m2) /\
      only h h' (footprint T m) (footprint T (m1 ++ m2)) /\ holds h' x /\ get h' (a_elem x) <> None.
  Proof.
    intros A Em Hx. assert (Ix : In x m) by (rewrite Em; apply in_or_app; right; left; reflexivity).
    destruct (detach_avl h T m m1 x m2 A Em) as (h1 & Run & X). exists h1. split; auto.
    unfold avl_tree_pop, bnd. rewrite (proj1 (get_avl h T m k A) x Ix Hx).
    destruct (avl_holds _ _ _ _ A Ix) as [_ NZ]. rewrite (proj2 (Z.eqb_neq _ _) NZ). rewrite Run. reflexivity.
  Qed.
  Lemma pop_none_avl h T m k : is_avl h T m -> absent f k m -> avl_tree_pop call T k h = Ok (0, h).
  Proof. intros A AB. unfold avl_tree_pop, bnd. rewrite (proj2 (get_avl h T m k A) AB). reflexivity. Qed.

  Lemma first_avl h T m : is_avl h T m -> avl_tree_get_first T h = Ok (List.hd 0 (handles m), h).
  Proof. intros (_ & _ & _ & t & E0 & B & H). rewrite <- E0. apply (first_ok T cmp obj (zlen m) t). exact H. Qed.
  Lemma last_avl h T m : is_avl h T m -> avl_tree_get_last T h = Ok (last (handles m) 0, h).
  Proof. intros (_ & _ & _ & t & E0 & B & H). rewrite <- E0. apply (last_ok T cmp obj (zlen m) t). exact H. Qed.
  Lemma empty_avl h T m : is_avl h T m -> avl_tree_empty T h = Ok (match m with [] => true | _ => false end, h).
  Proof. intros (_ & _ & _ & t & E0 & B & H). rewrite <- E0. apply (empty_ok T cmp obj (zlen m) t). exact H. Qed.
  Lemma size_avl h T m : is_avl h T m -> avl_tree_size T h = Ok (zlen m, h).
  Proof.
    intros (_ & _ & _ & t & E0 & B & H). unfold avl_tree_size, bnd, ld_avl.
    assert (G : get h T = Some (CAvl (mk_avl cmp obj (root t) (zlen m)))) by (apply H; left; reflexivity). rewrite G. reflexivity.
  Qed.
  Lemma next_avl h T m m1 x m2 : is_avl h T m -> m = m1 ++ x :: m2 -> avl_tree_next (a_elem x) h = Ok (List.hd 0 (handles m2), h).
  Proof.
    intros (_ & _ & _ & t & E0 & B & H) Em. assert (E1 : elems t = m1 ++ x :: m2) by congruence.
    destruct (zip_elem t x m1 m2 E1) as (c & l & b & r & Et & Em1 & Em2). rewrite Em2.
    apply (next_ok T cmp obj (zlen m) c l (a_elem x) (a_key x) (a_value x) b r). eapply hp_perm; [symmetry; apply full_plug|]. rewrite <- Et. exact H.
  Qed.
  Lemma previous_avl h T m m1 x m2 : is_avl h T m -> m = m1 ++ x :: m2 -> avl_tree_previous (a_elem x) h = Ok (last (handles m1) 0, h).
  Proof.
    intros (_ & _ & _ & t & E0 & B & H) Em. assert (E1 : elems t = m1 ++ x :: m2) by congruence.
    destruct (zip_elem t x m1 m2 E1) as (c & l & b & r & Et & Em1 & Em2). rewrite Em1.
    apply (previous_ok T cmp obj (zlen m) c l (a_elem x) (a_key x) (a_value x) b r). eapply hp_perm; [symmetry; apply full_plug|]. rewrite <- Et. exact H.
  Qed.
  Lemma pop_first_avl h T x m : is_avl h T (x :: m) ->
    exists h', avl_tree_pop_first T h = Ok (a_elem x, h') /\ is_avl h' T m /\
      only h h' (footprint T (x :: m)) (footprint T m) /\ holds h' x /\ get h' (a_elem x) <> None.
  Proof.
    intros A. destruct (detach_avl h T (x :: m) [] x m A eq_refl) as (h1 & Run & X). exists h1. split; auto.
    unfold avl_tree_pop_first, bnd. rewrite (first_avl _ _ _ A). cbn [handles map List.hd].
    destruct (avl_holds _ _ _ x A ltac:(left; reflexivity)) as [_ NZ]. rewrite (proj2 (Z.eqb_neq _ _) NZ). rewrite Run. reflexivity.
  Qed.
  Lemma pop_last_avl h T x m : is_avl h T (m ++ [x]) ->
    exists h', avl_tree_pop_last T h = Ok (a_elem x, h') /\ is_avl h' T m /\
      only h h' (footprint T (m ++ [x])) (footprint T m) /\ holds h' x /\ get h' (a_elem x) <> None.
  Proof.
    intros A. destruct (detach_avl h T (m ++ [x]) m x [] A eq_refl) as (h1 & Run & X). rewrite app_nil_r in X. exists h1. split; auto.
    unfold avl_tree_pop_last, bnd. rewrite (last_avl _ _ _ A). rewrite handles_last. cbn [handles map last].
    destruct (avl_holds _ _ _ x A ltac:(apply in_or_app; right; left; reflexivity)) as [_ NZ]. rewrite (proj2 (Z.eqb_neq _ _) NZ). rewrite Run. reflexivity.
  Qed.
  Lemma pop_first_empty h T : is_avl h T [] -> avl_tree_pop_first T h = Ok (0, h).
  Proof. intros A. unfold avl_tree_pop_first, bnd. rewrite (first_avl _ _ _ A). reflexivity. Qed.
  Lemma pop_last_empty h T : is_avl h T [] -> avl_tree_pop_last T h = Ok (0, h).
  Proof. intros A. unfold avl_tree_pop_last, bnd. rewrite (last_avl _ _ _ A). reflexivity. Qed.

  (** ** Neighbours *)
  Lemma neighbour_run h T m t m1 m2 k : repr h T m t -> m = m1 ++ m2 ->
    (forall g, (forall a, In a m1 -> g (f k (a_key a)) = false) -> (forall a, In a m2 -> g (f k (a_key a)) = true) ->
      exists n, (let! t0 := ld_avl T in let! n := fuel in before_loop call g n T k (av_obj t0) (av_root t0) 0 0) h
        = Ok ((last (handles m1) 0, n), h) /\ logarithmic n (zlen m)) /\
    (forall g, (forall a, In a m1 -> g (f k (a_key a)) = true) -> (forall a, In a m2 -> g (f k (a_key a)) = false) ->
      exists n, (let! t0 := ld_avl T in let! n := fuel in after_loop call g n T k (av_obj t0) (av_root t0) 0 0) h
        = Ok ((List.hd 0 (handles m2), n), h) /\ logarithmic n (zlen m)).
  Proof.
    intros (E0 & B & H) Em. split.
    - intros g G1 G2. exists (path call cmp obj k g t). split; [|rewrite <- E0; apply count_log; auto; apply path_height].
      cut (reads (full T cmp obj (zlen m) [] t)
        (let! t0 := ld_avl T in let! n := fuel in before_loop call g n T k (av_obj t0) (av_root t0) 0 0)
        (last (handles m1) 0, path call cmp obj k g t)); [auto|].
      shape. norm. eapply r_ld_avl; [intac|]. fields. apply r_fuel. intros n Hn.
      eapply r_perm; [|apply (before_loop_ok call cmp obj T (root t) (zlen m) k g n t 0 [] 0 0) with (m2 := m2); auto]; [perm| |congruence].
      cbn [length] in Hn. pose proof (cells_len 0 t). lia.
    - intros g G1 G2. exists (path call cmp obj k (fun x => negb (g x)) t). split; [|rewrite <- E0; apply count_log; auto; apply path_height].
      cut (reads (full T cmp obj (zlen m) [] t)
        (let! t0 := ld_avl T in let! n := fuel in after_loop call g n T k (av_obj t0) (av_root t0) 0 0)
        (List.hd 0 (handles m2), path call cmp obj k (fun x => negb (g x)) t)); [auto|].
      shape. norm. eapply r_ld_avl; [intac|]. fields. apply r_fuel. intros n Hn.
      eapply r_perm; [|apply (after_loop_ok call cmp obj T (root t) (zlen m) k g n t 0 [] 0 0) with (m1 := m1); auto]; [perm| |congruence].
      cbn [length] in Hn. pose proof (cells_len 0 t). lia.
  Qed.

  (** ** Traversal *)
  Lemma walk_forward h T m n : is_avl h T m -> forall m1 m2, m = m1 ++ m2 ->
    walk avl_tree_next n (List.hd 0 (handles m2)) h = if (length m2 <=? n)%nat then Ok (handles m2, h) else NoFuel.
  Proof.
    intros A. induction n as [|n IH]; intros m1 m2 Em.
    - destruct m2 as [|x m2]; [reflexivity|]. cbn [handles map List.hd walk length Nat.leb].
      destruct (avl_holds _ _ _ x A ltac:(rewrite Em; apply in_or_app; right; left; reflexivity)) as [_ NZ].
      rewrite (proj2 (Z.eqb_neq _ _) NZ). reflexivity.
    - destruct m2 as [|x m2]; [reflexivity|]. cbn [handles map List.hd walk length Nat.leb].
      destruct (avl_holds _ _ _ x A ltac:(rewrite Em; apply in_or_app; right; left; reflexivity)) as [_ NZ].
      rewrite (proj2 (Z.eqb_neq _ _) NZ). unfold bnd. rewrite (next_avl _ _ _ _ _ _ A Em).
      rewrite (IH (m1 ++ [x]) m2) by (rewrite <- app_assoc; exact Em). destruct (length m2 <=? n)%nat; reflexivity.
  Qed.
  Lemma walk_backward h T m n : is_avl h T m -> forall m1 m2, m = m1 ++ m2 ->
    walk avl_tree_previous n (last (handles m1) 0) h = if (length m1 <=? n)%nat then Ok (rev (handles m1), h) else NoFuel.
  Proof.
    intros A. induction n as [|n IH]; intros m1 m2 Em;
      (destruct m1 as [|x m1 _] using rev_ind; [reflexivity|]; rewrite handles_last; cbn [handles map last walk];
       rewrite app_length; cbn [length]; rewrite Nat.add_1_r; cbn [Nat.leb];
       destruct (avl_holds _ _ _ x A ltac:(rewrite Em; apply in_or_app; left; apply in_or_app; right; left; reflexivity)) as [_ NZ];
       rewrite (proj2 (Z.eqb_neq _ _) NZ)).
    - reflexivity.
    - rewrite <- app_assoc in Em. unfold bnd. rewrite (previous_avl _ _ _ _ _ _ A Em). rewrite (IH m1 _ Em).
      destruct (length m1 <=? n)%nat; [|reflexivity]. unfold handles. rewrite map_app, rev_app_distr. reflexivity.
  Qed.
  Lemma forward_avl h T m n : is_avl h T m ->
    traverse_forward T n h = if (length m <=? n)%nat then Ok (handles m, h) else NoFuel.
  Proof. intros A. unfold traverse_forward, bnd. rewrite (first_avl _ _ _ A). apply (walk_forward h T m n A [] m eq_refl). Qed.
  Lemma backward_avl h T m n : is_avl h T m ->
    traverse_backward T n h = if (length m <=? n)%nat then Ok (rev (handles m), h) else NoFuel.
  Proof. intros A. unfold traverse_backward, bnd. rewrite (last_avl _ _ _ A). apply (walk_backward h T m n A m []). rewrite app_nil_r. reflexivity. Qed.

  (** ** Copies *)
  Lemma pairs_increasing m m' : map a_pair m' = map a_pair m -> increasing f m -> increasing f m'.
  Proof.
    revert m'. induction m as [|x m IH]; intros [|y m']; try discriminate; auto. cbn [map]. intros H I.
    injection H as H1 H2 H3. apply increasing_cons in I as [I1 I2]. apply increasing_cons. split; auto.
    intros b Ib. apply (in_map a_pair) in Ib. rewrite H3 in Ib. apply in_map_iff in Ib as (c & Ec & Ic).
    injection Ec as E1 E2. rewrite <- E1, H1. auto.
  Qed.
  Lemma copy_avl h T m : is_avl h T m ->
    exists T' h' m', avl_tree_copy T h = Ok (T', h') /\ map a_pair m' = map a_pair m /\ is_avl h' T' m' /\ is_avl h' T m /\
      apart (footprint T' m') (footprint T m) /\
      (forall x, In x (footprint T' m') -> get h x = None) /\ (forall x, ~ In x (footprint T' m') -> get h' x = get h x) /\
      exists n c c', get h' T = Some (CAvl c) /\ get h' T' = Some (CAvl c') /\
        height_in h' (av_root c) n /\ height_in h' (av_root c') n.
  Proof.
    intros (P & I & Z0 & t & E0 & B & H).
    assert (HS : elems t = [] -> zlen m = 0) by (intros X; rewrite <- E0, X; reflexivity).
    destruct (copy_ok T cmp obj (zlen m) t HS h H) as (T' & D & h' & Run & (t' & S' & PX) & H' & F1 & F2 & F3).
    exists T', h', (elems t'). split; [exact Run|].
    pose proof (same_elems _ _ S') as SE. rewrite E0 in SE. split; [exact SE|].
    assert (Lm : zlen (elems t') = zlen m). { unfold zlen. rewrite <- (map_length a_pair (elems t')), SE, map_length. reflexivity. }
    apply (hp_perm _ _ _ PX) in H'. destruct (hp_split _ _ _ H') as (H1 & H2 & H3).
    split. { split; auto. split; [eapply pairs_increasing; eauto|]. split; [lia|]. exists t'. split; [reflexivity|]. split; [eapply same_bal; eauto|]. rewrite Lm. exact H1. }
    split. { split; auto. split; auto. split; auto. exists t. split; auto. }
    assert (AP : apart (footprint T' (elems t')) (footprint T m)).
    { intros x Ix Jx. rewrite <- E0 in Jx. rewrite <- (in_full T' (zlen m)) in Ix. rewrite <- (in_full T (zlen m)) in Jx. exact (H3 x Ix Jx). }
    split; [exact AP|].
    assert (K : forall x, In x (keys D) <-> In x (footprint T' (elems t')) \/ In x (footprint T m)).
    { intros x. rewrite <- E0. rewrite <- (in_full T' (zlen m)), <- (in_full T (zlen m)), <- in_app_iff, <- keys_app.
      split; apply Permutation_in; apply keys_perm; [|symmetry]; exact PX. }
    assert (K0 : forall x, In x (keys (full T cmp obj (zlen m) [] t)) <-> In x (footprint T m)) by (intros x; rewrite in_full, E0; reflexivity).
    split; [|split].
    - intros x Ix. apply F1; [rewrite K0; apply AP; exact Ix|rewrite K; auto].
    - intros x Nx. destruct (in_dec Z.eq_dec x (footprint T m)) as [J|J].
      + rewrite <- K0 in J. apply in_keys in J as (c & J). rewrite (proj2 H2 _ _ J), (proj2 H _ _ J). reflexivity.
      + apply F2; [rewrite K0; exact J|]. rewrite K. tauto.
    - exists (height t), (mk_avl cmp obj (root t) (zlen m)), (mk_avl cmp obj (root t') (zlen m)).
      split; [apply H2; left; reflexivity|]. split; [apply H1; left; reflexivity|]. cbn [av_root]. split.
      + apply (height_in_ok h' t 0 []). rewrite app_nil_r. apply (hp_app_r _ [_] _ H2).
      + rewrite <- (same_height _ _ S'). apply (height_in_ok h' t' 0 []). rewrite app_nil_r. apply (hp_app_r _ [_] _ H1).
  Qed.

  (** ** Histories *)
  Lemma pairs_handles m m' : map a_pair m = map a_pair m' -> handles m = handles m' -> m = m'.
  Proof.
    revert m'. induction m as [|[[e k] v] m IH]; intros [|[[e' k'] v'] m']; try discriminate; auto. cbn [map handles].
    unfold a_pair, a_elem, a_key, a_value. cbn [fst snd]. intros H1 H2. injection H1 as -> -> H1. injection H2 as -> H2. f_equal. apply IH; auto.
  Qed.
  Lemma op_avl h T m h' r m' : is_avl h T m -> avl_op call f T h m h' r m' ->
    is_avl h' T m' /\ only h h' (footprint T m) (footprint T m') /\
    (forall x, In x m -> ~ In (a_elem x) (footprint T m') -> holds h' x /\ get h' (a_elem x) <> None \/ get h' (a_elem x) = None /\ avl_tree_remove T (a_elem x) h = Ok (tt, h')).
  Proof.
    intros A Op. pose proof A as (P & _). 
    assert (OUT : forall m1 x m2 y, m = m1 ++ x :: m2 -> In y m -> ~ In (a_elem y) (footprint T (m1 ++ m2)) -> y = x).
    { intros m1 x m2 y -> Iy Ny. apply in_app_or in Iy as [Iy|[->|Iy]]; auto; exfalso; apply Ny; right; apply in_map; apply in_or_app; auto. }
    assert (SELF : is_avl h T m -> only h h (footprint T m) (footprint T m)).
    { intros A0. split; [tauto|]. split; [auto|]. intros x Ix. eapply avl_alloc; eauto. }
    destruct Op as [k v r0 e m1 m2 Em A1 A2 Sp R1 R2|k v r0 e e0 k0 v0 m1 m2 Em Hk R1 R2|k r0 e k0 v m1 m2 Em Hk R1|k r0 AB R1|e k v m1 m2 Em R1|e k v m1 m2 Em R1|r0 R1|r0 R1].
    - destruct (put_new_avl h T m k v m1 m2 A Sp Em A1 A2) as (e1 & h1 & n & _ & Run & A' & ON & G & _).
      rewrite Run in R1. injection R1 as <- <-. rewrite G in R2. injection R2 as <-. split; auto. split; auto.
      intros x Ix Nx. exfalso. apply Nx. right. apply in_map. rewrite Em in Ix. apply in_app_or in Ix as [Ix|Ix]; apply in_or_app; auto. right; right; auto.
    - destruct (put_replace_avl h T m k v m1 (e0, k0, v0) m2 A Em Hk) as (e1 & h1 & n & _ & Run & A' & ON & G & HO & GO & _).
      rewrite Run in R1. injection R1 as <- <-. rewrite G in R2. injection R2 as <-. split; auto. split; auto.
      intros x Ix Nx. left. rewrite (OUT m1 (e0, k0, v0) m2 x Em Ix); auto.
      intros J. apply Nx. unfold footprint, handles in *. rewrite map_app in *. cbn [map]. simpl in *. rewrite in_app_iff in *. simpl. tauto.
    - destruct (pop_avl h T m k m1 (e, k0, v) m2 A Em Hk) as (h1 & Run & A' & ON & HO & GO).
      rewrite Run in R1. injection R1 as <- <-. split; auto. split; auto.
      intros x Ix Nx. left. rewrite (OUT m1 (e, k0, v) m2 x Em Ix Nx). auto.
    - rewrite (pop_none_avl h T m k A AB) in R1. injection R1 as <- <-. split; auto. split; auto.
      intros x Ix Nx. exfalso. apply Nx. right. apply in_map. auto.
    - destruct (detach_avl h T m m1 (e, k, v) m2 A Em) as (h1 & Run & A' & ON & HO & GO).
      change (a_elem (e, k, v)) with e in *. rewrite Run in R1. injection R1 as <-. split; auto. split; auto.
      intros x Ix Nx. left. rewrite (OUT m1 (e, k, v) m2 x Em Ix Nx). auto.
    - destruct (remove_avl h T m m1 (e, k, v) m2 A Em) as (h1 & Run & A' & ON & GO).
      change (a_elem (e, k, v)) with e in *. pose proof R1 as R0. rewrite Run in R1. injection R1 as <-. split; auto. split; auto.
      intros x Ix Nx. right. rewrite (OUT m1 (e, k, v) m2 x Em Ix Nx). auto.
    - destruct m as [|x m].
      + rewrite (pop_first_empty h T A) in R1. injection R1 as <- <-. cbn [tl]. split; auto. split; auto. intros x [].
      + destruct (pop_first_avl h T x m A) as (h1 & Run & A' & ON & HO & GO). rewrite Run in R1. injection R1 as <- <-.
        cbn [tl]. split; auto. split; auto. intros y Iy Ny. left. rewrite (OUT [] x m y eq_refl Iy Ny). auto.
    - destruct m as [|x m _] using rev_ind.
      + rewrite (pop_last_empty h T A) in R1. injection R1 as <- <-. cbn [removelast]. split; auto. split; auto. intros x [].
      + destruct (pop_last_avl h T x m A) as (h1 & Run & A' & ON & HO & GO). rewrite Run in R1. injection R1 as <- <-.
        rewrite removelast_last. split; auto. split; auto. intros y Iy Ny. left. rewrite (OUT m x [] y eq_refl Iy ltac:(rewrite app_nil_r; exact Ny)). auto.
  Qed.
  Lemma destroy_avl h T m : is_avl h T m -> exists h', destroy_avl_tree T h = Ok (tt, h') /\
    (forall x, In x (footprint T m) -> get h' x = None) /\ (forall x, ~ In x (footprint T m) -> get h' x = get h x).
  Proof.
    intros (P & I & Z0 & t & E0 & B & H).
    destruct (destroy_ok T cmp obj (zlen m) t h H) as (u & D & h' & Run & [-> ->] & _ & F1 & F2 & F3).
    assert (K0 : forall x, In x (keys (full T cmp obj (zlen m) [] t)) <-> In x (footprint T m)) by (intros x; rewrite in_full, E0; reflexivity).
    exists h'. split; [exact Run|]. split; intros x Hx.
    - apply F3; [rewrite K0; exact Hx|intros []].
    - apply F2; [rewrite K0; exact Hx|intros []].
  Qed.
  Lemma ops_avl h T m h' m' : is_avl h T m -> avl_ops call f T h m h' m' ->
    is_avl h' T m' /\ (forall x, ~ In x (footprint T m) -> get h x <> None -> get h' x = get h x /\ ~ In x (footprint T m')).
  Proof.
    intros A Ops. induction Ops as [h m|h m r h1 m1 h2 m2 Op _ IH]; [auto|].
    destruct (op_avl _ _ _ _ _ _ A Op) as (A1 & (O1 & O2 & O3) & _). destruct (IH A1) as [A2 F]. split; auto.
    intros x Nx Gx. assert (N1 : ~ In x (footprint T m1)) by (intros J; apply Gx; apply O1; auto).
    rewrite <- (O2 x Nx N1) in Gx |- *. apply F; auto.
  Qed.
  Lemma balance_avl h T m x : is_avl h T m -> In x m -> exists c hl hr, get h (a_elem x) = Some (CAelem c) /\
    height_in h (ae_left c) hl /\ height_in h (ae_right c) hr /\ -1 <= hr - hl <= 1 /\ ae_balance c = hr - hl.
  Proof.
    intros (_ & _ & _ & t & E0 & B & H) I. apply in_split in I as (m1 & m2 & Em). rewrite Em in E0.
    destruct (zip_elem _ _ _ _ E0) as (c & l & b & r & -> & _ & _).
    eapply hp_perm in H; [|symmetry; apply full_plug]. apply bal_plug in B as [(B1 & B2 & B3 & B4) _].
    unfold full in H. set (X := hd _ _ _ _ _ _) in H. cbn [cells] in H. clearbody X.
    exists (mk_aelem (a_key x) (a_value x) (root l) (root r) (par 0 c) b), (height l), (height r).
    split; [apply H; apply in_or_app; right; left; reflexivity|]. cbn [ae_left ae_right ae_balance].
    split; [|split; [|split; [lia|lia]]].
    - eapply (height_in_ok h l (a_elem x)). eapply hp_perm; [|exact H].
      instantiate (1 := (a_elem x, CAelem (mk_aelem (a_key x) (a_value x) (root l) (root r) (par 0 c) b)) :: cells (a_elem x) r ++ X). perm.
    - eapply (height_in_ok h r (a_elem x)). eapply hp_perm; [|exact H].
      instantiate (1 := (a_elem x, CAelem (mk_aelem (a_key x) (a_value x) (root l) (root r) (par 0 c) b)) :: cells (a_elem x) l ++ X). perm.
  Qed.

  Lemma greatest_last (P : Z -> Prop) m1 m2 : total_preorder f -> increasing f (m1 ++ m2) ->
    (forall a, In a m1 -> P (a_key a)) -> (forall a, In a m2 -> ~ P (a_key a)) -> greatest f P (m1 ++ m2) (last (handles m1) 0).
  Proof.
    intros T I H1 H2. destruct m1 as [|x m1 _] using rev_ind.
    - left. split; [reflexivity|]. exact H2.
    - right. exists x. rewrite handles_last. split; [apply in_or_app; left; apply in_or_app; right; left; reflexivity|]. split; [reflexivity|].
      split; [apply H1; apply in_or_app; right; left; reflexivity|]. intros b Ib Pb. apply in_app_or in Ib as [Ib|Ib]; [|destruct (H2 b Ib Pb)].
      apply increasing_app in I as (I & _ & _). apply increasing_app in I as (_ & _ & I). apply in_app_or in Ib as [Ib|[<-|[]]].
      + specialize (I b x Ib ltac:(left; reflexivity)). lia.
      + rewrite f_refl by auto. lia.
  Qed.
  Lemma least_first (P : Z -> Prop) m1 m2 : total_preorder f -> increasing f (m1 ++ m2) ->
    (forall a, In a m1 -> ~ P (a_key a)) -> (forall a, In a m2 -> P (a_key a)) -> least f P (m1 ++ m2) (List.hd 0 (handles m2)).
  Proof.
    intros T I H1 H2. destruct m2 as [|x m2].
    - left. split; [reflexivity|]. rewrite app_nil_r. exact H1.
    - right. exists x. split; [apply in_or_app; right; left; reflexivity|]. split; [reflexivity|].
      split; [apply H2; left; reflexivity|]. intros b Ib Pb. apply in_app_or in Ib as [Ib|Ib]; [destruct (H1 b Ib Pb)|].
      apply increasing_app in I as (_ & I & _). apply increasing_cons in I as [_ I]. destruct Ib as [<-|Ib].
      + rewrite f_refl by auto. lia.
      + specialize (I b Ib). lia.
  Qed.
  (** The two ways to cut the sequence at a key. *)
  Lemma cut_lt k m : total_preorder f -> increasing f m -> exists m1 m2, m = m1 ++ m2 /\
    (forall a, In a m1 -> f (a_key a) k < 0 /\ f k (a_key a) > 0) /\ (forall a, In a m2 -> f (a_key a) k >= 0 /\ f k (a_key a) <= 0).
  Proof.
    intros P I. pose proof (f_gt f P) as FG.
    destruct (cmp_cases f P k m I) as [(m1 & m2 & Em & A1 & A2 & _)|(m1 & x & m2 & Em & X & A1 & A2)].
    - exists m1, m2. split; auto. split; intros a Ia.
      + specialize (A1 a Ia). pose proof (FG (a_key a) k). lia.
      + specialize (A2 a Ia). pose proof (FG k (a_key a)). lia.
    - exists m1, (x :: m2). split; auto. split; intros a Ia.
      + specialize (A1 a Ia). pose proof (FG (a_key a) k). lia.
      + destruct Ia as [<-|Ia]; [apply (f_eq f P) in X as X'; lia|]. specialize (A2 a Ia). pose proof (FG k (a_key a)). lia.
  Qed.
  Lemma cut_le k m : total_preorder f -> increasing f m -> exists m1 m2, m = m1 ++ m2 /\
    (forall a, In a m1 -> f (a_key a) k <= 0 /\ f k (a_key a) >= 0) /\ (forall a, In a m2 -> f (a_key a) k > 0 /\ f k (a_key a) < 0).
  Proof.
    intros P I. pose proof (f_gt f P) as FG.
    destruct (cmp_cases f P k m I) as [(m1 & m2 & Em & A1 & A2 & _)|(m1 & x & m2 & Em & X & A1 & A2)].
    - exists m1, m2. split; auto. split; intros a Ia.
      + specialize (A1 a Ia). pose proof (FG (a_key a) k). lia.
      + specialize (A2 a Ia). pose proof (FG k (a_key a)). lia.
    - exists (m1 ++ [x]), m2. rewrite <- app_assoc. split; auto. split; intros a Ia.
      + apply in_app_or in Ia as [Ia|[<-|[]]]; [|apply (f_eq f P) in X as X'; lia]. specialize (A1 a Ia). pose proof (FG (a_key a) k). lia.
      + specialize (A2 a Ia). pose proof (FG k (a_key a)). lia.
  Qed.
  Lemma neighbours_avl h T m k : is_avl h T m ->
    (exists e n, avl_tree_get_before_counted call T k h = Ok ((e, n), h) /\ logarithmic n (zlen m) /\ greatest f (fun k' => f k' k < 0) m e) /\
    (exists e n, avl_tree_get_on_or_before_counted call T k h = Ok ((e, n), h) /\ logarithmic n (zlen m) /\ greatest f (fun k' => f k' k <= 0) m e) /\
    (exists e n, avl_tree_get_after_counted call T k h = Ok ((e, n), h) /\ logarithmic n (zlen m) /\ least f (fun k' => f k k' < 0) m e) /\
    (exists e n, avl_tree_get_on_or_after_counted call T k h = Ok ((e, n), h) /\ logarithmic n (zlen m) /\ least f (fun k' => f k k' <= 0) m e).
  Proof.
    intros (P & I & _ & t & R).
    destruct (cut_lt k m P I) as (l1 & l2 & El & L1 & L2). destruct (cut_le k m P I) as (g1 & g2 & Eg & G1 & G2).
    destruct (neighbour_run h T m t l1 l2 k R El) as [NL1 NL2]. destruct (neighbour_run h T m t g1 g2 k R Eg) as [NG1 NG2].
    split; [|split; [|split]].
    - destruct (NL1 (fun c => c <=? 0)) as (n & Run & L); [intros a Ia; specialize (L1 a Ia); lia|intros a Ia; specialize (L2 a Ia); lia|].
      eexists _, n. split; [exact Run|]. split; [exact L|]. rewrite El. apply greatest_last; auto; [congruence| |]; intros a Ia.
      + apply L1; auto.
      + specialize (L2 a Ia). lia.
    - destruct (NG1 (fun c => c <? 0)) as (n & Run & L); [intros a Ia; specialize (G1 a Ia); lia|intros a Ia; specialize (G2 a Ia); lia|].
      eexists _, n. split; [exact Run|]. split; [exact L|]. rewrite Eg. apply greatest_last; auto; [congruence| |]; intros a Ia.
      + apply G1; auto.
      + specialize (G2 a Ia). lia.
    - destruct (NG2 (fun c => c >=? 0)) as (n & Run & L); [intros a Ia; specialize (G1 a Ia); lia|intros a Ia; specialize (G2 a Ia); lia|].
      eexists _, n. split; [exact Run|]. split; [exact L|]. rewrite Eg. apply least_first; auto; [congruence| |]; intros a Ia.
      + specialize (G1 a Ia). lia.
      + apply G2; auto.
    - destruct (NL2 (fun c => c >? 0)) as (n & Run & L); [intros a Ia; specialize (L1 a Ia); lia|intros a Ia; specialize (L2 a Ia); lia|].
      eexists _, n. split; [exact Run|]. split; [exact L|]. rewrite El. apply least_first; auto; [congruence| |]; intros a Ia.
      + specialize (L1 a Ia). lia.
      + apply L2; auto.
  Qed.

  (** ** Elements that stay *)
  Lemma found_avl h T m e k v : is_avl h T m -> In (e, k, v) m -> found call h T e k v.
  Proof.
    intros A I. destruct (avl_holds _ _ _ _ A I) as [[H1 H2] _]. split; [exact H1|]. split; [exact H2|].
    apply (proj1 (get_avl h T m k A) (e, k, v) I). apply f_refl. apply A.
  Qed.
  Lemma stays_put h T m e k v k' v' r h' : is_avl h T m -> sparse m -> In (e, k, v) m ->
    avl_tree_put call T k' v' h = Ok (r, h') -> e <> r -> found call h' T e k v.
  Proof.
    intros A Sp I R N. pose proof A as (P & IN & _).
    destruct (cmp_cases f P k' m IN) as [(m1 & m2 & Em & A1 & A2 & _)|(m1 & x & m2 & Em & X & A1 & A2)].
    - destruct (put_new_avl h T m k' v' m1 m2 A Sp Em A1 A2) as (e1 & h1 & n & _ & Run & A' & _).
      rewrite Run in R. injection R as <- <-. eapply found_avl; [exact A'|]. rewrite Em in I.
      apply in_app_or in I as [I|I]; apply in_or_app; auto. right; right; auto.
    - destruct (put_replace_avl h T m k' v' m1 x m2 A Em X) as (e1 & h1 & n & _ & Run & A' & _).
      rewrite Run in R. injection R as <- <-. eapply found_avl; [exact A'|]. rewrite Em in I.
      apply in_app_or in I as [I|[->|I]]; [apply in_or_app; auto|destruct N; reflexivity|]. apply in_or_app; right; right; auto.
  Qed.
  Lemma stays_out T m1 x m2 e k v h' : In (e, k, v) (m1 ++ x :: m2) -> e <> a_elem x -> is_avl h' T (m1 ++ m2) -> found call h' T e k v.
  Proof.
    intros I N A. eapply found_avl; [exact A|]. apply in_app_or in I as [I|[->|I]]; [apply in_or_app; auto|destruct N; reflexivity|apply in_or_app; auto].
  Qed.
  Lemma stays_pop h T m e k v k' r h' : is_avl h T m -> In (e, k, v) m ->
    avl_tree_pop call T k' h = Ok (r, h') -> e <> r -> found call h' T e k v.
  Proof.
    intros A I R N. pose proof A as (P & IN & _).
    destruct (cmp_cases f P k' m IN) as [(m1 & m2 & Em & A1 & A2 & AB)|(m1 & x & m2 & Em & X & A1 & A2)].
    - rewrite (pop_none_avl h T m k' A AB) in R. injection R as <- <-. eapply found_avl; eauto.
    - destruct (pop_avl h T m k' m1 x m2 A Em X) as (h1 & Run & A' & _). rewrite Run in R. injection R as <- <-.
      rewrite Em in I. eapply stays_out; eauto.
  Qed.
  Lemma stays_detach h T m e k v x : is_avl h T m -> In (e, k, v) m -> In x m -> e <> a_elem x -> 
    (forall h', avl_tree_detach T (a_elem x) h = Ok (tt, h') -> found call h' T e k v) /\
    (forall h', avl_tree_remove T (a_elem x) h = Ok (tt, h') -> found call h' T e k v).
  Proof.
    intros A I Ix N. apply in_split in Ix as (m1 & m2 & Em). split; intros h' R.
    - destruct (detach_avl h T m m1 x m2 A Em) as (h1 & Run & A' & _). rewrite Run in R. injection R as <-. rewrite Em in I. eapply stays_out; eauto.
    - destruct (remove_avl h T m m1 x m2 A Em) as (h1 & Run & A' & _). rewrite Run in R. injection R as <-. rewrite Em in I. eapply stays_out; eauto.
  Qed.
  Lemma stays_ends h T m e k v r h' : is_avl h T m -> In (e, k, v) m ->
    avl_tree_pop_first T h = Ok (r, h') \/ avl_tree_pop_last T h = Ok (r, h') -> e <> r -> found call h' T e k v.
  Proof.
    intros A I [R|R] N.
    - destruct m as [|x m]; [destruct I|]. destruct (pop_first_avl h T x m A) as (h1 & Run & A' & _).
      rewrite Run in R. injection R as <- <-. apply (stays_out T [] x m e k v h1); auto.
    - destruct m as [|x m _] using rev_ind; [destruct I|]. destruct (pop_last_avl h T x m A) as (h1 & Run & A' & _).
      rewrite Run in R. injection R as <- <-. apply (stays_out T m x [] e k v h1); auto. rewrite app_nil_r. exact A'.
  Qed.

  Lemma steps_inverse h T m e e' : is_avl h T m -> In e (handles m) -> In e' (handles m) ->
    (avl_tree_next e h = Ok (e', h) <-> avl_tree_previous e' h = Ok (e, h)).
  Proof.
    intros A I I'. apply in_map_iff in I as (x & <- & Ix). apply in_map_iff in I' as (y & <- & Iy).
    pose proof (proj2 (avl_holds _ _ _ _ A Ix)) as NX. pose proof (proj2 (avl_holds _ _ _ _ A Iy)) as NY.
    pose proof (avl_nodup _ _ _ A) as ND. unfold footprint in ND. apply NoDup_cons_iff in ND as [_ ND].
    assert (INJ : forall a b, In a m -> In b m -> a_elem a = a_elem b -> a = b).
    { clear - ND. induction m as [|c m IH]; [intros a b []|]. intros a b [->|Ia] [->|Ib] H; auto; cbn [handles map] in ND; apply NoDup_cons_iff in ND as [N1 N2].
      - destruct N1. rewrite H. apply in_map. exact Ib.
      - destruct N1. rewrite <- H. apply in_map. exact Ia.
      - apply IH; auto. }
    split.
    - apply in_split in Ix as (m1 & m2 & Em). rewrite (next_avl _ _ _ _ _ _ A Em). intros H. injection H as H.
      destruct m2 as [|z m2]; [cbn [handles map List.hd] in H; congruence|]. cbn [handles map List.hd] in H.
      assert (z = y) as ->. { apply INJ; auto. rewrite Em. apply in_or_app. right; right; left; reflexivity. }
      change (m1 ++ x :: y :: m2) with (m1 ++ [x] ++ y :: m2) in Em. rewrite app_assoc in Em.
      rewrite (previous_avl _ _ _ _ _ _ A Em), handles_last. reflexivity.
    - apply in_split in Iy as (m1 & m2 & Em). rewrite (previous_avl _ _ _ _ _ _ A Em). intros H. injection H as H.
      destruct m1 as [|z m1 _] using rev_ind; [cbn [handles map last] in H; congruence|]. rewrite handles_last in H. cbn [handles map last] in H.
      assert (z = x) as ->. { apply INJ; auto. rewrite Em. apply in_or_app. left. apply in_or_app. right; left; reflexivity. }
      rewrite <- app_assoc in Em. rewrite (next_avl _ _ _ _ _ _ A Em). reflexivity.
  Qed.
  Lemma not_in_after_put T e e' k v m1 m2 : e <> e' -> ~ In e' (footprint T (m1 ++ m2)) -> ~ In e' (footprint T (m1 ++ (e, k, v) :: m2)).
  Proof.
    intros N NI J. apply NI. unfold footprint, handles in *. rewrite map_app in *. cbn [map a_elem fst] in J. simpl in *. rewrite in_app_iff in *. simpl in J. intuition.
  Qed.
  Lemma fp_mid T m1 x m2 y : In y (footprint T (m1 ++ x :: m2)) <-> y = a_elem x \/ In y (footprint T (m1 ++ m2)).
  Proof. unfold footprint, handles. rewrite !map_app. cbn [map In]. rewrite !in_app_iff. simpl. intuition. Qed.
  Lemma put_allocates h T m k v r h' : is_avl h T m -> sparse m -> avl_tree_put call T k v h = Ok (r, h') ->
    exists e, avl_tree_get call T k h' = Ok (e, h') /\ get h e = None /\ get h' e <> None /\
      forall x, x <> e -> (get h x = None <-> get h' x = None).
  Proof.
    intros A Sp R. pose proof A as (P & IN & _).
    assert (K : forall m1 m2 e, (forall y, In y (footprint T m) -> In y (footprint T (m1 ++ m2)) \/ get h' y <> None) ->
      only h h' (footprint T m) (footprint T (m1 ++ (e, k, v) :: m2)) -> incl (footprint T (m1 ++ m2)) (footprint T m) ->
      forall x, x <> e -> (get h x = None <-> get h' x = None)).
    { intros m1 m2 e F (O1 & O2 & O3) IC x Nx. destruct (in_dec Z.eq_dec x (footprint T m)) as [J|J].
      - pose proof (avl_alloc _ _ _ _ A J) as G. assert (get h' x <> None); [|tauto].
        destruct (F x J) as [J'|]; auto. apply O3. rewrite fp_mid. auto.
      - rewrite O2; [tauto|exact J|]. rewrite fp_mid. intros [J'|J']; [apply Nx; exact J'|]. apply J. apply IC. exact J'. }
    destruct (cmp_cases f P k m IN) as [(m1 & m2 & Em & A1 & A2 & _)|(m1 & x & m2 & Em & X & A1 & A2)].
    - destruct (put_new_avl h T m k v m1 m2 A Sp Em A1 A2) as (e & h1 & n & _ & Run & A' & ON & G & GN & _).
      rewrite Run in R. injection R as <- <-. exists e. split; [exact G|]. split; [exact GN|]. split.
      + apply ON. rewrite fp_mid. auto.
      + apply (K m1 m2 e); auto; rewrite <- Em; [auto|apply incl_refl].
    - destruct (put_replace_avl h T m k v m1 x m2 A Em X) as (e & h1 & n & _ & Run & A' & ON & G & _ & GX & GN & NE & _).
      rewrite Run in R. injection R as <- <-. exists e. split; [exact G|]. split; [exact GN|]. split.
      + apply ON. rewrite fp_mid. auto.
      + apply (K m1 m2 e); auto; rewrite Em.
        * intros y. rewrite fp_mid. intros [->|J]; auto.
        * intros y J. rewrite fp_mid. auto.
  Qed.
  Lemma detach_frees h T m1 e k v m2 h' : is_avl h T (m1 ++ (e, k, v) :: m2) ->
    (avl_tree_detach T e h = Ok (tt, h') -> forall x, get h x = None <-> get h' x = None) /\
    (avl_tree_remove T e h = Ok (tt, h') -> get h' e = None /\ forall x, x <> e -> (get h x = None <-> get h' x = None)).
  Proof.
    intros A.
    assert (K : only h h' (footprint T (m1 ++ (e, k, v) :: m2)) (footprint T (m1 ++ m2)) -> forall x, x <> e -> (get h x = None <-> get h' x = None)).
    { intros (O1 & O2 & O3) x Nx. destruct (in_dec Z.eq_dec x (footprint T (m1 ++ (e, k, v) :: m2))) as [J|J].
      - pose proof (avl_alloc _ _ _ _ A J) as G. assert (get h' x <> None); [|tauto]. apply O3.
        rewrite fp_mid in J. cbn [a_elem fst] in J. tauto.
      - rewrite O2; [tauto|exact J|]. rewrite fp_mid in J. tauto. }
    split; intros R.
    - destruct (detach_avl h T _ m1 (e, k, v) m2 A eq_refl) as (h1 & Run & A' & ON & _ & G).
      change (a_elem (e, k, v)) with e in *. rewrite Run in R. injection R as <-. intros x. destruct (Z.eq_dec x e) as [->|N]; [|apply K; auto].
      assert (get h e <> None); [|tauto]. eapply avl_alloc; [exact A|]. rewrite fp_mid. auto.
    - destruct (remove_avl h T _ m1 (e, k, v) m2 A eq_refl) as (h1 & Run & A' & ON & G).
      change (a_elem (e, k, v)) with e in *. rewrite Run in R. injection R as <-. auto.
  Qed.
End hist.

Lemma reorder_avl call call' cmp obj h T m : is_avl call cmp obj h T m -> total_preorder (fun k1 k2 => call' cmp k1 k2 obj) ->
  increasing (fun k1 k2 => call' cmp k1 k2 obj) m -> is_avl call' cmp obj h T m.
Proof. intros (_ & _ & Z0 & t & R) P I. split; [exact P|]. split; [exact I|]. split; [exact Z0|]. exists t. exact R. Qed.
Lemma history_avl call cmp obj h T m : avl_history call cmp obj h T m -> is_avl call cmp obj h T m.
Proof.
  induction 1 as [call cmp obj h t h' P R|call cmp obj h t m r h' m' H IH Op|call cmp obj h t m t' h' m' n H IH R1 Ep R2|call cmp obj h t m h' H IH F|call cmp obj call' h t m H IH P I].
  - destruct (make_avl call cmp obj h P) as (T' & h1 & Run & A & _). rewrite Run in R. injection R as <- <-. exact A.
  - eapply op_avl; eauto.
  - destruct (copy_avl call cmp obj h t m IH) as (T' & h1 & m1 & Run & Ep1 & A & _). rewrite Run in R1. injection R1 as <- <-.
    rewrite (forward_avl _ _ _ _ _ _ n A) in R2. destruct (length m1 <=? n)%nat; [|discriminate]. injection R2 as R2.
    rewrite (pairs_handles m' m1); auto. congruence.
  - eapply avl_frame; eauto.
  - eapply reorder_avl; eauto.
Qed.
