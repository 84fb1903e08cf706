(** Walking over all elements of an AVL tree follows every link twice (C114). *)
From Verif Require Import Base Heap Sep ListProofs AvlModel AvlSpec AvlProofs AvlDetach AvlReads AvlHist AvlAnySpec AvlAny AvlDepth AvlWalkModel.
From Coq Require Import Permutation.

(** ** The counting functions are the functions of the model *)
Lemma bnd_same {A B} (m : M A) (f g : A -> M B) h : (forall a h', f a h' = g a h') -> bnd m f h = bnd m g h.
Proof. intros E. unfold bnd. destruct (m h) as [[a h']| | |]; [apply E|reflexivity..]. Qed.
Definition first {A} (m : M (A * Z)) : M A := let! r := m in ret (fst r).

Lemma leftmost_same n : forall e h, first (leftmost_moves n e) h = leftmost n e h.
Proof.
  induction n as [|n IH]; intros e h; unfold first; cbn [leftmost leftmost_moves]; [reflexivity|].
  rewrite bnd_assoc. apply bnd_same; intros c h1. destruct (_ =? 0); [reflexivity|].
  rewrite bnd_assoc. rewrite <- (IH _ h1). apply bnd_same. reflexivity.
Qed.
Lemma rightmost_same n : forall e h, first (rightmost_moves n e) h = rightmost n e h.
Proof.
  induction n as [|n IH]; intros e h; unfold first; cbn [rightmost rightmost_moves]; [reflexivity|].
  rewrite bnd_assoc. apply bnd_same; intros c h1. destruct (_ =? 0); [reflexivity|].
  rewrite bnd_assoc. rewrite <- (IH _ h1). apply bnd_same. reflexivity.
Qed.
Lemma climb_right_same n : forall e h, first (climb_right_moves n e) h = climb_right n e h.
Proof.
  induction n as [|n IH]; intros e h; unfold first; cbn [climb_right climb_right_moves]; [reflexivity|].
  rewrite bnd_assoc. apply bnd_same; intros c h1. destruct (_ =? 0); [reflexivity|].
  rewrite bnd_assoc. apply bnd_same; intros p h2. destruct (_ =? _); [|reflexivity].
  rewrite bnd_assoc. rewrite <- (IH _ h2). apply bnd_same. reflexivity.
Qed.
Lemma climb_left_same n : forall e h, first (climb_left_moves n e) h = climb_left n e h.
Proof.
  induction n as [|n IH]; intros e h; unfold first; cbn [climb_left climb_left_moves]; [reflexivity|].
  rewrite bnd_assoc. apply bnd_same; intros c h1. destruct (_ =? 0); [reflexivity|].
  rewrite bnd_assoc. apply bnd_same; intros p h2. destruct (_ =? _); [|reflexivity].
  rewrite bnd_assoc. rewrite <- (IH _ h2). apply bnd_same. reflexivity.
Qed.
Lemma first_cong {A B} (m : M (A * Z)) (m' : M A) (f : A * Z -> M B) (g : A -> M B) h :
  (forall h, first m h = m' h) -> (forall a h', f a h' = g (fst a) h') -> bnd m f h = bnd m' g h.
Proof.
  intros E F. unfold bnd. specialize (E h). unfold first, bnd in E.
  destruct (m h) as [[a h']| | |]; rewrite <- E; [apply F|reflexivity..].
Qed.
Lemma next_descendant_same e h : first (next_descendant_moves e) h = next_descendant e h.
Proof.
  unfold first, next_descendant_moves, next_descendant. rewrite bnd_assoc. apply bnd_same; intros c h1.
  destruct (_ =? 0); [reflexivity|]. rewrite bnd_assoc. apply bnd_same; intros n h2. rewrite bnd_assoc.
  rewrite <- (leftmost_same n _ h2). apply bnd_same. reflexivity.
Qed.
Lemma previous_descendant_same e h : first (previous_descendant_moves e) h = previous_descendant e h.
Proof.
  unfold first, previous_descendant_moves, previous_descendant. rewrite bnd_assoc. apply bnd_same; intros c h1.
  destruct (_ =? 0); [reflexivity|]. rewrite bnd_assoc. apply bnd_same; intros n h2. rewrite bnd_assoc.
  rewrite <- (rightmost_same n _ h2). apply bnd_same. reflexivity.
Qed.
Lemma next_same e h : first (avl_tree_next_moves e) h = avl_tree_next e h.
Proof.
  unfold first, avl_tree_next_moves, avl_tree_next. rewrite bnd_assoc.
  apply first_cong; [apply next_descendant_same|]. intros a h1. destruct (fst a =? 0); [|reflexivity].
  rewrite bnd_assoc. apply bnd_same; intros n h2. apply climb_right_same.
Qed.
Lemma previous_same e h : first (avl_tree_previous_moves e) h = avl_tree_previous e h.
Proof.
  unfold first, avl_tree_previous_moves, avl_tree_previous. rewrite bnd_assoc.
  apply first_cong; [apply previous_descendant_same|]. intros a h1. destruct (fst a =? 0); [|reflexivity].
  rewrite bnd_assoc. apply bnd_same; intros n h2. apply climb_left_same.
Qed.
Lemma first_same t h : first (avl_tree_get_first_moves t) h = avl_tree_get_first t h.
Proof.
  unfold first, avl_tree_get_first_moves, avl_tree_get_first. rewrite bnd_assoc. apply bnd_same; intros b h1.
  destruct b; [reflexivity|]. rewrite bnd_assoc. apply bnd_same; intros c h2. rewrite bnd_assoc.
  apply bnd_same; intros n h3. apply leftmost_same.
Qed.
Lemma last_same t h : first (avl_tree_get_last_moves t) h = avl_tree_get_last t h.
Proof.
  unfold first, avl_tree_get_last_moves, avl_tree_get_last. rewrite bnd_assoc. apply bnd_same; intros b h1.
  destruct b; [reflexivity|]. rewrite bnd_assoc. apply bnd_same; intros c h2. rewrite bnd_assoc.
  apply bnd_same; intros n h3. apply rightmost_same.
Qed.

(** ** The counts *)
Fixpoint spine_l (t : tree) : Z :=
  match t with E => 0 | N l _ _ _ _ _ => match l with E => 0 | _ => 1 + spine_l l end end.
Fixpoint spine_r (t : tree) : Z :=
  match t with E => 0 | N _ _ _ _ _ r => match r with E => 0 | _ => 1 + spine_r r end end.
Fixpoint up_r (c : ctx) : Z :=
  match c with [] => 0 | FL _ _ _ _ _ :: _ => 1 | FR _ _ _ _ _ :: c => 1 + up_r c end.
Fixpoint up_l (c : ctx) : Z :=
  match c with [] => 0 | FR _ _ _ _ _ :: _ => 1 | FL _ _ _ _ _ :: c => 1 + up_l c end.
Definition is_E (t : tree) : bool := match t with E => true | _ => false end.
Definition next_cost (c : ctx) (t : tree) : Z :=
  match t with E => 0 | N _ _ _ _ _ r => if is_E r then up_r c else 1 + spine_l r end.
Definition previous_cost (c : ctx) (t : tree) : Z :=
  match t with E => 0 | N l _ _ _ _ _ => if is_E l then up_l c else 1 + spine_r l end.

(** All places of the elements of a tree, in order. *)
Fixpoint places (c : ctx) (t : tree) : list (ctx * tree) :=
  match t with
  | E => []
  | N l a k v b r => places (FL a k v b r :: c) l ++ (c, t) :: places (FR l a k v b :: c) r
  end.
Fixpoint sum (l : list Z) : Z := match l with [] => 0 | x :: l => x + sum l end.
Lemma sum_app a b : sum (a ++ b) = sum a + sum b.
Proof. induction a as [|x a IH]; cbn [app sum]; lia. Qed.

Definition costs (g : ctx -> tree -> Z) (z : list (ctx * tree)) : Z := sum (map (fun p => g (fst p) (snd p)) z).
Lemma costs_app g a b : costs g (a ++ b) = costs g a + costs g b.
Proof. unfold costs. rewrite map_app. apply sum_app. Qed.
Lemma costs_cons g c t b : costs g ((c, t) :: b) = g c t + costs g b.
Proof. reflexivity. Qed.

Definition size_t (t : tree) : Z := zlen (elems t).
Lemma size_N l a k v b r : size_t (N l a k v b r) = size_t l + 1 + size_t r.
Proof. unfold size_t. cbn [elems]. rewrite zlen_app, zlen_cons. lia. Qed.
Lemma size_E t : is_E t = true -> size_t t = 0.
Proof. destruct t; [reflexivity|discriminate]. Qed.

Lemma costs_next : forall t c, t <> E ->
  costs next_cost (places c t) = 2 * (size_t t - 1) - spine_l t + up_r c.
Proof.
  induction t as [|l IHl a k v b r IHr]; intros c NE; [congruence|]. cbn [places].
  rewrite costs_app, costs_cons, size_N. cbn [next_cost].
  destruct l as [|ll la lk lv lb lr]; destruct r as [|rl ra rk rv rb rr].
  - cbn [places is_E spine_l]. unfold costs, size_t, zlen. cbn [map sum elems length]. lia.
  - rewrite (IHr (FR E a k v b :: c)) by discriminate. cbn [is_E up_r].
    unfold costs at 1. cbn [places map sum]. change (size_t E) with 0. cbn [spine_l]. lia.
  - rewrite (IHl (FL a k v b E :: c)) by discriminate. cbn [is_E up_r].
    unfold costs at 1. cbn [places map sum]. change (size_t E) with 0.
    change (spine_l (N (N ll la lk lv lb lr) a k v b E)) with (1 + spine_l (N ll la lk lv lb lr)). lia.
  - rewrite (IHl (FL a k v b (N rl ra rk rv rb rr) :: c)), (IHr (FR (N ll la lk lv lb lr) a k v b :: c)) by discriminate.
    cbn [is_E up_r].
    change (spine_l (N (N ll la lk lv lb lr) a k v b (N rl ra rk rv rb rr))) with (1 + spine_l (N ll la lk lv lb lr)). lia.
Qed.
Lemma costs_previous : forall t c, t <> E ->
  costs previous_cost (places c t) = 2 * (size_t t - 1) - spine_r t + up_l c.
Proof.
  induction t as [|l IHl a k v b r IHr]; intros c NE; [congruence|]. cbn [places].
  rewrite costs_app, costs_cons, size_N. cbn [previous_cost].
  destruct l as [|ll la lk lv lb lr]; destruct r as [|rl ra rk rv rb rr].
  - cbn [places is_E spine_r]. unfold costs, size_t, zlen. cbn [map sum elems length]. lia.
  - rewrite (IHr (FR E a k v b :: c)) by discriminate. cbn [is_E up_l].
    unfold costs at 1. cbn [places map sum]. change (size_t E) with 0.
    change (spine_r (N E a k v b (N rl ra rk rv rb rr))) with (1 + spine_r (N rl ra rk rv rb rr)). lia.
  - rewrite (IHl (FL a k v b E :: c)) by discriminate. cbn [is_E up_l].
    unfold costs at 1. cbn [places map sum]. change (size_t E) with 0. cbn [spine_r]. lia.
  - rewrite (IHl (FL a k v b (N rl ra rk rv rb rr) :: c)), (IHr (FR (N ll la lk lv lb lr) a k v b :: c)) by discriminate.
    cbn [is_E up_l].
    change (spine_r (N (N ll la lk lv lb lr) a k v b (N rl ra rk rv rb rr))) with (1 + spine_r (N rl ra rk rv rb rr)). lia.
Qed.

Lemma places_plug : forall t c z, In z (places c t) -> plug (fst z) (snd z) = plug c t /\ snd z <> E.
Proof.
  induction t as [|l IHl a k v b r IHr]; intros c z I; [destruct I|]. cbn [places] in I.
  apply in_app_iff in I as [I|[<-|I]].
  - destruct (IHl _ _ I) as [P Q]. split; [exact P|exact Q].
  - split; [reflexivity|discriminate].
  - destruct (IHr _ _ I) as [P Q]. split; [exact P|exact Q].
Qed.
Definition here (z : ctx * tree) : Z := root (snd z).
Lemma places_handles : forall t c, map here (places c t) = handles (elems t).
Proof.
  induction t as [|l IHl a k v b r IHr]; intros c; [reflexivity|]. cbn [places elems]. unfold handles in *.
  rewrite !map_app. cbn [map]. rewrite IHl, IHr. reflexivity.
Qed.

(** No walk to a neighbour is longer than the tree is high. *)
Lemma spine_l_height t : 0 <= spine_l t <= height t.
Proof.
  induction t as [|l IHl a k v b r IHr]; cbn [spine_l height]; [lia|]. pose proof (height_pos l). pose proof (height_pos r).
  destruct l; lia.
Qed.
Lemma spine_r_height t : 0 <= spine_r t <= height t.
Proof.
  induction t as [|l IHl a k v b r IHr]; cbn [spine_r height]; [lia|]. pose proof (height_pos l). pose proof (height_pos r).
  destruct r; lia.
Qed.
Lemma up_r_length c : 0 <= up_r c <= Z.of_nat (length c).
Proof. induction c as [|[a k v b r|l a k v b] c IH]; cbn [up_r length]; lia. Qed.
Lemma up_l_length c : 0 <= up_l c <= Z.of_nat (length c).
Proof. induction c as [|[a k v b r|l a k v b] c IH]; cbn [up_l length]; lia. Qed.
Lemma next_cost_height c t : 0 <= next_cost c t <= height (plug c t).
Proof.
  pose proof (plug_height c t) as P. pose proof (height_pos t). pose proof (up_r_length c).
  destruct t as [|l a k v b r]; cbn [next_cost]; [lia|]. cbn [height] in P. pose proof (spine_l_height r). pose proof (height_pos l).
  destruct (is_E r); lia.
Qed.
Lemma previous_cost_height c t : 0 <= previous_cost c t <= height (plug c t).
Proof.
  pose proof (plug_height c t) as P. pose proof (height_pos t). pose proof (up_l_length c).
  destruct t as [|l a k v b r]; cbn [previous_cost]; [lia|]. cbn [height] in P. pose proof (spine_r_height l). pose proof (height_pos r).
  destruct (is_E l); lia.
Qed.

(** ** The functions that count *)
(** A counting function: only the count remains to be shown. *)
Lemma reads_first {A} D (m : M (A * Z)) (m' : M A) x k :
  (forall h, first m h = m' h) -> reads D m' x -> (exists y, reads D m (y, k)) -> reads D m (x, k).
Proof.
  intros S R (y & C) h H. pose proof (R h H) as R1. pose proof (C h H) as C1. rewrite <- S in R1.
  unfold first, bnd in R1. rewrite C1 in R1. cbn in R1. injection R1 as ->. exact C1.
Qed.

Lemma leftmost_moves_ok : forall t, t <> E -> exists x, forall q D n, (Z.to_nat (height t) <= n)%nat ->
  reads (cells q t ++ D) (leftmost_moves n (root t)) (x, spine_l t).
Proof.
  induction t as [|l IHl a k v b r IHr]; intros NE; [congruence|]. clear NE IHr.
  destruct l as [|ll la lk lv lb lr].
  - exists a. intros q D n Hn. cbn [height] in Hn. pose proof (height_pos r). destruct n as [|n]; [lia|]. cbn [leftmost_moves]. fields.
    eapply r_ld_aelem; [norm; intac|]. fields. apply r_ret.
  - destruct IHl as (x & Hx); [discriminate|]. exists x. intros q D n Hn.
    set (t := N ll la lk lv lb lr) in *. assert (1 <= height t) by (cbn [t height]; pose proof (height_pos ll); lia).
    cbn [height] in Hn. pose proof (height_pos r). destruct n as [|n]; [lia|]. cbn [leftmost_moves]. fields.
    eapply r_ld_aelem; [norm; intac|]. fields. apply r_ok. intros O.
    assert (NZ : (root t =? 0) = false).
    { apply Z.eqb_neq. eapply (ok_nonnull _ la _ O). unfold t. fields. norm. intac. }
    rewrite NZ. eapply r_seq.
    + eapply r_perm; [|apply (Hx a (cells a r ++ (a, CAelem (mk_aelem k v (root t) (root r) q b)) :: D)); lia]. perm.
    + apply r_ret.
Qed.
Lemma rightmost_moves_ok : forall t, t <> E -> exists x, forall q D n, (Z.to_nat (height t) <= n)%nat ->
  reads (cells q t ++ D) (rightmost_moves n (root t)) (x, spine_r t).
Proof.
  induction t as [|l IHl a k v b r IHr]; intros NE; [congruence|]. clear NE IHl.
  destruct r as [|rl ra rk rv rb rr].
  - exists a. intros q D n Hn. cbn [height] in Hn. pose proof (height_pos l). destruct n as [|n]; [lia|]. cbn [rightmost_moves]. fields.
    eapply r_ld_aelem; [norm; intac|]. fields. apply r_ret.
  - destruct IHr as (x & Hx); [discriminate|]. exists x. intros q D n Hn.
    set (t := N rl ra rk rv rb rr) in *. assert (1 <= height t) by (cbn [t height]; pose proof (height_pos rl); lia).
    cbn [height] in Hn. pose proof (height_pos l). destruct n as [|n]; [lia|]. cbn [rightmost_moves]. fields.
    eapply r_ld_aelem; [norm; intac|]. fields. apply r_ok. intros O.
    assert (NZ : (root t =? 0) = false).
    { apply Z.eqb_neq. eapply (ok_nonnull _ ra _ O). unfold t. fields. norm. intac. }
    rewrite NZ. eapply r_seq.
    + eapply r_perm; [|apply (Hx a (cells a l ++ (a, CAelem (mk_aelem k v (root l) (root t) q b)) :: D)); lia]. perm.
    + apply r_ret.
Qed.

Section moves.
  Variables (T cmp obj size : Z).

  Lemma climb_right_moves_ok c : forall t n, t <> E -> (length c < n)%nat ->
    exists x, reads (full T cmp obj size c t) (climb_right_moves n (root t)) (x, up_r c).
  Proof.
    induction c as [|[y ky vy by_ ry|ly y ky vy by_] c IH]; intros t n NE Hn; (destruct n as [|n]; [simpl in Hn; lia|]);
      cbn [climb_right_moves]; destruct t as [|l a k v b r]; try congruence; clear NE; cbn [root].
    - exists 0. shape. norm. eapply r_ld_aelem; [intac|]. fields. cbn [Z.eqb]. apply r_ret.
    - exists y. apply r_ok; intros O. unfold full, hd in O. cbn [top pcells par f_addr cells root] in O. shape. norm. eapply r_ld_aelem; [intac|]. fields.
      nonnull O y. rename N into NZ. replace (y =? 0) with false by lia.
      eapply r_ld_aelem; [intac|]. fields.
      rewrite (not_child' _ y ry ((a, CAelem (mk_aelem k v (root l) (root r) y b)) :: (T, CAvl (mk_avl cmp obj (top c y) size)) ::
        (y, CAelem (mk_aelem ky vy a (root ry) (par 0 c) by_)) :: pcells 0 c y ++ cells a l ++ cells a r) a O); [|perm|left; reflexivity].
      apply r_ret.
    - destruct (IH (N ly y ky vy by_ (N l a k v b r)) n ltac:(discriminate) ltac:(simpl in Hn; lia)) as (x & Hx).
      exists x. apply r_ok; intros O. unfold full, hd in O. cbn [top pcells par f_addr cells root] in O. shape. norm. eapply r_ld_aelem; [intac|]. fields.
      nonnull O y. rename N into NZ. replace (y =? 0) with false by lia.
      eapply r_ld_aelem; [intac|]. fields. rewrite Z.eqb_refl.
      eapply r_seq; [eapply r_perm; [|exact Hx]|apply r_ret].
      shape. perm.
  Qed.
  Lemma climb_left_moves_ok c : forall t n, t <> E -> (length c < n)%nat ->
    exists x, reads (full T cmp obj size c t) (climb_left_moves n (root t)) (x, up_l c).
  Proof.
    induction c as [|[y ky vy by_ ry|ly y ky vy by_] c IH]; intros t n NE Hn; (destruct n as [|n]; [simpl in Hn; lia|]);
      cbn [climb_left_moves]; destruct t as [|l a k v b r]; try congruence; clear NE; cbn [root].
    - exists 0. shape. norm. eapply r_ld_aelem; [intac|]. fields. cbn [Z.eqb]. apply r_ret.
    - destruct (IH (N (N l a k v b r) y ky vy by_ ry) n ltac:(discriminate) ltac:(simpl in Hn; lia)) as (x & Hx).
      exists x. apply r_ok; intros O. unfold full, hd in O. cbn [top pcells par f_addr cells root] in O. shape. norm. eapply r_ld_aelem; [intac|]. fields.
      nonnull O y. rename N into NZ. replace (y =? 0) with false by lia.
      eapply r_ld_aelem; [intac|]. fields. rewrite Z.eqb_refl.
      eapply r_seq; [eapply r_perm; [|exact Hx]|apply r_ret].
      shape. perm.
    - exists y. apply r_ok; intros O. unfold full, hd in O. cbn [top pcells par f_addr cells root] in O. shape. norm. eapply r_ld_aelem; [intac|]. fields.
      nonnull O y. rename N into NZ. replace (y =? 0) with false by lia.
      eapply r_ld_aelem; [intac|]. fields.
      rewrite (not_child' _ y ly ((a, CAelem (mk_aelem k v (root l) (root r) y b)) :: (T, CAvl (mk_avl cmp obj (top c y) size)) ::
        (y, CAelem (mk_aelem ky vy (root ly) a (par 0 c) by_)) :: pcells 0 c y ++ cells a l ++ cells a r) a O); [|perm|left; reflexivity].
      apply r_ret.
  Qed.

  Lemma next_moves_ok c l a k v b r :
    reads (full T cmp obj size c (N l a k v b r)) (avl_tree_next_moves a)
          (List.hd 0 (handles (elems r ++ after_c c)), next_cost c (N l a k v b r)).
  Proof.
    apply r_ok. intros O.
    apply (reads_first _ _ (avl_tree_next a)); [intros; apply next_same|apply next_ok|].
    unfold avl_tree_next_moves.
    assert (P1 : Permutation (full T cmp obj size c (N l a k v b r)) (cells (par 0 c) (N l a k v b r) ++ hd T cmp obj size c a)).
    { unfold full. apply Permutation_app_comm. }
    destruct r as [|rl ra rk rv rb rr].
    - destruct (climb_right_moves_ok c (N l a k v b E) (S (length c)) ltac:(discriminate) ltac:(lia)) as (x & _).
      eexists. eapply r_seq.
      + eapply r_perm; [exact P1|]. unfold next_descendant_moves. fields. eapply r_ld_aelem; [norm; intac|]. fields. apply r_ret.
      + cbn [fst Z.eqb next_cost is_E].
        assert (X : reads (full T cmp obj size c (N l a k v b E)) (let! n := fuel in climb_right n a) (List.hd 0 (handles (after_c c)))).
        { apply r_fuel. intros n Hn. apply (climb_right_ok T cmp obj size c (N l a k v b E)); [discriminate|].
          pose proof (full_ctx_length T cmp obj size c (N l a k v b E)). lia. }
        apply (reads_first _ _ (let! n := fuel in climb_right n a)).
        * intros h. unfold first. rewrite bnd_assoc. apply bnd_same. intros n h1. apply climb_right_same.
        * exact X.
        * eexists. apply r_fuel. intros n Hn.
          destruct (climb_right_moves_ok c (N l a k v b E) n ltac:(discriminate)) as (y & Hy);
            [pose proof (full_ctx_length T cmp obj size c (N l a k v b E)); lia|].
          cbn [root] in Hy.
          pose proof (climb_right_ok T cmp obj size c (N l a k v b E) n ltac:(discriminate)
             ltac:(pose proof (full_ctx_length T cmp obj size c (N l a k v b E)); lia)) as Hv. cbn [root] in Hv.
          apply (reads_first _ _ (climb_right n a)); [intros; apply climb_right_same|exact Hv|].
          exists y. exact Hy.
    - set (r := N rl ra rk rv rb rr) in *.
      destruct (leftmost_moves_ok r ltac:(discriminate)) as (x & Hx).
      destruct (next_descendant_N r) as (p & r2 & a2 & k2 & v2 & b2 & E1 & E2 & E3); [discriminate|].
      assert (D1 : reads (full T cmp obj size c (N l a k v b r)) (next_descendant_moves a) (a2, 1 + spine_l r)).
      { apply (reads_first _ _ (next_descendant a)); [intros; apply next_descendant_same|eapply r_perm; [exact P1|apply E3]|].
        exists x. eapply r_perm; [exact P1|]. unfold next_descendant_moves. fields. eapply r_ld_aelem; [norm; intac|]. fields.
        rewrite (root_nonnull _ a r ((a, CAelem (mk_aelem k v (root l) (root r) (par 0 c) b)) :: cells a l ++ hd T cmp obj size c a) O);
          [|discriminate|rewrite P1; fields; perm].
        apply r_fuel. intros n Hn. eapply r_seq.
        - eapply r_perm; [|apply (Hx a ((a, CAelem (mk_aelem k v (root l) (root r) (par 0 c) b)) :: cells a l ++ hd T cmp obj size c a))]; [perm|].
          cbn [app length] in Hn. rewrite !app_length in Hn. pose proof (cells_len a r). lia.
        - apply r_ret. }
      exists a2. eapply r_seq; [exact D1|]. cbn [fst].
      rewrite (hd_nonnull T cmp obj size c (N l a k v b r) a2); auto.
      + apply r_ret.
      + rewrite elems_plug. cbn [elems]. rewrite E1, elems_plug. cbn [elems]. unfold handles.
        repeat (rewrite ?map_app, ?in_app_iff; cbn [map a_elem fst app In]). tauto.
  Qed.
  Lemma previous_moves_ok c l a k v b r :
    reads (full T cmp obj size c (N l a k v b r)) (avl_tree_previous_moves a)
          (last (handles (before_c c ++ elems l)) 0, previous_cost c (N l a k v b r)).
  Proof.
    apply r_ok. intros O.
    apply (reads_first _ _ (avl_tree_previous a)); [intros; apply previous_same|apply previous_ok|].
    unfold avl_tree_previous_moves.
    assert (P1 : Permutation (full T cmp obj size c (N l a k v b r)) (cells (par 0 c) (N l a k v b r) ++ hd T cmp obj size c a)).
    { unfold full. apply Permutation_app_comm. }
    destruct l as [|ll la lk lv lb lr].
    - eexists. eapply r_seq.
      + eapply r_perm; [exact P1|]. unfold previous_descendant_moves. fields. eapply r_ld_aelem; [norm; intac|]. fields. apply r_ret.
      + cbn [fst Z.eqb previous_cost is_E].
        apply r_fuel. intros n Hn.
        destruct (climb_left_moves_ok c (N E a k v b r) n ltac:(discriminate)) as (y & Hy);
          [pose proof (full_ctx_length T cmp obj size c (N E a k v b r)); lia|].
        cbn [root] in Hy.
        pose proof (climb_left_ok T cmp obj size c (N E a k v b r) n ltac:(discriminate)
           ltac:(pose proof (full_ctx_length T cmp obj size c (N E a k v b r)); lia)) as Hv. cbn [root] in Hv.
        apply (reads_first _ _ (climb_left n a)); [intros; apply climb_left_same|exact Hv|].
        exists y. exact Hy.
    - set (l := N ll la lk lv lb lr) in *.
      destruct (rightmost_moves_ok l ltac:(discriminate)) as (x & Hx).
      destruct (previous_descendant_N l) as (p & l2 & a2 & k2 & v2 & b2 & E1 & E2 & E3); [discriminate|].
      assert (D1 : reads (full T cmp obj size c (N l a k v b r)) (previous_descendant_moves a) (a2, 1 + spine_r l)).
      { apply (reads_first _ _ (previous_descendant a)); [intros; apply previous_descendant_same|eapply r_perm; [exact P1|apply E3]|].
        exists x. eapply r_perm; [exact P1|]. unfold previous_descendant_moves. fields. eapply r_ld_aelem; [norm; intac|]. fields.
        rewrite (root_nonnull _ a l ((a, CAelem (mk_aelem k v (root l) (root r) (par 0 c) b)) :: cells a r ++ hd T cmp obj size c a) O);
          [|discriminate|rewrite P1; fields; perm].
        apply r_fuel. intros n Hn. eapply r_seq.
        - eapply r_perm; [|apply (Hx a ((a, CAelem (mk_aelem k v (root l) (root r) (par 0 c) b)) :: cells a r ++ hd T cmp obj size c a))]; [perm|].
          cbn [app length] in Hn. rewrite !app_length in Hn. pose proof (cells_len a l). lia.
        - apply r_ret. }
      exists a2. eapply r_seq; [exact D1|]. cbn [fst].
      rewrite (hd_nonnull T cmp obj size c (N l a k v b r) a2); auto.
      + apply r_ret.
      + rewrite elems_plug. cbn [elems]. rewrite E1, elems_plug. cbn [elems]. unfold handles.
        repeat (rewrite ?map_app, ?in_app_iff; cbn [map a_elem fst app In]). tauto.
  Qed.
End moves.

Section walks.
  Variables (cmp obj : Z).
  Notation is_tree := (AvlAny.is_tree cmp obj).

  (** One step from the place [z] of a tree. *)
  Lemma next_place h T t z : hp h (full T cmp obj (size_t t) [] t) -> In z (places [] t) ->
    exists x, avl_tree_next_moves (here z) h = Ok ((x, next_cost (fst z) (snd z)), h).
  Proof.
    intros H I. destruct (places_plug _ _ _ I) as [P NE]. destruct z as [c [|l a k v b r]]; [cbn [snd] in NE; congruence|].
    cbn [fst snd plug] in *. eexists. apply (next_moves_ok T cmp obj (size_t t) c l a k v b r).
    eapply hp_perm; [symmetry; apply full_plug|]. rewrite P. exact H.
  Qed.
  Lemma previous_place h T t z : hp h (full T cmp obj (size_t t) [] t) -> In z (places [] t) ->
    exists x, avl_tree_previous_moves (here z) h = Ok ((x, previous_cost (fst z) (snd z)), h).
  Proof.
    intros H I. destruct (places_plug _ _ _ I) as [P NE]. destruct z as [c [|l a k v b r]]; [cbn [snd] in NE; congruence|].
    cbn [fst snd plug] in *. eexists. apply (previous_moves_ok T cmp obj (size_t t) c l a k v b r).
    eapply hp_perm; [symmetry; apply full_plug|]. rewrite P. exact H.
  Qed.

  (** A walk along the places [zs], each step from one to the next. *)
  Lemma walk_places (step : Z -> M (Z * Z)) (step1 : Z -> M Z) (g : ctx -> tree -> Z) h :
    (forall e h, first (step e) h = step1 e h) -> forall zs,
    (forall z, In z zs -> exists x, step (here z) h = Ok ((x, g (fst z) (snd z)), h)) ->
    (forall z, In z zs -> here z <> 0) ->
    (forall n, walk step1 n (List.hd 0 (map here zs)) h = if (length zs <=? n)%nat then Ok (map here zs, h) else NoFuel) ->
    forall n, walk_moves step n (List.hd 0 (map here zs)) h =
      if (length zs <=? n)%nat then Ok ((map here zs, costs g zs), h) else NoFuel.
  Proof.
    intros S. induction zs as [|z zs IH]; intros G NZ W n.
    - destruct n; reflexivity.
    - cbn [map List.hd] in *. pose proof (NZ z (or_introl eq_refl)) as NZ0.
      destruct (G z (or_introl eq_refl)) as (x & Gx).
      assert (Ex : step1 (here z) h = Ok (x, h)).
      { rewrite <- S. unfold first, bnd. rewrite Gx. reflexivity. }
      assert (X : forall n, walk step1 n x h = if (length zs <=? n)%nat then Ok (map here zs, h) else NoFuel).
      { intros n'. specialize (W (Datatypes.S n')). cbn [walk length Nat.leb] in W. rewrite (proj2 (Z.eqb_neq _ _) NZ0) in W.
        unfold bnd in W. rewrite Ex in W. destruct (length zs <=? n')%nat.
        - destruct (walk step1 n' x h) as [[es h2]| | |]; try discriminate. cbn in W. unfold ret in W. congruence.
        - destruct (walk step1 n' x h) as [[es h2]| | |]; try discriminate. reflexivity. }
      assert (Hd : x = List.hd 0 (map here zs)).
      { specialize (X (length zs)). rewrite Nat.leb_refl in X. destruct zs as [|z2 zs]; cbn [length map List.hd walk] in *.
        - destruct (x =? 0) eqn:E0; [apply Z.eqb_eq; exact E0|discriminate].
        - destruct (x =? 0) eqn:E0; [unfold ret in X; discriminate|]. unfold bnd in X.
          destruct (step1 x h) as [[x2 h2]| | |]; try discriminate.
          destruct (walk step1 (length zs) x2 h2) as [[es h3]| | |]; try discriminate.
          unfold ret in X. congruence. }
      destruct n as [|n]; cbn [walk_moves length Nat.leb].
      + rewrite (proj2 (Z.eqb_neq _ _) NZ0). reflexivity.
      + rewrite (proj2 (Z.eqb_neq _ _) NZ0). unfold bnd. rewrite Gx. cbn [fst snd]. rewrite Hd.
        rewrite IH; [destruct (length zs <=? n)%nat; reflexivity|..].
        * intros y Iy. apply G. right; exact Iy.
        * intros y Iy. apply NZ. right; exact Iy.
        * rewrite <- Hd. exact X.
  Qed.

  Lemma costs_rev g z : costs g (rev z) = costs g z.
  Proof.
    induction z as [|[c t] z IH]; [reflexivity|]. cbn [rev]. rewrite costs_app, costs_cons, IH. rewrite costs_cons.
    unfold costs at 2. cbn [map sum]. lia.
  Qed.

  Lemma first_moves h T t : t <> E -> hp h (full T cmp obj (size_t t) [] t) -> exists x,
    avl_tree_get_first_moves T h = Ok ((x, spine_l t), h).
  Proof.
    intros NE H. destruct (leftmost_moves_ok t NE) as (x & Hx). exists x. revert h H.
    change (reads (full T cmp obj (size_t t) [] t) (avl_tree_get_first_moves T) (x, spine_l t)).
    unfold avl_tree_get_first_moves. eapply r_seq; [apply empty_ok|].
    destruct (elems t) eqn:E0; [exfalso; revert E0; apply elems_nonempty; exact NE|].
    unfold full, hd. norm. cbn [top]. eapply r_ld_avl; [intac|]. fields.
    apply r_fuel. intros n Hn. cbn [pcells app par] in *.
    eapply r_perm; [|apply (Hx 0 [(T, CAvl (mk_avl cmp obj (root t) (size_t t)))])]; [perm|].
    cbn [length] in Hn. pose proof (cells_len 0 t). lia.
  Qed.
  Lemma last_moves h T t : t <> E -> hp h (full T cmp obj (size_t t) [] t) -> exists x,
    avl_tree_get_last_moves T h = Ok ((x, spine_r t), h).
  Proof.
    intros NE H. destruct (rightmost_moves_ok t NE) as (x & Hx). exists x. revert h H.
    change (reads (full T cmp obj (size_t t) [] t) (avl_tree_get_last_moves T) (x, spine_r t)).
    unfold avl_tree_get_last_moves. eapply r_seq; [apply empty_ok|].
    destruct (elems t) eqn:E0; [exfalso; revert E0; apply elems_nonempty; exact NE|].
    unfold full, hd. norm. cbn [top]. eapply r_ld_avl; [intac|]. fields.
    apply r_fuel. intros n Hn. cbn [pcells app par] in *.
    eapply r_perm; [|apply (Hx 0 [(T, CAvl (mk_avl cmp obj (root t) (size_t t)))])]; [perm|].
    cbn [length] in Hn. pose proof (cells_len 0 t). lia.
  Qed.

  Lemma places_nonnull h T m t : is_tree h T m -> elems t = m -> forall z, In z (places [] t) -> here z <> 0.
  Proof.
    intros A E0 z I. apply (in_map here) in I. rewrite places_handles, E0 in I. apply in_map_iff in I as (x & <- & I).
    exact (proj2 (any_holds cmp obj h T m x A I)).
  Qed.
  Lemma places_length t : length (places [] t) = length (elems t).
  Proof. rewrite <- (map_length here), places_handles. unfold handles. apply map_length. Qed.

  Lemma forward_moves h T m n : is_tree h T m -> (length m <= n)%nat ->
    traverse_forward_moves T n h = Ok ((handles m, Z.max 0 (2 * (zlen m - 1))), h).
  Proof.
    intros A Hn. pose proof A as (_ & t & E0 & B & H).
    assert (Hs : zlen m = size_t t) by (unfold size_t; congruence). rewrite Hs in *.
    pose proof (first_any cmp obj h T m A) as Ff. rewrite <- first_same in Ff.
    destruct t as [|l a k v b r].
    - cbn [elems] in E0. subst m.
      unfold traverse_forward_moves, bnd, avl_tree_get_first_moves, bnd. rewrite (empty_any cmp obj h T [] A).
      unfold ret. cbn [fst snd]. destruct n; reflexivity.
    - set (t := N l a k v b r) in *. assert (NE : t <> E) by discriminate.
      destruct (first_moves h T t NE H) as (x & Fm).
      unfold first, bnd in Ff. rewrite Fm in Ff. unfold ret in Ff. cbn [fst] in Ff.
      unfold traverse_forward_moves, bnd. rewrite Fm. cbn [fst snd].
      replace x with (List.hd 0 (handles m)) by congruence. rewrite <- E0, <- (places_handles t []).
      rewrite (walk_places avl_tree_next_moves avl_tree_next next_cost h next_same (places [] t)).
      + rewrite places_length, E0, (proj2 (Nat.leb_le _ _) Hn). cbn [fst snd ret].
        rewrite (costs_next t [] NE). cbn [up_r]. unfold ret. do 3 f_equal.
        assert (1 <= size_t t) by (unfold t; rewrite size_N; unfold size_t, zlen; lia). lia.
      + intros z I. apply (next_place h T t z H I).
      + exact (places_nonnull h T m t A E0).
      + intros n'. rewrite places_length, places_handles, E0. apply (any_forward cmp obj h T m n' A [] m eq_refl).
  Qed.
  Lemma backward_moves h T m n : is_tree h T m -> (length m <= n)%nat ->
    traverse_backward_moves T n h = Ok ((rev (handles m), Z.max 0 (2 * (zlen m - 1))), h).
  Proof.
    intros A Hn. pose proof A as (_ & t & E0 & B & H).
    assert (Hs : zlen m = size_t t) by (unfold size_t; congruence). rewrite Hs in *.
    pose proof (last_any cmp obj h T m A) as Ff. rewrite <- last_same in Ff.
    destruct t as [|l a k v b r].
    - cbn [elems] in E0. subst m.
      unfold traverse_backward_moves, bnd, avl_tree_get_last_moves, bnd. rewrite (empty_any cmp obj h T [] A).
      unfold ret. cbn [fst snd]. destruct n; reflexivity.
    - set (t := N l a k v b r) in *. assert (NE : t <> E) by discriminate.
      destruct (last_moves h T t NE H) as (x & Fm).
      unfold first, bnd in Ff. rewrite Fm in Ff. unfold ret in Ff. cbn [fst] in Ff.
      unfold traverse_backward_moves, bnd. rewrite Fm. cbn [fst snd].
      assert (Hp : map here (rev (places [] t)) = rev (handles m)) by (rewrite map_rev, places_handles, E0; reflexivity).
      assert (Hl : last (handles m) 0 = List.hd 0 (rev (handles m))).
      { destruct (handles m) as [|y ys _] using rev_ind; [reflexivity|]. rewrite last_last, rev_app_distr. reflexivity. }
      replace x with (List.hd 0 (map here (rev (places [] t)))) by (rewrite Hp; congruence).
      rewrite (walk_places avl_tree_previous_moves avl_tree_previous previous_cost h previous_same (rev (places [] t))).
      + rewrite rev_length, places_length, E0, (proj2 (Nat.leb_le _ _) Hn). cbn [fst snd ret].
        rewrite costs_rev, (costs_previous t [] NE), Hp. cbn [up_l]. unfold ret. do 3 f_equal.
        assert (1 <= size_t t) by (unfold t; rewrite size_N; unfold size_t, zlen; lia). lia.
      + intros z I. apply (previous_place h T t z H). apply in_rev. exact I.
      + intros z I. apply (places_nonnull h T m t A E0). apply in_rev. exact I.
      + intros n'. rewrite rev_length, places_length, Hp, E0, <- Hl.
        rewrite (any_backward cmp obj h T m n' A m []) by (rewrite app_nil_r; reflexivity). reflexivity.
  Qed.

  (** No single step is longer than the tree is high. *)
  Lemma steps_log h T m e : is_tree h T m -> In e (handles m) -> exists x i y j,
    avl_tree_next_moves e h = Ok ((x, i), h) /\ avl_tree_previous_moves e h = Ok ((y, j), h) /\
    0 <= i /\ 0 <= j /\ logarithmic i (zlen m) /\ logarithmic j (zlen m).
  Proof.
    intros (_ & t & E0 & B & H) I. assert (Hs : zlen m = size_t t) by (unfold size_t; congruence). rewrite Hs in *.
    rewrite <- E0, <- (places_handles t []) in I. apply in_map_iff in I as (z & <- & I).
    destruct (next_place h T t z H I) as (x & X). destruct (previous_place h T t z H I) as (y & Y).
    exists x, (next_cost (fst z) (snd z)), y, (previous_cost (fst z) (snd z)). split; [exact X|]. split; [exact Y|].
    pose proof (next_cost_height (fst z) (snd z)) as P1. pose proof (previous_cost_height (fst z) (snd z)) as P2.
    rewrite (proj1 (places_plug _ _ _ I)) in P1, P2. cbn [plug] in P1, P2.
    split; [lia|]. split; [lia|]. split; apply count_log; auto.
  Qed.
End walks.

Lemma walk_same step step1 : (forall e h, first (step e) h = step1 e h) ->
  forall n e h, first (walk_moves step n e) h = walk step1 n e h.
Proof.
  intros S. induction n as [|n IH]; intros e h; unfold first; cbn [walk walk_moves]; (destruct (e =? 0); [reflexivity|]); [reflexivity|].
  rewrite bnd_assoc. apply first_cong; [intros; apply S|]. intros a h1. rewrite bnd_assoc.
  apply first_cong; [intros; apply IH|]. reflexivity.
Qed.
Lemma forward_same t n h : first (traverse_forward_moves t n) h = traverse_forward t n h.
Proof.
  unfold first, traverse_forward_moves, traverse_forward. rewrite bnd_assoc. apply first_cong; [intros; apply first_same|].
  intros a h1. rewrite bnd_assoc. rewrite <- (walk_same _ _ next_same n (fst a) h1). apply bnd_same. reflexivity.
Qed.
Lemma backward_same t n h : first (traverse_backward_moves t n) h = traverse_backward t n h.
Proof.
  unfold first, traverse_backward_moves, traverse_backward. rewrite bnd_assoc. apply first_cong; [intros; apply last_same|].
  intros a h1. rewrite bnd_assoc. rewrite <- (walk_same _ _ previous_same n (fst a) h1). apply bnd_same. reflexivity.
Qed.

Lemma ends_log cmp obj h T m : AvlAny.is_tree cmp obj h T m -> exists x i y j,
  avl_tree_get_first_moves T h = Ok ((x, i), h) /\ avl_tree_get_last_moves T h = Ok ((y, j), h) /\
  0 <= i /\ 0 <= j /\ logarithmic i (zlen m) /\ logarithmic j (zlen m).
Proof.
  intros A. pose proof A as (_ & t & E0 & B & H).
  assert (Hs : zlen m = size_t t) by (unfold size_t; congruence). rewrite Hs in *.
  destruct t as [|l a k v b r].
  - cbn [elems] in E0. subst m. exists 0, 0, 0, 0. unfold avl_tree_get_first_moves, avl_tree_get_last_moves, bnd.
    rewrite (empty_any cmp obj h T [] A). split; [reflexivity|]. split; [reflexivity|]. split; [lia|]. split; [lia|].
    split; apply (count_log E 0 I); cbn [height]; lia.
  - set (t := N l a k v b r) in *. destruct (first_moves cmp obj h T t ltac:(discriminate) H) as (x & Hx).
    destruct (last_moves cmp obj h T t ltac:(discriminate) H) as (y & Hy).
    exists x, (spine_l t), y, (spine_r t). pose proof (spine_l_height t) as P1. pose proof (spine_r_height t) as P2.
    split; [exact Hx|]. split; [exact Hy|]. split; [lia|]. split; [lia|]. split; apply count_log; auto.
Qed.
