(** The tree tests pass: proofs. *)
From Verif Require Import Base Heap Sep AvlModel AvlSpec AvlProofs AvlDetach AvlReads AvlHist AvlProps AvlIter TestAvlModel.
From Coq Require Import Permutation ZifyBool ZifyNat.

Lemma run_bnd {A B} (m : M A) (f : A -> M B) h a h' : m h = Ok (a, h') -> bnd m f h = f a h'.
Proof. intros H. unfold bnd. rewrite H. reflexivity. Qed.
Lemma run_check {B} b (f : unit -> M B) h : b = true -> bnd (check b) f h = f tt h.
Proof. intros ->. reflexivity. Qed.

(** Memory: [base] without the tree. *)
Definition around (base : Z -> option cell) (h : heap) (t : Z) (m : list assoc) : Prop :=
  (forall x, In x (footprint t m) -> base x = None) /\ (forall x, ~ In x (footprint t m) -> get h x = base x).
Lemma around_start h t m : around (fun x => if in_dec Z.eq_dec x (footprint t m) then None else get h x) h t m.
Proof. split; intros x H; destruct (in_dec Z.eq_dec x (footprint t m)); tauto || reflexivity. Qed.
Lemma alloc_get h t m x : forall call cmp obj, avl_history call cmp obj h t m -> In x (footprint t m) -> get h x <> None.
Proof. intros call cmp obj H I. exact (avl_alloc call cmp obj h t m x (history_avl _ _ _ _ _ _ H) I). Qed.

Lemma same_history call cmp obj h h' t m : avl_history call cmp obj h t m -> (forall x, get h' x = get h x) -> avl_history call cmp obj h' t m.
Proof. intros H S. eapply AH_other; [exact H|]. intros x _. apply S. Qed.

Section tests.
  Variables (call : comparator) (cmp : Z).
  Notation f := (fun k1 k2 => call cmp k1 k2 0).
  Notation hist := (avl_history call cmp 0).

  Lemma absent_split h t m k : hist h t m -> absent f k m -> exists m1 m2, m = m1 ++ m2 /\ all_below f k m1 /\ all_above f k m2.
  Proof.
    intros H A. destruct (C28_cases call cmp 0 h t m k H) as [(m1 & m2 & E & B & C & _)|(m1 & e & k' & v & m2 & E & Z & _)].
    - eauto.
    - destruct (A (e, k', v)); [rewrite E; apply in_or_app; right; left; reflexivity|exact Z].
  Qed.

  Lemma put_step base h t m k v : hist h t m -> around base h t m -> sparse m -> absent f k m ->
    exists e m1 m2 h', m = m1 ++ m2 /\ avl_tree_put call t k v h = Ok (0, h') /\ hist h' t (m1 ++ (e, k, v) :: m2) /\
      around base h' t (m1 ++ (e, k, v) :: m2) /\ (forall x, get h x <> None -> ~ In x (footprint t m) -> get h' x = get h x).
  Proof.
    intros H [A1 A2] S A. destruct (absent_split h t m k H A) as (m1 & m2 & -> & B & C).
    destruct (C28_put_new call cmp 0 h t m1 m2 k v H S B C) as (e & h' & R & H'). exists e, m1, m2, h'. split; [reflexivity|]. split; [exact R|]. split; [exact H'|].
    assert (P := cmp_flip f (proj1 (history_avl _ _ _ _ _ _ H))).
    assert (G : avl_tree_get call t k h' = Ok (e, h')).
    { apply (proj1 (C28_get call cmp 0 h' t _ k H') e k v); [apply in_or_app; right; left; reflexivity|]. specialize (P k k). cbv beta in *. lia. }
    destruct (C35_operation call cmp 0 h t (m1 ++ m2) h' 0 (m1 ++ (e, k, v) :: m2) H) as (O1 & O2 & _).
    { eapply AO_put_new; eauto. }
    assert (I : forall x, In x (footprint t (m1 ++ m2)) -> In x (footprint t (m1 ++ (e, k, v) :: m2))).
    { unfold footprint, handles. intros x [X|X]; [left; exact X|right]. rewrite map_app in *. cbn [map]. apply in_app_iff in X. apply in_or_app.
      destruct X; [left; assumption|right; right; assumption]. }
    split; [split|].
    - intros x X. destruct (in_dec Z.eq_dec x (footprint t (m1 ++ m2))) as [Y|Y]; [exact (A1 x Y)|].
      destruct (get h x) eqn:Q; [|rewrite <- (A2 x Y); exact Q]. exfalso. apply (proj2 (O1 x Y ltac:(congruence))). exact X.
    - intros x X. assert (Y : ~ In x (footprint t (m1 ++ m2))) by (intros Y; exact (X (I x Y))). rewrite (O2 x Y X). exact (A2 x Y).
    - intros x X Y. exact (proj1 (O1 x Y X)).
  Qed.

  Lemma pop_step base h t m1 e k' k v m2 : hist h t (m1 ++ (e, k', v) :: m2) -> around base h t (m1 ++ (e, k', v) :: m2) -> f k k' = 0 ->
    exists h' h'', avl_tree_pop call t k h = Ok (e, h') /\ e <> 0 /\ avl_elem_get_value e h' = Ok (v, h') /\ destroy_avl_element e h' = Ok (tt, h'') /\
      hist h'' t (m1 ++ m2) /\ around base h'' t (m1 ++ m2) /\ (forall x, ~ In x (footprint t (m1 ++ (e, k', v) :: m2)) -> get h' x = get h x).
  Proof.
    intros H [A1 A2] Z. destruct (C28_pop call cmp 0 h t m1 e k' v m2 k H Z) as (h' & R & H' & _ & V & N).
    destruct (C35_operation call cmp 0 h t _ h' e (m1 ++ m2) H) as (_ & O2 & _); [eapply AO_pop; eauto|].
    assert (Ne : e <> 0) by (apply (C28_element call cmp 0 h t _ e k' v H); apply in_or_app; right; left; reflexivity).
    assert (G : exists c, get h' e = Some c).
    { unfold avl_elem_get_value, bnd, ld_aelem in V. destruct (get h' e) as [c|]; [eauto|discriminate]. }
    destruct G as [c G]. exists h', (drop_cell h' e). split; [exact R|]. split; [exact Ne|]. split; [exact V|].
    assert (I : forall x, In x (footprint t (m1 ++ m2)) -> In x (footprint t (m1 ++ (e, k', v) :: m2))).
    { unfold footprint, handles. intros x [X|X]; [left; exact X|right]. rewrite map_app in *. cbn [map]. apply in_app_iff in X. apply in_or_app.
      destruct X; [left; assumption|right; right; assumption]. }
    assert (J : forall x, In x (footprint t (m1 ++ (e, k', v) :: m2)) -> x = e \/ In x (footprint t (m1 ++ m2))).
    { unfold footprint, handles. intros x [X|X]; [right; left; exact X|]. rewrite map_app in X. cbn [map] in X. apply in_app_iff in X.
      destruct X as [X|[X|X]]; [right; right; rewrite map_app; apply in_or_app; auto|left; symmetry; exact X|right; right; rewrite map_app; apply in_or_app; auto]. }
    assert (O3 : forall x, ~ In x (footprint t (m1 ++ (e, k', v) :: m2)) -> get h' x = get h x) by (intros x X; apply O2; auto).
    split; [unfold destroy_avl_element, free; rewrite G; reflexivity|].
    split; [eapply AH_other; [exact H'|]; intros x X; apply drop_other; intros ->; exact (N X)|].
    split; [split|exact O3].
    - intros x X. exact (A1 x (I x X)).
    - intros x X. destruct (Z.eq_dec x e) as [->|D].
      + rewrite drop_same. symmetry. apply A1. unfold footprint, handles. right. rewrite map_app. apply in_or_app. right. left. reflexivity.
      + rewrite drop_other by exact D. assert (Y : ~ In x (footprint t (m1 ++ (e, k', v) :: m2))) by (intros Y; destruct (J x Y); auto).
        rewrite (O3 x Y). exact (A2 x Y).
  Qed.

  (** ** Filling trees *)
  Definition proper (m : list assoc) : Prop := Forall (fun a => a_key a = a_value a) m.
  Definition different (xs : list Z) : Prop := ForallOrdPairs (fun a b => f a b <> 0) xs.

  Lemma proper_app m1 m2 : proper (m1 ++ m2) <-> proper m1 /\ proper m2.
  Proof. apply Forall_app. Qed.
  Lemma flip_ne a b : total_preorder f -> f a b <> 0 -> f b a <> 0.
  Proof. intros P H. pose proof (cmp_flip f P a b). pose proof (cmp_flip f P b a). cbv beta in *. lia. Qed.

  Definition fresh_from (m : list assoc) (xs : list Z) : Prop := forall a x, In a m -> In x xs -> f x (a_key a) <> 0.

  Lemma enter_elements_ok base t xs : forall h m, total_preorder f -> hist h t m -> around base h t m -> proper m -> zlen m + zlen xs < 2 ^ 60 ->
    different xs -> fresh_from m xs ->
    exists h' m', enter_elements call t xs h = Ok (tt, h') /\ put_elements call t xs h = Ok (tt, h') /\ hist h' t m' /\ around base h' t m' /\ proper m' /\
      Permutation (map a_value m') (map a_value m ++ xs).
  Proof.
    induction xs as [|x xs IH]; intros h m P H A Pm L D F.
    { exists h, m. rewrite app_nil_r. repeat (split; [reflexivity || assumption|]). reflexivity. }
    rewrite zlen_cons in L. pose proof (zlen_nonneg xs).
    destruct (put_step base h t m x x H A ltac:(unfold sparse; lia)) as (e & m1 & m2 & h1 & E & R & H1 & A1 & _).
    { intros a Ia. exact (F a x Ia (or_introl eq_refl)). }
    inversion D as [|? ? Dx Dxs]; subst.
    destruct (IH h1 (m1 ++ (e, x, x) :: m2) P H1 A1) as (h' & m' & E1 & E2 & H' & A' & P' & Q).
    - apply proper_app in Pm as [Pm1 Pm2]. apply proper_app. split; [exact Pm1|]. constructor; [reflexivity|exact Pm2].
    - rewrite zlen_app, zlen_cons in *. lia.
    - exact Dxs.
    - intros a y Ia Iy. apply in_app_iff in Ia. destruct Ia as [Ia|[<-|Ia]].
      + apply F; [apply in_or_app; auto|right; exact Iy].
      + cbn [a_key fst snd]. apply flip_ne; [exact P|]. rewrite Forall_forall in Dx. exact (Dx y Iy).
      + apply F; [apply in_or_app; auto|right; exact Iy].
    - exists h', m'. split; [|split].
      + cbn [enter_elements]. rewrite (run_bnd _ _ _ _ _ R), run_check by reflexivity. exact E1.
      + cbn [put_elements]. rewrite (run_bnd _ _ _ _ _ R). exact E2.
      + repeat (split; [assumption|]). rewrite Q, !map_app. cbn [map]. change (a_value (e, x, x)) with x.
        rewrite <- !app_assoc. apply Permutation_app_head. cbn [app]. apply Permutation_middle.
  Qed.

  Lemma make_step h : total_preorder f -> exists t h', make_avl_tree cmp h = Ok (t, h') /\ hist h' t [] /\ around (get h) h' t [] .
  Proof.
    intros P. unfold make_avl_tree. destruct (make_avl call cmp 0 h P) as (t & h' & R & _ & G & O). exists t, h'. split; [exact R|]. split; [eapply AH_make; eauto|].
    split; intros x X.
    - destruct X as [<-|[]]. exact G.
    - apply O. intros ->. apply X. left. reflexivity.
  Qed.

  (** ** Looking at a tree *)
  Lemma verify_node_ok h t : forall q D n, t <> E -> (Z.to_nat (height t) <= n)%nat -> hp h (cells q t ++ D) -> verify_node n (root t) h = Ok (tt, h).
  Proof.
    induction t as [|l IHl a k v b r IHr]; intros q D n NE Hn H; [congruence|]. cbn [height] in Hn.
    pose proof (height_pos l). pose proof (height_pos r). destruct n as [|n]; [lia|]. cbn [cells root] in *.
    assert (G : get h a = Some (CAelem (mk_aelem k v (root l) (root r) q b))) by (apply H; left; reflexivity).
    assert (Hl : hp h (cells a l ++ ((a, CAelem (mk_aelem k v (root l) (root r) q b)) :: cells a r ++ D))) by (eapply hp_perm; [|exact H]; perm).
    assert (Hr : hp h (cells a r ++ ((a, CAelem (mk_aelem k v (root l) (root r) q b)) :: cells a l ++ D))) by (eapply hp_perm; [|exact H]; perm).
    assert (One : forall s, (s = l \/ s = r) -> (if truth (root s) then
               let! x := ld_aelem (root s) in do! check (ae_parent x =? a) in verify_node n (root s) else ret tt) h = Ok (tt, h)).
    { intros s Hs. destruct s as [|sl sa sk sv sb sr] eqn:Es; [reflexivity|].
      assert (Gs : get h sa = Some (CAelem (mk_aelem sk sv (root sl) (root sr) a sb))).
      { destruct Hs as [<-|<-]; [apply Hl|apply Hr]; left; reflexivity. }
      assert (Ns : sa <> 0) by (eapply get_nonnull; exact Gs).
      cbn [root]. unfold truth. rewrite (proj2 (Z.eqb_neq _ _) Ns). cbn [negb]. unfold bnd at 1, ld_aelem. rewrite Gs.
      rewrite run_check by (cbn [ae_parent]; apply Z.eqb_refl).
      destruct Hs as [<-|<-]; [eapply (IHl a)|eapply (IHr a)]; try discriminate; try eassumption; lia. }
    cbn [verify_node]. unfold bnd at 1, ld_aelem at 1. rewrite G. cbn [ae_left ae_right].
    rewrite (run_bnd _ _ _ _ _ (One l (or_introl eq_refl))). exact (One r (or_intror eq_refl)).
  Qed.

  Lemma root_cell h t m : hist h t m -> exists tr, elems tr = m /\ bal tr /\ get h t = Some (CAvl (mk_avl cmp 0 (root tr) (zlen m))) /\
    hp h (cells 0 tr ++ [(t, CAvl (mk_avl cmp 0 (root tr) (zlen m)))]).
  Proof.
    intros H. apply history_avl in H as (_ & _ & _ & tr & E & B & H). exists tr. split; [exact E|]. split; [exact B|].
    unfold full, AvlProofs.hd in H. cbn [top pcells par app] in H. split; [apply H; left; reflexivity|]. eapply hp_perm; [|exact H]. perm.
  Qed.
  Lemma height_le tr : (Z.to_nat (height tr) <= length (elems tr))%nat.
  Proof.
    induction tr as [|l IHl a k v b r IHr]; cbn [height elems]; [cbn; lia|]. rewrite app_length. cbn [length].
    pose proof (height_pos l). pose proof (height_pos r). lia.
  Qed.

  Lemma verify_structure_ok h t m : hist h t m -> verify_structure (length m) t h = Ok (tt, h).
  Proof.
    intros H. destruct (root_cell h t m H) as (tr & E & B & G & Hp). unfold verify_structure, bnd at 1, ld_avl. rewrite G. cbn [av_root].
    destruct tr as [|l a k v b r]; [reflexivity|]. cbn [root].
    assert (Ga : get h a = Some (CAelem (mk_aelem k v (root l) (root r) 0 b))) by (apply Hp; left; reflexivity).
    assert (Na : a <> 0) by (eapply get_nonnull; exact Ga). rewrite (proj2 (Z.eqb_neq _ _) Na).
    unfold bnd at 1, ld_aelem. rewrite Ga. rewrite run_check by reflexivity. rewrite <- E.
    refine (verify_node_ok h (N l a k v b r) 0 _ _ _ (height_le _) Hp). discriminate.
  Qed.

  Lemma strict_log n size : 0 <= n -> 0 <= size -> 809 ^ n <= (size + 1) * 500 ^ n -> 2 ^ (20 * n) < (size + 2) ^ 29.
  Proof.
    intros Hn Hs H.
    assert (P5 : 0 < 500 ^ n) by (apply Z.pow_pos_nonneg; lia).
    assert (P8 : 0 <= 809 ^ n) by (apply Z.pow_nonneg; lia).
    assert (Q : 0 < 500 ^ (29 * n)) by (apply Z.pow_pos_nonneg; lia).
    assert (M : (size + 1) ^ 29 < (size + 2) ^ 29) by (apply Z.pow_lt_mono_l; [reflexivity|]; split; [apply Z.le_le_succ_r in Hs; exact Hs|]; apply Z.add_lt_mono_l; reflexivity).
    assert (A : (2 ^ 20 * 500 ^ 29) ^ n <= (809 ^ 29) ^ n).
    { apply Z.pow_le_mono_l. split; [apply Z.mul_nonneg_nonneg; apply Z.pow_nonneg; discriminate|]. vm_compute. discriminate. }
    rewrite Z.pow_mul_l, <- !Z.pow_mul_r in A by (exact Hn || discriminate).
    assert (B : (809 ^ n) ^ 29 <= ((size + 1) * 500 ^ n) ^ 29) by (apply Z.pow_le_mono_l; split; [exact P8|exact H]).
    rewrite Z.pow_mul_l, <- !Z.pow_mul_r in B by (exact Hn || discriminate).
    rewrite (Z.mul_comm n 29) in B.
    apply Z.le_lt_trans with ((size + 1) ^ 29); [|exact M].
    apply Z.mul_le_mono_pos_r with (500 ^ (29 * n)); [exact Q|]. exact (Z.le_trans _ _ _ A B).
  Qed.
  Lemma check_height_ok h size t : forall q D n d, (Z.to_nat (height t) <= n)%nat -> 1 <= d ->
    (forall i, d <= i < d + height t -> (2 ^ (20 * i) <? (size + 2) ^ 29) = true) ->
    hp h (cells q t ++ D) -> check_height n (root t) d size h = Ok (tt, h).
  Proof.
    induction t as [|l IHl a k v b r IHr]; intros q D n d Hn Hd L H; [destruct n; reflexivity|]. cbn [height] in Hn.
    pose proof (height_pos l) as Pl. pose proof (height_pos r) as Pr.
    assert (Hb : d <= d < d + height (N l a k v b r)) by (clear - Hd Pl Pr; cbn [height]; lia).
    destruct n as [|n]; [clear - Hn Pl Pr; lia|]. 
    assert (Hl : (Z.to_nat (height l) <= n)%nat /\ forall i, d + 1 <= i < d + 1 + height l -> d <= i < d + height (N l a k v b r)) by (clear - Hn Pl Pr; cbn [height]; split; [|intros i]; lia).
    assert (Hr : (Z.to_nat (height r) <= n)%nat /\ forall i, d + 1 <= i < d + 1 + height r -> d <= i < d + height (N l a k v b r)) by (clear - Hn Pl Pr; cbn [height]; split; [|intros i]; lia).
    assert (Hd' : 1 <= d + 1) by (clear - Hd; lia).
    cbn [cells root] in *.
    assert (G : get h a = Some (CAelem (mk_aelem k v (root l) (root r) q b))) by (apply H; left; reflexivity).
    assert (Na : a <> 0) by (eapply get_nonnull; exact G).
    cbn [check_height]. rewrite (proj2 (Z.eqb_neq _ _) Na). unfold bnd at 1, ld_aelem. rewrite G. cbn [ae_left ae_right].
    rewrite run_check by (exact (L d Hb)).
    assert (El : check_height n (root l) (d + 1) size h = Ok (tt, h)).
    { refine (IHl a _ n (d + 1) (proj1 Hl) Hd' (fun i Hi => L i (proj2 Hl i Hi)) _). eapply hp_perm; [|exact H].
      instantiate (1 := (a, CAelem (mk_aelem k v (root l) (root r) q b)) :: cells a r ++ D). perm. }
    rewrite (run_bnd _ _ _ _ _ El).
    refine (IHr a _ n (d + 1) (proj1 Hr) Hd' (fun i Hi => L i (proj2 Hr i Hi)) _). eapply hp_perm; [|exact H].
    instantiate (1 := (a, CAelem (mk_aelem k v (root l) (root r) q b)) :: cells a l ++ D). perm.
  Qed.
  Lemma verify_height_ok h t m : hist h t m -> verify_height (length m) t (zlen m) h = Ok (tt, h).
  Proof.
    intros H. destruct (root_cell h t m H) as (tr & E & B & G & Hp). unfold verify_height, bnd at 1, ld_avl. rewrite G. cbn [av_root].
    rewrite <- E. refine (check_height_ok h _ tr 0 _ _ 1 (height_le tr) (Z.le_refl 1) _ Hp). intros i Hi. apply Z.ltb_lt.
    assert (Hi' : 20 * i <= 20 * height tr) by lia.
    apply Z.le_lt_trans with (2 ^ (20 * height tr)); [apply Z.pow_le_mono_r; [reflexivity|exact Hi']|].
    apply strict_log; [apply height_pos|apply zlen_nonneg|exact (height_pow tr B)].
  Qed.

  Lemma nonnull h t m1 a m2 : hist h t (m1 ++ a :: m2) -> a_elem a <> 0.
  Proof.
    intros H. destruct a as [[e k] v]. apply (C28_element call cmp 0 h t _ e k v H). apply in_or_app. right. left. reflexivity.
  Qed.
  Lemma hd_handles (m : list assoc) : List.hd 0 (handles m) = match m with [] => 0 | a :: _ => a_elem a end.
  Proof. destruct m; reflexivity. Qed.
  Lemma next_of h t m1 a m2 : hist h t (m1 ++ a :: m2) -> avl_tree_next (a_elem a) h = Ok (List.hd 0 (handles m2), h).
  Proof. destruct a as [[e k] v]. intros H. exact (proj1 (C30_step call cmp 0 h t m1 e k v m2 H)). Qed.
  Lemma prev_of h t m1 a m2 : hist h t (m1 ++ a :: m2) -> avl_tree_previous (a_elem a) h = Ok (List.hd 0 (handles (rev m1)), h).
  Proof.
    destruct a as [[e k] v]. intros H. pose proof (proj2 (C30_step call cmp 0 h t m1 e k v m2 H)) as X. cbn [a_elem fst]. rewrite X. do 2 f_equal.
    unfold handles. rewrite map_rev. induction (map a_elem m1) as [|x l IH] using rev_ind; [reflexivity|]. rewrite rev_app_distr, last_last. reflexivity.
  Qed.
  Lemma first_of h t m : hist h t m -> avl_tree_get_first t h = Ok (List.hd 0 (handles m), h).
  Proof.
    intros H. pose proof (first_avl call cmp 0 h t m (history_avl _ _ _ _ _ _ H)) as X. rewrite X. reflexivity.
  Qed.
  Lemma last_of h t m : hist h t m -> avl_tree_get_last t h = Ok (List.hd 0 (handles (rev m)), h).
  Proof.
    intros H. pose proof (last_avl call cmp 0 h t m (history_avl _ _ _ _ _ _ H)) as X. rewrite X. do 2 f_equal. unfold handles. rewrite map_rev.
    induction (map a_elem m) as [|x l IH] using rev_ind; [reflexivity|]. rewrite rev_app_distr, last_last. reflexivity.
  Qed.
End tests.
