From Verif Require Import Base Heap Sep AvlModel AvlSpec AvlProofs.
From Coq Require Import ZifyBool ZifyNat.

(** ** Deletion: rebalancing *)
Fixpoint cbal (c : ctx) (h : Z) : Prop :=
  match c with
  | [] => True
  | FL _ _ _ b r :: c => b = height r - h /\ -1 <= b <= 1 /\ bal r /\ cbal c (1 + Z.max h (height r))
  | FR l _ _ _ b :: c => b = h - height l /\ -1 <= b <= 1 /\ bal l /\ cbal c (1 + Z.max (height l) h)
  end.
(** Solves a goal that differs from H in an integer. *)
Ltac eqn_max H := match type of H with cbal ?c ?x => match goal with |- cbal _ ?y => replace y with x; [exact H|cbn [height] in *; lia] end end.
Lemma bal_plug c t : bal (plug c t) <-> bal t /\ cbal c (height t).
Proof.
  revert t. induction c as [|[a k v b r|l a k v b] c IH]; intros t; cbn [plug cbal]; [tauto| |]; rewrite IH; cbn [bal height]; tauto.
Qed.
Fixpoint before_c (c : ctx) : list assoc :=
  match c with [] => [] | FL _ _ _ _ _ :: c => before_c c | FR l a k v _ :: c => before_c c ++ elems l ++ [(a, k, v)] end.
Fixpoint after_c (c : ctx) : list assoc :=
  match c with [] => [] | FL a k v _ r :: c => (a, k, v) :: elems r ++ after_c c | FR _ _ _ _ _ :: c => after_c c end.
Lemma elems_plug c t : elems (plug c t) = before_c c ++ elems t ++ after_c c.
Proof.
  revert t. induction c as [|[a k v b r|l a k v b] c IH]; intros t; cbn [plug before_c after_c]; rewrite ?IH; cbn [elems].
  - rewrite app_nil_r. reflexivity.
  - rewrite <- !app_assoc. reflexivity.
  - rewrite <- !app_assoc. reflexivity.
Qed.
Lemma keys_cells p t : Permutation (keys (cells p t)) (handles (elems t)).
Proof.
  revert p. induction t as [|l IHl a k v b r IHr]; intros p; [reflexivity|].
  cbn [cells elems]. unfold keys, handles in *. cbn [map fst]. rewrite !map_app, IHl, IHr. cbn [map a_elem fst].
  apply Permutation_middle.
Qed.

Fixpoint lighten (c : ctx) (t : tree) : tree :=
  match c with
  | [] => t
  | FL a k v b r :: c =>
      if b + 1 =? 0 then lighten c (N t a k v 0 r)
      else if b + 1 =? 2 then
        let t' := rot_left t a k v r in if rbal t' =? -1 then plug c t' else lighten c t'
      else plug c (N t a k v (b + 1) r)
  | FR l a k v b :: c =>
      if b - 1 =? 0 then lighten c (N l a k v 0 t)
      else if b - 1 =? -2 then
        let t' := rot_right l a k v t in if rbal t' =? 1 then plug c t' else lighten c t'
      else plug c (N l a k v (b - 1) t)
  end.

Lemma lighten_spec c : forall t, bal t -> cbal c (height t + 1) ->
  bal (lighten c t) /\ elems (lighten c t) = elems (plug c t).
Proof.
  induction c as [|[a k v b r|l a k v b] c IH]; intros t B C; cbn [lighten plug]; [auto| |].
  - cbn [cbal] in C. destruct C as (C1 & C2 & C3 & C4). destruct (b + 1 =? 0) eqn:E0.
    + destruct (IH (N t a k v 0 r)) as [I1 I2]; [cbn [bal]; repeat split; auto; lia|cbn [height]; eqn_max C4|].
      split; auto. rewrite I2, !elems_plug. reflexivity.
    + destruct (b + 1 =? 2) eqn:E2.
      * destruct (rot_left_ok t a k v r) as (t' & Et & R1 & R2 & R3 & R4 & R5); auto; [lia|]. rewrite Et. cbv zeta.
        assert (EP : elems (plug c t') = elems (plug c (N t a k v b r))).
        { rewrite !elems_plug, R5. reflexivity. }
        destruct (rbal r =? 0); rewrite R3; cbn [Z.eqb Pos.eqb].
        -- split; auto. apply bal_plug. split; auto. eqn_max C4.
        -- rewrite <- EP. apply IH; auto. eqn_max C4.
      * split; [|rewrite !elems_plug; reflexivity]. apply bal_plug. cbn [bal height]. split; [repeat split; auto; lia|]. eqn_max C4.
  - cbn [cbal] in C. destruct C as (C1 & C2 & C3 & C4). destruct (b - 1 =? 0) eqn:E0.
    + destruct (IH (N l a k v 0 t)) as [I1 I2]; [cbn [bal]; repeat split; auto; lia|cbn [height]; eqn_max C4|].
      split; auto. rewrite I2, !elems_plug. reflexivity.
    + destruct (b - 1 =? -2) eqn:E2.
      * destruct (rot_right_ok l a k v t) as (t' & Et & R1 & R2 & R3 & R4 & R5); auto; [lia|]. rewrite Et. cbv zeta.
        assert (EP : elems (plug c t') = elems (plug c (N l a k v b t))).
        { rewrite !elems_plug, R5. reflexivity. }
        destruct (rbal l =? 0); rewrite R3; cbn [Z.eqb Pos.eqb].
        -- split; auto. apply bal_plug. split; auto. eqn_max C4.
        -- rewrite <- EP. apply IH; auto. eqn_max C4.
      * split; [|rewrite !elems_plug; reflexivity]. apply bal_plug. cbn [bal height]. split; [repeat split; auto; lia|]. eqn_max C4.
Qed.

Lemma is_root' D q c y F x : ok D -> Permutation D (pcells q c y ++ F) -> In x (keys F) -> c <> [] -> (x =? top c y) = false.
Proof.
  intros O P I H. apply Z.eqb_neq. intros ->. destruct (ok_perm _ _ P O) as [h [ND _]]. rewrite keys_app in ND.
  eapply nodup_app_not; [exact ND|apply top_in; exact H|exact I].
Qed.
Lemma not_child' D p t F x : ok D -> Permutation D (cells p t ++ F) -> In x (keys F) -> (root t =? x) = false.
Proof.
  intros O P I. apply Z.eqb_neq. intros <-. destruct (ok_perm _ _ P O) as [h Hp]. destruct t as [|l a k v b r].
  - apply (hp_get _ _ 0 (hp_app_r _ _ _ Hp) I). reflexivity.
  - pose proof (proj1 Hp) as ND. rewrite keys_app in ND. eapply nodup_app_not; [exact ND|left; reflexivity|exact I].
Qed.

Lemma relink_ok T cmp obj size up stop c a t :
  t <> E -> In a (handles (elems t)) ->
  (c <> [] -> rbal t <> stop -> triple (full T cmp obj size c t) (up (root t)) (det tt (full T cmp obj size [] (lighten c t)))) ->
  triple (hd T cmp obj size c a ++ cells (par 0 c) t) (relink up stop T a (root t))
    (det tt (full T cmp obj size [] (if rbal t =? stop then plug c t else lighten c t))).
Proof.
  intros NE Ia U. unfold relink. apply t_ok. intros O. unfold hd in *. norm. eapply t_ld_avl; [intac|]. fields.
  assert (Ka : In a (keys (cells (par 0 c) t))).
  { eapply Permutation_in; [symmetry; apply keys_cells|exact Ia]. }
  destruct c as [|f c].
  - cbn [top pcells plug lighten app par]. rewrite Z.eqb_refl.
    replace (if rbal t =? stop then t else t) with t by (destruct (rbal t =? stop); auto).
    apply t_tail; run; apply t_ret_det. shape. perm.
  - rewrite (is_root' _ 0 (f :: c) a ((T, CAvl (mk_avl cmp obj (top (f :: c) a) size)) :: cells (par 0 (f :: c)) t) a O);
      [|perm|right; exact Ka|discriminate].
    assert (U' : triple (full T cmp obj size (f :: c) t) (if rbal t =? stop then ret tt else up (root t))
      (det tt (full T cmp obj size [] (if rbal t =? stop then plug (f :: c) t else lighten (f :: c) t)))).
    { destruct (rbal t =? stop) eqn:Es.
      - apply t_ret_det. apply full_plug.
      - apply U; [discriminate|lia]. }
    destruct t as [|tl x kx vx bx tr]; [congruence|]. clear U.
    cbn [rbal] in U'. unfold full at 1 in U'. unfold hd in U'.
    destruct f as [y ky vy by_ ry|ly y ky vy by_]; cbn [pcells f_addr top par cells root app] in *.
    + run. rewrite (not_child' _ y ry ((T, CAvl (mk_avl cmp obj (top c y) size)) ::
        (y, CAelem (mk_aelem ky vy a (root ry) (par 0 c) by_)) :: pcells 0 c y ++ cells y (N tl x kx vx bx tr)) a O);
        [|fields; perm|].
      2: { cbn [keys map fst]. right. right. fold (keys (pcells 0 c y ++ cells y (N tl x kx vx bx tr))).
           rewrite keys_app. apply in_or_app. right. exact Ka. }
      run. eapply t_perm; [|exact U']. perm.
    + run. rewrite Z.eqb_refl. run. eapply t_perm; [|exact U']. perm.
Qed.

Lemma lighten_left_ok T cmp obj size up c t a k v b r :
  bal t -> cbal (FL a k v b r :: c) (height t + 1) ->
  (forall t', c <> [] -> t' <> E -> bal t' -> cbal c (height t' + 1) ->
     triple (full T cmp obj size c t') (up (root t')) (det tt (full T cmp obj size [] (lighten c t')))) ->
  triple (full T cmp obj size (FL a k v b r :: c) t) (lighten_left up T a)
    (det tt (full T cmp obj size [] (lighten (FL a k v b r :: c) t))).
Proof.
  intros B C U. unfold lighten_left. cbn [lighten]. apply t_ok. intros O. unfold full at 1 in O. unfold hd in O.
  unfold full at 1. unfold hd. cbn [pcells f_addr top par] in *. run.
  destruct C as (C1 & C2 & C3 & C4). destruct (b + 1 =? 0) eqn:E0.
  - norm. eapply t_ld_avl; [intac|]. fields. replace (b + 1) with 0 by lia. destruct c as [|f c].
    + cbn [top]. rewrite Z.eqb_refl. apply t_ret_det. shape. cbn [lighten cells root]. perm.
    + rewrite (is_root' _ 0 (f :: c) a ((a, CAelem (mk_aelem k v (root t) (root r) (par 0 (f :: c)) b)) ::
        (T, CAvl (mk_avl cmp obj (top (f :: c) a) size)) :: cells a r ++ cells a t) a O);
        [|perm|left; reflexivity|discriminate].
      eapply t_perm; [|apply (U (N t a k v 0 r))]; try discriminate.
      * shape. perm.
      * cbn [bal]. repeat split; auto; lia.
      * cbn [height]. eqn_max C4.
  - destruct (b + 1 =? 2) eqn:E2.
    + destruct (rot_left_ok t a k v r) as (t' & Et & R1 & R2 & R3 & R4 & R5); auto; [lia|]. cbv zeta. rewrite Et.
      eapply t_seq.
      { eapply t_perm; [|apply t_frame_det; apply (rotate_left_ok (par 0 c) t a k v (b + 1) r); congruence].
        instantiate (1 := hd T cmp obj size c a). shape. perm. }
      rewrite Et. eapply t_perm; [|apply relink_ok; auto].
      * perm.
      * rewrite R5. unfold handles. rewrite map_app. apply in_or_app. right. left. reflexivity.
      * intros Hc Hs. apply U; auto. destruct (rbal r =? 0); [lia|]. eqn_max C4.
    + apply t_ret_det. rewrite <- full_plug. shape. perm.
Qed.
Lemma lighten_right_ok T cmp obj size up c t a k v b l :
  bal t -> cbal (FR l a k v b :: c) (height t + 1) ->
  (forall t', c <> [] -> t' <> E -> bal t' -> cbal c (height t' + 1) ->
     triple (full T cmp obj size c t') (up (root t')) (det tt (full T cmp obj size [] (lighten c t')))) ->
  triple (full T cmp obj size (FR l a k v b :: c) t) (lighten_right up T a)
    (det tt (full T cmp obj size [] (lighten (FR l a k v b :: c) t))).
Proof.
  intros B C U. unfold lighten_right. cbn [lighten]. apply t_ok. intros O. unfold full at 1 in O. unfold hd in O.
  unfold full at 1. unfold hd. cbn [pcells f_addr top par] in *. run.
  destruct C as (C1 & C2 & C3 & C4). destruct (b - 1 =? 0) eqn:E0.
  - norm. eapply t_ld_avl; [intac|]. fields. replace (b - 1) with 0 by lia. destruct c as [|f c].
    + cbn [top]. rewrite Z.eqb_refl. apply t_ret_det. shape. cbn [lighten cells root]. perm.
    + rewrite (is_root' _ 0 (f :: c) a ((a, CAelem (mk_aelem k v (root l) (root t) (par 0 (f :: c)) b)) ::
        (T, CAvl (mk_avl cmp obj (top (f :: c) a) size)) :: cells a l ++ cells a t) a O);
        [|perm|left; reflexivity|discriminate].
      eapply t_perm; [|apply (U (N l a k v 0 t))]; try discriminate.
      * shape. perm.
      * cbn [bal]. repeat split; auto; lia.
      * cbn [height]. eqn_max C4.
  - destruct (b - 1 =? -2) eqn:E2.
    + destruct (rot_right_ok l a k v t) as (t' & Et & R1 & R2 & R3 & R4 & R5); auto; [lia|]. cbv zeta. rewrite Et.
      eapply t_seq.
      { eapply t_perm; [|apply t_frame_det; apply (rotate_right_ok (par 0 c) l a k v (b - 1) t); congruence].
        instantiate (1 := hd T cmp obj size c a). shape. perm. }
      rewrite Et. eapply t_perm; [|apply relink_ok; auto].
      * perm.
      * rewrite R5. unfold handles. rewrite map_app. apply in_or_app. right. left. reflexivity.
      * intros Hc Hs. apply U; auto. destruct (rbal l =? 0); [lia|]. eqn_max C4.
    + apply t_ret_det. rewrite <- full_plug. shape. perm.
Qed.

Lemma lighten_parent_ok T cmp obj size n : forall c t, (length c <= n)%nat ->
  c <> [] -> t <> E -> bal t -> cbal c (height t + 1) ->
  triple (full T cmp obj size c t) (lighten_parent n T (root t)) (det tt (full T cmp obj size [] (lighten c t))).
Proof.
  induction n as [|n IH]; intros c t Ln Hc Ht B C.
  { destruct c; simpl in Ln; [congruence|lia]. }
  destruct c as [|f c]; [congruence|]. clear Hc. destruct t as [|tl x kx vx bx tr]; [congruence|]. clear Ht.
  simpl in Ln. cbn [lighten_parent root]. apply t_ok. intros O. unfold full in O at 1. unfold hd in O.
  destruct f as [a k v b r|l a k v b].
  - assert (T1 := lighten_left_ok T cmp obj size (lighten_parent n T) c _ a k v b r B C
      (fun t' H1 H2 H3 H4 => IH c t' ltac:(lia) H1 H2 H3 H4)).
    unfold full at 1. unfold full at 1 in T1. unfold hd in *. cbn [pcells f_addr top par cells root] in *. run.
    rewrite (not_child' _ a r ((x, CAelem (mk_aelem kx vx (root tl) (root tr) a bx)) :: (T, CAvl (mk_avl cmp obj (top c a) size)) ::
      (a, CAelem (mk_aelem k v x (root r) (par 0 c) b)) :: pcells 0 c a ++ cells x tl ++ cells x tr) x O);
      [|perm|left; reflexivity].
    eapply t_perm; [|exact T1]. perm.
  - assert (T1 := lighten_right_ok T cmp obj size (lighten_parent n T) c _ a k v b l B C
      (fun t' H1 H2 H3 H4 => IH c t' ltac:(lia) H1 H2 H3 H4)).
    unfold full at 1. unfold full at 1 in T1. unfold hd in *. cbn [pcells f_addr top par cells root] in *. run.
    rewrite Z.eqb_refl.
    eapply t_perm; [|exact T1]. perm.
Qed.

(** ** Deletion: moving the element down *)
Lemma par_app q p c : par q (p ++ c) = par (par q c) p.
Proof. destruct p; reflexivity. Qed.
Lemma top_app p c x : top (p ++ c) x = top c (top p x).
Proof. revert x. induction p as [|f p IH]; intros x; simpl; auto. Qed.
Lemma pcells_app q p c x : pcells q (p ++ c) x = pcells (par q c) p x ++ pcells q c (top p x).
Proof.
  revert x. induction p as [|[a k v b r|l a k v b] p IH]; intros x; cbn [app pcells top f_addr]; auto;
    rewrite IH, par_app; norm; reflexivity.
Qed.
Lemma plug_app p c t : plug (p ++ c) t = plug c (plug p t).
Proof. revert t. induction p as [|[a k v b r|l a k v b] p IH]; intros t; cbn [app plug]; auto. Qed.
Lemma before_app p c : before_c (p ++ c) = before_c c ++ before_c p.
Proof.
  induction p as [|[a k v b r|l a k v b] p IH]; cbn [app before_c]; auto.
  - rewrite app_nil_r. reflexivity.
  - rewrite IH, <- ?app_assoc. reflexivity.
Qed.
Lemma after_app p c : after_c (p ++ c) = after_c p ++ after_c c.
Proof.
  induction p as [|[a k v b r|l a k v b] p IH]; cbn [app after_c]; rewrite ?IH, ?app_assoc; cbn [app]; auto; rewrite <- ?app_assoc; reflexivity.
Qed.
Lemma height_plug c t : height t <= height (plug c t).
Proof.
  revert t. induction c as [|[a k v b r|l a k v b] c IH]; intros t; cbn [plug]; [lia| |].
  - specialize (IH (N t a k v b r)). cbn [height] in IH. lia.
  - specialize (IH (N l a k v b t)). cbn [height] in IH. lia.
Qed.
Lemma cbal_FL p a k v a2 k2 v2 b r c h : cbal (p ++ FL a k v b r :: c) h -> cbal (p ++ FL a2 k2 v2 b r :: c) h.
Proof. revert h. induction p as [|[] p IH]; intros h; cbn [app cbal]; intuition. Qed.
Lemma cbal_FR p a k v a2 k2 v2 b l c h : cbal (p ++ FR l a k v b :: c) h -> cbal (p ++ FR l a2 k2 v2 b :: c) h.
Proof. revert h. induction p as [|[] p IH]; intros h; cbn [app cbal]; intuition. Qed.

Lemma adopt_top D q q' p x : p <> [] -> triple (pcells q p x ++ D) (adopt (top p x) q') (det tt (pcells q' p x ++ D)).
Proof.
  intros H. destruct (exists_last H) as (p' & f & ->). rewrite !pcells_app, top_app. cbn [par top].
  destruct f as [a k v b r|l a k v b]; cbn [f_addr pcells par]; apply t_ok; intros O; unfold adopt; norm; nonnull O a;
    rewrite (proj2 (Z.eqb_neq a 0)) by auto; apply t_tail; run; apply t_ret_det; perm.
Qed.

Lemma exchange_FL T cmp obj size p a k v b r c l2 a2 k2 v2 b2 r2 :
  triple (full T cmp obj size (p ++ FL a k v b r :: c) (N l2 a2 k2 v2 b2 r2)) (exchange T a a2)
    (det tt (full T cmp obj size (p ++ FL a2 k2 v2 b r :: c) (N l2 a k v b2 r2))).
Proof.
  apply t_ok. intros O. unfold exchange, full. cbn [root cells]. eapply t_seq.
  { apply (substitute_ok T cmp obj size (p ++ FL a k v b r :: c) a2 _ a). reflexivity. }
  eapply t_seq.
  { eapply t_perm; [|apply (substitute_ok T cmp obj size c a (mk_aelem k v (top p a) (root r) (par 0 c) b) a2
      (pcells a p a ++ cells a r ++ (a2, CAelem (mk_aelem k2 v2 (root l2) (root r2) (par a p) b2)) :: cells a2 l2 ++ cells a2 r2) eq_refl)].
    unfold hd. rewrite top_app, pcells_app, par_app. cbn [par top f_addr pcells]. perm. }
  unfold hd at 1. run.
  tpicka (cells a2 l2). eapply t_seq; [apply adopt_ok|]. run.
  tpicka (cells a2 r2). eapply t_seq; [apply adopt_ok|]. run.
  unfold hd. rewrite top_app, pcells_app, par_app. cbn [par top f_addr pcells].
  destruct p as [|f p].
  - cbn [top pcells par app].
    unfold full, hd in O. cbn [app pcells top par f_addr cells root] in O. norm. nonnull O a.
    replace (adopt a a2) with (st_parent a a2).
    2: { unfold adopt. rewrite (proj2 (Z.eqb_neq a 0)) by auto. reflexivity. }
    run. tpicka (cells a r). apply t_tail. eapply t_seq; [apply adopt_ok|]. apply t_ret_det. perm.
  - tpicka (pcells a (f :: p) a). eapply t_seq; [apply adopt_top; discriminate|]. run.
    tpicka (cells a r). apply t_tail. eapply t_seq; [apply adopt_ok|]. apply t_ret_det. cbn [par]. perm.
Qed.
Lemma exchange_FR T cmp obj size p a k v b l c l2 a2 k2 v2 b2 r2 :
  triple (full T cmp obj size (p ++ FR l a k v b :: c) (N l2 a2 k2 v2 b2 r2)) (exchange T a a2)
    (det tt (full T cmp obj size (p ++ FR l a2 k2 v2 b :: c) (N l2 a k v b2 r2))).
Proof.
  apply t_ok. intros O. unfold exchange, full. cbn [root cells]. eapply t_seq.
  { apply (substitute_ok T cmp obj size (p ++ FR l a k v b :: c) a2 _ a). reflexivity. }
  eapply t_seq.
  { eapply t_perm; [|apply (substitute_ok T cmp obj size c a (mk_aelem k v (root l) (top p a) (par 0 c) b) a2
      (pcells a p a ++ cells a l ++ (a2, CAelem (mk_aelem k2 v2 (root l2) (root r2) (par a p) b2)) :: cells a2 l2 ++ cells a2 r2) eq_refl)].
    unfold hd. rewrite top_app, pcells_app, par_app. cbn [par top f_addr pcells]. perm. }
  unfold hd at 1. run.
  tpicka (cells a2 l2). eapply t_seq; [apply adopt_ok|]. run.
  tpicka (cells a2 r2). eapply t_seq; [apply adopt_ok|]. run.
  tpicka (cells a l). eapply t_seq; [apply adopt_ok|]. run.
  unfold hd. rewrite top_app, pcells_app, par_app. cbn [par top f_addr pcells].
  destruct p as [|f p].
  - cbn [top pcells par app].
    unfold full, hd in O. cbn [app pcells top par f_addr cells root] in O. norm. nonnull O a.
    replace (adopt a a2) with (st_parent a a2).
    2: { unfold adopt. rewrite (proj2 (Z.eqb_neq a 0)) by auto. reflexivity. }
    apply t_tail. run. apply t_ret_det. perm.
  - tpicka (pcells a (f :: p) a). apply t_tail. eapply t_seq; [apply adopt_top; discriminate|].
    apply t_ret_det. cbn [par]. perm.
Qed.

(** The last and the first element of a subtree. *)
Lemma rightmost_ok t : t <> E -> exists p l a k v b, t = plug p (N l a k v b E) /\ after_c p = [] /\
  forall q D n, (Z.to_nat (height t) <= n)%nat -> reads (cells q t ++ D) (rightmost n (root t)) a.
Proof.
  induction t as [|l IHl a k v b r IHr]; intros NE; [congruence|]. clear NE IHl.
  destruct r as [|rl ra rk rv rb rr].
  - exists [], l, a, k, v, b. split; [reflexivity|]. split; [reflexivity|]. intros q D n Hn.
    cbn [height] in Hn. pose proof (height_pos l). destruct n as [|n]; [lia|]. cbn [rightmost]. fields.
    eapply r_ld_aelem; [norm; intac|]. fields. apply r_ret.
  - destruct IHr as (p & l' & a' & k' & v' & b' & E1 & E2 & E3); [discriminate|].
    exists (p ++ [FR l a k v b]), l', a', k', v', b'. split; [rewrite plug_app, <- E1; reflexivity|].
    split; [rewrite after_app, E2; reflexivity|]. intros q D n Hn.
    set (t := N rl ra rk rv rb rr) in *. assert (1 <= height t) by (cbn [t height]; pose proof (height_pos rl); lia).
    cbn [height] in Hn. pose proof (height_pos l). destruct n as [|n]; [lia|]. cbn [rightmost]. fields.
    eapply r_ld_aelem; [norm; intac|]. fields. apply r_ok. intros O.
    assert (NZ : (root t =? 0) = false).
    { apply Z.eqb_neq. eapply (ok_nonnull _ ra _ O). unfold t. fields. norm. intac. }
    rewrite NZ. eapply r_perm; [|apply (E3 a (cells a l ++ (a, CAelem (mk_aelem k v (root l) (root t) q b)) :: D)); lia]. perm.
Qed.
Lemma leftmost_ok t : t <> E -> exists p r a k v b, t = plug p (N E a k v b r) /\ before_c p = [] /\
  forall q D n, (Z.to_nat (height t) <= n)%nat -> reads (cells q t ++ D) (leftmost n (root t)) a.
Proof.
  induction t as [|l IHl a k v b r IHr]; intros NE; [congruence|]. clear NE IHr.
  destruct l as [|ll la lk lv lb lr].
  - exists [], r, a, k, v, b. split; [reflexivity|]. split; [reflexivity|]. intros q D n Hn.
    cbn [height] in Hn. pose proof (height_pos r). destruct n as [|n]; [lia|]. cbn [leftmost]. fields.
    eapply r_ld_aelem; [norm; intac|]. fields. apply r_ret.
  - destruct IHl as (p & r' & a' & k' & v' & b' & E1 & E2 & E3); [discriminate|].
    exists (p ++ [FL a k v b r]), r', a', k', v', b'. split; [rewrite plug_app, <- E1; reflexivity|].
    split; [rewrite before_app, E2; reflexivity|]. intros q D n Hn.
    set (t := N ll la lk lv lb lr) in *. assert (1 <= height t) by (cbn [t height]; pose proof (height_pos ll); lia).
    cbn [height] in Hn. pose proof (height_pos r). destruct n as [|n]; [lia|]. cbn [leftmost]. fields.
    eapply r_ld_aelem; [norm; intac|]. fields. apply r_ok. intros O.
    assert (NZ : (root t =? 0) = false).
    { apply Z.eqb_neq. eapply (ok_nonnull _ la _ O). unfold t. fields. norm. intac. }
    rewrite NZ. eapply r_perm; [|apply (E3 a (cells a r ++ (a, CAelem (mk_aelem k v (root t) (root r) q b)) :: D)); lia]. perm.
Qed.

Lemma root_nonnull D p t F : ok D -> t <> E -> Permutation D (cells p t ++ F) -> (root t =? 0) = false.
Proof.
  intros O Ht P. apply Z.eqb_neq. destruct t as [|tl x kx vx bx tr]; [congruence|].
  eapply (ok_nonnull _ x _ O). eapply Permutation_in; [symmetry; exact P|]. left; reflexivity.
Qed.
Lemma cells_length p t : length (cells p t) = length (elems t).
Proof.
  pose proof (Permutation_length (keys_cells p t)) as H. unfold keys, handles in H. rewrite !map_length in H. exact H.
Qed.

Lemma previous_descendant_E q a k v b r D :
  reads (cells q (N E a k v b r) ++ D) (previous_descendant a) 0.
Proof. unfold previous_descendant. fields. eapply r_ld_aelem; [norm; intac|]. fields. apply r_ret. Qed.
Lemma previous_descendant_N l : l <> E -> exists p l2 a2 k2 v2 b2, l = plug p (N l2 a2 k2 v2 b2 E) /\ after_c p = [] /\
  forall q a k v b r D, reads (cells q (N l a k v b r) ++ D) (previous_descendant a) a2.
Proof.
  intros NE. destruct (rightmost_ok l NE) as (p & l2 & a2 & k2 & v2 & b2 & E1 & E2 & E3).
  exists p, l2, a2, k2, v2, b2. split; auto. split; auto. intros q a k v b r D.
  apply r_ok. intros O. unfold previous_descendant. fields. eapply r_ld_aelem; [norm; intac|]. fields.
  rewrite (root_nonnull _ a l ((a, CAelem (mk_aelem k v (root l) (root r) q b)) :: cells a r ++ D) O) by (auto; fields; perm).
  apply r_fuel. intros n Hn.
  eapply r_perm; [|apply (E3 a ((a, CAelem (mk_aelem k v (root l) (root r) q b)) :: cells a r ++ D))]; [perm|].
  cbn [app length] in Hn. rewrite !app_length in Hn. pose proof (cells_len a l). lia.
Qed.
Lemma next_descendant_E q a k v b l D :
  reads (cells q (N l a k v b E) ++ D) (next_descendant a) 0.
Proof. unfold next_descendant. fields. eapply r_ld_aelem; [norm; intac|]. fields. apply r_ret. Qed.
Lemma next_descendant_N r : r <> E -> exists p r2 a2 k2 v2 b2, r = plug p (N E a2 k2 v2 b2 r2) /\ before_c p = [] /\
  forall q a k v b l D, reads (cells q (N l a k v b r) ++ D) (next_descendant a) a2.
Proof.
  intros NE. destruct (leftmost_ok r NE) as (p & r2 & a2 & k2 & v2 & b2 & E1 & E2 & E3).
  exists p, r2, a2, k2, v2, b2. split; auto. split; auto. intros q a k v b l D.
  apply r_ok. intros O. unfold next_descendant. fields. eapply r_ld_aelem; [norm; intac|]. fields.
  rewrite (root_nonnull _ a r ((a, CAelem (mk_aelem k v (root l) (root r) q b)) :: cells a l ++ D) O) by (auto; fields; perm).
  apply r_fuel. intros n Hn.
  eapply r_perm; [|apply (E3 a ((a, CAelem (mk_aelem k v (root l) (root r) q b)) :: cells a l ++ D))]; [perm|].
  cbn [app length] in Hn. rewrite !app_length in Hn. pose proof (cells_len a r). lia.
Qed.

Lemma sink_ok T cmp obj size a k v n : forall c l b r,
  bal (plug c (N l a k v b r)) -> (Z.to_nat (height (N l a k v b r)) <= n)%nat ->
  exists c', bal (plug c' (N E a k v 0 E)) /\ before_c c' ++ after_c c' = before_c c ++ elems l ++ elems r ++ after_c c /\
    triple (full T cmp obj size c (N l a k v b r)) (sink n T a) (det tt (full T cmp obj size c' (N E a k v 0 E))).
Proof.
  induction n as [|n IH]; intros c l b r B Hn.
  { cbn [height] in Hn. pose proof (height_pos l). lia. }
  assert (L : forall A B (m : M A) f (x : A) Q, reads (full T cmp obj size c (N l a k v b r)) m x ->
     triple (full T cmp obj size c (N l a k v b r)) (f x) Q -> triple (full T cmp obj size c (N l a k v b r)) (@bnd A B m f) Q).
  { intros A B' m f x Q R S. eapply t_seq; [apply t_reads; exact R|exact S]. }
  assert (P1 : Permutation (full T cmp obj size c (N l a k v b r)) (cells (par 0 c) (N l a k v b r) ++ hd T cmp obj size c a)).
  { unfold full. apply Permutation_app_comm. }
  assert (LF : reads (full T cmp obj size c (N l a k v b r)) (leaf_element a) ((root r =? 0) && (root l =? 0))).
  { unfold leaf_element. eapply r_perm; [exact P1|]. fields. eapply r_ld_aelem; [norm; intac|]. fields. apply r_ret. }
  destruct (bal_plug c (N l a k v b r)) as [BP _]. destruct (BP B) as [BN BC]. clear BP.
  destruct l as [|ll la lk lv lb lr].
  - destruct r as [|rl ra rk rv rb rr].
    + (* leaf *)
      exists c. assert (b = 0) as -> by (cbn [bal height] in BN; lia). split; [exact B|]. split; [reflexivity|].
      cbn [sink]. eapply L; [exact LF|]. cbn [root Z.eqb andb]. apply t_ret_det. reflexivity.
    + set (r := N rl ra rk rv rb rr) in *.
      destruct (next_descendant_N r) as (p & r2 & a2 & k2 & v2 & b2 & E1 & E2 & E3); [discriminate|].
      destruct (IH (p ++ FR E a2 k2 v2 b :: c) E b2 r2) as (c' & B' & S' & T').
      * rewrite bal_plug. rewrite E1 in B.
        change (plug c (N E a k v b (plug p (N E a2 k2 v2 b2 r2)))) with (plug (FR E a k v b :: c) (plug p (N E a2 k2 v2 b2 r2))) in B.
        rewrite <- plug_app, bal_plug in B. destruct B as [X Y]. split; [exact X|]. eapply cbal_FR. exact Y.
      * pose proof (height_plug p (N E a2 k2 v2 b2 r2)) as HP. rewrite <- E1 in HP. cbn [height] in *. pose proof (height_pos r). lia.
      * exists c'. split; auto. split.
        { rewrite S', before_app, after_app, E2, E1, elems_plug, E2. cbn [before_c after_c elems app].
          repeat (rewrite ?app_nil_r, <- ?app_assoc; cbn [app]). reflexivity. }
        cbn [sink]. eapply L; [exact LF|].
        apply t_ok. intros O. rewrite (root_nonnull _ a r ((a, CAelem (mk_aelem k v 0 (root r) (par 0 c) b)) :: hd T cmp obj size c a) O);
          [|discriminate|unfold full; fields; perm]. cbn [andb].
        eapply L.
        { unfold adjacent_descendant. eapply r_seq; [eapply r_perm; [exact P1|apply previous_descendant_E]|].
          cbn [Z.eqb]. eapply r_perm; [exact P1|apply E3]. }
        eapply t_seq; [|exact T'].
        eapply t_perm; [|apply exchange_FR].
        rewrite full_plug. rewrite (full_plug _ _ _ _ (p ++ _)). rewrite plug_app. cbn [plug]. rewrite <- E1. reflexivity.
  - set (l := N ll la lk lv lb lr) in *.
    destruct (previous_descendant_N l) as (p & l2 & a2 & k2 & v2 & b2 & E1 & E2 & E3); [discriminate|].
    destruct (IH (p ++ FL a2 k2 v2 b r :: c) l2 b2 E) as (c' & B' & S' & T').
    + rewrite bal_plug. rewrite E1 in B.
      change (plug c (N (plug p (N l2 a2 k2 v2 b2 E)) a k v b r)) with (plug (FL a k v b r :: c) (plug p (N l2 a2 k2 v2 b2 E))) in B.
      rewrite <- plug_app, bal_plug in B. destruct B as [X Y]. split; [exact X|]. eapply cbal_FL. exact Y.
    + pose proof (height_plug p (N l2 a2 k2 v2 b2 E)) as HP. rewrite <- E1 in HP. cbn [height] in *. pose proof (height_pos l). lia.
    + exists c'. split; auto. split.
      { rewrite S', before_app, after_app, E2, E1, elems_plug, E2. cbn [before_c after_c elems app].
        repeat (rewrite ?app_nil_r, <- ?app_assoc; cbn [app]). reflexivity. }
      cbn [sink]. eapply L; [exact LF|].
      apply t_ok. intros O. rewrite (root_nonnull _ a l ((a, CAelem (mk_aelem k v (root l) (root r) (par 0 c) b)) :: cells a r ++ hd T cmp obj size c a) O);
        [|discriminate|unfold full; fields; perm]. rewrite andb_false_r.
      eapply L.
      { unfold adjacent_descendant. eapply r_seq; [eapply r_perm; [exact P1|apply E3]|].
        assert (NZ : (a2 =? 0) = false).
        { apply (root_nonnull _ (par 0 (p ++ FL a k v b r :: c)) (N l2 a2 k2 v2 b2 E) (hd T cmp obj size (p ++ FL a k v b r :: c) a2) O); [discriminate|].
          rewrite full_plug. rewrite E1. change (plug c (N (plug p (N l2 a2 k2 v2 b2 E)) a k v b r)) with (plug (FL a k v b r :: c) (plug p (N l2 a2 k2 v2 b2 E))).
          rewrite <- plug_app, <- full_plug. unfold full. apply Permutation_app_comm. }
        rewrite NZ. apply r_ret. }
      eapply t_seq; [|exact T'].
      eapply t_perm; [|apply exchange_FL].
      rewrite full_plug. rewrite (full_plug _ _ _ _ (p ++ _)). rewrite plug_app. cbn [plug]. rewrite <- E1. reflexivity.
Qed.

Lemma ctx_length c : (length c <= length (before_c c ++ after_c c))%nat.
Proof.
  rewrite app_length. induction c as [|[] c IH]; cbn [before_c after_c length]; [lia| |]; rewrite ?app_length; cbn [length]; rewrite ?app_length; cbn [length]; lia.
Qed.

(** [c'] is where the element sinks to. *)
Lemma detach_within_ok T cmp obj size c l a k v b r :
  bal (plug c (N l a k v b r)) -> 1 <= size <= 2 ^ 60 ->
  exists c' t' q, bal (plug c' (N E a k v 0 E)) /\ before_c c' ++ after_c c' = before_c c ++ elems l ++ elems r ++ after_c c /\
    bal t' /\ elems t' = before_c c ++ elems l ++ elems r ++ after_c c /\
    forall n, (length c' <= n)%nat ->
    triple (full T cmp obj size c (N l a k v b r)) (avl_tree_detach_within n T a)
      (det tt (full T cmp obj (size - 1) [] t' ++ [(a, CAelem (mk_aelem k v 0 0 q 0))])).
Proof.
  intros B Hs. set (h0 := Z.to_nat (height (N l a k v b r))).
  assert (exists c', bal (plug c' (N E a k v 0 E)) /\ before_c c' ++ after_c c' = before_c c ++ elems l ++ elems r ++ after_c c /\
    forall n, (h0 <= n)%nat -> triple (full T cmp obj size c (N l a k v b r)) (sink n T a) (det tt (full T cmp obj size c' (N E a k v 0 E)))) as (c' & B' & S' & T').
  { destruct (sink_ok T cmp obj size a k v h0 c l b r B (Nat.le_refl _)) as (c' & B' & S' & T').
    exists c'. split; auto. split; auto. intros n Hn.
    assert (MON : forall n n' h x, (n <= n')%nat -> sink n T a h = Ok x -> sink n' T a h = Ok x).
    { clear. induction n as [|n IH]; intros n' h x Hn; [discriminate|]. destruct n' as [|n']; [lia|]. cbn [sink].
      unfold bnd. destruct (leaf_element a h) as [[[] h1]| | |]; auto.
      destruct (adjacent_descendant a h1) as [[adj h2]| | |]; auto.
      destruct (exchange T a adj h2) as [[u h3]| | |]; auto. apply IH. lia. }
    intros h H. destruct (T' h H) as (x & D' & h' & R & X). exists x, D', h'. split; [|exact X]. eapply MON; eauto. }
  exists c', (lighten c' E), (par 0 c'). split; [exact B'|]. split; [exact S'|].
  rewrite bal_plug in B'. destruct B' as [_ BC].
  destruct (lighten_spec c' E I) as [L1 L2]; [exact BC|].
  split; [exact L1|]. split.
  { rewrite L2, elems_plug, <- S'. reflexivity. }
  intros n LC. unfold avl_tree_detach_within. eapply t_bnd; [apply t_fuel|]. intros n0 D [-> Hn].
  eapply t_seq.
  { apply T'. unfold full in Hn. rewrite app_length in Hn.
    pose proof (cells_len (par 0 c) (N l a k v b r)). unfold h0. lia. }
  apply t_ok. intros O. unfold full at 1. unfold hd. fields.
  assert (SZ : forall D t, triple (full T cmp obj size [] t ++ D) (let! t0 := ld_avl T in st_tsize T (u64 (av_size t0 - 1)))
    (det tt (full T cmp obj (size - 1) [] t ++ D))).
  { intros D t. unfold full, hd. norm. eapply t_ld_avl; [intac|]. fields. rewrite u64_small by lia.
    apply t_tail. run. apply t_ret_det. perm. }
  unfold full in O at 1. unfold hd in O. cbn [cells root app] in O.
  norm. eapply t_ld_avl; [intac|]. fields. eapply t_seq; [|apply SZ]. destruct c' as [|[y ky vy by_ ry|ly y ky vy by_] c'].
  - cbn [top pcells par lighten]. rewrite Z.eqb_refl. apply t_tail. run. apply t_ret_det. shape. perm.
  - rewrite (is_root' _ 0 (FL y ky vy by_ ry :: c') a [(a, CAelem (mk_aelem k v 0 0 (par 0 (FL y ky vy by_ ry :: c')) 0));
      (T, CAvl (mk_avl cmp obj (top (FL y ky vy by_ ry :: c') a) size))] a O); [|perm|left; reflexivity|discriminate].
    cbn [pcells top f_addr par] in *. run. rewrite Z.eqb_refl. run.
    eapply t_perm; [|apply t_frame_det; apply (lighten_left_ok T cmp obj size (lighten_parent n T) c' E y ky vy by_ ry I)].
    + shape. perm.
    + exact BC.
    + intros t' H1 H2 H3 H4. apply lighten_parent_ok; auto. cbn [length] in LC. lia.
  - rewrite (is_root' _ 0 (FR ly y ky vy by_ :: c') a [(a, CAelem (mk_aelem k v 0 0 (par 0 (FR ly y ky vy by_ :: c')) 0));
      (T, CAvl (mk_avl cmp obj (top (FR ly y ky vy by_ :: c') a) size))] a O); [|perm|left; reflexivity|discriminate].
    cbn [pcells top f_addr par] in *. run.
    rewrite (not_child' _ y ly ((a, CAelem (mk_aelem k v 0 0 y 0)) :: (T, CAvl (mk_avl cmp obj (top c' y) size)) ::
      (y, CAelem (mk_aelem ky vy (root ly) a (par 0 c') by_)) :: pcells 0 c' y) a O); [|perm|left; reflexivity]. run.
    eapply t_perm; [|apply t_frame_det; apply (lighten_right_ok T cmp obj size (lighten_parent n T) c' E y ky vy by_ ly I)].
    + shape. perm.
    + exact BC.
    + intros t' H1 H2 H3 H4. apply lighten_parent_ok; auto. cbn [length] in LC. lia.
Qed.

Lemma detach_ok T cmp obj size c l a k v b r :
  bal (plug c (N l a k v b r)) -> 1 <= size <= 2 ^ 60 ->
  exists t' q, bal t' /\ elems t' = before_c c ++ elems l ++ elems r ++ after_c c /\
    triple (full T cmp obj size c (N l a k v b r)) (avl_tree_detach T a)
      (det tt (full T cmp obj (size - 1) [] t' ++ [(a, CAelem (mk_aelem k v 0 0 q 0))])).
Proof.
  intros B Hs. destruct (detach_within_ok T cmp obj size c l a k v b r B Hs) as (c' & t' & q & _ & S' & B' & E' & TR).
  exists t', q. split; [exact B'|]. split; [exact E'|].
  unfold avl_tree_detach. eapply t_bnd; [apply t_fuel|]. intros n D [-> Hn]. apply TR.
  pose proof (ctx_length c') as Q. rewrite S' in Q.
  rewrite (Permutation_length (full_plug _ _ _ _ _ _)) in Hn. unfold full, hd in Hn. cbn [app pcells par length] in Hn.
  rewrite cells_length, elems_plug in Hn.
  cbn [elems] in Hn. repeat (rewrite ?app_length in *; cbn [length] in * ). lia.
Qed.
