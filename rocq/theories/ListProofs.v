From Verif Require Import Base Heap ListModel ListSpec.
From Coq Require Import ZifyBool ZifyNat Permutation.

Definition hd_addr (es : list (Z * Z)) (n : Z) : Z := match es with [] => n | (a, _) :: _ => a end.
Fixpoint seg (h : heap) (p : Z) (es : list (Z * Z)) (n : Z) : Prop :=
  match es with
  | [] => True
  | (a, v) :: r => get h a = Some (CLelem (mk_lelem v p (hd_addr r n))) /\ seg h a r n
  end.
Fixpoint last_addr (p : Z) (es : list (Z * Z)) : Z :=
  match es with [] => p | (a, _) :: r => last_addr a r end.

Record is_list (h : heap) (l : Z) (es : list (Z * Z)) : Prop := {
  il_head : get h l = Some (CList (mk_list (hd_addr es 0) (last_addr 0 es) (zlen es)));
  il_seg : seg h 0 es 0;
  il_nodup : NoDup (l :: handles es);
  il_len : zlen es <= 2 ^ 60
}.

(** Decide comparisons of known addresses. *)
Ltac eqb1 :=
  match goal with
  | |- context [?x =? ?y] =>
      first [ rewrite (Z.eqb_refl x) | rewrite (proj2 (Z.eqb_neq x y)) by (congruence || lia)
            | rewrite (proj2 (Z.eqb_eq x y)) by (congruence || lia) ]
  end.
Ltac nots H := repeat match goal with X : ~ (_ \/ _) |- _ => apply Decidable.not_or in X; destruct X end.
Ltac gs := repeat (first [rewrite get_put by (congruence || lia) | rewrite get_drop | eqb1]).

Lemma seg_app h p xs ys n : seg h p (xs ++ ys) n <-> seg h p xs (hd_addr ys n) /\ seg h (last_addr p xs) ys n.
Proof.
  revert p; induction xs as [|[a v] xs IH]; intros p; simpl; [tauto|].
  rewrite IH. replace (hd_addr (xs ++ ys) n) with (hd_addr xs (hd_addr ys n)) by (destruct xs as [|[b w] xs]; reflexivity).
  tauto.
Qed.
Lemma seg_frame h h' p es n : (forall a, In a (handles es) -> get h' a = get h a) -> seg h p es n -> seg h' p es n.
Proof.
  revert p; induction es as [|[a v] es IH]; intros p F; simpl; auto.
  intros [H1 H2]. split.
  - rewrite F; auto. left; reflexivity.
  - apply IH; auto. intros b Hb. apply F. right; auto.
Qed.
Lemma seg_alloc h p es n a : seg h p es n -> In a (handles es) -> get h a <> None.
Proof.
  revert p; induction es as [|[b v] es IH]; intros p; simpl; [tauto|].
  intros [H1 H2] [<-|H]; [congruence|]. eapply IH; eauto.
Qed.
Lemma handles_app xs ys : handles (xs ++ ys) = handles xs ++ handles ys.
Proof. apply map_app. Qed.
Lemma last_addr_app p xs ys : last_addr p (xs ++ ys) = last_addr (last_addr p xs) ys.
Proof. revert p; induction xs as [|[a v] xs IH]; intros p; simpl; auto. Qed.
Lemma hd_addr_app xs ys n : hd_addr (xs ++ ys) n = hd_addr xs (hd_addr ys n).
Proof. destruct xs as [|[b w] xs]; reflexivity. Qed.
Lemma hd_addr_first es : hd_addr es 0 = first_handle es.
Proof. destruct es as [|[a v] es]; reflexivity. Qed.
Lemma last_cons {A} (a : A) t d : last (a :: t) d = last t a.
Proof.
  revert a d; induction t as [|b t IH]; intros a d; [reflexivity|].
  change (last (a :: b :: t) d) with (last (b :: t) d). rewrite (IH b d), (IH b a). reflexivity.
Qed.
Lemma last_addr_last' es p : last_addr p es = last (handles es) p.
Proof.
  revert p; induction es as [|[a v] es IH]; intros p; [reflexivity|].
  cbn [last_addr]. rewrite IH. change (handles ((a, v) :: es)) with (a :: handles es). rewrite last_cons. reflexivity.
Qed.
Lemma last_addr_last es : last_addr 0 es = last_handle es.
Proof. apply last_addr_last'. Qed.

Lemma il_alloc h l es a : is_list h l es -> In a (footprint l es) -> get h a <> None.
Proof.
  intros [H1 H2 H3 _] [<-|H]; [congruence|]. eapply seg_alloc; eauto.
Qed.
Lemma il_nonnull h l es a : is_list h l es -> In a (footprint l es) -> a <> 0.
Proof. intros H Ha ->. eapply il_alloc in Ha; eauto. Qed.
Lemma il_frame h h' l es : (forall x, In x (footprint l es) -> get h' x = get h x) -> is_list h l es -> is_list h' l es.
Proof.
  intros F [H1 H2 H3 H4]. constructor; auto.
  - rewrite F; auto. left; reflexivity.
  - apply seg_frame with (2 := H2). intros a Ha. apply F. right; auto.
Qed.
Lemma il_fuel h l es : is_list h l es -> (length es < S (length (mem h)))%nat.
Proof.
  intros H. pose proof (cells_bound h (footprint l es) (il_nodup _ _ _ H) (fun a => il_alloc _ _ _ a H)) as B.
  unfold footprint, handles in B. simpl in B. rewrite map_length in B. lia.
Qed.

(** Facts about an element in the middle. *)
Lemma nodup_mid {A} (xs : list A) a ys : NoDup (xs ++ a :: ys) -> ~ In a xs /\ ~ In a ys /\ NoDup (xs ++ ys).
Proof.
  intros H. pose proof (NoDup_remove_1 _ _ _ H) as H1. pose proof (NoDup_remove_2 _ _ _ H) as H2.
  rewrite in_app_iff in H2. tauto.
Qed.
Lemma nodup_insert {A} (xs : list A) a ys : NoDup (xs ++ ys) -> ~ In a xs -> ~ In a ys -> NoDup (xs ++ a :: ys).
Proof.
  intros H H1 H2. apply Permutation_NoDup with (a :: xs ++ ys).
  - apply Permutation_middle.
  - constructor; auto. rewrite in_app_iff; tauto.
Qed.

(** Primitive steps. *)
Lemma step_ld_list {B} (f : list_c -> M B) a h c :
  get h a = Some (CList c) -> bnd (ld_list a) f h = f c h.
Proof. intros H. unfold bnd, ld_list. rewrite H. reflexivity. Qed.
Lemma step_ld_lelem {B} (f : lelem_c -> M B) a h c :
  get h a = Some (CLelem c) -> bnd (ld_lelem a) f h = f c h.
Proof. intros H. unfold bnd, ld_lelem. rewrite H. reflexivity. Qed.
Lemma run_st_list a c h c0 : get h a = Some (CList c0) -> st_list a c h = Ok (tt, put_cell h a (CList c)).
Proof. intros H. unfold st_list. rewrite H. reflexivity. Qed.
Lemma run_st_lelem a c h c0 : get h a = Some (CLelem c0) -> st_lelem a c h = Ok (tt, put_cell h a (CLelem c)).
Proof. intros H. unfold st_lelem. rewrite H. reflexivity. Qed.
Lemma step_free {B} (f : unit -> M B) a h c : get h a = Some c -> bnd (free a) f h = f tt (drop_cell h a).
Proof. intros H. unfold bnd, free. rewrite H. reflexivity. Qed.

Lemma run_st_first l v h c : get h l = Some (CList c) ->
  st_first l v h = Ok (tt, put_cell h l (CList (mk_list v (l_last c) (l_size c)))).
Proof. intros H. unfold st_first. rewrite (step_ld_list _ _ _ _ H). eapply run_st_list; eauto. Qed.
Lemma run_st_last l v h c : get h l = Some (CList c) ->
  st_last l v h = Ok (tt, put_cell h l (CList (mk_list (l_first c) v (l_size c)))).
Proof. intros H. unfold st_last. rewrite (step_ld_list _ _ _ _ H). eapply run_st_list; eauto. Qed.
Lemma run_st_prev e v h c : get h e = Some (CLelem c) ->
  st_prev e v h = Ok (tt, put_cell h e (CLelem (mk_lelem (le_value c) v (le_next c)))).
Proof. intros H. unfold st_prev. rewrite (step_ld_lelem _ _ _ _ H). eapply run_st_lelem; eauto. Qed.
Lemma run_st_next e v h c : get h e = Some (CLelem c) ->
  st_next e v h = Ok (tt, put_cell h e (CLelem (mk_lelem (le_value c) (le_prev c) v))).
Proof. intros H. unfold st_next. rewrite (step_ld_lelem _ _ _ _ H). eapply run_st_lelem; eauto. Qed.
Lemma run_size_inc l h c : get h l = Some (CList c) -> 0 <= l_size c < 2 ^ 64 - 1 ->
  size_inc l h = Ok (tt, put_cell h l (CList (mk_list (l_first c) (l_last c) (l_size c + 1)))).
Proof.
  intros H Hs. unfold size_inc. rewrite (step_ld_list _ _ _ _ H). unfold st_size. rewrite (step_ld_list _ _ _ _ H).
  rewrite u64_small by lia. eapply run_st_list; eauto.
Qed.
Lemma run_size_dec l h c : get h l = Some (CList c) -> 1 <= l_size c < 2 ^ 64 ->
  size_dec l h = Ok (tt, put_cell h l (CList (mk_list (l_first c) (l_last c) (l_size c - 1)))).
Proof.
  intros H Hs. unfold size_dec. rewrite (step_ld_list _ _ _ _ H). unfold st_size. rewrite (step_ld_list _ _ _ _ H).
  rewrite u64_small by lia. eapply run_st_list; eauto.
Qed.
Lemma bnd_assoc {A B C} (m : M A) (f : A -> M B) (g : B -> M C) h :
  bnd (bnd m f) g h = bnd m (fun x => bnd (f x) g) h.
Proof. unfold bnd. destruct (m h) as [[a h']| | |]; reflexivity. Qed.

(** One step of symbolic execution. [gh] proves [get h a = Some ?c]. *)
Ltac gh := cbn [le_value le_prev le_next l_first l_last l_size]; gs; first [eassumption | reflexivity].
Ltac st :=
  match goal with
  | |- bnd (bnd _ _) _ _ = _ => rewrite bnd_assoc
  | |- bnd (ret _) _ _ = _ => rewrite bnd_ret
  | |- bnd (ld_list _) _ _ = _ => erewrite step_ld_list by gh
  | |- bnd (ld_lelem _) _ _ = _ => erewrite step_ld_lelem by gh
  | |- bnd (free _) _ _ = _ => erewrite step_free by gh
  | |- bnd (st_first _ _) _ _ = _ => erewrite bnd_Ok by (eapply run_st_first; gh)
  | |- bnd (st_last _ _) _ _ = _ => erewrite bnd_Ok by (eapply run_st_last; gh)
  | |- bnd (st_prev _ _) _ _ = _ => erewrite bnd_Ok by (eapply run_st_prev; gh)
  | |- bnd (st_next _ _) _ _ = _ => erewrite bnd_Ok by (eapply run_st_next; gh)
  | |- bnd (size_inc _) _ _ = _ => erewrite bnd_Ok by (eapply run_size_inc; [gh|cbn [l_size]; lia])
  | |- size_dec _ _ = _ => eapply run_size_dec; [gh|cbn [l_size]; lia]
  end; cbn [le_value le_prev le_next l_first l_last l_size]; gs.

Lemma snoc_cases {A} (l : list A) : l = [] \/ exists l' x, l = l' ++ [x].
Proof. destruct l using rev_ind; eauto. Qed.
Lemma last_addr_snoc p es a v : last_addr p (es ++ [(a, v)]) = a.
Proof. rewrite last_addr_app. reflexivity. Qed.

(** make_list *)
Lemma make_list_ok h : exists l h', make_list h = Ok (l, h') /\ get h l = None /\ l <> 0 /\ is_list h' l [] /\
  same_outside [l] h h'.
Proof.
  destruct (alloc_spec (CList (mk_list 0 0 0)) h) as (a & h' & E & N & F & G).
  exists a, h'. split; [exact E|]. split; [exact F|]. split; [exact N|]. split.
  - constructor; simpl; auto.
    + rewrite G, Z.eqb_refl. reflexivity.
    + constructor; [intros []|constructor].
    + change (zlen (@nil (Z * Z))) with 0. lia.
  - intros x Hx. simpl in Hx. rewrite G. gs. reflexivity.
Qed.

Ltac notin H := let X := fresh in intro X; subst; apply H; simpl; rewrite ?in_app_iff; simpl; tauto.
Ltac frame := apply seg_frame with (2 := ltac:(eassumption)); intros x Hx; gs; try reflexivity.

Lemma in_handles_mid xs e w ys x : In x (handles (xs ++ (e, w) :: ys)) <-> In x (handles xs) \/ x = e \/ In x (handles ys).
Proof. rewrite handles_app, in_app_iff. simpl. intuition. Qed.

(** Insertion between two parts. All three insertions have this effect. *)
Lemma insert_rep h h' l pre post e v :
  is_list h l (pre ++ post) -> zlen (pre ++ post) < 2 ^ 60 -> e <> 0 -> get h e = None ->
  get h' l = Some (CList (mk_list (hd_addr pre e) (last_addr e post) (zlen (pre ++ post) + 1))) ->
  get h' e = Some (CLelem (mk_lelem v (last_addr 0 pre) (hd_addr post 0))) ->
  (forall pre' b w, pre = pre' ++ [(b, w)] -> get h' b = Some (CLelem (mk_lelem w (last_addr 0 pre') e))) ->
  (forall post' b w, post = (b, w) :: post' -> get h' b = Some (CLelem (mk_lelem w e (hd_addr post' 0)))) ->
  (forall x, x <> l -> x <> e -> (pre = [] \/ x <> last_addr 0 pre) -> (post = [] \/ x <> hd_addr post 0) -> get h' x = get h x) ->
  is_list h' l (pre ++ (e, v) :: post).
Proof.
  intros I L Ne Fe Hl He Hpre Hpost Hf.
  pose proof (il_nodup _ _ _ I) as ND. pose proof (il_seg _ _ _ I) as SG.
  assert (Nl : ~ In e (footprint l (pre ++ post))).
  { intros Hi. apply (il_alloc _ _ _ _ I Hi). exact Fe. }
  apply seg_app in SG. destruct SG as [S1 S2].
  unfold footprint in Nl. rewrite handles_app in *. simpl in Nl. rewrite in_app_iff in Nl.
  inversion ND as [|? ? ND1 ND2]; subst. rewrite in_app_iff in ND1.
  constructor.
  - rewrite Hl. rewrite hd_addr_app, last_addr_app. cbn [hd_addr last_addr].
    rewrite !zlen_app, zlen_cons. replace (zlen pre + (1 + zlen post)) with (zlen pre + zlen post + 1) by lia. reflexivity.
  - apply seg_app. split.
    + cbn [hd_addr]. destruct (snoc_cases pre) as [->|(pre' & [b w] & ->)]; [exact Logic.I|].
      apply seg_app. apply seg_app in S1. destruct S1 as [S1 S1']. split.
      * eapply seg_frame; [|exact S1]. intros x Hx. apply Hf.
        -- intros ->. apply ND1. left. rewrite handles_app, in_app_iff. tauto.
        -- intros ->. apply Nl. right; left. rewrite handles_app, in_app_iff. tauto.
        -- right. rewrite last_addr_snoc. intros ->. rewrite handles_app in ND2. simpl in ND2.
           rewrite <- app_assoc in ND2. apply nodup_mid in ND2. tauto.
        -- destruct post as [|[b' w'] post']; [left; reflexivity|right]. simpl. intros ->.
           change (handles ((b', w') :: post')) with (b' :: handles post') in ND2. apply nodup_mid in ND2.
           destruct ND2 as [ND2 _]. apply ND2. rewrite handles_app, in_app_iff. tauto.
      * cbn [seg hd_addr]. split; [|exact Logic.I]. apply (Hpre pre' b w eq_refl).
    + cbn [seg]. split; [exact He|].
      destruct post as [|[b w] post']; [exact Logic.I|]. cbn [seg] in *. destruct S2 as [_ S2].
      split; [apply (Hpost post' b w eq_refl)|].
      eapply seg_frame; [|exact S2]. intros x Hx.
      change (handles ((b, w) :: post')) with (b :: handles post') in *. apply Hf.
      -- intros ->. apply ND1. simpl; tauto.
      -- intros ->. apply Nl. simpl; tauto.
      -- destruct (snoc_cases pre) as [->|(pre' & [b' w'] & ->)]; [left; reflexivity|right].
         rewrite last_addr_snoc. intros ->. rewrite handles_app in ND2. simpl in ND2. rewrite <- app_assoc in ND2.
         apply nodup_mid in ND2. simpl in ND2. tauto.
      -- right. simpl. intros ->. apply nodup_mid in ND2. tauto.
  - rewrite handles_app. cbn [handles map fst]. change (map fst post) with (handles post).
    constructor.
    + rewrite in_app_iff. simpl. intros [X|[X|X]]; [tauto|subst; tauto|tauto].
    + apply nodup_insert; tauto.
  - rewrite zlen_app in *. rewrite zlen_cons. lia.
Qed.

Ltac alloc_step c :=
  match goal with
  | |- context [bnd (alloc c) _ ?h] =>
      let e := fresh "e" in let h1 := fresh "h1" in
      let EA := fresh "EA" in let Ne := fresh "Ne" in let Fe := fresh "Fe" in let Ge := fresh "Ge" in
      destruct (alloc_spec c h) as (e & h1 & EA & Ne & Fe & Ge)
  end.

Lemma append_ok h l es v : is_list h l es -> zlen es < 2 ^ 60 ->
  exists e h', list_append l v h = Ok (e, h') /\ get h e = None /\ e <> 0 /\
    is_list h' l (es ++ [(e, v)]) /\ same_outside (e :: footprint l es) h h'.
Proof.
  intros I L. pose proof (zlen_nonneg es) as Zp.
  unfold list_append. alloc_step (CLelem (mk_lelem v 0 0)).
  assert (Nl : ~ In e (footprint l es)). { intros Hi. apply (il_alloc _ _ _ _ I Hi). exact Fe. }
  pose proof (il_head _ _ _ I) as Hl. pose proof (il_nodup _ _ _ I) as ND. pose proof (il_seg _ _ _ I) as SG.
  assert (Ne2 : e <> l) by (intros ->; apply Nl; left; reflexivity).
  pose proof (get_nonnull _ _ _ Hl) as Nl0.
  assert (Hl1 : get h1 l = Some (CList (mk_list (hd_addr es 0) (last_addr 0 es) (zlen es)))) by (rewrite Ge; gs; exact Hl).
  assert (He1 : get h1 e = Some (CLelem (mk_lelem v 0 0))) by (rewrite Ge; gs; reflexivity).
  destruct (snoc_cases es) as [->|(es' & [b w] & ->)].
  - cbn [hd_addr last_addr] in *.
    eexists e, _. split; [|split; [exact Fe|split; [exact Ne|split]]].
    + rewrite (bnd_Ok _ _ _ _ _ EA). repeat st. reflexivity.
    + apply (insert_rep h _ l [] []); auto.
      * cbn [hd_addr last_addr]. gs. reflexivity.
      * cbn [hd_addr last_addr]. gs. reflexivity.
      * intros pre' b w E. destruct pre'; discriminate.
      * discriminate.
      * intros x X1 X2 _ _. gs. rewrite Ge. gs. reflexivity.
    + intros x Hx. simpl in Hx. nots Hx. gs. rewrite Ge. gs. reflexivity.
  - rewrite last_addr_snoc in *.
    assert (Nb : b <> 0). { apply (il_nonnull _ _ _ b I). right. rewrite handles_app, in_app_iff. simpl; tauto. }
    assert (Nbe : b <> e). { intros ->. apply Nl. right. rewrite handles_app, in_app_iff. simpl; tauto. }
    assert (Nbl : b <> l). { intros ->. inversion ND as [|? ? X1 X2]; subst. apply X1. rewrite handles_app, in_app_iff. simpl; tauto. }
    assert (Nh : hd_addr (es' ++ [(b, w)]) 0 <> 0).
    { apply (il_nonnull _ _ _ _ I). right. destruct es' as [|[c u] es']; left; reflexivity. }
    apply seg_app in SG. destruct SG as [S1 [Hb _]]. cbn [hd_addr] in *.
    assert (Hb1 : get h1 b = Some (CLelem (mk_lelem w (last_addr 0 es') 0))) by (rewrite Ge; gs; exact Hb).
    eexists e, _. split; [|split; [exact Fe|split; [exact Ne|split]]].
    + rewrite (bnd_Ok _ _ _ _ _ EA). repeat st. reflexivity.
    + apply (insert_rep h _ l (es' ++ [(b, w)]) []); rewrite ?app_nil_r; auto.
      * rewrite hd_addr_app in *. cbn [hd_addr last_addr] in *. gs.
        destruct es' as [|[c u] es']; reflexivity.
      * rewrite last_addr_snoc. cbn [hd_addr last_addr]. gs. reflexivity.
      * intros pre' b' w' E. apply app_inj_tail in E. destruct E as [<- E]. injection E as <- <-.
        gs. reflexivity.
      * discriminate.
      * intros x X1 X2 [X3|X3] _; [destruct es'; discriminate|]. rewrite last_addr_snoc in X3. gs. rewrite Ge. gs. reflexivity.
    + intros x Hx. simpl in Hx. rewrite handles_app, in_app_iff in Hx. simpl in Hx. nots Hx.
      gs. rewrite Ge. gs. reflexivity.
Qed.

Lemma prepend_ok h l es v : is_list h l es -> zlen es < 2 ^ 60 ->
  exists e h', list_prepend l v h = Ok (e, h') /\ get h e = None /\ e <> 0 /\
    is_list h' l ((e, v) :: es) /\ same_outside (e :: footprint l es) h h'.
Proof.
  intros I L. pose proof (zlen_nonneg es) as Zp.
  unfold list_prepend. alloc_step (CLelem (mk_lelem v 0 0)).
  assert (Nl : ~ In e (footprint l es)). { intros Hi. apply (il_alloc _ _ _ _ I Hi). exact Fe. }
  pose proof (il_head _ _ _ I) as Hl. pose proof (il_nodup _ _ _ I) as ND. pose proof (il_seg _ _ _ I) as SG.
  assert (Ne2 : e <> l) by (intros ->; apply Nl; left; reflexivity).
  pose proof (get_nonnull _ _ _ Hl) as Nl0.
  assert (Hl1 : get h1 l = Some (CList (mk_list (hd_addr es 0) (last_addr 0 es) (zlen es)))) by (rewrite Ge; gs; exact Hl).
  assert (He1 : get h1 e = Some (CLelem (mk_lelem v 0 0))) by (rewrite Ge; gs; reflexivity).
  destruct es as [|[b w] es'].
  - cbn [hd_addr last_addr] in *.
    eexists e, _. split; [|split; [exact Fe|split; [exact Ne|split]]].
    + rewrite (bnd_Ok _ _ _ _ _ EA). repeat st. reflexivity.
    + apply (insert_rep h _ l [] []); auto.
      * cbn [hd_addr last_addr]. gs. reflexivity.
      * cbn [hd_addr last_addr]. gs. reflexivity.
      * intros pre' b w E. destruct pre'; discriminate.
      * discriminate.
      * intros x X1 X2 _ _. gs. rewrite Ge. gs. reflexivity.
    + intros x Hx. simpl in Hx. nots Hx. gs. rewrite Ge. gs. reflexivity.
  - assert (Nb : b <> 0). { apply (il_nonnull _ _ _ b I). right. left; reflexivity. }
    assert (Nbe : b <> e). { intros ->. apply Nl. right. left; reflexivity. }
    assert (Nbl : b <> l). { intros ->. inversion ND as [|? ? X1 X2]; subst. apply X1. left; reflexivity. }
    cbn [hd_addr seg] in *. destruct SG as [Hb SG].
    assert (Hb1 : get h1 b = Some (CLelem (mk_lelem w 0 (hd_addr es' 0)))) by (rewrite Ge; gs; exact Hb).
    eexists e, _. split; [|split; [exact Fe|split; [exact Ne|split]]].
    + rewrite (bnd_Ok _ _ _ _ _ EA). repeat st. reflexivity.
    + apply (insert_rep h _ l [] ((b, w) :: es')); auto.
      * cbn [hd_addr last_addr]. gs. reflexivity.
      * cbn [hd_addr last_addr]. gs. reflexivity.
      * intros pre' b' w' E. destruct pre'; discriminate.
      * intros post' b' w' E. injection E as <- <- <-. gs. reflexivity.
      * intros x X1 X2 _ [X3|X3]; [discriminate|]. cbn [hd_addr] in X3. gs. rewrite Ge. gs. reflexivity.
    + intros x Hx. simpl in Hx. nots Hx. gs. rewrite Ge. gs. reflexivity.
Qed.

(** The cells around an element. *)
Lemma il_mid h l pre e w post : is_list h l (pre ++ (e, w) :: post) ->
  get h e = Some (CLelem (mk_lelem w (last_addr 0 pre) (hd_addr post 0))) /\
  e <> 0 /\ e <> l /\ ~ In e (handles pre) /\ ~ In e (handles post).
Proof.
  intros I. pose proof (il_seg _ _ _ I) as SG. pose proof (il_nodup _ _ _ I) as ND.
  apply seg_app in SG. destruct SG as [_ [H _]]. inversion ND as [|? ? N1 N2]; subst.
  rewrite handles_app in N1, N2. rewrite in_app_iff in N1.
  change (handles ((e, w) :: post)) with (e :: handles post) in *. apply nodup_mid in N2.
  split; [exact H|]. split; [eapply get_nonnull; eauto|].
  split; [intros ->; apply N1; right; left; reflexivity|]. tauto.
Qed.

Lemma insert_before_ok h l pre next w post v : is_list h l (pre ++ (next, w) :: post) ->
  zlen (pre ++ (next, w) :: post) < 2 ^ 60 ->
  exists e h', list_insert_before l v next h = Ok (e, h') /\ get h e = None /\ e <> 0 /\
    is_list h' l (pre ++ (e, v) :: (next, w) :: post) /\ same_outside (e :: footprint l (pre ++ (next, w) :: post)) h h'.
Proof.
  intros I L. pose proof (zlen_nonneg (pre ++ (next, w) :: post)) as Zp.
  unfold list_insert_before. alloc_step (CLelem (mk_lelem v 0 0)).
  assert (Nl : ~ In e (footprint l (pre ++ (next, w) :: post))). { intros Hi. apply (il_alloc _ _ _ _ I Hi). exact Fe. }
  pose proof (il_head _ _ _ I) as Hl.
  assert (Ne2 : e <> l) by (intros ->; apply Nl; left; reflexivity).
  destruct (il_mid _ _ _ _ _ _ I) as (Hn & Nn & Nnl & Np1 & Np2).
  assert (Nne : next <> e). { intros ->. apply Nl. right. rewrite in_handles_mid. tauto. }
  pose proof (get_nonnull _ _ _ Hl) as Nl0.
  assert (Hl1 : get h1 l = get h l) by (rewrite Ge; gs; reflexivity). rewrite Hl in Hl1.
  assert (He1 : get h1 e = Some (CLelem (mk_lelem v 0 0))) by (rewrite Ge; gs; reflexivity).
  assert (Hn1 : get h1 next = get h next) by (rewrite Ge; gs; reflexivity). rewrite Hn in Hn1.
  destruct (snoc_cases pre) as [->|(pre' & [b u] & ->)].
  - cbn [app last_addr hd_addr] in *.
    eexists e, _. split; [|split; [exact Fe|split; [exact Ne|split]]].
    + rewrite (bnd_Ok _ _ _ _ _ EA). do 4 st. change (truth 0) with false. cbn [negb]. cbv iota. repeat st. reflexivity.
    + apply (insert_rep h _ l [] ((next, w) :: post)); auto.
      * cbn [hd_addr last_addr app]. gs. reflexivity.
      * cbn [hd_addr last_addr]. gs. reflexivity.
      * intros pre' b' w' E. destruct pre'; discriminate.
      * intros post' b' w' E. injection E as <- <- <-. gs. reflexivity.
      * intros x X1 X2 _ [X3|X3]; [discriminate|]. cbn [hd_addr] in X3. gs. rewrite Ge. gs. reflexivity.
    + intros x Hx. simpl in Hx. nots Hx. gs. rewrite Ge. gs. reflexivity.
  - rewrite last_addr_snoc in *.
    pose proof I as I'. rewrite <- app_assoc in I'. cbn [app] in I'.
    destruct (il_mid _ _ _ _ _ _ I') as (Hb & Nb & Nbl & Nb1 & Nb2). cbn [hd_addr] in Hb.
    assert (Nbe : b <> e). { intros ->. apply Nl. right. rewrite in_handles_mid. left. rewrite handles_app, in_app_iff. simpl; tauto. }
    assert (Nbn : b <> next). { intros ->. apply Nb2. left; reflexivity. }
    assert (Hb1 : get h1 b = get h b) by (rewrite Ge; gs; reflexivity). rewrite Hb in Hb1.
    eexists e, _. split; [|split; [exact Fe|split; [exact Ne|split]]].
    + rewrite (bnd_Ok _ _ _ _ _ EA). do 4 st.
      replace (truth b) with true by (unfold truth; gs; reflexivity). cbv iota. repeat st. reflexivity.
    + apply (insert_rep h _ l (pre' ++ [(b, u)]) ((next, w) :: post)); auto.
      * rewrite !hd_addr_app. cbn [hd_addr last_addr]. gs. rewrite last_addr_app.
        destruct pre' as [|[c z] pre']; reflexivity.
      * rewrite last_addr_snoc. cbn [hd_addr last_addr]. gs. reflexivity.
      * intros pre2 b' w' E. apply app_inj_tail in E. destruct E as [<- E]. injection E as <- <-. gs. reflexivity.
      * intros post' b' w' E. injection E as <- <- <-. gs. reflexivity.
      * intros x X1 X2 [X4|X4] [X3|X3]; try discriminate; [destruct pre'; discriminate|].
        rewrite last_addr_snoc in X4. cbn [hd_addr] in X3. gs. rewrite Ge. gs. reflexivity.
    + intros x Hx. simpl in Hx. rewrite in_handles_mid, handles_app, in_app_iff in Hx. simpl in Hx. nots Hx.
      gs. rewrite Ge. gs. reflexivity.
Qed.

(** Removal of an element. *)
Lemma remove_rep h h' l pre e w post :
  is_list h l (pre ++ (e, w) :: post) ->
  get h' l = Some (CList (mk_list (hd_addr pre (hd_addr post 0)) (last_addr (last_addr 0 pre) post) (zlen (pre ++ (e, w) :: post) - 1))) ->
  (forall pre' b u, pre = pre' ++ [(b, u)] -> get h' b = Some (CLelem (mk_lelem u (last_addr 0 pre') (hd_addr post 0)))) ->
  (forall post' b u, post = (b, u) :: post' -> get h' b = Some (CLelem (mk_lelem u (last_addr 0 pre) (hd_addr post' 0)))) ->
  (forall x, x <> l -> x <> e -> (pre = [] \/ x <> last_addr 0 pre) -> (post = [] \/ x <> hd_addr post 0) -> get h' x = get h x) ->
  is_list h' l (pre ++ post).
Proof.
  intros I Hl Hpre Hpost Hf.
  pose proof (il_nodup _ _ _ I) as ND. pose proof (il_seg _ _ _ I) as SG.
  destruct (il_mid _ _ _ _ _ _ I) as (He & Ne & Nel & Np1 & Np2).
  apply seg_app in SG. destruct SG as [S1 [_ S2]].
  rewrite handles_app in ND. change (handles ((e, w) :: post)) with (e :: handles post) in ND.
  inversion ND as [|? ? ND1 ND2]; subst. rewrite in_app_iff in ND1. simpl in ND1.
  apply nodup_mid in ND2. destruct ND2 as (_ & _ & ND2).
  constructor.
  - rewrite Hl. rewrite hd_addr_app, last_addr_app.
    rewrite !zlen_app, zlen_cons. replace (zlen pre + (1 + zlen post) - 1) with (zlen pre + zlen post) by lia. reflexivity.
  - apply seg_app. split.
    + destruct (snoc_cases pre) as [->|(pre' & [b u] & ->)]; [exact Logic.I|].
      apply seg_app. apply seg_app in S1. destruct S1 as [S1 S1']. split.
      * eapply seg_frame; [|exact S1]. intros x Hx. apply Hf.
        -- intros ->. apply ND1. left. rewrite handles_app, in_app_iff. tauto.
        -- intros ->. apply Np1. rewrite handles_app, in_app_iff. tauto.
        -- right. rewrite last_addr_snoc. intros ->. rewrite handles_app in ND2. simpl in ND2.
           rewrite <- app_assoc in ND2. apply nodup_mid in ND2. tauto.
        -- destruct post as [|[b' w'] post']; [left; reflexivity|right]. simpl. intros ->.
           change (handles ((b', w') :: post')) with (b' :: handles post') in ND2. apply nodup_mid in ND2.
           destruct ND2 as [ND2 _]. apply ND2. rewrite handles_app, in_app_iff. tauto.
      * cbn [seg hd_addr]. split; [|exact Logic.I]. apply (Hpre pre' b u eq_refl).
    + destruct post as [|[b u] post']; [exact Logic.I|]. cbn [seg] in *. destruct S2 as [_ S2].
      split; [apply (Hpost post' b u eq_refl)|].
      eapply seg_frame; [|exact S2]. intros x Hx.
      change (handles ((b, u) :: post')) with (b :: handles post') in *. apply Hf.
      -- intros ->. apply ND1. simpl; tauto.
      -- intros ->. apply Np2. simpl; tauto.
      -- destruct (snoc_cases pre) as [->|(pre' & [b' w'] & ->)]; [left; reflexivity|right].
         rewrite last_addr_snoc. intros ->. rewrite handles_app in ND2. simpl in ND2. rewrite <- app_assoc in ND2.
         apply nodup_mid in ND2. simpl in ND2. tauto.
      -- right. simpl. intros ->. apply nodup_mid in ND2. tauto.
  - rewrite handles_app. constructor; [|exact ND2]. rewrite in_app_iff. tauto.
  - pose proof (il_len _ _ _ I) as HL. rewrite zlen_app in *. rewrite zlen_cons in HL. lia.
Qed.

Lemma last_addr_In e es : In (last_addr e es) (e :: handles es).
Proof.
  revert e; induction es as [|[a v] es IH]; intros e; [left; reflexivity|].
  cbn [last_addr]. right. apply IH.
Qed.

Lemma remove_ok h l pre e w post : is_list h l (pre ++ (e, w) :: post) ->
  exists h', list_remove l e h = Ok (tt, h') /\ get h' e = None /\
    is_list h' l (pre ++ post) /\ same_outside (footprint l (pre ++ (e, w) :: post)) h h'.
Proof.
  intros I. pose proof (zlen_nonneg pre) as Zp. pose proof (zlen_nonneg post) as Zp'. pose proof (il_len _ _ _ I) as L.
  pose proof (il_head _ _ _ I) as Hl.
  destruct (il_mid _ _ _ _ _ _ I) as (He & Ne & Nel & Np1 & Np2).
  pose proof (get_nonnull _ _ _ Hl) as Nl0.
  rewrite hd_addr_app, last_addr_app in Hl. cbn [hd_addr last_addr] in Hl.
  rewrite zlen_app, zlen_cons in L.
  assert (Sz : 1 <= zlen (pre ++ (e, w) :: post) < 2 ^ 64) by (rewrite zlen_app, zlen_cons; lia).
  unfold list_remove.
  destruct (snoc_cases pre) as [->|(pre' & [b u] & ->)]; destruct post as [|[b2 u2] post'].
  - cbn [hd_addr last_addr] in *.
    eexists _. split; [|split; [|split]].
    + st. repeat st.
    + gs. reflexivity.
    + apply (remove_rep h _ l [] e w []); auto.
      * gs. reflexivity.
      * intros pre' b' u' E. destruct pre'; discriminate.
      * discriminate.
      * intros x X1 X2 _ _. gs. reflexivity.
    + intros x Hx. simpl in Hx. nots Hx. gs. reflexivity.
  - cbn [hd_addr last_addr] in *.
    change ([] ++ (e, w) :: (b2, u2) :: post') with ([(e, w)] ++ (b2, u2) :: post') in I.
    destruct (il_mid _ _ _ _ _ _ I) as (Hb & Nb & Nbl & Nb1 & Nb2). cbn [last_addr] in Hb. simpl in Nb1.
    assert (Nx : last_addr b2 post' <> e).
    { intros X. apply Np2. change (handles ((b2, u2) :: post')) with (b2 :: handles post'). rewrite <- X. apply last_addr_In. }
    eexists _. split; [|split; [|split]].
    + st. repeat st.
    + gs. reflexivity.
    + apply (remove_rep h _ l [] e w ((b2, u2) :: post')); auto.
      * gs. reflexivity.
      * intros pre' b' u' E. destruct pre'; discriminate.
      * intros post2 b' u' E. injection E as <- <- <-. gs. reflexivity.
      * intros x X1 X2 _ [X3|X3]; [discriminate|]. cbn [hd_addr] in X3. gs. reflexivity.
    + intros x Hx. simpl in Hx. nots Hx. gs. reflexivity.
  - rewrite last_addr_snoc in *. cbn [hd_addr last_addr] in *.
    pose proof I as I'. rewrite <- app_assoc in I'. cbn [app] in I'.
    destruct (il_mid _ _ _ _ _ _ I') as (Hb & Nb & Nbl & Nb1 & Nb2). cbn [hd_addr] in Hb. simpl in Nb2.
    assert (Nx : hd_addr (pre' ++ [(b, u)]) e <> e).
    { intros X. apply Np1. rewrite <- X. destruct pre' as [|[c z] pre']; left; reflexivity. }
    eexists _. split; [|split; [|split]].
    + st. repeat st.
    + gs. reflexivity.
    + apply (remove_rep h _ l (pre' ++ [(b, u)]) e w []); auto.
      * gs. rewrite !hd_addr_app. cbn [hd_addr last_addr]. rewrite last_addr_snoc.
        destruct pre' as [|[c z] pre']; reflexivity.
      * intros pre2 b' w' E. apply app_inj_tail in E. destruct E as [<- E]. injection E as <- <-. gs. reflexivity.
      * discriminate.
      * intros x X1 X2 [X3|X3] _; [destruct pre'; discriminate|]. rewrite last_addr_snoc in X3. gs. reflexivity.
    + intros x Hx. simpl in Hx. rewrite in_handles_mid, handles_app, in_app_iff in Hx. simpl in Hx. nots Hx. gs. reflexivity.
  - rewrite last_addr_snoc in *. cbn [hd_addr last_addr] in *.
    pose proof I as I'. rewrite <- app_assoc in I'. cbn [app] in I'.
    destruct (il_mid _ _ _ _ _ _ I') as (Hb & Nb & Nbl & Nb1 & Nb2). cbn [hd_addr] in Hb. simpl in Nb2.
    pose proof I as I2.
    replace ((pre' ++ [(b, u)]) ++ (e, w) :: (b2, u2) :: post') with (((pre' ++ [(b, u)]) ++ [(e, w)]) ++ (b2, u2) :: post') in I2
      by (rewrite <- !app_assoc; reflexivity).
    destruct (il_mid _ _ _ _ _ _ I2) as (Hb2 & Nb2' & Nbl2 & Nb3 & Nb4). rewrite last_addr_snoc in Hb2.
    rewrite !handles_app, !in_app_iff in Nb3. simpl in Nb3.
    assert (Nx : hd_addr (pre' ++ [(b, u)]) e <> e).
    { intros X. apply Np1. rewrite <- X. destruct pre' as [|[c z] pre']; left; reflexivity. }
    assert (Ny : last_addr b2 post' <> e).
    { intros X. apply Np2. change (handles ((b2, u2) :: post')) with (b2 :: handles post'). rewrite <- X. apply last_addr_In. }
    eexists _. split; [|split; [|split]].
    + st. repeat st.
    + gs. reflexivity.
    + apply (remove_rep h _ l (pre' ++ [(b, u)]) e w ((b2, u2) :: post')); auto.
      * gs. rewrite !hd_addr_app. cbn [hd_addr last_addr].
        destruct pre' as [|[c z] pre']; reflexivity.
      * intros pre2 b' w' E. apply app_inj_tail in E. destruct E as [<- E]. injection E as <- <-. gs. reflexivity.
      * intros post2 b' u' E. injection E as <- <- <-. rewrite last_addr_snoc. gs. reflexivity.
      * intros x X1 X2 [X4|X4] [X3|X3]; try discriminate; [destruct pre'; discriminate|].
        rewrite last_addr_snoc in X4. cbn [hd_addr] in X3. gs. reflexivity.
    + intros x Hx. simpl in Hx. rewrite in_handles_mid, handles_app, in_app_iff in Hx. simpl in Hx. nots Hx. gs. reflexivity.
Qed.

Lemma hd_addr_null es h l : is_list h l es -> (hd_addr es 0 =? 0) = match es with [] => true | _ => false end.
Proof.
  intros I. destruct es as [|[a v] es]; [reflexivity|]. simpl.
  assert (a <> 0) by (apply (il_nonnull _ _ _ _ I); right; left; reflexivity). lia.
Qed.

Lemma get_value_ok h l pre e w post : is_list h l (pre ++ (e, w) :: post) -> list_elem_get_value e h = Ok (w, h).
Proof.
  intros I. destruct (il_mid _ _ _ _ _ _ I) as (He & _). unfold list_elem_get_value.
  erewrite step_ld_lelem by exact He. reflexivity.
Qed.
Lemma next_ok h l pre e w post : is_list h l (pre ++ (e, w) :: post) -> list_next e h = Ok (hd_addr post 0, h).
Proof.
  intros I. destruct (il_mid _ _ _ _ _ _ I) as (He & _). unfold list_next.
  erewrite step_ld_lelem by exact He. reflexivity.
Qed.
Lemma previous_ok h l pre e w post : is_list h l (pre ++ (e, w) :: post) -> list_previous e h = Ok (last_addr 0 pre, h).
Proof.
  intros I. destruct (il_mid _ _ _ _ _ _ I) as (He & _). unfold list_previous.
  erewrite step_ld_lelem by exact He. reflexivity.
Qed.
Lemma get_first_ok h l es : is_list h l es -> list_get_first l h = Ok (hd_addr es 0, h).
Proof. intros I. unfold list_get_first. erewrite step_ld_list by exact (il_head _ _ _ I). reflexivity. Qed.
Lemma get_last_ok h l es : is_list h l es -> list_get_last l h = Ok (last_addr 0 es, h).
Proof. intros I. unfold list_get_last. erewrite step_ld_list by exact (il_head _ _ _ I). reflexivity. Qed.
Lemma size_ok h l es : is_list h l es -> list_size l h = Ok (zlen es, h).
Proof. intros I. unfold list_size. erewrite step_ld_list by exact (il_head _ _ _ I). reflexivity. Qed.
Lemma empty_ok h l es : is_list h l es -> list_empty l h = Ok (match es with [] => true | _ => false end, h).
Proof.
  intros I. unfold list_empty. erewrite step_ld_list by exact (il_head _ _ _ I). cbn [l_first].
  rewrite (hd_addr_null _ _ _ I). reflexivity.
Qed.

Lemma pop_first_ok h l es : is_list h l es ->
  exists h', list_pop_first l h = Ok (hd 0 (values es), h') /\ is_list h' l (tl es) /\
    same_outside (footprint l es) h h' /\ (es <> [] -> get h' (first_handle es) = None).
Proof.
  intros I. unfold list_pop_first. rewrite (bnd_Ok _ _ _ _ _ (get_first_ok _ _ _ I)).
  rewrite (hd_addr_null _ _ _ I). destruct es as [|[e w] es].
  - exists h. split; [reflexivity|]. split; [exact I|]. split; [intros x _; reflexivity|congruence].
  - cbn [hd_addr]. change ((e, w) :: es) with ([] ++ (e, w) :: es) in I.
    rewrite (bnd_Ok _ _ _ _ _ (get_value_ok _ _ _ _ _ _ I)).
    destruct (remove_ok _ _ _ _ _ _ I) as (h' & E & G & I' & F).
    rewrite (bnd_Ok _ _ _ _ _ E). exists h'. split; [reflexivity|]. split; [exact I'|]. split; [exact F|].
    intros _. exact G.
Qed.
Lemma pop_last_ok h l es : is_list h l es ->
  exists h', list_pop_last l h = Ok (last (values es) 0, h') /\ is_list h' l (removelast es) /\
    same_outside (footprint l es) h h' /\ (es <> [] -> get h' (last_handle es) = None).
Proof.
  intros I. unfold list_pop_last. rewrite (bnd_Ok _ _ _ _ _ (get_last_ok _ _ _ I)).
  destruct (snoc_cases es) as [->|(es' & [e w] & ->)].
  - exists h. split; [reflexivity|]. split; [exact I|]. split; [intros x _; reflexivity|congruence].
  - rewrite last_addr_snoc. destruct (il_mid _ _ _ _ _ _ I) as (_ & Ne & _).
    rewrite (proj2 (Z.eqb_neq e 0)) by exact Ne.
    rewrite (bnd_Ok _ _ _ _ _ (get_value_ok _ _ _ _ _ _ I)).
    destruct (remove_ok _ _ _ _ _ _ I) as (h' & E & G & I' & F).
    rewrite (bnd_Ok _ _ _ _ _ E). exists h'.
    unfold last_handle, values, handles. rewrite !map_app. cbn [map fst snd]. rewrite !last_last, removelast_last.
    split; [reflexivity|]. split; [rewrite app_nil_r in I'; exact I'|]. split; [exact F|].
    intros _. exact G.
Qed.

(** A step keeps the representation, and touches the list's own cells only. *)
Lemma step_ok l h es h' es' : list_step l h es h' es' -> is_list h l es ->
  is_list h' l es' /\
  same_outside (footprint l es ++ footprint l es') h h' /\
  (forall x, In x (footprint l es') -> ~ In x (footprint l es) -> get h x = None) /\
  (forall x, In x (footprint l es) -> ~ In x (footprint l es') -> get h' x = None).
Proof.
  intros S I. destruct S.
  - destruct (append_ok _ _ _ v I H) as (e0 & h0 & E & N & _ & I' & F). rewrite E in H0. injection H0 as <- <-.
    split; [exact I'|]. unfold footprint in *. rewrite handles_app. cbn [handles map fst].
    change (map fst es) with (handles es) in *. split; [|split].
    + intros x Hx. apply F. simpl in *. rewrite !in_app_iff in Hx. simpl in Hx. rewrite in_app_iff in Hx. simpl in Hx. tauto.
    + intros x. simpl. rewrite in_app_iff. simpl. intros [X|[X|[X|[]]]]; subst; tauto.
    + intros x. simpl. rewrite in_app_iff. tauto.
  - destruct (prepend_ok _ _ _ v I H) as (e0 & h0 & E & N & _ & I' & F). rewrite E in H0. injection H0 as <- <-.
    split; [exact I'|]. unfold footprint in *. cbn [handles map fst].
    change (map fst es) with (handles es) in *. split; [|split].
    + intros x Hx. apply F. simpl in *. rewrite !in_app_iff in Hx. simpl in Hx. tauto.
    + intros x. simpl. intros [X|[X|X]]; subst; tauto.
    + intros x. simpl. tauto.
  - destruct (insert_before_ok _ _ _ _ _ _ v I H) as (e0 & h0 & E & N & _ & I' & F). rewrite E in H0. injection H0 as <- <-.
    split; [exact I'|]. unfold footprint in *. rewrite !handles_app in *. cbn [handles map fst] in *.
    change (map fst post) with (handles post) in *. split; [|split].
    + intros x Hx. apply F. simpl in *. rewrite ?in_app_iff in *. simpl in *. rewrite ?in_app_iff in *. simpl in *. tauto.
    + intros x. simpl. rewrite !in_app_iff. simpl. intros [X|[X|[X|[X|X]]]]; subst; tauto.
    + intros x. simpl. rewrite !in_app_iff. simpl. tauto.
  - destruct (remove_ok _ _ _ _ _ _ I) as (h0 & E & N & I' & F). rewrite E in H. injection H as <-.
    split; [exact I'|]. unfold footprint in *. rewrite !handles_app in *. cbn [handles map fst] in *.
    change (map fst post) with (handles post) in *. split; [|split].
    + intros x Hx. apply F. simpl in *. rewrite ?in_app_iff in *. simpl in *. rewrite ?in_app_iff in *. simpl in *. tauto.
    + intros x. simpl. rewrite !in_app_iff. simpl. tauto.
    + intros x. simpl. rewrite !in_app_iff. simpl. intros [X|[X|[X|X]]]; subst; tauto.
  - destruct (pop_first_ok _ _ _ I) as (h0 & E & I' & F & G). rewrite E in H. injection H as <- <-.
    split; [exact I'|]. destruct es as [|[e w] es].
    + split; [|split]; intros x; simpl; try tauto. intros Hx. apply F. simpl. tauto.
    + specialize (G ltac:(discriminate)). cbn [tl first_handle hd handles map fst] in *. unfold footprint in *.
      cbn [handles map fst] in *. change (map fst es) with (handles es) in *. split; [|split].
      * intros x Hx. apply F. simpl in *. rewrite ?in_app_iff in *. simpl in *. tauto.
      * intros x. simpl. tauto.
      * intros x. simpl. intros [X|[X|X]]; subst; tauto.
  - destruct (pop_last_ok _ _ _ I) as (h0 & E & I' & F & G). rewrite E in H. injection H as <- <-.
    split; [exact I'|]. destruct (snoc_cases es) as [->|(es' & [e w] & ->)].
    + split; [|split]; intros x; simpl; try tauto. intros Hx. apply F. simpl. tauto.
    + assert (Ne : es' ++ [(e, w)] <> []) by (destruct es'; discriminate).
      specialize (G Ne). rewrite removelast_last in *. rewrite <- last_addr_last, last_addr_snoc in G. unfold footprint in *.
      rewrite !handles_app in *. cbn [handles map fst] in *. split; [|split].
      * intros x Hx. apply F. simpl in *. rewrite ?in_app_iff in *. simpl in *. rewrite ?in_app_iff in *. simpl in *. tauto.
      * intros x. simpl. rewrite !in_app_iff. simpl. tauto.
      * intros x. simpl. rewrite !in_app_iff. simpl. intros [X|[X|[X|[]]]]; subst; tauto.
Qed.

(** Every history leads to the represented state. *)
Lemma history_is_list h l es : list_history h l es -> is_list h l es.
Proof.
  induction 1.
  - destruct (make_list_ok h) as (l0 & h0 & E & _ & _ & I & _). rewrite E in H. injection H as <- <-. exact I.
  - eapply step_ok; eauto.
  - eapply il_frame; eauto.
Qed.

(** Steps of one list leave others, with other cells, alone. *)
Lemma apart_sym xs ys : apart xs ys -> apart ys xs.
Proof. intros H x Hx Hy. exact (H x Hy Hx). Qed.
Lemma steps_apart l h es h' es' l2 es2 :
  list_steps l h es h' es' -> list_history h l es -> list_history h l2 es2 ->
  apart (footprint l es) (footprint l2 es2) ->
  list_history h' l es' /\ list_history h' l2 es2 /\ apart (footprint l es') (footprint l2 es2).
Proof.
  induction 1 as [|h es h1 es1 h2 es3 S SS IH]; intros H1 H2 A; [tauto|].
  destruct (step_ok _ _ _ _ _ S (history_is_list _ _ _ H1)) as (I & F & N & _).
  apply IH.
  - eapply LH_step; eauto.
  - eapply LH_other; [exact H2|]. intros x Hx. apply F. rewrite in_app_iff. intros [X|X].
    + exact (A x X Hx).
    + destruct (in_dec Z.eq_dec x (footprint l es)) as [Y|Y]; [exact (A x Y Hx)|].
      apply (il_alloc _ _ _ _ (history_is_list _ _ _ H2) Hx). exact (N x X Y).
  - intros x X Hx. destruct (in_dec Z.eq_dec x (footprint l es)) as [Y|Y]; [exact (A x Y Hx)|].
    apply (il_alloc _ _ _ _ (history_is_list _ _ _ H2) Hx). exact (N x X Y).
Qed.

(** Traversals. *)
Lemma walk_forward h l pre es n : is_list h l (pre ++ es) -> (length es <= n)%nat ->
  walk list_next n (hd_addr es 0) h = Ok (es, h).
Proof.
  revert pre n; induction es as [|[e w] es IH]; intros pre n I Hn.
  - destruct n; reflexivity.
  - destruct n as [|n]; [simpl in Hn; lia|]. cbn [walk hd_addr].
    destruct (il_mid _ _ _ _ _ _ I) as (_ & Ne & _). rewrite (proj2 (Z.eqb_neq e 0)) by exact Ne.
    rewrite (bnd_Ok _ _ _ _ _ (get_value_ok _ _ _ _ _ _ I)).
    rewrite (bnd_Ok _ _ _ _ _ (next_ok _ _ _ _ _ _ I)).
    rewrite (bnd_Ok _ _ h es h); [reflexivity|].
    apply (IH (pre ++ [(e, w)])); [|simpl in Hn; lia]. rewrite <- app_assoc. exact I.
Qed.
Lemma walk_backward h l es post n : is_list h l (es ++ post) -> (length es <= n)%nat ->
  walk list_previous n (last_addr 0 es) h = Ok (rev es, h).
Proof.
  revert post n; induction es as [|[e w] es IH] using rev_ind; intros post n I Hn.
  - destruct n; reflexivity.
  - rewrite app_length in Hn. simpl in Hn. rewrite last_addr_snoc. rewrite rev_app_distr. cbn [rev app].
    destruct n as [|n]; [lia|]. cbn [walk]. rewrite <- app_assoc in I. cbn [app] in I.
    destruct (il_mid _ _ _ _ _ _ I) as (_ & Ne & _). rewrite (proj2 (Z.eqb_neq e 0)) by exact Ne.
    rewrite (bnd_Ok _ _ _ _ _ (get_value_ok _ _ _ _ _ _ I)).
    rewrite (bnd_Ok _ _ _ _ _ (previous_ok _ _ _ _ _ _ I)).
    rewrite (bnd_Ok _ _ h (rev es) h); [reflexivity|].
    apply (IH ((e, w) :: post)); [exact I|lia].
Qed.
Lemma traverse_forward_ok h l es n : is_list h l es -> (length es <= n)%nat -> traverse_forward l n h = Ok (es, h).
Proof.
  intros I Hn. unfold traverse_forward. rewrite (bnd_Ok _ _ _ _ _ (get_first_ok _ _ _ I)).
  apply (walk_forward h l []); auto.
Qed.
Lemma traverse_backward_ok h l es n : is_list h l es -> (length es <= n)%nat -> traverse_backward l n h = Ok (rev es, h).
Proof.
  intros I Hn. unfold traverse_backward. rewrite (bnd_Ok _ _ _ _ _ (get_last_ok _ _ _ I)).
  apply (walk_backward h l es []); auto. rewrite app_nil_r; exact I.
Qed.

(** Searches. *)
Lemma get_loop_ok h l v pre es n : is_list h l (pre ++ es) -> (length es < n)%nat ->
  get_loop n v (hd_addr es 0) h = Ok (find_value v es, h).
Proof.
  revert pre n; induction es as [|[e w] es IH]; intros pre n I Hn; (destruct n as [|n]; [lia|]).
  - reflexivity.
  - cbn [get_loop hd_addr find_value]. destruct (il_mid _ _ _ _ _ _ I) as (He & Ne & _).
    rewrite (proj2 (Z.eqb_neq e 0)) by exact Ne. erewrite step_ld_lelem by exact He. cbn [le_value le_next].
    destruct (w =? v); [reflexivity|]. apply (IH (pre ++ [(e, w)])); [|simpl in Hn; lia].
    rewrite <- app_assoc. exact I.
Qed.
Lemma list_get_ok h l es v : is_list h l es -> list_get l v h = Ok (find_value v es, h).
Proof.
  intros I. unfold list_get. erewrite bnd_Ok by reflexivity. erewrite step_ld_list by exact (il_head _ _ _ I).
  apply (get_loop_ok h l v []); auto. apply (il_fuel _ _ _ I).
Qed.

(** The n-th handle, or NULL. *)
Lemma index_loop_ok h l idx pre es n i : is_list h l (pre ++ es) -> (length es < n)%nat ->
  i <= INT_MAX -> i <= idx <= INT_MAX \/ (idx < i /\ i + zlen es <= INT_MAX) ->
  index_loop n idx (hd_addr es 0) i h =
    Ok (if idx <? i then 0 else nth (Z.to_nat (idx - i)) (handles es) 0, h).
Proof.
  revert pre n i; induction es as [|[e w] es IH]; intros pre n i I Hn Hi Hc; (destruct n as [|n]; [lia|]).
  - cbn [index_loop hd_addr]. cbn [orb Z.eqb]. unfold ret. destruct (idx <? i); [reflexivity|].
    destruct (Z.to_nat (idx - i)); reflexivity.
  - cbn [index_loop hd_addr]. destruct (il_mid _ _ _ _ _ _ I) as (He & Ne & _).
    rewrite (proj2 (Z.eqb_neq e 0)) by exact Ne. cbn [orb].
    destruct (i =? idx) eqn:E.
    + replace idx with i by lia. rewrite Z.ltb_irrefl, Z.sub_diag. reflexivity.
    + erewrite step_ld_lelem by exact He. cbn [le_next].
      pose proof (zlen_nonneg es) as Zp.
      assert (Hm : (i =? INT_MAX) = false) by (rewrite zlen_cons in Hc; lia). rewrite Hm.
      rewrite (IH (pre ++ [(e, w)])).
      * repeat f_equal. destruct (idx <? i) eqn:E1.
        -- replace (idx <? i + 1) with true by lia. reflexivity.
        -- replace (idx <? i + 1) with false by lia.
           replace (Z.to_nat (idx - i)) with (S (Z.to_nat (idx - (i + 1)))) by lia. reflexivity.
      * rewrite <- app_assoc. exact I.
      * simpl in Hn; lia.
      * lia.
      * rewrite zlen_cons in Hc. lia.
Qed.
Lemma get_by_index_ok h l es idx : is_list h l es -> 0 <= idx <= INT_MAX \/ (idx < 0 /\ zlen es <= INT_MAX) ->
  list_get_by_index l idx h = Ok (if idx <? 0 then 0 else nth (Z.to_nat idx) (handles es) 0, h).
Proof.
  intros I Hc. unfold list_get_by_index. erewrite bnd_Ok by reflexivity. erewrite step_ld_list by exact (il_head _ _ _ I).
  cbn [l_first]. rewrite (index_loop_ok h l idx []); auto.
  - rewrite Z.sub_0_r. reflexivity.
  - apply (il_fuel _ _ _ I).
  - unfold INT_MAX; lia.
Qed.
Lemma index_loop_overflow h l idx pre es n i : is_list h l (pre ++ es) -> (length es < n)%nat ->
  idx < i -> 0 <= i <= INT_MAX -> i + zlen es > INT_MAX -> index_loop n idx (hd_addr es 0) i h = UB.
Proof.
  revert pre n i; induction es as [|[e w] es IH]; intros pre n i I Hn Hi Hc Hl; (destruct n as [|n]; [lia|]).
  - change (zlen (@nil (Z * Z))) with 0 in Hl. lia.
  - cbn [index_loop hd_addr]. destruct (il_mid _ _ _ _ _ _ I) as (He & Ne & _).
    rewrite (proj2 (Z.eqb_neq e 0)) by exact Ne. cbn [orb]. rewrite (proj2 (Z.eqb_neq i idx)) by lia.
    erewrite step_ld_lelem by exact He. cbn [le_next].
    destruct (i =? INT_MAX) eqn:E; [reflexivity|]. rewrite zlen_cons in Hl.
    apply (IH (pre ++ [(e, w)])); try lia.
    + rewrite <- app_assoc. exact I.
    + simpl in Hn; lia.
Qed.
Lemma get_by_index_overflow h l es idx : is_list h l es -> idx < 0 -> zlen es > INT_MAX -> list_get_by_index l idx h = UB.
Proof.
  intros I Hc Hl. unfold list_get_by_index. erewrite bnd_Ok by reflexivity. erewrite step_ld_list by exact (il_head _ _ _ I).
  cbn [l_first]. apply (index_loop_overflow h l idx [] es); auto; try (unfold INT_MAX in *; lia).
  apply (il_fuel _ _ _ I).
Qed.

(** destroy_list *)
Lemma destroy_elems_ok h p es n : seg h p es 0 -> NoDup (handles es) -> (length es < n)%nat ->
  exists h', destroy_elems n (hd_addr es 0) h = Ok (tt, h') /\
    (forall x, In x (handles es) -> get h' x = None) /\ same_outside (handles es) h h'.
Proof.
  revert h p n; induction es as [|[e w] es IH]; intros h p n SG ND Hn; (destruct n as [|n]; [lia|]).
  - exists h. split; [reflexivity|]. split; [intros x []|intros x _; reflexivity].
  - cbn [seg] in SG. destruct SG as [He SG]. change (handles ((e, w) :: es)) with (e :: handles es) in *.
    inversion ND as [|? ? N1 N2]; subst. cbn [destroy_elems hd_addr].
    rewrite (proj2 (Z.eqb_neq e 0)) by (eapply get_nonnull; eauto).
    erewrite step_ld_lelem by exact He. erewrite step_free by exact He. cbn [le_next].
    destruct (IH (drop_cell h e) e n) as (h' & E & A & F).
    + eapply seg_frame; [|exact SG]. intros a Ha. rewrite get_drop. rewrite (proj2 (Z.eqb_neq a e)); auto. congruence.
    + exact N2.
    + simpl in Hn; lia.
    + exists h'. split; [exact E|]. split.
      * intros x [<-|Hx]; [|auto]. rewrite (F e N1). rewrite get_drop, Z.eqb_refl. reflexivity.
      * intros x Hx. simpl in Hx. nots Hx. rewrite F by assumption. gs. reflexivity.
Qed.
Lemma destroy_list_ok h l es : is_list h l es ->
  exists h', destroy_list l h = Ok (tt, h') /\
    (forall x, In x (footprint l es) -> get h' x = None) /\ same_outside (footprint l es) h h'.
Proof.
  intros I. pose proof (il_nodup _ _ _ I) as ND. inversion ND as [|? ? N1 N2]; subst.
  pose proof (il_head _ _ _ I) as Hl.
  unfold destroy_list. erewrite bnd_Ok by reflexivity. erewrite step_ld_list by exact Hl. cbn [l_first].
  destruct (destroy_elems_ok h 0 es (S (length (mem h))) (il_seg _ _ _ I) N2 (il_fuel _ _ _ I)) as (h' & E & A & F).
  rewrite (bnd_Ok _ _ _ _ _ E). unfold free. rewrite (F l N1), Hl.
  eexists. split; [reflexivity|]. split.
  - intros x [<-|Hx]; rewrite get_drop.
    + rewrite Z.eqb_refl; reflexivity.
    + destruct (x =? l); auto.
  - intros x Hx. simpl in Hx. nots Hx. rewrite get_drop. gs. apply F. assumption.
Qed.

(** list_foreach, for callbacks that leave the list alone. *)
Definition spares (P : heap -> Prop) (fp : list Z) (f : Z -> M unit) : Prop :=
  forall v h, P h -> exists h', f v h = Ok (tt, h') /\ P h' /\ (forall x, In x fp -> get h' x = get h x).
Lemma foreach_loop_ok (P : heap -> Prop) f l pre es n h : is_list h l (pre ++ es) -> (length es < n)%nat ->
  P h -> spares P (footprint l (pre ++ es)) f ->
  exists h', foreach_loop n f (hd_addr es 0) h = Ok (tt, h') /\ call_each f (values es) h = Ok (tt, h') /\
    P h' /\ is_list h' l (pre ++ es).
Proof.
  revert pre n h; induction es as [|[e w] es IH]; intros pre n h I Hn HP HS; (destruct n as [|n]; [lia|]).
  - exists h. split; [reflexivity|]. split; [reflexivity|]. auto.
  - cbn [foreach_loop hd_addr values map snd call_each]. destruct (il_mid _ _ _ _ _ _ I) as (He & Ne & _).
    rewrite (proj2 (Z.eqb_neq e 0)) by exact Ne. rewrite (bnd_Ok _ _ _ _ _ (get_value_ok _ _ _ _ _ _ I)).
    destruct (HS w h HP) as (h1 & E1 & P1 & F1).
    assert (I1 : is_list h1 l (pre ++ (e, w) :: es)) by (eapply il_frame; eauto).
    rewrite (bnd_Ok _ _ _ _ _ E1). rewrite (bnd_Ok _ _ _ _ _ (next_ok _ _ _ _ _ _ I1)).
    replace (pre ++ (e, w) :: es) with ((pre ++ [(e, w)]) ++ es) in * by (rewrite <- app_assoc; reflexivity).
    destruct (IH (pre ++ [(e, w)]) n h1 I1) as (h' & E & C & P' & I'); auto.
    { simpl in Hn; lia. }
    exists h'. split; [exact E|]. split; [|split; auto]. rewrite (bnd_Ok _ _ _ _ _ E1). exact C.
Qed.
Lemma foreach_ok (P : heap -> Prop) f l es h : is_list h l es -> P h -> spares P (footprint l es) f ->
  exists h', list_foreach l f h = Ok (tt, h') /\ call_each f (values es) h = Ok (tt, h') /\ P h' /\ is_list h' l es.
Proof.
  intros I HP HS. unfold list_foreach. erewrite bnd_Ok by reflexivity.
  rewrite (bnd_Ok _ _ _ _ _ (get_first_ok _ _ _ I)).
  apply (foreach_loop_ok P f l []); auto. apply (il_fuel _ _ _ I).
Qed.

(** list_copy *)
Lemma copy_loop_ok h0 l c pre es n h cs :
  is_list h0 l (pre ++ es) -> is_list h l (pre ++ es) -> (length es < n)%nat ->
  list_history h c cs -> values cs = values pre ->
  (forall x, In x (footprint c cs) -> get h0 x = None) -> same_outside (footprint c cs) h0 h ->
  exists h' cs', foreach_loop n (append_it c) (hd_addr es 0) h = Ok (tt, h') /\
    list_history h' c cs' /\ values cs' = values (pre ++ es) /\
    (forall x, In x (footprint c cs') -> get h0 x = None) /\ same_outside (footprint c cs') h0 h'.
Proof.
  intros I0. revert pre n h cs I0; induction es as [|[e w] es IH]; intros pre n h cs I0 I Hn HC HV HF HO; (destruct n as [|n]; [lia|]).
  - exists h, cs. rewrite app_nil_r. split; [reflexivity|]. auto.
  - cbn [foreach_loop hd_addr]. destruct (il_mid _ _ _ _ _ _ I) as (He & Ne & _).
    rewrite (proj2 (Z.eqb_neq e 0)) by exact Ne. rewrite (bnd_Ok _ _ _ _ _ (get_value_ok _ _ _ _ _ _ I)).
    assert (FW : zlen cs < 2 ^ 60).
    { pose proof (il_len _ _ _ I) as L. rewrite zlen_app, zlen_cons in L. pose proof (zlen_nonneg es).
      apply (f_equal zlen) in HV. unfold values, zlen in HV. rewrite !map_length in HV. unfold zlen in *. lia. }
    destruct (append_ok _ _ _ w (history_is_list _ _ _ HC) FW) as (e1 & h1 & E1 & N1 & _ & IC & F1).
    assert (EA : append_it c w h = Ok (tt, h1)) by (unfold append_it; rewrite (bnd_Ok _ _ _ _ _ E1); reflexivity).
    rewrite (bnd_Ok _ _ _ _ _ EA).
    assert (I1 : is_list h1 l (pre ++ (e, w) :: es)).
    { eapply il_frame; [|exact I]. intros x Hx. apply F1. intros [<-|X].
      - exact (il_alloc _ _ _ _ I Hx N1).
      - exact (il_alloc _ _ _ _ I0 Hx (HF _ X)). }
    rewrite (bnd_Ok _ _ _ _ _ (next_ok _ _ _ _ _ _ I1)).
    replace (pre ++ (e, w) :: es) with ((pre ++ [(e, w)]) ++ es) in * by (rewrite <- app_assoc; reflexivity).
    apply (IH (pre ++ [(e, w)]) n h1 (cs ++ [(e1, w)]) I0 I1).
    + simpl in Hn; lia.
    + eapply LH_step; [exact HC|]. apply S_append; assumption.
    + unfold values in *. rewrite !map_app, HV. reflexivity.
    + unfold footprint. rewrite handles_app. intros x. simpl. rewrite in_app_iff. simpl. intros [X|[X|[X|[]]]].
      * apply HF. left; assumption.
      * apply HF. right; assumption.
      * subst x. destruct (in_dec Z.eq_dec e1 (footprint c cs)) as [Y|Y]; [apply HF, Y|]. rewrite <- (HO e1 Y). exact N1.
    + unfold footprint. rewrite handles_app. intros x. simpl. rewrite in_app_iff. simpl. intros Hx. nots Hx.
      rewrite F1, HO; auto.
      * intros [X|X]; tauto.
      * intros [X|[X|X]]; tauto.
Qed.
Lemma copy_ok h l es : is_list h l es ->
  exists c h' cs, list_copy l h = Ok (c, h') /\ list_history h' c cs /\ values cs = values es /\
    (forall x, In x (footprint c cs) -> get h x = None) /\ same_outside (footprint c cs) h h'.
Proof.
  intros I. unfold list_copy. destruct (make_list_ok h) as (c & h1 & E1 & N1 & _ & IC & F1).
  rewrite (bnd_Ok _ _ _ _ _ E1).
  assert (I1 : is_list h1 l es).
  { eapply il_frame; [|exact I]. intros x Hx. apply F1. intros [<-|[]]. exact (il_alloc _ _ _ _ I Hx N1). }
  destruct (copy_loop_ok h l c [] es (S (length (mem h1))) h1 []) as (h' & cs' & E & H & V & F & O); auto.
  - apply (il_fuel _ _ _ I1).
  - apply LH_make with h. exact E1.
  - intros x [<-|[]]. exact N1.
  - exists c, h', cs'. split; [|auto].
    rewrite (bnd_Ok _ _ h1 tt h'); [reflexivity|]. unfold list_foreach. erewrite bnd_Ok by reflexivity.
    rewrite (bnd_Ok _ _ _ _ _ (get_first_ok _ _ _ I1)). exact E.
Qed.

(** * The properties *)

Lemma append_history h l es v : list_history h l es -> few es ->
  exists e h', list_append l v h = Ok (e, h') /\ list_history h' l (es ++ [(e, v)]).
Proof.
  intros H L. destruct (append_ok _ _ _ v (history_is_list _ _ _ H) L) as (e & h' & E & _).
  exists e, h'. split; [exact E|]. eapply LH_step; [exact H|]. apply S_append; assumption.
Qed.
Lemma prepend_history h l es v : list_history h l es -> few es ->
  exists e h', list_prepend l v h = Ok (e, h') /\ list_history h' l ((e, v) :: es).
Proof.
  intros H L. destruct (prepend_ok _ _ _ v (history_is_list _ _ _ H) L) as (e & h' & E & _).
  exists e, h'. split; [exact E|]. eapply LH_step; [exact H|]. apply S_prepend; assumption.
Qed.
Lemma insert_before_history h l pre next w post v :
  list_history h l (pre ++ (next, w) :: post) -> few (pre ++ (next, w) :: post) ->
  exists e h', list_insert_before l v next h = Ok (e, h') /\
    list_history h' l (pre ++ (e, v) :: (next, w) :: post).
Proof.
  intros H L. destruct (insert_before_ok _ _ _ _ _ _ v (history_is_list _ _ _ H) L) as (e & h' & E & _).
  exists e, h'. split; [exact E|]. eapply LH_step; [exact H|]. apply S_insert_before; assumption.
Qed.
Lemma remove_history h l pre e w post : list_history h l (pre ++ (e, w) :: post) ->
  exists h', list_remove l e h = Ok (tt, h') /\ list_history h' l (pre ++ post).
Proof.
  intros H. destruct (remove_ok _ _ _ _ _ _ (history_is_list _ _ _ H)) as (h' & E & _).
  exists h'. split; [exact E|]. eapply LH_step; [exact H|]. eapply S_remove; eassumption.
Qed.
Lemma pop_first_history h l es : list_history h l es ->
  exists h', list_pop_first l h = Ok (hd 0 (values es), h') /\ list_history h' l (tl es).
Proof.
  intros H. destruct (pop_first_ok _ _ _ (history_is_list _ _ _ H)) as (h' & E & _).
  exists h'. split; [exact E|]. eapply LH_step; [exact H|]. eapply S_pop_first; eassumption.
Qed.
Lemma pop_last_history h l es : list_history h l es ->
  exists h', list_pop_last l h = Ok (last (values es) 0, h') /\ list_history h' l (removelast es).
Proof.
  intros H. destruct (pop_last_ok _ _ _ (history_is_list _ _ _ H)) as (h' & E & _).
  exists h'. split; [exact E|]. eapply LH_step; [exact H|]. eapply S_pop_last; eassumption.
Qed.

Lemma observers_history h l es : list_history h l es ->
  traverse_forward l (length es) h = Ok (es, h) /\
  list_size l h = Ok (zlen es, h) /\
  list_empty l h = Ok (match es with [] => true | _ => false end, h) /\
  list_get_first l h = Ok (first_handle es, h) /\
  list_get_last l h = Ok (last_handle es, h) /\
  (forall v, list_get l v h = Ok (find_value v es, h)) /\
  (forall idx, 0 <= idx <= INT_MAX -> list_get_by_index l idx h = Ok (nth (Z.to_nat idx) (handles es) 0, h)) /\
  (forall idx, idx < 0 -> zlen es <= INT_MAX -> list_get_by_index l idx h = Ok (0, h)).
Proof.
  intros H. apply history_is_list in H. repeat split.
  - apply traverse_forward_ok; auto.
  - apply size_ok; auto.
  - apply empty_ok; auto.
  - rewrite <- hd_addr_first. apply get_first_ok; auto.
  - rewrite <- last_addr_last. apply get_last_ok; auto.
  - intros v. apply list_get_ok; auto.
  - intros idx Hi. rewrite (get_by_index_ok _ _ es) by (auto; lia). replace (idx <? 0) with false by lia. reflexivity.
  - intros idx Hi Hl. rewrite (get_by_index_ok _ _ es) by (auto; lia). replace (idx <? 0) with true by lia. reflexivity.
Qed.

Lemma navigation_history h l pre e w post : list_history h l (pre ++ (e, w) :: post) ->
  list_elem_get_value e h = Ok (w, h) /\ list_next e h = Ok (first_handle post, h) /\
  list_previous e h = Ok (last_handle pre, h).
Proof.
  intros H. apply history_is_list in H. rewrite <- hd_addr_first, <- last_addr_last. repeat split.
  - eapply get_value_ok; eauto.
  - eapply next_ok; eauto.
  - eapply previous_ok; eauto.
Qed.

(** A history with any number of elements. *)
Lemma long_history (h0 : heap) (n : nat) : Z.of_nat n <= 2 ^ 60 ->
  exists h l es, list_history h l es /\ zlen es = Z.of_nat n.
Proof.
  induction n as [|n IH]; intros L.
  - destruct (make_list_ok h0) as (l & h & E & _). exists h, l, []. split; [|reflexivity]. eapply LH_make; eauto.
  - destruct IH as (h & l & es & H & Z); [lia|].
    destruct (append_history _ _ _ 0 H) as (e & h' & _ & H'); [unfold few; lia|].
    exists h', l, (es ++ [(e, 0)]). split; [exact H'|]. rewrite zlen_snoc. lia.
Qed.
Lemma index_refuted (h0 : heap) : exists h l es, list_history h l es /\ list_get_by_index l (-1) h = UB.
Proof.
  destruct (long_history h0 (Z.to_nat (2 ^ 31))) as (h & l & es & H & Z); [lia|].
  exists h, l, es. split; [exact H|]. apply (get_by_index_overflow _ _ es); [apply history_is_list; exact H|lia|unfold INT_MAX; lia].
Qed.

Lemma foreach_history f l es h : list_history h l es ->
  (forall v h1, list_history h1 l es ->
     exists h2, f v h1 = Ok (tt, h2) /\ (forall x, In x (footprint l es) -> get h2 x = get h1 x)) ->
  exists h', list_foreach l f h = Ok (tt, h') /\ call_each f (values es) h = Ok (tt, h') /\ list_history h' l es.
Proof.
  intros H HF. destruct (foreach_ok (fun h => list_history h l es) f l es h) as (h' & E & C & P & _).
  - apply history_is_list; exact H.
  - exact H.
  - intros v h1 H1. destruct (HF v h1 H1) as (h2 & E2 & F2). exists h2. split; [exact E2|]. split; [|exact F2].
    eapply LH_other; eauto.
  - exists h'. auto.
Qed.

Lemma copy_history h l es : list_history h l es ->
  exists c h' cs, list_copy l h = Ok (c, h') /\ values cs = values es /\
    list_history h' c cs /\ list_history h' l es /\ apart (footprint c cs) (footprint l es) /\
    (forall x, In x (footprint c cs) -> get h x = None) /\ same_outside (footprint c cs) h h'.
Proof.
  intros H. destruct (copy_ok _ _ _ (history_is_list _ _ _ H)) as (c & h' & cs & E & HC & V & F & O).
  assert (A : apart (footprint c cs) (footprint l es)).
  { intros x X Y. exact (il_alloc _ _ _ _ (history_is_list _ _ _ H) Y (F x X)). }
  exists c, h', cs. split; [exact E|]. split; [exact V|]. split; [exact HC|]. split; [|auto].
  eapply LH_other; [exact H|]. intros x Hx. apply O. intros X. exact (A x X Hx).
Qed.

(** A list that lives alone: nothing else happens to the heap. *)
Lemma steps_confined l h0 h1 h es : make_list h0 = Ok (l, h1) -> list_steps l h1 [] h es ->
  (forall x, In x (footprint l es) -> get h0 x = None) /\ same_outside (footprint l es) h0 h.
Proof.
  intros HM HS.
  destruct (make_list_ok h0) as (l' & h1' & E & N & _ & I & F). rewrite E in HM. injection HM as -> ->.
  assert (Inv : forall h1 es1 h2 es2, list_steps l h1 es1 h2 es2 -> is_list h1 l es1 ->
     (forall x, In x (footprint l es1) -> get h0 x = None) -> same_outside (footprint l es1) h0 h1 ->
     (forall x, In x (footprint l es2) -> get h0 x = None) /\ same_outside (footprint l es2) h0 h2).
  { clear. induction 1 as [|h es h1 es1 h2 es3 S SS IH]; intros I A B; [auto|].
    destruct (step_ok _ _ _ _ _ S I) as (I' & F & N & D). apply IH; [exact I'| |].
    - intros x Hx. destruct (in_dec Z.eq_dec x (footprint l es)) as [Y|Y]; [auto|].
      rewrite <- (B x Y). auto.
    - intros x Hx. destruct (in_dec Z.eq_dec x (footprint l es)) as [Y|Y].
      + rewrite (D x Y Hx). symmetry. auto.
      + rewrite F; [auto|]. rewrite in_app_iff; tauto. }
  apply (Inv h1 [] h es HS I); [|exact F]. intros x [<-|[]]. exact N.
Qed.
Lemma no_leak l h0 h1 h es : make_list h0 = Ok (l, h1) -> list_steps l h1 [] h es ->
  exists h', destroy_list l h = Ok (tt, h') /\ forall x, get h' x = get h0 x.
Proof.
  intros HM HS. destruct (steps_confined _ _ _ _ _ HM HS) as [A B].
  assert (I : is_list h l es).
  { assert (X : list_history h l es); [|apply history_is_list; exact X].
    assert (Inv : forall h1 es1 h2 es2, list_steps l h1 es1 h2 es2 -> list_history h1 l es1 -> list_history h2 l es2).
    { clear. induction 1; auto. intros. apply IHlist_steps. eapply LH_step; eauto. }
    eapply Inv; [exact HS|]. eapply LH_make; eauto. }
  destruct (destroy_list_ok _ _ _ I) as (h' & E & D & F). exists h'. split; [exact E|].
  intros x. destruct (in_dec Z.eq_dec x (footprint l es)) as [Y|Y].
  - rewrite (D x Y), (A x Y). reflexivity.
  - rewrite (F x Y), (B x Y). reflexivity.
Qed.
