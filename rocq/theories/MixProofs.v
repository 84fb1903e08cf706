(** Lists, tables, trees, sets, queues, byte arrays and strings in one memory. *)
From Verif Require Import Base Heap ListModel HashModel AvlModel IntsetModel PriorqModel ObjModel OwnSpec MixSpec.
From Verif Require ListSpec ListProofs HashSpec HashProofs AvlSpec AvlHist AvlProps ObjSpec ObjBase ObjProofs MixStrings.

Section Mix.
Context (fn : HashModel.code) (call : AvlModel.comparator) (code : Z -> Z -> Z -> Z).

(** [c]: the cells of a thing. *)
Definition fits (h : heap) (o : thing) (c : list Z) : Prop :=
  match o with
  | AList l es => ListSpec.list_history h l es /\ c = ListSpec.footprint l es
  | ATable cmp t m => HashSpec.ht_history fn cmp h t m /\ forall x, In x c <-> HashSpec.owned h t x
  | ATree cmp obj t m => AvlSpec.avl_history call cmp obj h t m /\ c = AvlSpec.footprint t m
  | AHashElem e k v => c = [e] /\ hash_elem_get_key e h = Ok (k, h) /\ hash_elem_get_value e h = Ok (v, h)
  | AnAvlElem e k v => c = [e] /\ avl_elem_get_key e h = Ok (k, h) /\ avl_elem_get_value e h = Ok (v, h)
  | AnObject p o => ObjProofs.obj_ok h (ObjProofs.Entry o p c)
  | AString p b => c = [p] /\ get h p = Some (CSlots b)
  end.

Lemma helem_key e k h : hash_elem_get_key e h = Ok (k, h) <-> exists c, get h e = Some (CHelem c) /\ he_key c = k.
Proof.
  unfold hash_elem_get_key, bnd, ld_helem, ret. destruct (get h e) as [[]|]; split; try (intros (c1 & E & _); congruence); try discriminate.
  - intros E. injection E as <-. eauto.
  - intros (c1 & E & <-). injection E as ->. reflexivity.
Qed.
Lemma helem_value e k h : hash_elem_get_value e h = Ok (k, h) <-> exists c, get h e = Some (CHelem c) /\ he_value c = k.
Proof.
  unfold hash_elem_get_value, bnd, ld_helem, ret. destruct (get h e) as [[]|]; split; try (intros (c1 & E & _); congruence); try discriminate.
  - intros E. injection E as <-. eauto.
  - intros (c1 & E & <-). injection E as ->. reflexivity.
Qed.
Lemma aelem_key e k h : avl_elem_get_key e h = Ok (k, h) <-> exists c, get h e = Some (CAelem c) /\ ae_key c = k.
Proof.
  unfold avl_elem_get_key, bnd, ld_aelem, ret. destruct (get h e) as [[]|]; split; try (intros (c1 & E & _); congruence); try discriminate.
  - intros E. injection E as <-. eauto.
  - intros (c1 & E & <-). injection E as ->. reflexivity.
Qed.
Lemma aelem_value e k h : avl_elem_get_value e h = Ok (k, h) <-> exists c, get h e = Some (CAelem c) /\ ae_value c = k.
Proof.
  unfold avl_elem_get_value, bnd, ld_aelem, ret. destruct (get h e) as [[]|]; split; try (intros (c1 & E & _); congruence); try discriminate.
  - intros E. injection E as <-. eauto.
  - intros (c1 & E & <-). injection E as ->. reflexivity.
Qed.

Lemma owned_list cmp h t m : HashSpec.ht_history fn cmp h t m ->
  exists c, (forall x, In x c <-> HashSpec.owned h t x) /\ forall x, In x c -> get h x <> None.
Proof.
  intros H. destruct (HashProofs.history_ht _ _ _ _ _ H) as (hash & arr & bs & I & P). exists (HashProofs.fp t arr bs).
  split; [intros x; symmetry; exact (HashProofs.owned_fp _ _ _ _ _ _ _ _ x I)|].
  intros x. unfold HashProofs.fp. intros [<-|[<-|X]].
  - rewrite (HashProofs.ih_table _ _ _ _ _ _ _ _ I). discriminate.
  - rewrite (HashProofs.ih_slots _ _ _ _ _ _ _ _ I). discriminate.
  - exact (HashProofs.buckets_alloc _ _ _ _ _ _ _ _ _ (HashProofs.ih_buckets _ _ _ _ _ _ _ _ I) X).
Qed.

Lemma owned_member cmp h t m e k v : HashSpec.ht_history fn cmp h t m -> In (e, k, v) m -> HashSpec.owned h t e.
Proof.
  intros H I. destruct (HashProofs.history_ht _ _ _ _ _ H) as (hash & arr & bs & IT & P). apply (HashProofs.owned_fp _ _ _ _ _ _ _ _ e IT).
  destruct (HashProofs.holds_in _ _ _ _ _ P I) as (y & Hy & <- & _). right; right.
  destruct (HashProofs.split_bucket _ _ _ _ _ _ _ _ _ (HashProofs.ih_buckets _ _ _ _ _ _ _ _ IT) Hy) as (C1 & [l xs] & C2 & -> & W & B).
  rewrite HashProofs.all_cells_app, HashProofs.all_cells_cons, !in_app_iff. right; left. destruct B as [[_ B]|[B _]]; [rewrite B in W; destruct W|].
  simpl in *. rewrite HashProofs.cells_eq by (apply (ListProofs.il_nonnull _ _ _ _ B); left; reflexivity). right. apply in_app_iff. right. apply in_map. exact W.
Qed.

Lemma fits_alloc h o c x : fits h o c -> In x c -> get h x <> None.
Proof.
  destruct o as [l es|cmp t m|cmp obj t m|e k v|e k v|p o|p b]; cbn [fits].
  - intros [H ->] I. exact (ListProofs.il_alloc _ _ _ _ (ListProofs.history_is_list _ _ _ H) I).
  - intros [H E] I. destruct (owned_list _ _ _ _ H) as (c' & E' & A). apply A, E', E, I.
  - intros [H ->] I. eapply AvlHist.avl_alloc; [exact (AvlHist.history_avl _ _ _ _ _ _ H)|exact I].
  - intros (-> & H & _) [<-|[]]. apply helem_key in H as (c1 & -> & _). discriminate.
  - intros (-> & H & _) [<-|[]]. apply aelem_key in H as (c1 & -> & _). discriminate.
  - intros H I. apply (ObjProofs.obj_cells _ _ H). exact I.
  - intros (-> & H) [<-|[]]. rewrite H. discriminate.
Qed.
Lemma fits_frame h h' o c : fits h o c -> (forall x, In x c -> get h' x = get h x) -> fits h' o c.
Proof.
  destruct o as [l es|cmp t m|cmp obj t m|e k v|e k v|p o|p b]; cbn [fits].
  - intros [H ->] F. split; [|reflexivity]. eapply ListSpec.LH_other; [exact H|exact F].
  - intros [H E] F. split; [eapply HashSpec.HH_other; [exact H|]; intros x X; apply F, E, X|].
    destruct (HashProofs.history_ht _ _ _ _ _ H) as (hash & arr & bs & I & P). intros x. rewrite E.
    assert (I' : HashProofs.is_ht True fn hash cmp h' t arr bs).
    { eapply HashProofs.ht_frame; [exact I|]. intros y Y. apply F, E, (HashProofs.owned_fp _ _ _ _ _ _ _ _ y I), Y. }
    rewrite (HashProofs.owned_fp _ _ _ _ _ _ _ _ x I), (HashProofs.owned_fp _ _ _ _ _ _ _ _ x I'). reflexivity.
  - intros [H ->] F. split; [|reflexivity]. eapply AvlSpec.AH_other; [exact H|exact F].
  - intros (-> & H1 & H2) F. split; [reflexivity|]. rewrite helem_key, helem_value in *. rewrite (F e) by (left; reflexivity). auto.
  - intros (-> & H1 & H2) F. split; [reflexivity|]. rewrite aelem_key, aelem_value in *. rewrite (F e) by (left; reflexivity). auto.
  - intros H F. exact (ObjProofs.obj_frame _ _ _ H F).
  - intros (-> & H) F. split; [reflexivity|]. rewrite (F p) by (left; reflexivity). exact H.
Qed.

(** ** Everything together *)
Definition cells (es : list (thing * list Z)) : list Z := concat (map snd es).
Definition separate (es : list (thing * list Z)) : Prop :=
  ForallOrdPairs (fun a b => forall x, In x (snd a) -> ~ In x (snd b)) es.
Definition world (h0 h : heap) (es : list (thing * list Z)) : Prop :=
  Forall (fun e => fits h (fst e) (snd e)) es /\ separate es /\ (forall x, In x (cells es) -> get h0 x = None) /\ ListSpec.same_outside (cells es) h0 h.

Lemma cells_app a b : cells (a ++ b) = cells a ++ cells b.
Proof. unfold cells. rewrite map_app, concat_app. reflexivity. Qed.
Lemma separate_app a b : separate (a ++ b) <-> separate a /\ separate b /\ forall x, In x (cells a) -> ~ In x (cells b).
Proof.
  unfold separate. induction a as [|e a IH]; cbn [app].
  - split; [intros H; split; [constructor|]; split; [exact H|]; intros x []|tauto].
  - split.
    + intros H. inversion H as [|? ? F G]; subst. apply IH in G as (G1 & G2 & G3). apply Forall_app in F as [F1 F2].
      split; [constructor; assumption|]. split; [exact G2|]. intros x X Y. unfold cells in X. cbn [map concat] in X. apply in_app_or in X as [X|X]; [|exact (G3 x X Y)].
      unfold cells in Y. apply in_concat in Y as (c & C & Y). apply in_map_iff in C as (e' & <- & C). exact (proj1 (Forall_forall _ _) F2 e' C x X Y).
    + intros (H1 & H2 & H3). inversion H1 as [|? ? F G]; subst. constructor.
      * apply Forall_app. split; [exact F|]. apply Forall_forall. intros e' I x X Y. apply (H3 x); unfold cells; [cbn [map concat]; apply in_or_app; left; exact X|].
        apply in_concat. exists (snd e'). split; [apply in_map; exact I|exact Y].
      * apply IH. split; [exact G|]. split; [exact H2|]. intros x X. apply H3. unfold cells. cbn [map concat]. apply in_or_app. right. exact X.
Qed.
Lemma cells_alloc h es x : Forall (fun e => fits h (fst e) (snd e)) es -> In x (cells es) -> get h x <> None.
Proof.
  intros F X. unfold cells in X. apply in_concat in X as (c & C & X). apply in_map_iff in C as (e & <- & C).
  exact (fits_alloc _ _ _ _ (proj1 (Forall_forall _ _) F e C) X).
Qed.
Lemma frame_all h h' es : Forall (fun e => fits h (fst e) (snd e)) es -> (forall x, In x (cells es) -> get h' x = get h x) ->
  Forall (fun e => fits h' (fst e) (snd e)) es.
Proof.
  intros F G. apply Forall_forall. intros e I. eapply fits_frame; [exact (proj1 (Forall_forall _ _) F e I)|].
  intros x X. apply G. unfold cells. apply in_concat. exists (snd e). split; [apply in_map; exact I|exact X].
Qed.

Lemma world_turn h0 h h' pre old post new : world h0 h (pre ++ old ++ post) -> ObjBase.turns (cells old) (cells new) h h' ->
  Forall (fun e => fits h' (fst e) (snd e)) new -> separate new -> world h0 h' (pre ++ new ++ post).
Proof.
  intros (Ok1 & S & FR & SO) (T1 & T2 & T3) Ok2 Sn. apply Forall_app in Ok1 as [OkA Ok1]. apply Forall_app in Ok1 as [OkO OkP].
  apply separate_app in S as (Sa & S & Nab). apply separate_app in S as (_ & Sp & Nop). rewrite !cells_app in *.
  assert (NA : forall x, In x (cells pre) -> ~ In x (cells old)). { intros x X Y. apply (Nab x X). apply in_or_app. left; exact Y. }
  assert (NP : forall x, In x (cells post) -> ~ In x (cells old)). { intros x X Y. exact (Nop x Y X). }
  assert (RA : forall x, In x (cells pre) -> ~ In x (cells new)). { intros x X Y. apply (cells_alloc _ _ x OkA X). apply T2; auto. }
  assert (RP : forall x, In x (cells post) -> ~ In x (cells new)). { intros x X Y. apply (cells_alloc _ _ x OkP X). apply T2; auto. }
  split; [|split; [|split]].
  - apply Forall_app. split; [apply (frame_all h); [exact OkA|]; intros x X; apply T1; auto|].
    apply Forall_app. split; [exact Ok2|]. apply (frame_all h); [exact OkP|]. intros x X; apply T1; auto.
  - apply separate_app. split; [exact Sa|]. split; [apply separate_app; split; [exact Sn|split; [exact Sp|intros x X Y; exact (RP x Y X)]]|].
    intros x X Y. rewrite cells_app in Y. apply in_app_or in Y as [Y|Y]; [exact (RA x X Y)|]. apply (Nab x X). apply in_or_app. right; exact Y.
  - intros x. rewrite !cells_app, !in_app_iff. intros [X|[X|X]].
    + apply FR. rewrite !in_app_iff. tauto.
    + destruct (in_dec Z.eq_dec x (cells old)) as [Y|Y]; [apply FR; rewrite !in_app_iff; tauto|].
      rewrite <- SO; [apply T2; assumption|]. rewrite !in_app_iff. intros [Z1|[Z1|Z1]]; [exact (RA x Z1 X)|exact (Y Z1)|exact (RP x Z1 X)].
    + apply FR. rewrite !in_app_iff. tauto.
  - intros x. rewrite !cells_app, !in_app_iff. intros X. destruct (in_dec Z.eq_dec x (cells old)) as [Y|Y].
    + rewrite T3 by tauto. symmetry. apply FR. rewrite !in_app_iff. tauto.
    + rewrite T1 by tauto. apply SO. rewrite !in_app_iff. tauto.
Qed.

Lemma cells_one o c : cells [(o, c)] = c.
Proof. unfold cells. cbn. apply app_nil_r. Qed.
Lemma separate_one e : separate [e].
Proof. constructor; constructor. Qed.
Lemma separate_two a b : (forall x, In x (snd a) -> ~ In x (snd b)) -> separate [a; b].
Proof. intros H. constructor; [constructor; [exact H|constructor]|apply separate_one]. Qed.

(** ** Sets and queues *)
Fixpoint without (h : heap) (c : list Z) : heap := match c with [] => h | x :: c => drop_cell (without h c) x end.
Lemma get_without h c x : get (without h c) x = if in_dec Z.eq_dec x c then None else get h x.
Proof.
  induction c as [|y c IH]; cbn [without]; [destruct (in_dec Z.eq_dec x []) as [[]|]; reflexivity|].
  rewrite get_drop, IH. destruct (in_dec Z.eq_dec x (y :: c)) as [I|I].
  - destruct (Z.eqb_spec x y) as [E|E]; [reflexivity|]. destruct (in_dec Z.eq_dec x c) as [J|J]; [reflexivity|]. destruct I as [I|I]; [congruence|tauto].
  - destruct (Z.eqb_spec x y) as [E|E]; [destruct I; left; congruence|]. destruct (in_dec Z.eq_dec x c) as [J|J]; [destruct I; right; exact J|reflexivity].
Qed.
Lemma object_world h o p c : ObjProofs.obj_ok h (ObjProofs.Entry o p c) -> ObjProofs.world (without h c) h [ObjProofs.Entry o p c].
Proof.
  intros H. assert (E : ObjProofs.all_cells [ObjProofs.Entry o p c] = c) by (unfold ObjProofs.all_cells; cbn; apply app_nil_r).
  unfold ObjProofs.world. rewrite E. split; [constructor; [exact H|constructor]|]. split; [exact (proj1 (ObjProofs.obj_cells _ _ H))|].
  split; [intros x X|unfold ListSpec.same_outside; intros x X]; rewrite get_without; destruct (in_dec Z.eq_dec x c); try tauto; reflexivity.
Qed.
Lemma world_turns h0 h h' es es' : ObjProofs.world h0 h es -> ObjProofs.world h0 h' es' -> ObjBase.turns (ObjProofs.all_cells es) (ObjProofs.all_cells es') h h'.
Proof.
  intros (_ & _ & F & S) (_ & _ & F' & S'). split; [|split].
  - intros x X Y. rewrite (S' x Y), (S x X). reflexivity.
  - intros x X Y. rewrite (S x Y). apply F'. exact X.
  - intros x X Y. rewrite (S' x Y). apply F. exact X.
Qed.
Lemma object_acts junk c v p o o' h cs : ObjProofs.obj_ok h (ObjProofs.Entry o p cs) -> ObjSpec.alone code junk c [o] = Ok (v, [o']) ->
  exists h' p' cs', ObjSpec.together code junk c [p] h = Ok ((v, [p']), h') /\ ObjProofs.obj_ok h' (ObjProofs.Entry o' p' cs') /\ ObjBase.turns cs cs' h h'.
Proof.
  intros H A. pose proof (object_world _ _ _ _ H) as W.
  destruct (ObjProofs.alone_together code junk c _ h [ObjProofs.Entry o p cs] v [o'] W A) as (h' & es & T & E & W').
  destruct es as [|[o1 p1 c1] [|e2 es]]; try discriminate. cbn [map ObjProofs.e_ptr ObjProofs.e_obj] in *. injection E as ->.
  exists h', p1, c1. split; [exact T|]. pose proof (world_turns _ _ _ _ _ W W') as G. unfold ObjProofs.all_cells in G. cbn in G. rewrite !app_nil_r in G.
  split; [|exact G]. destruct W' as (F & _). inversion F; assumption.
Qed.
Lemma object_makes junk c v o h : ObjSpec.alone code junk c [] = Ok (v, [o]) ->
  exists h' p cs, ObjSpec.together code junk c [] h = Ok ((v, [p]), h') /\ ObjProofs.obj_ok h' (ObjProofs.Entry o p cs) /\ ObjBase.turns [] cs h h'.
Proof.
  intros A. assert (W : ObjProofs.world h h []).
  { split; [constructor|]. split; [constructor|]. split; [intros x []|intros x _; reflexivity]. }
  destruct (ObjProofs.alone_together code junk c _ h [] v [o] W A) as (h' & es & T & E & W').
  destruct es as [|[o1 p1 c1] [|e2 es]]; try discriminate. cbn [map ObjProofs.e_ptr ObjProofs.e_obj] in *. injection E as ->.
  exists h', p1, c1. split; [exact T|]. pose proof (world_turns _ _ _ _ _ W W') as G. unfold ObjProofs.all_cells in G. cbn in G. rewrite !app_nil_r in G.
  split; [|exact G]. destruct W' as (F & _). inversion F; assumption.
Qed.
(** The pointer stays the same. *)
Lemma same_pointer junk c v p p' h h' : ObjSpec.together code junk c [p] h = Ok ((v, [p']), h') -> p' = p.
Proof.
  destruct c as [n|k|k e|k e|k e|k e b|k|f|k x|k|k|k|k loc|k|k|m|k o|k j i len|k i|k|k|k]; cbn [ObjSpec.together]; unfold bnd, ObjSpec.pointer, ret, fail;
    try (destruct (h_make_intset junk n h) as [[? ?]| | |]; discriminate); try (destruct (h_make_priority_queue junk f h) as [[? ?]| | |]; discriminate);
    try (destruct (ByteHeapModel.h_make_byte_array junk m h) as [[? ?]| | |]; discriminate);
    try match goal with |- context [ByteHeapModel.h_share_byte_array] =>
      unfold ByteHeapModel.h_share_byte_array, bnd, ret, ObjSpec.put_pointer; destruct k as [|[|k]]; cbn [nth_error firstn skipn app]; try discriminate;
      destruct (field p ByteHeapModel.BA_refs h) as [[r h1]| | |]; try discriminate;
      destruct (set_field p ByteHeapModel.BA_refs (Base.u32 (r + 1)) h1) as [[[] h2]| | |]; try discriminate end;
    try destruct (nth_error [p] k) as [p0|]; try discriminate;
    repeat match goal with |- match ?e with _ => _ end = _ -> _ => destruct e as [[? ?]| | |]; try discriminate end; congruence.
Qed.

(** ** One call *)
Lemma makes_fits h o h' : makes fn call code h o h' -> exists c, fits h' o c /\ ObjBase.turns [] c h h'.
Proof.
  intros [l h1 E|capacity hash cmp t h1 R Lg E|cmp obj t h1 P E|junk c v o1 p h1 A E|b p h1 E].
  - destruct (ListProofs.make_list_ok h) as (l0 & h0 & E0 & F & N & I & S). rewrite E in E0. injection E0 as <- <-.
    exists [l]. split; [split; [eapply ListSpec.LH_make; exact E|reflexivity]|].
    split; [intros x _ X; exact (S x X)|]. split; [intros x [<-|[]] _; exact F|intros x []].
  - destruct (HashProofs.make_foreign fn hash cmp capacity h Lg) as (t0 & h0 & E0 & F1 & F2). rewrite E in E0. injection E0 as <- <-.
    assert (H : HashSpec.ht_history fn cmp h1 t []) by (eapply HashSpec.HH_make; eauto).
    destruct (owned_list _ _ _ _ H) as (c & Ec & _). exists c. split; [split; [exact H|exact Ec]|].
    split; [intros x _ X; apply F2; rewrite <- Ec; exact X|]. split; [intros x X _; apply F1, Ec, X|intros x []].
  - destruct (AvlHist.make_avl call cmp obj h P) as (t0 & h0 & E0 & A & F1 & F2). rewrite E in E0. injection E0 as <- <-.
    exists [t]. split; [split; [eapply AvlSpec.AH_make; eauto|reflexivity]|].
    split; [intros x _ X; apply F2; intros ->; apply X; left; reflexivity|]. split; [intros x [<-|[]] _; exact F1|intros x []].
  - destruct (object_makes junk c v o1 h A) as (h0 & p0 & cs & E0 & O & T). rewrite E in E0. injection E0 as <- <-. exists cs. auto.
  - destruct (alloc_spec (CSlots b) h) as (p0 & h0 & E0 & _ & F & G). rewrite E in E0. injection E0 as <- <-.
    exists [p]. split; [split; [reflexivity|rewrite G, Z.eqb_refl; reflexivity]|].
    split; [intros x _ X; rewrite G; destruct (Z.eqb_spec x p) as [->|]; [destruct X; left; reflexivity|reflexivity]|].
    split; [intros x [<-|[]] _; exact F|intros x []].
Qed.

Lemma list_acts l es h h' es' : ListSpec.list_history h l es -> ListSpec.list_step l h es h' es' ->
  ListSpec.list_history h' l es' /\ ObjBase.turns (ListSpec.footprint l es) (ListSpec.footprint l es') h h'.
Proof.
  intros H S. split; [eapply ListSpec.LH_step; eauto|].
  destruct (ListProofs.step_ok _ _ _ _ _ S (ListProofs.history_is_list _ _ _ H)) as (I & A & B & C).
  split; [intros x X Y; apply A; rewrite in_app_iff; tauto|]. split; [exact B|exact C].
Qed.

Lemma loose_cells {A} (f : A -> thing) (g : A -> Z) l : cells (map (fun a => (f a, [g a])) l) = map g l.
Proof. induction l as [|a l IH]; [reflexivity|]. unfold cells in *. cbn [map concat app snd]. rewrite IH. reflexivity. Qed.
Lemma loose_separate {A} (f : A -> thing) (g : A -> Z) l : NoDup (map g l) -> separate (map (fun a => (f a, [g a])) l).
Proof.
  induction l as [|a l IH]; cbn [map]; intros N; [constructor|]. inversion_clear N as [|? ? N1 N2]. constructor; [|exact (IH N2)].
  apply Forall_forall. intros e I x [<-|[]] Y. apply in_map_iff in I as (b & <- & I). destruct Y as [Y|[]]. apply N1. rewrite <- Y. apply in_map. exact I.
Qed.

Lemma acts_fits h o h' os c : acts fn call code h o h' os -> fits h o c ->
  exists new, map fst new = os /\ Forall (fun e => fits h' (fst e) (snd e)) new /\ separate new /\ ObjBase.turns c (cells new) h h'.
Proof.
  intros A F. destruct A as [l es h1 es1 S|l es l1 es1 h1 R V TR|l es h1 R|cmp t m r h1 m1 out Op [N Out]|cmp t m h1 R|
    cmp obj t m r h1 m1 out Op [N Out]|cmp obj t m t1 h1 m1 n R Ep TR|cmp obj t m h1 R|e k v h1 R|e k v h1 R|junk cl v p o p1 o1 h1 A E|
    junk p b p1 b1 h1 SC G|junk p b l es bs h1 n SC TR B|p b b1 h1 L E|p b h1 E]; cbn [fits] in F.
  - destruct F as [H ->]. destruct (list_acts _ _ _ _ _ H S) as [H' T]. exists [(AList l es1, ListSpec.footprint l es1)].
    split; [reflexivity|]. split; [constructor; [split; [exact H'|reflexivity]|constructor]|]. split; [apply separate_one|]. rewrite cells_one. exact T.
  - destruct F as [H ->]. destruct (ListProofs.copy_history _ _ _ H) as (c0 & h0 & cs & R0 & V0 & H1 & H2 & AP & F1 & F2). rewrite R in R0. injection R0 as <- <-.
    assert (es1 = cs) as ->.
    { assert (L : length es1 = length cs) by (rewrite <- (map_length snd es1), <- (map_length snd cs); unfold ListSpec.values in V, V0; congruence).
      rewrite (ListProofs.traverse_forward_ok _ _ cs (length es1) (ListProofs.history_is_list _ _ _ H1)) in TR by lia. congruence. }
    exists [(AList l es, ListSpec.footprint l es); (AList l1 cs, ListSpec.footprint l1 cs)]. split; [reflexivity|].
    split; [constructor; [split; [exact H2|reflexivity]|constructor; [split; [exact H1|reflexivity]|constructor]]|].
    split; [apply separate_two; intros x X Y; exact (AP x Y X)|].
    change (cells _) with (ListSpec.footprint l es ++ (ListSpec.footprint l1 cs ++ [])). rewrite app_nil_r.
    split; [intros x X Y; apply F2; rewrite in_app_iff in Y; tauto|]. split; [intros x X Y; apply F1; rewrite in_app_iff in X; tauto|].
    intros x X Y. rewrite in_app_iff in Y. tauto.
  - destruct F as [H ->]. destruct (ListProofs.destroy_list_ok _ _ _ (ListProofs.history_is_list _ _ _ H)) as (h0 & R0 & F1 & F2). rewrite R in R0. injection R0 as <-.
    exists []. split; [reflexivity|]. split; [constructor|]. split; [constructor|]. split; [intros x X _; exact (F2 x X)|]. split; [intros x []|intros x X _; exact (F1 x X)].
  - destruct F as [H Ec]. destruct (HashProofs.foreign_op _ _ _ _ _ _ _ _ H Op) as (O1 & O2 & O3 & O4).
    assert (H' : HashSpec.ht_history fn cmp h1 t m1) by (eapply HashSpec.HH_op; eauto).
    destruct (owned_list _ _ _ _ H') as (c1 & Ec1 & _).
    exists ((ATable cmp t m1, c1) :: map (fun a => (loose_hash a, [HashSpec.a_elem a])) out). split; [cbn [map fst]; rewrite map_map; reflexivity|].
    assert (CE : cells ((ATable cmp t m1, c1) :: map (fun a => (loose_hash a, [HashSpec.a_elem a])) out) = c1 ++ map HashSpec.a_elem out).
    { change (c1 ++ cells (map (fun a => (loose_hash a, [HashSpec.a_elem a])) out) = c1 ++ map HashSpec.a_elem out). rewrite loose_cells. reflexivity. }
    split; [|split; [|rewrite CE]].
    + constructor; [split; [exact H'|exact Ec1]|]. apply Forall_forall. intros e I. apply in_map_iff in I as ([[e1 k1] v1] & <- & I).
      apply Out in I as (I & NO & G). change (HashSpec.a_elem (e1, k1, v1)) with e1 in *. cbn [fst snd loose_hash fits HashSpec.a_elem HashSpec.a_key HashSpec.a_value].
      split; [reflexivity|]. destruct (HashProofs.element_history _ _ _ _ _ _ _ _ H I) as (_ & K & V).
      pose proof (owned_member _ _ _ _ _ _ _ H I) as OW.
      destruct (O3 e1 OW NO) as [X|(X & _)]; [congruence|]. rewrite helem_key, helem_value in *. rewrite X. auto.
    + constructor; [|apply loose_separate; exact N]. apply Forall_forall. intros e I x X Y. apply in_map_iff in I as (a & <- & I). destruct Y as [<-|[]].
      apply Out in I as (_ & NO & _). apply NO, Ec1, X.
    + split; [|split].
      * intros x X Y. rewrite in_app_iff in Y. apply O2; [rewrite <- Ec; exact X|rewrite <- Ec1; tauto].
      * intros x X Y. destruct (get h x) eqn:G; [|reflexivity]. exfalso. rewrite Ec in Y. apply in_app_or in X as [X|X].
        -- destruct (O1 x Y) as [_ Z1]; [congruence|]. apply Z1, Ec1, X.
        -- apply in_map_iff in X as ([[e1 k1] v1] & <- & X). apply Out in X as (I & _). apply Y. exact (owned_member _ _ _ _ _ _ _ H I).
      * intros x X Y. rewrite in_app_iff in Y. rewrite Ec in X. destruct (O3 x X) as [Z1|(Z1 & (k & v & I) & _)]; [rewrite <- Ec1; tauto|exact Z1|].
        destruct (get h1 x) eqn:G; [|reflexivity]. exfalso. apply Y. right. apply in_map_iff. exists (x, k, v). split; [reflexivity|]. apply Out. split; [exact I|].
        split; [|change (HashSpec.a_elem (x, k, v)) with x; congruence]. rewrite <- Ec1. change (HashSpec.a_elem (x, k, v)) with x. tauto.
  - destruct F as [H Ec]. destruct (HashProofs.destroy_history _ _ _ _ _ H) as (h0 & R0 & F1 & F2). rewrite R in R0. injection R0 as <-.
    exists []. split; [reflexivity|]. split; [constructor|]. split; [constructor|]. split; [intros x X _; apply F2; rewrite <- Ec; exact X|]. split; [intros x []|intros x X _; apply F1, Ec, X].
  - destruct F as [H ->]. destruct (AvlProps.C35_operation _ _ _ _ _ _ _ _ _ H Op) as (O1 & O2 & O3 & O4).
    assert (H' : AvlSpec.avl_history call cmp obj h1 t m1) by (eapply AvlSpec.AH_op; eauto).
    exists ((ATree cmp obj t m1, AvlSpec.footprint t m1) :: map (fun a => (loose_avl a, [AvlSpec.a_elem a])) out). split; [cbn [map fst]; rewrite map_map; reflexivity|].
    assert (CE : cells ((ATree cmp obj t m1, AvlSpec.footprint t m1) :: map (fun a => (loose_avl a, [AvlSpec.a_elem a])) out) = AvlSpec.footprint t m1 ++ map AvlSpec.a_elem out).
    { change (AvlSpec.footprint t m1 ++ cells (map (fun a => (loose_avl a, [AvlSpec.a_elem a])) out) = AvlSpec.footprint t m1 ++ map AvlSpec.a_elem out). rewrite loose_cells. reflexivity. }
    split; [|split; [|rewrite CE]].
    + constructor; [split; [exact H'|reflexivity]|]. apply Forall_forall. intros e I. apply in_map_iff in I as ([[e1 k1] v1] & <- & I).
      apply Out in I as (I & NO & G). change (AvlSpec.a_elem (e1, k1, v1)) with e1 in *. cbn [fst snd loose_avl fits].
      split; [reflexivity|]. destruct (O4 e1 k1 v1 I NO) as [X|[X _]]; [exact X|congruence].
    + constructor; [|apply loose_separate; exact N]. apply Forall_forall. intros e I x X Y. apply in_map_iff in I as (a & <- & I). destruct Y as [<-|[]].
      apply Out in I as (_ & NO & _). exact (NO X).
    + split; [|split].
      * intros x X Y. rewrite in_app_iff in Y. apply O2; tauto.
      * intros x X Y. destruct (get h x) eqn:G; [|reflexivity]. exfalso. apply in_app_or in X as [X|X].
        -- destruct (O1 x Y) as [_ Z1]; [congruence|]. exact (Z1 X).
        -- apply in_map_iff in X as (a & <- & X). apply Out in X as (I & NO & _). apply Y. right. apply in_map. exact I.
      * intros x X Y. rewrite in_app_iff in Y. destruct X as [X|X]; [destruct Y; left; left; exact X|]. apply in_map_iff in X as (a & <- & X).
        destruct (get h1 (AvlSpec.a_elem a)) eqn:G; [|reflexivity]. exfalso. apply Y. right. apply in_map. apply Out. split; [exact X|]. split; [tauto|congruence].
  - destruct F as [H ->]. destruct (AvlHist.copy_avl call cmp obj h t m (AvlHist.history_avl _ _ _ _ _ _ H)) as (t0 & h0 & m0 & R0 & Ep0 & A1 & A2 & AP & F1 & F2 & _).
    rewrite R in R0. injection R0 as <- <-. assert (H1 : AvlSpec.avl_history call cmp obj h1 t1 m1) by (eapply AvlSpec.AH_copy; eauto).
    assert (m1 = m0) as ->.
    { rewrite (AvlHist.forward_avl _ _ _ _ _ _ n A1) in TR. destruct (length m0 <=? n)%nat; [|discriminate]. injection TR as TR.
      clear - TR Ep Ep0. rewrite <- Ep0 in Ep. clear Ep0. revert m0 TR Ep. induction m1 as [|[[e k] v] m1 IH]; intros [|[[e0 k0] v0] m0] TR Ep; try discriminate; [reflexivity|].
      cbn [map AvlSpec.handles AvlSpec.a_pair] in TR, Ep. unfold AvlSpec.handles, AvlSpec.a_pair, AvlSpec.a_elem, AvlSpec.a_key, AvlSpec.a_value in TR, Ep. cbn [map fst snd] in TR, Ep. injection TR as E1 TR. injection Ep as E2 E3 Ep. f_equal; [congruence|]. apply IH; assumption. }
    exists [(ATree cmp obj t m, AvlSpec.footprint t m); (ATree cmp obj t1 m0, AvlSpec.footprint t1 m0)]. split; [reflexivity|].
    assert (H2 : AvlSpec.avl_history call cmp obj h1 t m).
    { eapply AvlSpec.AH_other; [exact H|]. intros x X. apply F2. intros Y. exact (AP x Y X). }
    split; [constructor; [split; [exact H2|reflexivity]|constructor; [split; [exact H1|reflexivity]|constructor]]|].
    split; [apply separate_two; intros x X Y; exact (AP x Y X)|].
    change (cells _) with (AvlSpec.footprint t m ++ (AvlSpec.footprint t1 m0 ++ [])). rewrite app_nil_r.
    split; [intros x X Y; apply F2; rewrite in_app_iff in Y; tauto|]. split; [intros x X Y; apply F1; rewrite in_app_iff in X; tauto|].
    intros x X Y. rewrite in_app_iff in Y. tauto.
  - destruct F as [H ->]. destruct (AvlProps.C35_destroy _ _ _ _ _ _ H) as (h0 & R0 & F1 & F2). rewrite R in R0. injection R0 as <-.
    exists []. split; [reflexivity|]. split; [constructor|]. split; [constructor|]. split; [intros x X _; exact (F2 x X)|]. split; [intros x []|intros x X _; exact (F1 x X)].
  - destruct F as (-> & K & V). apply helem_key in K as (c1 & G & _). unfold destroy_hash_element, free in R. rewrite G in R. injection R as <-.
    exists []. split; [reflexivity|]. split; [constructor|]. split; [constructor|]. split; [|split].
    + intros x X _. rewrite get_drop. destruct (Z.eqb_spec x e) as [->|]; [destruct X; left; reflexivity|reflexivity].
    + intros x [].
    + intros x [<-|[]] _. rewrite get_drop, Z.eqb_refl. reflexivity.
  - destruct F as (-> & K & V). apply aelem_key in K as (c1 & G & _). unfold destroy_avl_element, free in R. rewrite G in R. injection R as <-.
    exists []. split; [reflexivity|]. split; [constructor|]. split; [constructor|]. split; [|split].
    + intros x X _. rewrite get_drop. destruct (Z.eqb_spec x e) as [->|]; [destruct X; left; reflexivity|reflexivity].
    + intros x [].
    + intros x [<-|[]] _. rewrite get_drop, Z.eqb_refl. reflexivity.
  - destruct (object_acts _ _ _ _ _ _ _ _ F A) as (h0 & p0 & cs & E0 & O & T). rewrite E in E0. injection E0 as <- <-.
    exists [(AnObject p1 o1, cs)]. split; [reflexivity|]. split; [constructor; [exact O|constructor]|]. split; [apply separate_one|]. rewrite cells_one. exact T.
  - destruct F as [-> Gp]. destruct (MixStrings.string_call_ok _ _ _ _ _ _ SC Gp) as [->|(d & _ & N & G1 & S)]; [discriminate|]. rewrite G in G1. injection G1 as ->.
    assert (P1 : p <> p1) by congruence. assert (Gp1 : get h1 p = Some (CSlots b)) by (rewrite S; [exact Gp|intros [E|[]]; congruence]).
    exists [(AString p b, [p]); (AString p1 d, [p1])]. split; [reflexivity|].
    split; [constructor; [split; [reflexivity|exact Gp1]|constructor; [split; [reflexivity|exact G]|constructor]]|].
    split; [apply separate_two; intros x [<-|[]] [E|[]]; congruence|].
    change (cells _) with [p; p1]. split; [intros x X Y; apply S; intros [E|[]]; apply Y; right; left; exact E|].
    split; [intros x [<-|[<-|[]]] X; [destruct X; left; reflexivity|exact N]|intros x [<-|[]] X; destruct X; left; reflexivity].
  - destruct F as [-> Gp]. destruct (MixStrings.split_call_ok _ _ _ _ _ _ SC Gp) as (es0 & bs0 & H & B0 & ND & N & S).
    rewrite (MixStrings.traverse_all _ _ _ _ _ _ H TR) in *. clear es TR. rename es0 into es.
    pose proof (MixStrings.same_contents _ _ _ _ B B0) as <-. clear B0.
    assert (NP : forall x, In x (ListSpec.footprint l es ++ ListSpec.values es) -> x <> p) by (intros x X ->; apply N in X; congruence).
    assert (LE : length (ListSpec.values es) = length bs) by (exact (MixStrings.same_length _ _ _ B)).
    set (ss := combine (ListSpec.values es) bs). assert (FS : map fst ss = ListSpec.values es) by (apply MixStrings.map_fst_combine; exact LE).
    exists ((AString p b, [p]) :: (AList l es, ListSpec.footprint l es) :: map (fun s => (AString (fst s) (snd s), [fst s])) ss).
    split; [cbn [map fst]; rewrite map_map; reflexivity|].
    assert (CE : cells ((AString p b, [p]) :: (AList l es, ListSpec.footprint l es) :: map (fun s => (AString (fst s) (snd s), [fst s])) ss) =
      p :: ListSpec.footprint l es ++ ListSpec.values es).
    { change (p :: ListSpec.footprint l es ++ cells (map (fun s => (AString (fst s) (snd s), [fst s])) ss) = p :: ListSpec.footprint l es ++ ListSpec.values es).
      rewrite (loose_cells (fun s => AString (fst s) (snd s)) fst), FS. reflexivity. }
    split; [|split; [|rewrite CE]].
    + constructor; [split; [reflexivity|]; cbn [fst snd]; rewrite S; [exact Gp|intros X; exact (NP p X eq_refl)]|].
      constructor; [split; [exact H|reflexivity]|]. apply Forall_forall. intros e I. apply in_map_iff in I as ([q d] & <- & I).
      cbn [fst snd fits]. split; [reflexivity|]. exact (MixStrings.in_combine_Forall2 _ _ _ B q d I).
    + constructor; [|constructor].
      * constructor; [intros x [<-|[]] Y; apply (NP p); [apply in_or_app; left; exact Y|reflexivity]|].
        apply Forall_forall. intros e I x [<-|[]] Y. apply in_map_iff in I as (s & <- & I). destruct Y as [Y|[]]. apply (NP p); [|reflexivity].
        apply in_or_app. right. rewrite <- FS, <- Y. apply in_map. exact I.
      * apply Forall_forall. intros e I x X Y. apply in_map_iff in I as (s & <- & I). destruct Y as [<-|[]].
        eapply (MixStrings.nodup_apart _ _ ND); [exact X|]. rewrite <- FS. apply in_map. exact I.
      * apply (loose_separate (fun s => AString (fst s) (snd s)) fst). rewrite FS. exact (MixStrings.nodup_right _ _ ND).
    + split; [intros x _ Y; apply S; intros X; apply Y; right; exact X|]. split; [intros x [<-|X] Y; [destruct Y; left; reflexivity|exact (N x X)]|].
      intros x [<-|[]] Y. destruct Y. left; reflexivity.
  - destruct F as [-> Gp]. unfold st_slots in E. rewrite Gp in E. injection E as <-.
    exists [(AString p b1, [p])]. split; [reflexivity|]. split; [constructor; [split; [reflexivity|rewrite get_put, Z.eqb_refl; [reflexivity|exact (get_nonnull _ _ _ Gp)]]|constructor]|].
    split; [apply separate_one|]. rewrite cells_one. split; [|split; [intros x X Y; destruct (Y X)|intros x X Y; destruct (Y X)]].
    intros x X _. rewrite get_put by exact (get_nonnull _ _ _ Gp). destruct (Z.eqb_spec x p) as [->|]; [destruct X; left; reflexivity|reflexivity].
  - destruct F as [-> Gp]. unfold free in E. rewrite Gp in E. injection E as <-.
    exists []. split; [reflexivity|]. split; [constructor|]. split; [constructor|]. split; [|split].
    + intros x X _. rewrite get_drop. destruct (Z.eqb_spec x p) as [->|]; [destruct X; left; reflexivity|reflexivity].
    + intros x [].
    + intros x [<-|[]] _. rewrite get_drop, Z.eqb_refl. reflexivity.
Qed.

Lemma program_world h0 h os : program fn call code h0 h os -> exists es, map fst es = os /\ world h0 h es.
Proof.
  induction 1 as [|h os o h' P (es & E & W) M|h pre o post h' os' P (es & E & W) A].
  - exists []. split; [reflexivity|]. split; [constructor|]. split; [constructor|]. split; [intros x []|intros x _; reflexivity].
  - destruct (makes_fits _ _ _ M) as (c & F & T). exists ((o, c) :: es). split; [cbn [map fst]; rewrite E; reflexivity|].
    apply (world_turn h0 h h' [] [] es [(o, c)] W); [rewrite cells_one; exact T|constructor; [exact F|constructor]|apply separate_one].
  - apply map_eq_app in E as (e1 & e2 & -> & <- & E2). destruct e2 as [|[o1 c] e2]; [discriminate|]. cbn [map fst] in E2. injection E2 as -> <-.
    assert (F : fits h o c). { destruct W as (F & _). apply Forall_app in F as [_ F]. inversion F; assumption. }
    destruct (acts_fits _ _ _ _ _ A F) as (new & <- & Fn & Sn & T). exists (e1 ++ new ++ e2). split; [rewrite !map_app; reflexivity|].
    apply (world_turn h0 h h' e1 [(o, c)] e2 new W); [rewrite cells_one; exact T|exact Fn|exact Sn].
Qed.

Lemma fits_intact h o c : fits h o c -> intact fn call code h o.
Proof.
  destruct o as [l es|cmp t m|cmp obj t m|e k v|e k v|p o|p b]; cbn [fits intact]; try tauto.
  intros H junk cl v o' A. destruct (object_acts _ _ _ _ _ _ _ _ H A) as (h' & p' & cs' & T & _). pose proof (same_pointer _ _ _ _ _ _ _ T) as ->. eauto.
Qed.
Lemma fits_owns h o c x : fits h o c -> owns h o x -> In x c.
Proof.
  destruct o as [l es|cmp t m|cmp obj t m|e k v|e k v|p o|p b]; cbn [fits owns].
  - intros [_ ->]. auto.
  - intros [_ E] O. apply E, O.
  - intros [_ ->]. auto.
  - intros [-> _] ->. left; reflexivity.
  - intros [-> _] ->. left; reflexivity.
  - unfold ObjProofs.obj_ok. cbn [ObjProofs.e_obj ObjProofs.e_cells ObjProofs.e_ptr]. destruct o as [|s|f q|a]; [intros _ []|intros (d & -> & _) ->; left; reflexivity| |intros (d & -> & _) ->; left; reflexivity].
    intros (_ & st & -> & _) ->. apply ObjProofs.in_cells. left; reflexivity.
  - intros [-> _] ->. left; reflexivity.
Qed.

Theorem program_intact h0 h os o : program fn call code h0 h os -> In o os -> intact fn call code h o.
Proof.
  intros P I. destruct (program_world _ _ _ P) as (es & <- & F & _). apply in_map_iff in I as (e & <- & I).
  exact (fits_intact _ _ _ (proj1 (Forall_forall _ _) F e I)).
Qed.
Theorem program_apart h0 h pre a mid b post x : program fn call code h0 h (pre ++ a :: mid ++ b :: post) -> owns h a x -> ~ owns h b x.
Proof.
  intros P A B. destruct (program_world _ _ _ P) as (es & E & F & S & _).
  apply map_eq_app in E as (e1 & e2 & -> & _ & E). destruct e2 as [|[a' ca] e2]; [discriminate|]. cbn [map fst] in E. injection E as -> E.
  apply map_eq_app in E as (e3 & e4 & -> & _ & E). destruct e4 as [|[b' cb] e4]; [discriminate|]. cbn [map fst] in E. injection E as -> _.
  apply Forall_app in F as [_ F]. inversion_clear F as [|? ? Fa F']. apply Forall_app in F' as [_ F']. inversion_clear F' as [|? ? Fb _].
  apply separate_app in S as (_ & S & _). inversion_clear S as [|? ? S1 _]. apply Forall_app in S1 as [_ S1]. inversion_clear S1 as [|? ? S2 _].
  exact (S2 x (fits_owns _ _ _ _ Fa A) (fits_owns _ _ _ _ Fb B)).
Qed.
Theorem program_memory h0 h os : program fn call code h0 h os ->
  (forall o x, In o os -> owns h o x -> get h0 x = None /\ get h x <> None) /\ (forall x, get h0 x <> None -> get h x = get h0 x).
Proof.
  intros P. destruct (program_world _ _ _ P) as (es & <- & F & S & N & SO). split.
  - intros o x I O. apply in_map_iff in I as (e & <- & I). pose proof (proj1 (Forall_forall _ _) F e I) as Fe.
    assert (X : In x (cells es)) by (unfold cells; apply in_concat; exists (snd e); split; [apply in_map; exact I|exact (fits_owns _ _ _ _ Fe O)]).
    split; [exact (N x X)|exact (cells_alloc _ _ _ F X)].
  - intros x G. apply SO. intros X. exact (G (N x X)).
Qed.
Theorem program_released h0 h os : program fn call code h0 h os -> (forall o, In o os -> exists p, o = AnObject p ObjSpec.Gone) -> same_memory h0 h.
Proof.
  intros P G. destruct (program_world _ _ _ P) as (es & <- & F & S & N & SO). intros x. apply SO. intros X.
  unfold cells in X. apply in_concat in X as (c & C & X). apply in_map_iff in C as (e & <- & I).
  destruct (G (fst e) (in_map _ _ _ I)) as (p & E). pose proof (proj1 (Forall_forall _ _) F e I) as Fe. cbv beta in Fe. rewrite E in Fe. cbn [fits] in Fe.
  unfold ObjProofs.obj_ok in Fe. cbn in Fe. rewrite Fe in X. exact X.
Qed.
End Mix.
