(** Ownership of the strings made by the split functions and by charstr_idna_encode. *)
From Verif Require Import Base CMem Heap ListModel ListSpec ListProofs CharstrModel CharstrSpec CharstrProofs NormModel PunyModel IdnaEncodeModel.
From Verif Require Import OwnModel OwnSpec.
From Coq Require Import ZifyBool ZifyNat.

(** ** Suffixes *)
Definition is_suffix (p s : list Z) : Prop := exists u, s = u ++ p.
Lemma suffix_cons c s p : is_suffix p s -> is_suffix p (c :: s).
Proof. intros (u & ->). exists (c :: u). reflexivity. Qed.
Lemma suffix_refl s : is_suffix s s.
Proof. exists []. reflexivity. Qed.
Lemma suffix_trans p s t : is_suffix p s -> is_suffix s t -> is_suffix p t.
Proof. intros (u & ->) (v & ->). exists (v ++ u). apply app_assoc. Qed.
Lemma suffix_tl s : is_suffix (tl s) s.
Proof. destruct s; [apply suffix_refl|]. exists [z]. reflexivity. Qed.
Lemma suffix_at_suffix b n : is_suffix (suffix_at b n) b.
Proof. exists (firstn (Z.to_nat n) b). symmetry. apply firstn_skipn. Qed.
Lemma strchr_suffix c : forall s p, strchr s c = Ok (Some p) -> is_suffix p s.
Proof.
  induction s as [|d s IH]; intros p H; cbn [strchr] in H; [discriminate|].
  destruct (d =? c); [injection H as <-; apply suffix_refl|]. destruct (d =? 0); [discriminate|]. apply suffix_cons, IH, H.
Qed.
Lemma strstr_suffix t : forall s p, strstr s t = Ok (Some p) -> is_suffix p s.
Proof.
  induction s as [|d s IH]; intros p H; cbn [strstr] in H; destruct (begins _ t) as [[|]| | |]; cbn [bind] in H; try discriminate.
  - injection H as <-. apply suffix_refl.
  - injection H as <-. apply suffix_refl.
  - destruct (d =? 0); [discriminate|]. apply suffix_cons, IH, H.
Qed.
Lemma white_suffix : forall s p, skip_white s = Ok (Some p) -> is_suffix p s.
Proof.
  induction s as [|d s IH]; intros p H; cbn [skip_white] in H; [discriminate|].
  destruct (d =? 0); [discriminate|]. destruct (negb (is_white d)); [injection H as <-; apply suffix_refl|]. apply suffix_cons, IH, H.
Qed.
Lemma black_suffix : forall s p, skip_black s = Ok p -> is_suffix p s.
Proof.
  induction s as [|d s IH]; intros p H; cbn [skip_black] in H; [discriminate|].
  destruct (truth d && negb (is_white d)); [|injection H as <-; apply suffix_refl]. apply suffix_cons, IH, H.
Qed.
Lemma offset_nonneg b p : is_suffix p b -> 0 <= offset_of b p.
Proof. intros (u & ->). unfold offset_of. rewrite zlen_app. pose proof (zlen_nonneg u). lia. Qed.
Lemma suffix_offset b p k : is_suffix p b -> 0 <= k -> suffix_at b (offset_of b p + k) = skipn (Z.to_nat k) p.
Proof.
  intros (u & ->) Hk. unfold suffix_at, offset_of. rewrite zlen_app. pose proof (zlen_nonneg u).
  replace (zlen u + zlen p - zlen p + k) with (zlen u + k) by lia. rewrite Z2Nat.inj_add by lia.
  unfold zlen at 1. rewrite Nat2Z.id. rewrite skipn_app, (skipn_all2 u) by lia. cbn [app].
  f_equal. lia.
Qed.
Lemma suffix_offset0 b p : is_suffix p b -> suffix_at b (offset_of b p) = p.
Proof. intros H. rewrite <- (Z.add_0_r (offset_of b p)). rewrite suffix_offset by (auto; lia). reflexivity. Qed.
Lemma suffix_offset1 b p : is_suffix p b -> suffix_at b (offset_of b p + 1) = tl p.
Proof. intros H. rewrite suffix_offset by (auto; lia). destruct p; reflexivity. Qed.

(** ** One more string in a list *)
Lemma new_string_ok d h : exists p h', new_string (Ok d) h = Ok (p, h') /\ one_new_block h h' p d.
Proof.
  unfold new_string. erewrite bnd_Ok by reflexivity. destruct (alloc_spec (CSlots d) h) as (p & h' & E & N & F & G).
  exists p, h'. split; [exact E|]. split; [exact N|]. split; [exact F|]. split.
  - rewrite G, Z.eqb_refl. reflexivity.
  - intros x Hx. rewrite G. destruct (Z.eqb_spec x p); [|reflexivity]. subst x. destruct Hx. left; reflexivity.
Qed.

Lemma new_list_ok h : exists l h', make_list h = Ok (l, h') /\ new_string_list h h' l [] [].
Proof.
  destruct (make_list_ok h) as (l & h' & E & F & N & I & S). exists l, h'. split; [exact E|].
  split; [eapply LH_make; exact E|]. split; [constructor|]. cbn [values map footprint handles app].
  split; [constructor; [intros []|constructor]|]. split; [|exact S]. intros x [<-|[]]. exact F.
Qed.

Lemma values_app xs ys : values (xs ++ ys) = values xs ++ values ys.
Proof. apply map_app. Qed.
Lemma nodup_app_iff {A} (xs ys : list A) : NoDup (xs ++ ys) <-> NoDup xs /\ NoDup ys /\ (forall x, In x xs -> ~ In x ys).
Proof.
  induction xs as [|x xs IH]; cbn [app].
  - split; [intros H; split; [constructor|split; [exact H|intros ? []]]|tauto].
  - split.
    + intros H. inversion H as [|? ? N H']. subst. apply IH in H'. destruct H' as (A1 & A2 & A3). rewrite in_app_iff in N.
      split; [constructor; tauto|]. split; [exact A2|]. intros y [<-|Hy]; [tauto|auto].
    + intros (H1 & H2 & H3). inversion H1; subst. constructor.
      * rewrite in_app_iff. intros [X|X]; [tauto|]. apply (H3 x); [left; reflexivity|exact X].
      * apply IH. split; [assumption|]. split; [exact H2|]. intros y Hy. apply H3. right; exact Hy.
Qed.

Lemma f2_length {A B} (R : A -> B -> Prop) xs ys : Forall2 R xs ys -> length xs = length ys.
Proof. induction 1; simpl; congruence. Qed.

Lemma append_string_ok h0 h l es blocks d :
  new_string_list h0 h l es blocks -> zlen blocks < 2 ^ 60 ->
  exists h' es', append_string l (Ok d) h = Ok (tt, h') /\ new_string_list h0 h' l es' (blocks ++ [d]).
Proof.
  intros (LH & F2 & ND & FR & SO) Hf.
  destruct (new_string_ok d h) as (p & h1 & E1 & Np & Fp & Gp & S1).
  pose proof (history_is_list _ _ _ LH) as I.
  assert (V : forall v, In v (values es) -> exists c, get h v = Some (CSlots c)).
  { clear - F2. induction F2 as [|v b vs bs Hv _ IH]; [intros ? []|]. intros x [<-|Hx]; eauto. }
  assert (Np1 : ~ In p (footprint l es)) by (intros X; apply (il_alloc _ _ _ _ I X Fp)).
  assert (Np2 : ~ In p (values es)). { intros X. destruct (V p X) as (c & Ec). congruence. }
  assert (LH1 : list_history h1 l es).
  { eapply LH_other; [exact LH|]. intros x Hx. apply S1. intros [<-|[]]. exact (Np1 Hx). }
  assert (Hfe : few es). { unfold few. apply f2_length in F2. unfold zlen in *. unfold values in F2. rewrite map_length in F2. lia. }
  pose proof (history_is_list _ _ _ LH1) as I1.
  destruct (append_ok _ _ _ p I1 Hfe) as (e & h2 & E2 & Fe & Ne & I2 & S2).
  exists h2, (es ++ [(e, p)]).
  split. { unfold append_string. rewrite (bnd_Ok _ _ _ _ _ E1). rewrite (bnd_Ok _ _ _ _ _ E2). reflexivity. }
  assert (Nep : e <> p) by congruence.
  assert (Fe0 : get h e = None). { rewrite <- S1; [exact Fe|]. intros [X|[]]; congruence. }
  assert (Ne1 : ~ In e (footprint l es)) by (intros X; apply (il_alloc _ _ _ _ I X Fe0)).
  assert (Ne2 : ~ In e (values es)). { intros X. destruct (V e X) as (c & Ec). congruence. }
  apply nodup_app_iff in ND. destruct ND as (ND1 & ND2 & ND3).
  assert (G2 : forall x, x <> e -> ~ In x (footprint l es) -> get h2 x = get h1 x).
  { intros x X Y. apply S2. intros [<-|Z]; auto. }
  assert (Hfp : forall x, In x (footprint l (es ++ [(e, p)])) <-> In x (footprint l es) \/ x = e).
  { intros x. unfold footprint. rewrite handles_app. cbn [In handles map fst]. rewrite in_app_iff. cbn [In]. intuition. }
  assert (Hfv : forall x, In x (values (es ++ [(e, p)])) <-> In x (values es) \/ x = p).
  { intros x. rewrite values_app, in_app_iff. cbn [values map snd In]. intuition. }
  split; [|split; [|split; [|split]]].
  - eapply LH_step; [exact LH1|]. apply S_append; assumption.
  - rewrite values_app. apply Forall2_app.
    + cut (forall v, In v (values es) -> get h2 v = get h v).
      { intros Hg. clear - F2 Hg. induction F2 as [|v b vs bs Hv _ IH]; constructor.
        - rewrite Hg by (left; reflexivity). exact Hv.
        - apply IH. intros x Hx. apply Hg. right; exact Hx. }
      intros v Hv. rewrite G2.
      * apply S1. intros [<-|[]]. exact (Np2 Hv).
      * intros ->. exact (Ne2 Hv).
      * intros X. exact (ND3 v X Hv).
    + constructor; [|constructor]. cbn [snd]. rewrite G2; auto.
  - apply nodup_app_iff. split; [|split].
    + pose proof (il_nodup _ _ _ I2) as X. exact X.
    + rewrite values_app. cbn [values map snd]. apply nodup_app_iff. split; [exact ND2|]. split; [repeat constructor; intros []|].
      intros x X [<-|[]]. exact (Np2 X).
    + intros x. rewrite Hfp, Hfv. intros [X|X] [Y|Y].
      * exact (ND3 x X Y).
      * subst x. exact (Np1 X).
      * subst x. exact (Ne2 Y).
      * congruence.
  - intros x. rewrite in_app_iff, Hfp, Hfv. intros [[X| ->]|[X| ->]].
    + apply FR. apply in_or_app. left; exact X.
    + rewrite <- (SO e); [exact Fe0|]. rewrite in_app_iff. tauto.
    + apply FR. apply in_or_app. right; exact X.
    + rewrite <- (SO p); [exact Fp|]. rewrite in_app_iff. tauto.
  - intros x. rewrite in_app_iff, Hfp, Hfv. intros X. rewrite G2 by tauto. rewrite S1; [apply SO; rewrite in_app_iff; tauto|].
    intros [Y|[]]. subst x. tauto.
Qed.

Lemma own_old h0 h l es blocks a c : new_string_list h0 h l es blocks -> get h0 a = Some c -> get h a = Some c.
Proof. intros (_ & _ & _ & FR & SO) H. rewrite SO; [exact H|]. intros X. rewrite (FR _ X) in H. discriminate. Qed.

(** ** The loops *)
Ltac inv H := injection H as <-.
Ltac run_ld E := unfold ld_slots at 1; unfold bnd at 1; rewrite E.

Lemma step_ld_slots {B} (f : list Z -> M B) a h c : get h a = Some (CSlots c) -> bnd (ld_slots a) f h = f c h.
Proof. intros H. unfold bnd, ld_slots. rewrite H. reflexivity. Qed.
Lemma step_lift {A B} (f : A -> M B) v h : bnd (lift (Ok v)) f h = f v h.
Proof. reflexivity. Qed.

Section Loops.
Variables (junk : nat -> Z) (h0 : heap) (a l : Z) (b : list Z).
Hypothesis Ha : get h0 a = Some (CSlots b).

Lemma finish_ok h es acc out s : new_string_list h0 h l es acc -> zlen acc < 2 ^ 60 ->
  (d <- dup_all junk s ;; Ok (acc ++ [d])) = Ok out ->
  exists h' es', append_string l (dup_all junk s) h = Ok (tt, h') /\ new_string_list h0 h' l es' out.
Proof.
  intros O Hf H. destruct (dup_all junk s) as [d| | |]; cbn [bind] in H; try discriminate. inv H.
  apply (append_string_ok h0 h l es acc d O Hf).
Qed.

Lemma split_loop_own delim : forall fuel s max acc out pos h es,
  split_loop junk fuel s delim max acc = Ok out -> suffix_at b pos = s ->
  new_string_list h0 h l es acc -> zlen acc + Z.of_nat fuel <= 2 ^ 60 ->
  exists h' es', h_split_loop junk fuel a pos delim max l h = Ok (tt, h') /\ new_string_list h0 h' l es' out.
Proof.
  induction fuel as [|fuel IH]; intros s max acc out pos h es H Hs O Hf; cbn [split_loop] in H; [discriminate|].
  cbn [h_split_loop]. rewrite (step_ld_slots _ _ _ _ (own_old _ _ _ _ _ _ _ O Ha)). rewrite Hs.
  destruct (truth max); [|apply (finish_ok h es acc out s O); [lia|exact H]].
  destruct (strchr s delim) as [[p|]| | |] eqn:E; cbn [bind] in H; try discriminate; rewrite step_lift.
  - destruct (dup_until junk s p) as [d| | |]; cbn [bind] in H; try discriminate.
    destruct (append_string_ok h0 h l es acc d O ltac:(lia)) as (h1 & es1 & E1 & O1). rewrite (bnd_Ok _ _ _ _ _ E1).
    apply (IH (tl p) (max - 1) (acc ++ [d]) out _ h1 es1 H); [|exact O1|rewrite zlen_snoc; lia].
    apply suffix_offset1. eapply suffix_trans; [eapply strchr_suffix; exact E|]. rewrite <- Hs. apply suffix_at_suffix.
  - apply (finish_ok h es acc out s O); [lia|exact H].
Qed.

Lemma atoms_loop_own : forall fuel s acc out pos h es,
  atoms_loop junk fuel s acc = Ok out -> suffix_at b pos = s ->
  new_string_list h0 h l es acc -> zlen acc + Z.of_nat fuel <= 2 ^ 60 ->
  exists h' es', h_atoms_loop junk fuel a pos l h = Ok (tt, h') /\ new_string_list h0 h' l es' out.
Proof.
  induction fuel as [|fuel IH]; intros s acc out pos h es H Hs O Hf; cbn [atoms_loop] in H; [discriminate|].
  cbn [h_atoms_loop]. rewrite (step_ld_slots _ _ _ _ (own_old _ _ _ _ _ _ _ O Ha)). rewrite Hs.
  destruct (skip_white s) as [[q|]| | |] eqn:E; cbn [bind] in H; try discriminate; rewrite step_lift.
  - destruct (skip_black (tl q)) as [p| | |] eqn:E2; cbn [bind] in H; try discriminate. rewrite step_lift.
    destruct (dup_until junk q p) as [d| | |]; cbn [bind] in H; try discriminate.
    destruct (append_string_ok h0 h l es acc d O ltac:(lia)) as (h1 & es1 & E1 & O1). rewrite (bnd_Ok _ _ _ _ _ E1).
    apply (IH p (acc ++ [d]) out _ h1 es1 H); [|exact O1|rewrite zlen_snoc; lia].
    apply suffix_offset0. eapply suffix_trans; [eapply black_suffix; exact E2|]. eapply suffix_trans; [apply suffix_tl|].
    eapply suffix_trans; [eapply white_suffix; exact E|]. rewrite <- Hs. apply suffix_at_suffix.
  - inv H. exists h, es. split; [reflexivity|exact O].
Qed.

Variables (d t : Z) (c : list Z).
Hypothesis Hd : get h0 d = Some (CSlots c).
Lemma split_str_loop_own skip : 0 <= skip -> forall fuel s max acc out pos h es,
  split_str_loop junk fuel s (suffix_at c t) skip max acc = Ok out -> suffix_at b pos = s ->
  new_string_list h0 h l es acc -> zlen acc + Z.of_nat fuel <= 2 ^ 60 ->
  exists h' es', h_split_str_loop junk fuel a pos d t skip max l h = Ok (tt, h') /\ new_string_list h0 h' l es' out.
Proof.
  intros Hk. induction fuel as [|fuel IH]; intros s max acc out pos h es H Hs O Hf; cbn [split_str_loop] in H; [discriminate|].
  cbn [h_split_str_loop]. rewrite (step_ld_slots _ _ _ _ (own_old _ _ _ _ _ _ _ O Ha)). rewrite Hs.
  destruct (truth max); [|apply (finish_ok h es acc out s O); [lia|exact H]].
  rewrite (step_ld_slots _ _ _ _ (own_old _ _ _ _ _ _ _ O Hd)).
  destruct (strstr s (suffix_at c t)) as [[p|]| | |] eqn:E; cbn [bind] in H; try discriminate; rewrite step_lift.
  - destruct (dup_until junk s p) as [x| | |]; cbn [bind] in H; try discriminate.
    destruct (append_string_ok h0 h l es acc x O ltac:(lia)) as (h1 & es1 & E1 & O1). rewrite (bnd_Ok _ _ _ _ _ E1).
    apply (IH _ (max - 1) (acc ++ [x]) out _ h1 es1 H); [|exact O1|rewrite zlen_snoc; lia].
    apply suffix_offset; [|exact Hk]. eapply suffix_trans; [eapply strstr_suffix; exact E|]. rewrite <- Hs. apply suffix_at_suffix.
  - apply (finish_ok h es acc out s O); [lia|exact H].
Qed.
End Loops.

Lemma zlen_suffix_at b pos : zlen (suffix_at b pos) <= zlen b.
Proof. unfold suffix_at, zlen. rewrite skipn_length. lia. Qed.

Lemma split_own junk h a b pos delim max out :
  get h a = Some (CSlots b) -> zlen b < 2 ^ 59 -> charstr_split junk (suffix_at b pos) delim max = Ok out ->
  exists l h' es, h_charstr_split junk a pos delim max h = Ok (l, h') /\ new_string_list h h' l es out.
Proof.
  intros Ha Hb H. destruct (new_list_ok h) as (l & h1 & E1 & O1).
  unfold h_charstr_split. rewrite (bnd_Ok _ _ _ _ _ E1). rewrite (step_ld_slots _ _ _ _ (own_old _ _ _ _ _ _ _ O1 Ha)).
  pose proof (zlen_suffix_at b pos) as Hz. unfold zlen in *.
  destruct (split_loop_own junk h a l b Ha delim _ _ _ _ _ pos h1 [] H eq_refl O1) as (h' & es & E & O).
  { unfold zlen; cbn [length]. lia. }
  exists l, h', es. split; [|exact O]. rewrite (bnd_Ok _ _ _ _ _ E). reflexivity.
Qed.
Lemma split_atoms_own junk h a b pos out :
  get h a = Some (CSlots b) -> zlen b < 2 ^ 59 -> charstr_split_atoms junk (suffix_at b pos) = Ok out ->
  exists l h' es, h_charstr_split_atoms junk a pos h = Ok (l, h') /\ new_string_list h h' l es out.
Proof.
  intros Ha Hb H. destruct (new_list_ok h) as (l & h1 & E1 & O1).
  unfold h_charstr_split_atoms. rewrite (bnd_Ok _ _ _ _ _ E1). rewrite (step_ld_slots _ _ _ _ (own_old _ _ _ _ _ _ _ O1 Ha)).
  pose proof (zlen_suffix_at b pos) as Hz. unfold zlen in *.
  destruct (atoms_loop_own junk h a l b Ha _ _ _ _ pos h1 [] H eq_refl O1) as (h' & es & E & O).
  { unfold zlen; cbn [length]. lia. }
  exists l, h', es. split; [|exact O]. rewrite (bnd_Ok _ _ _ _ _ E). reflexivity.
Qed.
Lemma strlen_nonneg : forall s n, strlen s = Ok n -> 0 <= n.
Proof.
  induction s as [|x s IH]; intros n H; cbn [strlen] in H; [discriminate|]. destruct (x =? 0).
  - injection H as H. lia.
  - destruct (strlen s) as [m| | |]; cbn [bind] in H; try discriminate. assert (H' : 1 + m = n) by congruence. specialize (IH m eq_refl). lia.
Qed.
Lemma split_str_own junk h a b pos d c t max out :
  get h a = Some (CSlots b) -> get h d = Some (CSlots c) -> zlen b < 2 ^ 59 -> max < 2 ^ 32 ->
  charstr_split_str junk (suffix_at b pos) (suffix_at c t) max = Ok out ->
  exists l h' es, h_charstr_split_str junk a pos d t max h = Ok (l, h') /\ new_string_list h h' l es out.
Proof.
  intros Ha Hd Hb Hm H. destruct (new_list_ok h) as (l & h1 & E1 & O1).
  unfold h_charstr_split_str. rewrite (bnd_Ok _ _ _ _ _ E1). rewrite (step_ld_slots _ _ _ _ (own_old _ _ _ _ _ _ _ O1 Hd)).
  unfold charstr_split_str in H. destruct (strlen (suffix_at c t)) as [skip| | |] eqn:E0; cbn [bind] in H; try discriminate.
  rewrite step_lift. rewrite (step_ld_slots _ _ _ _ (own_old _ _ _ _ _ _ _ O1 Ha)).
  pose proof (zlen_suffix_at b pos) as Hz. unfold zlen in *.
  destruct (split_str_loop_own junk h a l b Ha d t c Hd skip (strlen_nonneg _ _ E0) _ _ _ _ _ pos h1 [] H eq_refl O1) as (h' & es & E & O).
  { unfold zlen; cbn [length]. destruct (skip =? 0); lia. }
  exists l, h', es. split; [|exact O]. rewrite (bnd_Ok _ _ _ _ _ E). reflexivity.
Qed.

(** ** Releasing a list of strings *)
Lemma free_loop_ok l : forall pre es n h blocks,
  is_list h l (pre ++ es) -> (length es < n)%nat ->
  Forall2 (fun p d => get h p = Some (CSlots d)) (values es) blocks ->
  NoDup (values es) -> (forall x, In x (footprint l (pre ++ es)) -> ~ In x (values es)) ->
  exists h', foreach_loop n free (hd_addr es 0) h = Ok (tt, h') /\
    (forall x, get h' x = if in_dec Z.eq_dec x (values es) then None else get h x).
Proof.
  intros pre es. revert pre. induction es as [|[e w] es IH]; intros pre n h blocks I Hn F2 ND Ap; (destruct n as [|n]; [simpl in Hn; lia|]).
  - exists h. split; reflexivity.
  - cbn [foreach_loop hd_addr]. destruct (il_mid _ _ _ _ _ _ I) as (He & Ne & _).
    rewrite (proj2 (Z.eqb_neq e 0)) by exact Ne. rewrite (bnd_Ok _ _ _ _ _ (get_value_ok _ _ _ _ _ _ I)).
    cbn [values map snd] in F2, ND, Ap. inversion F2 as [|? d ? bs Hw F2' E1 E2]. subst. inversion ND as [|? ? Nw ND']. subst.
    rewrite (step_free _ _ _ _ Hw).
    assert (I1 : is_list (drop_cell h w) l (pre ++ (e, w) :: es)).
    { eapply il_frame; [|exact I]. intros x Hx. rewrite get_drop. destruct (Z.eqb_spec x w) as [->|]; [|reflexivity].
      exfalso. apply (Ap w Hx). left; reflexivity. }
    rewrite (bnd_Ok _ _ _ _ _ (next_ok _ _ _ _ _ _ I1)).
    replace (pre ++ (e, w) :: es) with ((pre ++ [(e, w)]) ++ es) in * by (rewrite <- app_assoc; reflexivity).
    destruct (IH (pre ++ [(e, w)]) n (drop_cell h w) bs I1) as (h' & E & G).
    + simpl in Hn; lia.
    + assert (K : forall v, In v (values es) -> get (drop_cell h w) v = get h v).
      { intros v Hv. rewrite get_drop. destruct (Z.eqb_spec v w) as [->|]; [|reflexivity]. exfalso. exact (Nw Hv). }
      fold (values es) in F2'. clear - F2' K. induction F2' as [|v b vs bs Hv _ IH]; constructor.
      * rewrite K by (left; reflexivity). exact Hv.
      * apply IH. intros x Hx. apply K. right; exact Hx.
    + exact ND'.
    + intros x Hx X. apply (Ap x Hx). right; exact X.
    + exists h'. split; [exact E|]. intros x. rewrite G, get_drop. change (values ((e, w) :: es)) with (w :: values es).
      destruct (in_dec Z.eq_dec x (values es)) as [X|X]; destruct (in_dec Z.eq_dec x (w :: values es)) as [Y|Y]; cbn [In] in *; try tauto.
      * destruct Y as [->|Y]; [|tauto]. rewrite Z.eqb_refl. reflexivity.
      * destruct (Z.eqb_spec x w) as [->|]; [tauto|reflexivity].
Qed.

Lemma free_strings_ok h h' l es blocks : new_string_list h h' l es blocks ->
  exists h'', free_strings l h' = Ok (tt, h'') /\ same_memory h h''.
Proof.
  intros (LH & F2 & ND & FR & SO). pose proof (history_is_list _ _ _ LH) as I.
  apply nodup_app_iff in ND. destruct ND as (_ & ND2 & ND3).
  destruct (free_loop_ok l [] es (S (length (mem h'))) h' blocks I (il_fuel _ _ _ I) F2 ND2 ND3) as (h1 & E1 & G1).
  assert (I1 : is_list h1 l es).
  { eapply il_frame; [|exact I]. intros x Hx. rewrite G1. destruct (in_dec Z.eq_dec x (values es)) as [X|]; [|reflexivity]. exfalso. exact (ND3 x Hx X). }
  destruct (destroy_list_ok _ _ _ I1) as (h2 & E2 & D2 & S2).
  exists h2. split.
  { unfold free_strings, list_foreach. rewrite bnd_assoc. erewrite bnd_Ok by reflexivity. rewrite bnd_assoc.
    rewrite (bnd_Ok _ _ _ _ _ (get_first_ok _ _ _ I)). rewrite (bnd_Ok _ _ _ _ _ E1). exact E2. }
  intros x. destruct (in_dec Z.eq_dec x (footprint l es)) as [X|X].
  - rewrite (D2 x X). symmetry. apply FR. apply in_or_app. left; exact X.
  - rewrite (S2 x X), G1. destruct (in_dec Z.eq_dec x (values es)) as [Y|Y].
    + symmetry. apply FR. apply in_or_app. right; exact Y.
    + apply SO. rewrite in_app_iff. tauto.
Qed.

(** ** charstr_split_into_array *)
Lemma skipn_next {A} (o : A) rest : forall n xs, skipn n xs = o :: rest -> skipn (S n) xs = rest.
Proof.
  induction n as [|n IH]; intros xs H.
  - cbn [skipn] in H. subst xs. reflexivity.
  - destruct xs as [|y xs]; [discriminate|]. cbn [skipn] in H. change (skipn (S n) xs = rest). apply IH, H.
Qed.
Section Array.
Variables (junk : nat -> Z) (h0 : heap) (a array : Z) (b old : list Z).
Hypothesis Ha : get h0 a = Some (CSlots b).
Hypothesis Haa : a <> array.
Hypothesis Harr : get h0 array = Some (CSlots old).

Lemma array_old h ps acc : new_string_array h0 h array old ps acc -> get h a = Some (CSlots b).
Proof.
  intros (_ & _ & _ & FR & SO). rewrite SO; [exact Ha|]. intros [X|X]; [congruence|]. rewrite (FR _ X) in Ha. discriminate.
Qed.

Lemma array_set_ok h ps acc d : new_string_array h0 h array old ps acc -> zlen ps < zlen old ->
  exists h' p, array_set array (zlen ps) (Ok d) h = Ok (tt, h') /\ new_string_array h0 h' array old (ps ++ [p]) (acc ++ [d]).
Proof.
  intros (G & F2 & ND & FR & SO) L.
  destruct (new_string_ok d h) as (p & h1 & E1 & Np & Fp & Gp & S1).
  assert (Nap : array <> p) by congruence.
  assert (V : forall v, In v ps -> exists c, get h v = Some (CSlots c)).
  { clear - F2. induction F2 as [|v x vs bs Hv _ IH]; [intros ? []|]. intros y [<-|Hy]; eauto. }
  assert (Np2 : ~ In p ps). { intros X. destruct (V p X) as (c & Ec). congruence. }
  assert (G1 : get h1 array = Some (CSlots (ps ++ skipn (length ps) old))). { rewrite S1; [exact G|]. intros [X|[]]; congruence. }
  destruct (skipn (length ps) old) as [|o rest] eqn:Es.
  { exfalso. apply (f_equal (@length Z)) in Es. rewrite skipn_length in Es. simpl in Es. unfold zlen in L. lia. }
  assert (Er : skipn (length (ps ++ [p])) old = rest).
  { rewrite app_length. cbn [length]. rewrite Nat.add_1_r. eapply skipn_next. exact Es. }
  exists (put_cell h1 array (CSlots (ps ++ p :: rest))), p.
  pose proof (get_nonnull _ _ _ Harr) as Na0.
  split.
  { unfold array_set. rewrite (bnd_Ok _ _ _ _ _ E1). rewrite (step_ld_slots _ _ _ _ G1). rewrite wr_app by reflexivity. rewrite step_lift.
    unfold st_slots. rewrite G1. reflexivity. }
  assert (Gx : forall x, x <> array -> get (put_cell h1 array (CSlots (ps ++ p :: rest))) x = get h1 x).
  { intros x X. rewrite get_put by exact Na0. destruct (Z.eqb_spec x array); [congruence|reflexivity]. }
  apply NoDup_cons_iff in ND. destruct ND as (Na & ND').
  split; [|split; [|split; [|split]]].
  - rewrite get_put by exact Na0. rewrite Z.eqb_refl. rewrite Er, <- app_assoc. reflexivity.
  - apply Forall2_app.
    + assert (K : forall v, In v ps -> get (put_cell h1 array (CSlots (ps ++ p :: rest))) v = get h v).
      { intros v Hv. rewrite Gx by (intros ->; exact (Na Hv)). apply S1. intros [<-|[]]. exact (Np2 Hv). }
      revert K. generalize (put_cell h1 array (CSlots (ps ++ p :: rest))) as h2. intros h2 K. clear - F2 K.
      induction F2 as [|v x vs bs Hv _ IH]; constructor.
      * rewrite K by (left; reflexivity). exact Hv.
      * apply IH. intros y Hy. apply K. right; exact Hy.
    + constructor; [|constructor]. rewrite Gx by congruence. exact Gp.
  - constructor; [rewrite in_app_iff; cbn [In]; intuition|]. apply nodup_app_iff. split; [exact ND'|]. split; [repeat constructor; intros []|].
    intros x X [<-|[]]. exact (Np2 X).
  - intros x. rewrite in_app_iff. intros [X|[<-|[]]]; [auto|]. rewrite <- (SO p); [exact Fp|]. intros [X|X]; [congruence|exact (Np2 X)].
  - intros x X. cbn [In] in X. rewrite in_app_iff in X. cbn [In] in X. rewrite Gx by (intros ->; tauto). rewrite S1 by (intros [Y|[]]; subst; tauto).
    apply SO. cbn [In]. tauto.
Qed.

Lemma array_loop_own delim max : 0 <= max < 2 ^ 32 -> max + 1 <= zlen old -> forall fuel s acc rest out n pos h ps,
  split_array_loop junk fuel s delim (acc ++ rest) (zlen acc) max = Ok (n, out) -> suffix_at b pos = s -> zlen acc <= max ->
  zlen (acc ++ rest) = zlen old -> new_string_array h0 h array old ps acc ->
  exists h' ps' bs, h_split_array_loop junk fuel a pos delim array (zlen acc) max h = Ok (n, h') /\
    out = bs ++ skipn (length bs) (acc ++ rest) /\ zlen bs = n + 1 /\ zlen acc <= n /\ new_string_array h0 h' array old ps' bs.
Proof.
  intros Hm Hsz. induction fuel as [|fuel IH]; intros s acc rest out n pos h ps H Hs Hi Hl O; cbn [split_array_loop] in H; [discriminate|].
  assert (Lp : zlen ps = zlen acc). { destruct O as (_ & F2 & _). apply f2_length in F2. unfold zlen. lia. }
  pose proof (zlen_nonneg acc) as Zp.
  destruct rest as [|o rest]; [rewrite app_nil_r in Hl; lia|].
  cbn [h_split_array_loop]. rewrite (step_ld_slots _ _ _ _ (array_old _ _ _ O)). rewrite Hs.
  assert (FIN : forall d out n, Ok (zlen acc, acc ++ d :: rest) = Ok (n, out) ->
    exists h' ps' bs, (do! array_set array (zlen acc) (Ok d) in ret (zlen acc)) h = Ok (n, h') /\
    out = bs ++ skipn (length bs) (acc ++ o :: rest) /\ zlen bs = n + 1 /\ zlen acc <= n /\ new_string_array h0 h' array old ps' bs).
  { intros d out' n' H'. injection H' as <- <-. destruct (array_set_ok h ps acc d O ltac:(lia)) as (h1 & p & E1 & O1). rewrite Lp in E1.
    exists h1, (ps ++ [p]), (acc ++ [d]). rewrite (bnd_Ok _ _ _ _ _ E1). split; [reflexivity|]. split; [|split; [apply zlen_snoc|split; [lia|exact O1]]].
    rewrite <- app_assoc. cbn [app]. f_equal. f_equal. rewrite app_length. cbn [length]. rewrite skipn_app, skipn_all2 by lia.
    replace (length acc + 1 - length acc)%nat with 1%nat by lia. reflexivity. }
  destruct (zlen acc <? max) eqn:Elt.
  - destruct (strchr s delim) as [[p|]| | |] eqn:E; cbn [bind] in H; try discriminate; rewrite step_lift.
    + destruct (dup_until junk s p) as [d| | |]; cbn [bind] in H; try discriminate. rewrite wr_app in H by reflexivity. cbn [bind] in H.
      destruct (array_set_ok h ps acc d O ltac:(lia)) as (h1 & q & E1 & O1). rewrite Lp in E1. rewrite (bnd_Ok _ _ _ _ _ E1).
      assert (Eu : u32 (zlen acc + 1) = zlen (acc ++ [d])). { rewrite zlen_snoc. unfold u32. apply Z.mod_small. lia. }
      rewrite Eu in H |- *.
      replace (acc ++ d :: rest) with ((acc ++ [d]) ++ rest) in H by (rewrite <- app_assoc; reflexivity).
      destruct (IH (tl p) (acc ++ [d]) rest out n (offset_of b p + 1) h1 (ps ++ [q]) H) as (h2 & ps2 & bs & E2 & E3 & E4 & E5 & O2).
      * apply suffix_offset1. eapply suffix_trans; [eapply strchr_suffix; exact E|]. rewrite <- Hs. apply suffix_at_suffix.
      * rewrite zlen_snoc. lia.
      * rewrite <- Hl, !zlen_app, !zlen_cons. change (zlen (@nil (list Z))) with 0. lia.
      * exact O1.
      * exists h2, ps2, bs. split; [exact E2|]. split; [|split; [exact E4|split; [rewrite zlen_snoc in E5; lia|exact O2]]]. rewrite E3. f_equal.
        assert (Lb : zlen acc < zlen bs).
        { rewrite zlen_snoc in E5. lia. }
        unfold zlen in Lb. rewrite <- app_assoc. cbn [app]. rewrite !skipn_app, !skipn_all2 by lia. cbn [app].
        destruct (length bs - length acc)%nat as [|k] eqn:Ek; [lia|]. reflexivity.
    + destruct (dup_all junk s) as [d| | |]; cbn [bind] in H; try discriminate. rewrite wr_app in H by reflexivity. cbn [bind] in H. apply (FIN d _ _ H).
  - destruct (dup_all junk s) as [d| | |]; cbn [bind] in H; try discriminate. rewrite wr_app in H by reflexivity. cbn [bind] in H. apply (FIN d _ _ H).
Qed.
End Array.

Lemma split_into_array_own junk h a pre s r delim array old max :
  text s -> 0 < delim < 256 -> 0 <= max < 2 ^ 32 -> zlen s + 1 < 2 ^ 64 ->
  get h a = Some (CSlots (pre ++ s ++ 0 :: r)) -> a <> array -> get h array = Some (CSlots old) -> max + 1 <= zlen old ->
  exists parts h' ps, charstr_split junk (s ++ 0 :: r) delim max = Ok (map as_block parts) /\
    h_charstr_split_into_array junk a (zlen pre) delim array max h = Ok (zlen parts - 1, h') /\
    new_string_array h h' array old ps (map as_block parts).
Proof.
  intros Hs Hd Hm Hl Ha Haa Harr Hsz.
  assert (Hz : zlen (repeat (@nil Z) (length old)) = zlen old) by (unfold zlen; rewrite repeat_length; reflexivity).
  destruct (split_into_array_ok junk s r delim (repeat [] (length old)) max Hs Hd Hm Hl ltac:(lia)) as (parts & P1 & P2 & _).
  assert (Sf : suffix_at (pre ++ s ++ 0 :: r) (zlen pre) = s ++ 0 :: r).
  { unfold suffix_at, zlen. rewrite Nat2Z.id. rewrite skipn_app, skipn_all2 by lia. rewrite Nat.sub_diag. reflexivity. }
  unfold charstr_split_into_array in P2.
  destruct (array_loop_own junk h a array (pre ++ s ++ 0 :: r) old Ha Haa Harr delim max Hm Hsz _ _ [] (repeat [] (length old)) _ _ (zlen pre) h []
    P2 Sf) as (h' & ps & bs & E & E2 & E3 & _ & O).
  - change (zlen (@nil (list Z))) with 0. lia.
  - exact Hz.
  - split; [exact Harr|]. split; [constructor|]. split; [repeat constructor; intros []|]. split; [intros ? []|]. intros x _; reflexivity.
  - exists parts, h', ps. split; [exact P1|]. split.
    + unfold h_charstr_split_into_array. rewrite (step_ld_slots _ _ _ _ Ha). rewrite Sf. exact E.
    + assert (L : length (map as_block parts) = length bs). { rewrite map_length. unfold zlen in E3. lia. }
      replace (map as_block parts) with bs; [exact O|].
      apply (f_equal (firstn (length bs))) in E2. rewrite <- L in E2 at 1. rewrite !firstn_app, !firstn_all in E2.
      rewrite L, Nat.sub_diag in E2. rewrite !firstn_O, !app_nil_r in E2. symmetry. exact E2.
Qed.

(** ** charstr_idna_encode *)
Lemma new_string_or_null_ok o h : exists p h', new_string_or_null (Ok o) h = Ok (p, h') /\ new_or_null h h' p o.
Proof.
  unfold new_string_or_null. rewrite step_lift. destruct o as [d|].
  - destruct (new_string_ok d h) as (p & h' & E & O). exists p, h'. split; [exact E|exact O].
  - exists 0, h. split; [reflexivity|]. split; [reflexivity|]. intros x; reflexivity.
Qed.

(** The change made between the allocation of a work area and its release. *)
Lemma scratch_ok h h1 h2 h3 w c d p o : w <> 0 -> get h w = None -> (forall x, get h1 x = if x =? w then Some c else get h x) ->
  (forall x, get h2 x = if x =? w then Some d else get h1 x) -> new_or_null h2 h3 p o ->
  exists h4, free w h3 = Ok (tt, h4) /\ new_or_null h h4 p o.
Proof.
  intros Nw Fw G1 G2 O.
  assert (Gw : get h2 w = Some d) by (rewrite G2, Z.eqb_refl; reflexivity).
  assert (Gx : forall x, x <> w -> get h2 x = get h x).
  { intros x X. rewrite G2, G1. destruct (Z.eqb_spec x w); [congruence|reflexivity]. }
  destruct o as [t|].
  - destruct O as (Np & Fp & Gp & S).
    assert (Npw : p <> w) by congruence.
    exists (drop_cell h3 w). split. { unfold free. rewrite S, Gw; [reflexivity|]. intros [X|[]]; congruence. }
    split; [exact Np|]. split; [rewrite <- Gx; auto|]. split.
    + rewrite get_drop. destruct (Z.eqb_spec p w); [congruence|exact Gp].
    + intros x X. rewrite get_drop. destruct (Z.eqb_spec x w) as [->|N]; [symmetry; exact Fw|]. rewrite S by exact X. apply Gx, N.
  - destruct O as (-> & S). exists (drop_cell h3 w). split. { unfold free. rewrite S, Gw. reflexivity. }
    split; [reflexivity|]. intros x. rewrite get_drop. destruct (Z.eqb_spec x w) as [->|N]; [symmetry; exact Fw|]. rewrite S. apply Gx, N.
Qed.

Section Idna.
Variables (lib : library) (junk : nat -> Z) (r : recomposer) (hr : hangul_recomposer) (errno : Z).

Lemma encode_nfc_own h a b s end_ o : get h a = Some (CSlots b) -> encode_nfc lib junk (suffix_at b s) end_ = Ok o ->
  exists p h', h_encode_nfc lib junk a s end_ h = Ok (p, h') /\ new_or_null h h' p o.
Proof.
  intros Ha H. unfold h_encode_nfc. rewrite (step_ld_slots _ _ _ _ Ha). rewrite H. apply new_string_or_null_ok.
Qed.

Lemma st_slots_ok a c c0 h : get h a = Some (CSlots c0) -> st_slots a c h = Ok (tt, put_cell h a (CSlots c)).
Proof. intros H. unfold st_slots. rewrite H. reflexivity. Qed.

Lemma encode_nfd_own h a b s end_ o : get h a = Some (CSlots b) -> encode_nfd lib junk r hr errno (suffix_at b s) end_ = Ok o ->
  exists p h', h_encode_nfd lib junk r hr errno a s end_ h = Ok (p, h') /\ new_or_null h h' p o.
Proof.
  intros Ha H. unfold h_encode_nfd. rewrite (step_ld_slots _ _ _ _ Ha). unfold encode_nfd in H.
  set (wl := zlen (suffix_at b s) - end_) in *.
  destruct (alloc_spec (CSlots (fresh_block junk (wl + 1))) h) as (w & h1 & E1 & Nw & Fw & G1). rewrite (bnd_Ok _ _ _ _ _ E1).
  assert (Gw : get h1 w = Some (CSlots (fresh_block junk (wl + 1)))) by (rewrite G1, Z.eqb_refl; reflexivity).
  assert (Ga : get h1 a = Some (CSlots b)) by (rewrite G1; destruct (Z.eqb_spec a w); [congruence|exact Ha]).
  rewrite (step_ld_slots _ _ _ _ Gw). rewrite (step_ld_slots _ _ _ _ Ga).
  destruct (charstr_unicode_recompose r hr (suffix_at b s) (Some end_) (fresh_block junk (wl + 1)) 0 (wl + 1) errno) as [[wa q]| | |];
    cbn [bind] in H; try discriminate.
  rewrite step_lift. cbn [fst snd]. rewrite (bnd_Ok _ _ _ _ _ (st_slots_ok _ _ _ _ Gw)).
  assert (G2 : forall x, get (put_cell h1 w (CSlots wa)) x = if x =? w then Some (CSlots wa) else get h1 x) by (intros x; apply get_put, Nw).
  destruct q as [we|er].
  - destruct (encode_nfc_own (put_cell h1 w (CSlots wa)) w wa 0 (zlen wa - we) o) as (p & h3 & E3 & O3).
    + rewrite G2, Z.eqb_refl. reflexivity.
    + exact H.
    + rewrite (bnd_Ok _ _ _ _ _ E3). destruct (scratch_ok _ _ _ _ _ _ _ _ _ Nw Fw G1 G2 O3) as (h4 & E4 & O4).
      rewrite (bnd_Ok _ _ _ _ _ E4). exists p, h4. split; [reflexivity|exact O4].
  - inv H. destruct (scratch_ok h h1 _ (put_cell h1 w (CSlots wa)) w _ _ 0 None Nw Fw G1 G2) as (h4 & E4 & O4).
    + split; [reflexivity|intros x; reflexivity].
    + rewrite (bnd_Ok _ _ _ _ _ E4). exists 0, h4. split; [reflexivity|exact O4].
Qed.

Lemma idna_encode_own h a b s o : get h a = Some (CSlots b) -> idna_encode lib junk r hr errno (suffix_at b s) = Ok o ->
  exists p h', h_idna_encode lib junk r hr errno a s h = Ok (p, h') /\ new_or_null h h' p o.
Proof.
  intros Ha H. unfold h_idna_encode. rewrite (step_ld_slots _ _ _ _ Ha). unfold idna_encode in H.
  destruct (is_all_ascii (suffix_at b s)) as [[|]| | |]; cbn [bind] in H; try discriminate; rewrite step_lift.
  { unfold dup_all. destruct (charstr_dupstr junk (Some (suffix_at b s))) as [[d|]| | |]; cbn [bind] in H |- *; try discriminate.
    destruct (charstr_lcase_str d 0) as [c| | |] eqn:El; cbn [bind] in H; try discriminate. inv H.
    destruct (new_string_ok d h) as (p & h1 & E1 & Np & Fp & Gp & S1). rewrite (bnd_Ok _ _ _ _ _ E1).
    rewrite (step_ld_slots _ _ _ _ Gp). rewrite El, step_lift. rewrite (bnd_Ok _ _ _ _ _ (st_slots_ok _ _ _ _ Gp)).
    exists p, (put_cell h1 p (CSlots c)). split; [reflexivity|]. split; [exact Np|]. split; [exact Fp|]. split.
    - rewrite get_put, Z.eqb_refl by exact Np. reflexivity.
    - intros x X. rewrite get_put by exact Np. destruct (Z.eqb_spec x p) as [->|]; [destruct X; left; reflexivity|]. apply S1, X. }
  destruct (strlen (suffix_at b s)) as [len| | |]; cbn [bind] in H; try discriminate. rewrite step_lift.
  set (e := zlen (suffix_at b s) - len) in *.
  destruct (charstr_unicode_canonically_composed (suffix_at b s) (Some e)) as [[|]| | |]; cbn [bind] in H; try discriminate; rewrite step_lift.
  { apply (encode_nfc_own h a b s e o Ha H). }
  destruct (charstr_unicode_canonically_decomposed (suffix_at b s) (Some e)) as [[|]| | |]; cbn [bind] in H; try discriminate; rewrite step_lift.
  { apply (encode_nfd_own h a b s e o Ha H). }
  set (wl := u64 (3 * len)) in *.
  destruct (alloc_spec (CSlots (fresh_block junk (u64 (wl + 1)))) h) as (w & h1 & E1 & Nw & Fw & G1). rewrite (bnd_Ok _ _ _ _ _ E1).
  assert (Gw : get h1 w = Some (CSlots (fresh_block junk (u64 (wl + 1))))) by (rewrite G1, Z.eqb_refl; reflexivity).
  assert (Ga : get h1 a = Some (CSlots b)) by (rewrite G1; destruct (Z.eqb_spec a w); [congruence|exact Ha]).
  rewrite (step_ld_slots _ _ _ _ Gw). rewrite (step_ld_slots _ _ _ _ Ga).
  destruct (charstr_unicode_decompose (suffix_at b s) (Some e) (fresh_block junk (u64 (wl + 1))) 0 wl) as [[wa q]| | |];
    cbn [bind] in H; try discriminate.
  rewrite step_lift. cbn [fst snd]. rewrite (bnd_Ok _ _ _ _ _ (st_slots_ok _ _ _ _ Gw)).
  assert (G2 : forall x, get (put_cell h1 w (CSlots wa)) x = if x =? w then Some (CSlots wa) else get h1 x) by (intros x; apply get_put, Nw).
  destruct q as [we|er].
  - destruct (encode_nfd_own (put_cell h1 w (CSlots wa)) w wa 0 (zlen wa - we) o) as (p & h3 & E3 & O3).
    + rewrite G2, Z.eqb_refl. reflexivity.
    + exact H.
    + rewrite (bnd_Ok _ _ _ _ _ E3). destruct (scratch_ok _ _ _ _ _ _ _ _ _ Nw Fw G1 G2 O3) as (h4 & E4 & O4).
      rewrite (bnd_Ok _ _ _ _ _ E4). exists p, h4. split; [reflexivity|exact O4].
  - inv H. destruct (scratch_ok h h1 _ (put_cell h1 w (CSlots wa)) w _ _ 0 None Nw Fw G1 G2) as (h4 & E4 & O4).
    + split; [reflexivity|intros x; reflexivity].
    + rewrite (bnd_Ok _ _ _ _ _ E4). exists 0, h4. split; [reflexivity|exact O4].
Qed.
End Idna.

Lemma suffix_pre (pre s : list Z) : suffix_at (pre ++ s) (zlen pre) = s.
Proof. unfold suffix_at, zlen. rewrite Nat2Z.id. rewrite skipn_app, skipn_all2 by lia. rewrite Nat.sub_diag. reflexivity. Qed.

Lemma free_block_ok h h' p d : one_new_block h h' p d -> exists h'', free p h' = Ok (tt, h'') /\ same_memory h h''.
Proof.
  intros (N & F & G & S). exists (drop_cell h' p). split; [unfold free; rewrite G; reflexivity|].
  intros x. rewrite get_drop. destruct (Z.eqb_spec x p) as [->|X]; [symmetry; exact F|]. apply S. intros [Y|[]]; congruence.
Qed.
