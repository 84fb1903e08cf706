(** Proofs about AVL trees with keys in memory. *)
From Verif Require Import Base Heap Sep AvlModel AvlSpec AvlProofs AvlHist AvlProps KeyModel KeySpec TreeKeyModel TreeKeySpec.
Open Scope list_scope.
Open Scope Z_scope.

Section Keys.
Context {X : Type} (read : list Z -> option X).
Context (ask : asker) (cmp obj : Z) (C : X -> X -> Z).
Context (P : comparing read ask cmp obj C).
Notation key_at := (key_at read).
Notation sorted_tree := (sorted_tree read ask cmp obj C).
Notation t_op := (t_op read ask C).
Notation entry := (entry (X := X)).

(** What the comparison says in the memory [h]. *)
Definition y_at (h : heap) (k : Z) : option X := match get h k with Some (CSlots b) => read b | _ => None end.
Definition fn_at (h : heap) : comparator := fun _ k l _ =>
  match y_at h k, y_at h l with Some x, Some y => C x y | None, None => 0 | None, Some _ => -1 | Some _, None => 1 end.
Lemma key_y_at h k x : key_at h k x -> y_at h k = Some x.
Proof. intros (b & G & R). unfold y_at. rewrite G. exact R. Qed.
Lemma y_at_readable h k x : y_at h k = Some x -> readable read x.
Proof. unfold y_at. destruct (get h k) as [c|]; [|discriminate]. destruct c; try discriminate. intros E. eexists; exact E. Qed.
Lemma cmp_keys h k x l y c o : key_at h k x -> key_at h l y -> fn_at h c k l o = C x y.
Proof. intros K L. unfold fn_at. rewrite (key_y_at _ _ _ K), (key_y_at _ _ _ L). reflexivity. Qed.

Lemma fn_preorder h : total_preorder (order (fn_at h) cmp obj).
Proof.
  constructor; unfold fn_at.
  - intros k l. destruct (y_at h k) as [x|] eqn:E, (y_at h l) as [y|] eqn:F; try lia.
    apply (C_flip _ _ _ _ _ P); eapply y_at_readable; eauto.
  - intros k l o. destruct (y_at h k) as [x|] eqn:E, (y_at h l) as [y|] eqn:F, (y_at h o) as [z|] eqn:G; try lia.
    apply (C_order _ _ _ _ _ P); eapply y_at_readable; eauto.
Qed.
Lemma C_same x : readable read x -> C x x = 0.
Proof. intros R. pose proof (C_flip _ _ _ _ _ P x x R R). lia. Qed.

(** * The calls are those of AvlModel.v *)

Section Calls.
Context (h : heap) (T : Z) (c : avl_c) (call : comparator) (k : Z) (x : X) (S : Z -> Prop).
Context (HT : get h T = Some (CAvl c)) (Hc : av_cmp c = cmp) (Ho : av_obj c = obj) (K : key_at h k x).
Context (Sr : av_root c = 0 \/ S (av_root c)).
Context (HS : forall e d, S e -> get h e = Some (CAelem d) ->
  (exists y, key_at h (ae_key d) y /\ call cmp k (ae_key d) obj = C x y) /\
  (ae_left d = 0 \/ S (ae_left d)) /\ (ae_right d = 0 \/ S (ae_right d))).

Lemma ld_T {B} (f : avl_c -> M B) : bnd (ld_avl T) f h = f c h.
Proof. unfold bnd, ld_avl. rewrite HT. reflexivity. Qed.
Lemma ld_e {B} (f : aelem_c -> M B) e d : get h e = Some (CAelem d) -> bnd (ld_aelem e) f h = f d h.
Proof. intros G. unfold bnd, ld_aelem. rewrite G. reflexivity. Qed.
Lemma ld_or e : (exists d, get h e = Some (CAelem d)) \/ (forall B (f : aelem_c -> M B), bnd (ld_aelem e) f h = UB).
Proof.
  unfold bnd, ld_aelem. destruct (get h e) as [d|]; [|right; reflexivity]. destruct d; try (right; reflexivity). left. eexists; reflexivity.
Qed.
Lemma bnd_app {A B} (m1 m2 : M A) (f : A -> M B) : m1 h = m2 h -> bnd m1 f h = bnd m2 f h.
Proof. intros E. unfold bnd. rewrite E. reflexivity. Qed.
Lemma bnd_assoc {A B D} (m1 : M A) (f : A -> M B) (g : B -> M D) : bnd (bnd m1 f) g h = bnd m1 (fun a => bnd (f a) g) h.
Proof. unfold bnd. destruct (m1 h) as [[a h']| | |]; reflexivity. Qed.

Lemma same_get_loop n : forall e count, e = 0 \/ S e ->
  bnd (get_loop call n T k obj e count) (fun r => ret (fst r)) h = t_get_loop ask n T k obj e h.
Proof.
  induction n as [|n IH]; intros e count Se; [reflexivity|]. cbn [get_loop t_get_loop]. unfold truth.
  destruct (e =? 0) eqn:E0; [reflexivity|]. cbn [negb]. destruct Se as [Se|Se]; [lia|].
  rewrite bnd_assoc, !ld_T, bnd_assoc. destruct (ld_or e) as [(d & G)|U]; [|rewrite !U; reflexivity].
  rewrite !(ld_e _ _ _ G). destruct (HS e d Se G) as ((y & Ky & Cy) & Sl & Sr'). rewrite Hc, Cy.
  rewrite (bnd_Ok _ _ _ _ _ (asks_order _ _ _ _ _ P _ _ _ _ _ K Ky)).
  destruct (C x y =? 0); [reflexivity|]. rewrite (ld_e _ _ _ G). destruct (C x y >? 0); apply IH; assumption.
Qed.
Lemma same_before_loop go n : forall e candidate count, e = 0 \/ S e ->
  bnd (before_loop call go n T k obj e candidate count) (fun r => ret (fst r)) h = t_before_loop ask go n T k obj e candidate h.
Proof.
  induction n as [|n IH]; intros e candidate count Se; [reflexivity|]. cbn [before_loop t_before_loop]. unfold truth.
  destruct (e =? 0) eqn:E0; [reflexivity|]. cbn [negb]. destruct Se as [Se|Se]; [lia|].
  rewrite bnd_assoc, !ld_T, bnd_assoc. destruct (ld_or e) as [(d & G)|U]; [|rewrite !U; reflexivity].
  rewrite !(ld_e _ _ _ G). destruct (HS e d Se G) as ((y & Ky & Cy) & Sl & Sr'). rewrite Hc, Cy.
  rewrite (bnd_Ok _ _ _ _ _ (asks_order _ _ _ _ _ P _ _ _ _ _ K Ky)), (ld_e _ _ _ G). destruct (go (C x y)); apply IH; assumption.
Qed.
Lemma same_after_loop go n : forall e candidate count, e = 0 \/ S e ->
  bnd (after_loop call go n T k obj e candidate count) (fun r => ret (fst r)) h = t_after_loop ask go n T k obj e candidate h.
Proof.
  induction n as [|n IH]; intros e candidate count Se; [reflexivity|]. cbn [after_loop t_after_loop]. unfold truth.
  destruct (e =? 0) eqn:E0; [reflexivity|]. cbn [negb]. destruct Se as [Se|Se]; [lia|].
  rewrite bnd_assoc, !ld_T, bnd_assoc. destruct (ld_or e) as [(d & G)|U]; [|rewrite !U; reflexivity].
  rewrite !(ld_e _ _ _ G). destruct (HS e d Se G) as ((y & Ky & Cy) & Sl & Sr'). rewrite Hc, Cy.
  rewrite (bnd_Ok _ _ _ _ _ (asks_order _ _ _ _ _ P _ _ _ _ _ K Ky)), (ld_e _ _ _ G). destruct (go (C x y)); apply IH; assumption.
Qed.

Lemma fuel_h {B} (f : nat -> M B) : bnd fuel f h = f (Datatypes.S (length (mem h))) h.
Proof. reflexivity. Qed.
Lemma same_get : avl_tree_get call T k h = t_avl_tree_get ask T k h.
Proof.
  unfold avl_tree_get, avl_tree_get_counted, t_avl_tree_get. rewrite bnd_assoc, !ld_T, bnd_assoc, !fuel_h, Ho. apply same_get_loop. exact Sr.
Qed.
Lemma same_neighbours :
  avl_tree_get_before call T k h = t_avl_tree_get_before ask T k h /\
  avl_tree_get_on_or_before call T k h = t_avl_tree_get_on_or_before ask T k h /\
  avl_tree_get_after call T k h = t_avl_tree_get_after ask T k h /\
  avl_tree_get_on_or_after call T k h = t_avl_tree_get_on_or_after ask T k h.
Proof.
  unfold avl_tree_get_before, avl_tree_get_before_counted, t_avl_tree_get_before, avl_tree_get_on_or_before, avl_tree_get_on_or_before_counted,
    t_avl_tree_get_on_or_before, avl_tree_get_after, avl_tree_get_after_counted, t_avl_tree_get_after, avl_tree_get_on_or_after,
    avl_tree_get_on_or_after_counted, t_avl_tree_get_on_or_after.
  repeat split; rewrite bnd_assoc, !ld_T, bnd_assoc, !fuel_h, Ho; (apply same_before_loop || apply same_after_loop); exact Sr.
Qed.

(** put: all comparisons come before the first change. *)
Definition place (pl : ploc) : Prop := match pl with PRoot t => t = T | PLeft e => S e | PRight e => S e end.
Lemma ld_place pl : place pl -> (exists loc, ld_ploc pl h = Ok (loc, h) /\ (loc = 0 \/ S loc)) \/ ld_ploc pl h = UB.
Proof.
  destruct pl as [t|e|e]; cbn [place ld_ploc].
  - intros ->. left. exists (av_root c). rewrite ld_T. split; [reflexivity|exact Sr].
  - intros Se. destruct (ld_or e) as [(d & G)|U]; [|right; apply U]. left. exists (ae_left d). rewrite (ld_e _ _ _ G).
    split; [reflexivity|]. exact (proj1 (proj2 (HS e d Se G))).
  - intros Se. destruct (ld_or e) as [(d & G)|U]; [|right; apply U]. left. exists (ae_right d). rewrite (ld_e _ _ _ G).
    split; [reflexivity|]. exact (proj2 (proj2 (HS e d Se G))).
Qed.
Lemma same_left rec1 rec2 pl loc element : ld_ploc pl h = Ok (loc, h) -> rec1 (PLeft loc) h = rec2 (PLeft loc) h ->
  put_left rec1 T pl element h = put_left rec2 T pl element h.
Proof.
  intros L E. unfold put_left. rewrite !(bnd_Ok _ _ _ _ _ L). destruct (ld_or loc) as [(d & G)|U]; [|rewrite !U; reflexivity].
  rewrite !(ld_e _ _ _ G). destruct (ae_left d =? 0); [reflexivity|]. apply bnd_app. exact E.
Qed.
Lemma same_right rec1 rec2 pl loc element : ld_ploc pl h = Ok (loc, h) -> rec1 (PRight loc) h = rec2 (PRight loc) h ->
  put_right rec1 T pl element h = put_right rec2 T pl element h.
Proof.
  intros L E. unfold put_right. rewrite !(bnd_Ok _ _ _ _ _ L). destruct (ld_or loc) as [(d & G)|U]; [|rewrite !U; reflexivity].
  rewrite !(ld_e _ _ _ G). destruct (ae_right d =? 0); [reflexivity|]. apply bnd_app. exact E.
Qed.
Lemma same_put element d0 n : get h element = Some (CAelem d0) -> ae_key d0 = k ->
  forall pl, place pl -> put call n T pl element h = t_put ask n T pl element h.
Proof.
  intros G0 K0. induction n as [|n IH]; intros pl Pl; [reflexivity|]. cbn [put t_put].
  destruct (ld_place pl Pl) as [(loc & L & Sl)|U]; [|unfold bnd; rewrite U; reflexivity].
  rewrite !(bnd_Ok _ _ _ _ _ L), !ld_T, !(ld_e _ _ _ G0). destruct (ld_or loc) as [(d & G)|U]; [|rewrite !U; reflexivity].
  destruct Sl as [->|Sl]; [apply get_nonnull in G; contradiction|].
  rewrite !(ld_e _ _ _ G), K0, Hc, Ho. destruct (HS loc d Sl G) as ((y & Ky & Cy) & Sl' & Sr'). rewrite Cy.
  rewrite (bnd_Ok _ _ _ _ _ (asks_order _ _ _ _ _ P _ _ _ _ _ K Ky)).
  destruct (C x y <? 0).
  { apply bnd_app. apply (same_left _ _ _ loc); [exact L|]. apply IH. exact Sl. }
  destruct (C x y >? 0).
  { apply bnd_app. apply (same_right _ _ _ loc); [exact L|]. apply IH. exact Sl. }
  rewrite (ld_e _ _ _ G). reflexivity.
Qed.
End Calls.

(** * The elements of a tree in memory *)

Lemma closed_cells t : forall p e d, In (e, CAelem d) (cells p t) ->
  (exists a, In a (elems t) /\ a_key a = ae_key d) /\
  (ae_left d = 0 \/ In (ae_left d) (handles (elems t))) /\ (ae_right d = 0 \/ In (ae_right d) (handles (elems t))).
Proof.
  assert (R : forall t, root t = 0 \/ In (root t) (handles (elems t))).
  { intros [|l a k v b r]; [left; reflexivity|right]. cbn [root elems]. unfold handles. rewrite map_app, in_app_iff. right; left; reflexivity. }
  induction t as [|l IHl a k v b r IHr]; intros p e d; cbn [cells elems]; [intros []|].
  assert (WL : forall y, In y (handles (elems l)) -> In y (handles (elems l ++ (a, k, v) :: elems r))).
  { intros y Hy. unfold handles. rewrite map_app, in_app_iff. left; exact Hy. }
  assert (WR : forall y, In y (handles (elems r)) -> In y (handles (elems l ++ (a, k, v) :: elems r))).
  { intros y Hy. unfold handles. rewrite map_app, in_app_iff. right; right; exact Hy. }
  intros [E|Hin].
  - injection E as <- <-. cbn [ae_key ae_left ae_right]. split; [|split].
    + exists (a, k, v). split; [apply in_app_iff; right; left; reflexivity|reflexivity].
    + destruct (R l) as [Z|I]; auto.
    + destruct (R r) as [Z|I]; auto.
  - apply in_app_iff in Hin. destruct Hin as [Hin|Hin].
    + destruct (IHl _ _ _ Hin) as ((w & Hw & Kw) & L1 & L2). split; [|split].
      * exists w. split; [apply in_app_iff; auto|exact Kw].
      * destruct L1; auto.
      * destruct L2; auto.
    + destruct (IHr _ _ _ Hin) as ((w & Hw & Kw) & L1 & L2). split; [|split].
      * exists w. split; [apply in_app_iff; right; right; exact Hw|exact Kw].
      * destruct L1; auto.
      * destruct L2; auto.
Qed.

Lemma tree_closed call h T m : is_avl call cmp obj h T m ->
  exists c, get h T = Some (CAvl c) /\ av_cmp c = cmp /\ av_obj c = obj /\ (av_root c = 0 \/ In (av_root c) (handles m)) /\
  forall e d, In e (handles m) -> get h e = Some (CAelem d) ->
    (exists a, In a m /\ a_key a = ae_key d) /\ (ae_left d = 0 \/ In (ae_left d) (handles m)) /\ (ae_right d = 0 \/ In (ae_right d) (handles m)).
Proof.
  intros (_ & _ & _ & t & E & _ & [ND G]). exists (mk_avl cmp obj (root t) (zlen m)). cbn [av_cmp av_obj av_root].
  split; [apply G; left; reflexivity|]. split; [reflexivity|]. split; [reflexivity|]. split.
  - destruct t as [|l a k v b r]; [left; reflexivity|right]. cbn [root]. rewrite <- E. cbn [elems]. unfold handles. rewrite map_app, in_app_iff. right; left; reflexivity.
  - intros e d He Gd. assert (I : In e (keys (cells 0 t))).
    { pose proof (in_full cmp obj T (zlen m) t e) as IF. unfold footprint in IF. rewrite E in IF.
      destruct (proj2 IF (or_intror He)) as [X0|X0].
      - exfalso. cbn [fst] in X0. subst e. rewrite (G T (CAvl (mk_avl cmp obj (root t) (zlen m)))) in Gd by (left; reflexivity). discriminate.
      - exact X0. }
    apply in_keys in I. destruct I as (d' & I). assert (Gd' : get h e = Some d') by (apply G; right; exact I).
    rewrite Gd in Gd'. injection Gd' as <-. rewrite <- E. exact (closed_cells t 0 e d I).
Qed.

(** * The invariant *)

Definition strip (a : entry) : assoc := (elem a, address a, value a).
Record inv (h : heap) (t : Z) (m : list entry) : Prop := {
  iv_history : avl_history (fn_at h) cmp obj h t (map strip m);
  iv_keys : forall a, In a m -> key_at h (address a) (content a)
}.
Lemma foot_strip t m : footprint t (map strip m) = foot t m.
Proof. unfold footprint, foot, handles. rewrite map_map. reflexivity. Qed.
Lemma iv_avl h t m : inv h t m -> is_avl (fn_at h) cmp obj h t (map strip m).
Proof. intros V. apply history_avl. exact (iv_history _ _ _ V). Qed.

(** Keys are not in the tree. *)
Lemma key_outside h t m k x : inv h t m -> key_at h k x -> ~ In k (foot t m) /\ get h k <> None.
Proof.
  intros V (b & G & _). split; [|congruence]. intros I. pose proof (iv_avl _ _ _ V) as A. destruct I as [<-|I].
  - destruct (tree_closed _ _ _ _ A) as (c & Gc & _). congruence.
  - apply in_map_iff in I. destruct I as (a & <- & Ha).
    destruct (avl_holds _ _ _ _ _ _ (strip a) A (in_map strip _ _ Ha)) as [[K _] _].
    change (a_elem (strip a)) with (elem a) in K. unfold avl_elem_get_key, bnd, ld_aelem in K. rewrite G in K. discriminate.
Qed.

Lemma same_calls h t m k x : inv h t m -> key_at h k x ->
  avl_tree_get (fn_at h) t k h = t_avl_tree_get ask t k h /\
  (avl_tree_get_before (fn_at h) t k h = t_avl_tree_get_before ask t k h /\
   avl_tree_get_on_or_before (fn_at h) t k h = t_avl_tree_get_on_or_before ask t k h /\
   avl_tree_get_after (fn_at h) t k h = t_avl_tree_get_after ask t k h /\
   avl_tree_get_on_or_after (fn_at h) t k h = t_avl_tree_get_on_or_after ask t k h) /\
  avl_tree_pop (fn_at h) t k h = t_avl_tree_pop ask t k h /\
  (forall v, avl_tree_put (fn_at h) t k v h = t_avl_tree_put ask t k v h).
Proof.
  intros V K. pose proof (iv_avl _ _ _ V) as A. destruct (tree_closed _ _ _ _ A) as (c & Gc & Ec & Eo & Rc & Cl).
  assert (KS : forall a, In a (map strip m) -> exists y, key_at h (a_key a) y).
  { intros a Ha. apply in_map_iff in Ha. destruct Ha as (a0 & <- & Ha). exists (content a0). exact (iv_keys _ _ _ V _ Ha). }
  assert (HS : forall e d, In e (handles (map strip m)) -> get h e = Some (CAelem d) ->
    (exists y, key_at h (ae_key d) y /\ fn_at h cmp k (ae_key d) obj = C x y) /\
    (ae_left d = 0 \/ In (ae_left d) (handles (map strip m))) /\ (ae_right d = 0 \/ In (ae_right d) (handles (map strip m)))).
  { intros e d He Gd. destruct (Cl e d He Gd) as ((a & Ha & Ka) & L & R). split; [|split; assumption].
    destruct (KS a Ha) as (y & Ky). rewrite Ka in Ky. exists y. split; [exact Ky|]. apply cmp_keys; assumption. }
  assert (SG : avl_tree_get (fn_at h) t k h = t_avl_tree_get ask t k h) by (eapply (same_get h t c (fn_at h) k x (fun y => In y (handles (map strip m)))); eauto).
  split; [exact SG|]. split; [eapply (same_neighbours h t c (fn_at h) k x (fun y => In y (handles (map strip m)))); eauto|]. split.
  - unfold avl_tree_pop, t_avl_tree_pop. unfold bnd at 1. unfold bnd at 3. rewrite SG. reflexivity.
  - intros v. unfold avl_tree_put, avl_tree_put_counted, avl_tree_put_within, t_avl_tree_put.
    rewrite bnd_assoc. rewrite !fuel_h. rewrite bnd_assoc. unfold make_element.
    destruct (alloc_spec (CAelem (mk_aelem k v 0 0 0 0)) h) as (e & h1 & E1 & N1 & F1 & G1). rewrite !(bnd_Ok _ _ _ _ _ E1).
    assert (KE : forall y, get h y <> None -> get h1 y = get h y).
    { intros y Hy. rewrite G1. destruct (y =? e) eqn:Q; [|reflexivity]. apply Z.eqb_eq in Q. subst y. contradiction. }
    assert (GT : get h1 t = Some (CAvl c)) by (rewrite KE; congruence).
    assert (KK : forall l y, key_at h l y -> key_at h1 l y).
    { intros l y (b & Gb & Rb). exists b. split; [rewrite KE; congruence|exact Rb]. }
    rewrite bnd_assoc, !(ld_T _ _ _ GT). destruct (av_root c =? 0) eqn:R0; [unfold bnd; destruct (st_root t e h1) as [[? h2]| | |]; try reflexivity; destruct (st_tsize t 1 h2) as [[? ?]| | |]; reflexivity|].
    rewrite bnd_assoc. assert (SP : put (fn_at h) (Datatypes.S (length (mem h))) t (PRoot t) e h1 = t_put ask (Datatypes.S (length (mem h))) t (PRoot t) e h1).
    { eapply (same_put h1 t c (fn_at h) k x (fun y => In y (handles (map strip m)))); try eassumption.
      - exact (KK _ _ K).
      - intros e' d He Gd. rewrite KE in Gd.
        + destruct (HS e' d He Gd) as ((y & Ky & Cy) & LR). split; [|exact LR]. exists y. split; [exact (KK _ _ Ky)|exact Cy].
        + eapply avl_alloc; [exact A|]. right. exact He.
      - rewrite G1, Z.eqb_refl. reflexivity.
      - reflexivity.
      - reflexivity. }
    unfold bnd. rewrite SP. destruct (t_put ask _ t (PRoot t) e h1) as [[r h2]| | |]; reflexivity.
Qed.

(** Another memory in which the keys are the same. *)
Lemma change h h' t m : avl_history (fn_at h) cmp obj h' t (map strip m) ->
  (forall a, In a m -> key_at h (address a) (content a)) -> (forall a, In a m -> key_at h' (address a) (content a)) -> inv h' t m.
Proof.
  intros Hh A B. constructor; [|exact B]. eapply AH_reorder; [exact Hh|apply fn_preorder|].
  pose proof (proj1 (C28_sorted _ _ _ _ _ _ Hh)) as S. clear Hh. unfold increasing in *.
  induction m as [|a m IH]; [constructor|]. cbn [map] in *. apply StronglySorted_inv in S. destruct S as [S F].
  constructor.
  - apply IH; [intros b Hb; apply A; right; exact Hb|intros b Hb; apply B; right; exact Hb|exact S].
  - apply Forall_forall. intros b Hb. rewrite Forall_forall in F. specialize (F b Hb). apply in_map_iff in Hb. destruct Hb as (b0 & <- & Hb).
    change (a_key (strip a)) with (address a) in *. change (a_key (strip b0)) with (address b0) in *.
    rewrite (cmp_keys h' _ (content a) _ (content b0)); [rewrite (cmp_keys h _ (content a) _ (content b0)) in F; [exact F| |]| |].
    + apply A. left; reflexivity.
    + apply A. right; exact Hb.
    + apply B. left; reflexivity.
    + apply B. right; exact Hb.
Qed.

Lemma advance h t m h' r m' : inv h t m -> avl_op (fn_at h) (order (fn_at h) cmp obj) t h (map strip m) h' r (map strip m') ->
  (forall a, In a m' -> key_at h (address a) (content a)) -> inv h' t m' /\ kept_by t m m' h h'.
Proof.
  intros V O A. pose proof (iv_history _ _ _ V) as Hh. pose proof (AH_op _ _ _ _ _ _ _ _ _ Hh O) as Hh'.
  destruct (C35_operation _ _ _ _ _ _ _ _ _ Hh O) as (F & F2 & _). rewrite !foot_strip in F, F2. split; [|split; [exact F|exact F2]].
  apply (change h); [exact Hh'|exact A|]. intros a Ha. destruct (key_outside _ _ _ _ _ V (A a Ha)) as [N G].
  destruct (A a Ha) as (b & Gb & Rb). exists b. split; [rewrite (proj1 (F _ N G)); exact Gb|exact Rb].
Qed.

Lemma absent_strip h t m k x : inv h t m -> key_at h k x -> missing C x m -> absent (order (fn_at h) cmp obj) k (map strip m).
Proof.
  intros V K A b Hb. apply in_map_iff in Hb. destruct Hb as (a & <- & Ha). change (a_key (strip a)) with (address a).
  rewrite (cmp_keys h k x (address a) (content a)); [exact (A a Ha)|exact K|exact (iv_keys _ _ _ V _ Ha)].
Qed.
Lemma below_strip h t m m1 k x : inv h t m -> (forall a, In a m1 -> In a m) -> key_at h k x -> below C x m1 ->
  all_below (order (fn_at h) cmp obj) k (map strip m1).
Proof.
  intros V I K A b Hb. apply in_map_iff in Hb. destruct Hb as (a & <- & Ha). change (a_key (strip a)) with (address a).
  rewrite (cmp_keys h (address a) (content a) k x); [exact (A a Ha)|exact (iv_keys _ _ _ V _ (I _ Ha))|exact K].
Qed.
Lemma above_strip h t m m1 k x : inv h t m -> (forall a, In a m1 -> In a m) -> key_at h k x -> above C x m1 ->
  all_above (order (fn_at h) cmp obj) k (map strip m1).
Proof.
  intros V I K A b Hb. apply in_map_iff in Hb. destruct Hb as (a & <- & Ha). change (a_key (strip a)) with (address a).
  rewrite (cmp_keys h k x (address a) (content a)); [exact (A a Ha)|exact K|exact (iv_keys _ _ _ V _ (I _ Ha))].
Qed.

(** * Each function *)

Lemma get_inv h t m k x : inv h t m -> key_at h k x ->
  (forall e k' x' v, In (e, k', x', v) m -> C x x' = 0 -> t_avl_tree_get ask t k h = Ok (e, h)) /\
  (missing C x m -> t_avl_tree_get ask t k h = Ok (0, h)).
Proof.
  intros V K. rewrite <- (proj1 (same_calls h t m k x V K)). destruct (C28_get _ _ _ _ _ _ k (iv_history _ _ _ V)) as [G1 G2]. split.
  - intros e k' x' v Hin Cx. apply (G1 e k' v); [exact (in_map strip _ _ Hin)|].
    rewrite (cmp_keys h k x k' x'); [exact Cx|exact K|exact (iv_keys _ _ _ V _ Hin)].
  - intros A. apply G2. eapply absent_strip; eauto.
Qed.

Lemma key_readable h k x : key_at h k x -> readable read x.
Proof. intros (b & _ & R). exists b. exact R. Qed.
Lemma self_fn h k : fn_at h cmp k k obj = 0.
Proof. pose proof (cmp_flip _ (fn_preorder h) k k). lia. Qed.

Lemma put_new_inv h t m m1 m2 k x v : inv h t m -> key_at h k x -> m = m1 ++ m2 -> below C x m1 -> above C x m2 -> few m ->
  exists e h', t_avl_tree_put ask t k v h = Ok (0, h') /\ t_avl_tree_get ask t k h' = Ok (e, h') /\
    inv h' t (m1 ++ (e, k, x, v) :: m2) /\ kept_by t m (m1 ++ (e, k, x, v) :: m2) h h'.
Proof.
  intros V K E B1 B2 Fm. pose proof (proj2 (proj2 (proj2 (same_calls h t m k x V K))) v) as SP. rewrite <- SP.
  assert (I1 : forall a, In a m1 -> In a m) by (intros a Ha; rewrite E; apply in_app_iff; auto).
  assert (I2 : forall a, In a m2 -> In a m) by (intros a Ha; rewrite E; apply in_app_iff; auto).
  pose proof (iv_history _ _ _ V) as Hh. rewrite E, map_app in Hh.
  assert (Sp : sparse (map strip m1 ++ map strip m2)) by (rewrite <- map_app, <- E; unfold sparse, zlen; rewrite map_length; exact Fm).
  destruct (C28_put_new (fn_at h) cmp obj h t (map strip m1) (map strip m2) k v Hh Sp) as (e & h' & E1 & Hh').
  { eapply below_strip; eauto. }
  { eapply above_strip; eauto. }
  assert (GE : avl_tree_get (fn_at h) t k h' = Ok (e, h')).
  { eapply (proj1 (C28_get _ _ _ _ _ _ k Hh')); [apply in_app_iff; right; left; reflexivity|apply self_fn]. }
  exists e, h'. split; [exact E1|].
  destruct (advance h t m h' 0 (m1 ++ (e, k, x, v) :: m2) V) as [V' F].
  { rewrite map_app. cbn [map]. change (strip (e, k, x, v)) with (e, k, v). eapply AO_put_new; [rewrite E, map_app; reflexivity| | | |exact E1|exact GE].
    - eapply below_strip; eauto.
    - eapply above_strip; eauto.
    - unfold sparse, zlen. rewrite map_length. exact Fm. }
  { intros a Ha. apply in_app_iff in Ha. destruct Ha as [Ha|[<-|Ha]]; [exact (iv_keys _ _ _ V _ (I1 _ Ha))|exact K|exact (iv_keys _ _ _ V _ (I2 _ Ha))]. }
  assert (In0 : In (e, k, x, v) (m1 ++ (e, k, x, v) :: m2)) by (apply in_app_iff; right; left; reflexivity).
  split; [|split; [exact V'|exact F]].
  eapply (proj1 (get_inv h' t _ k x V' (iv_keys _ _ _ V' _ In0))); [exact In0|]. apply C_same. exact (key_readable _ _ _ K).
Qed.

Lemma put_replace_inv h t m m1 m2 e0 k0 x0 v0 k x v : inv h t m -> key_at h k x -> m = m1 ++ (e0, k0, x0, v0) :: m2 -> C x x0 = 0 ->
  exists e h', t_avl_tree_put ask t k v h = Ok (e0, h') /\ t_avl_tree_get ask t k h' = Ok (e, h') /\
    inv h' t (m1 ++ (e, k, x, v) :: m2) /\ kept_by t m (m1 ++ (e, k, x, v) :: m2) h h' /\ e <> e0 /\
    avl_elem_get_key e0 h' = Ok (k0, h') /\ avl_elem_get_value e0 h' = Ok (v0, h') /\ ~ In e0 (foot t (m1 ++ (e, k, x, v) :: m2)).
Proof.
  intros V K E Cx. pose proof (proj2 (proj2 (proj2 (same_calls h t m k x V K))) v) as SP. rewrite <- SP.
  assert (I1 : forall a, In a m1 -> In a m) by (intros a Ha; rewrite E; apply in_app_iff; auto).
  assert (I2 : forall a, In a m2 -> In a m) by (intros a Ha; rewrite E; apply in_app_iff; right; right; auto).
  assert (I0 : In (e0, k0, x0, v0) m) by (rewrite E; apply in_app_iff; right; left; reflexivity).
  assert (Cf : order (fn_at h) cmp obj k k0 = 0).
  { cbv beta. rewrite (cmp_keys h k x k0 x0); [exact Cx|exact K|exact (iv_keys _ _ _ V _ I0)]. }
  pose proof (iv_history _ _ _ V) as Hh. rewrite E, map_app in Hh. cbn [map] in Hh. change (strip (e0, k0, x0, v0)) with (e0, k0, v0) in Hh.
  destruct (C28_put_replace (fn_at h) cmp obj h t (map strip m1) e0 k0 v0 (map strip m2) k v Hh Cf) as (e & h' & E1 & Hh' & R1 & R2 & R3 & R4).
  assert (GE : avl_tree_get (fn_at h) t k h' = Ok (e, h')).
  { eapply (proj1 (C28_get _ _ _ _ _ _ k Hh')); [apply in_app_iff; right; left; reflexivity|apply self_fn]. }
  exists e, h'. split; [exact E1|].
  destruct (advance h t m h' e0 (m1 ++ (e, k, x, v) :: m2) V) as [V' F].
  { rewrite map_app. cbn [map]. change (strip (e, k, x, v)) with (e, k, v).
    eapply AO_put_replace; [rewrite E, map_app; cbn [map]; reflexivity|exact Cf|exact E1|exact GE]. }
  { intros a Ha. apply in_app_iff in Ha. destruct Ha as [Ha|[<-|Ha]]; [exact (iv_keys _ _ _ V _ (I1 _ Ha))|exact K|exact (iv_keys _ _ _ V _ (I2 _ Ha))]. }
  assert (In0 : In (e, k, x, v) (m1 ++ (e, k, x, v) :: m2)) by (apply in_app_iff; right; left; reflexivity).
  split; [|split; [exact V'|split; [exact F|split; [exact R1|split; [exact R2|split; [exact R3|]]]]]].
  - eapply (proj1 (get_inv h' t _ k x V' (iv_keys _ _ _ V' _ In0))); [exact In0|]. apply C_same. exact (key_readable _ _ _ K).
  - rewrite <- foot_strip, map_app. exact R4.
Qed.

Lemma drop_keys h t (m m1 m2 : list entry) a : inv h t m -> m = m1 ++ a :: m2 -> forall b, In b (m1 ++ m2) -> key_at h (address b) (content b).
Proof.
  intros V E b Hb. apply (iv_keys _ _ _ V). rewrite E. apply in_app_iff in Hb. apply in_app_iff. destruct Hb; [left|right; right]; assumption.
Qed.
Lemma pop_inv h t m m1 m2 e k0 x0 v k x : inv h t m -> key_at h k x -> m = m1 ++ (e, k0, x0, v) :: m2 -> C x x0 = 0 ->
  exists h', t_avl_tree_pop ask t k h = Ok (e, h') /\ inv h' t (m1 ++ m2) /\ kept_by t m (m1 ++ m2) h h' /\
    avl_elem_get_key e h' = Ok (k0, h') /\ avl_elem_get_value e h' = Ok (v, h') /\ ~ In e (foot t (m1 ++ m2)).
Proof.
  intros V K E Cx. pose proof (proj1 (proj2 (proj2 (same_calls h t m k x V K)))) as SP. rewrite <- SP.
  assert (I0 : In (e, k0, x0, v) m) by (rewrite E; apply in_app_iff; right; left; reflexivity).
  assert (Cf : order (fn_at h) cmp obj k k0 = 0).
  { cbv beta. rewrite (cmp_keys h k x k0 x0); [exact Cx|exact K|exact (iv_keys _ _ _ V _ I0)]. }
  pose proof (iv_history _ _ _ V) as Hh. rewrite E, map_app in Hh. cbn [map] in Hh. change (strip (e, k0, x0, v)) with (e, k0, v) in Hh.
  destruct (C28_pop (fn_at h) cmp obj h t (map strip m1) e k0 v (map strip m2) k Hh Cf) as (h' & E1 & Hh' & R2 & R3 & R4).
  exists h'. split; [exact E1|]. destruct (advance h t m h' e (m1 ++ m2) V) as [V' F].
  { rewrite map_app. eapply (AO_pop _ _ _ _ _ _ k _ e k0 v); [rewrite E, map_app; reflexivity|exact Cf|exact E1]. }
  { eapply drop_keys; eauto. }
  split; [exact V'|split; [exact F|split; [exact R2|split; [exact R3|]]]]. rewrite <- foot_strip, map_app. exact R4.
Qed.
Lemma pop_none_inv h t m k x : inv h t m -> key_at h k x -> missing C x m -> t_avl_tree_pop ask t k h = Ok (0, h).
Proof.
  intros V K A. rewrite <- (proj1 (proj2 (proj2 (same_calls h t m k x V K)))). eapply C28_pop_none; [exact (iv_history _ _ _ V)|]. eapply absent_strip; eauto.
Qed.
Lemma detach_inv h t m m1 m2 e k x v : inv h t m -> m = m1 ++ (e, k, x, v) :: m2 ->
  exists h', avl_tree_detach t e h = Ok (tt, h') /\ inv h' t (m1 ++ m2) /\ kept_by t m (m1 ++ m2) h h' /\
    avl_elem_get_key e h' = Ok (k, h') /\ avl_elem_get_value e h' = Ok (v, h') /\ ~ In e (foot t (m1 ++ m2)).
Proof.
  intros V E. pose proof (iv_history _ _ _ V) as Hh. rewrite E, map_app in Hh. cbn [map] in Hh. change (strip (e, k, x, v)) with (e, k, v) in Hh.
  destruct (C28_detach (fn_at h) cmp obj h t (map strip m1) e k v (map strip m2) Hh) as (h' & E1 & Hh' & R2 & R3 & R4).
  exists h'. split; [exact E1|]. destruct (advance h t m h' 0 (m1 ++ m2) V) as [V' F].
  { rewrite map_app. eapply (AO_detach _ _ _ _ _ _ e k v); [rewrite E, map_app; reflexivity|exact E1]. }
  { eapply drop_keys; eauto. }
  split; [exact V'|split; [exact F|split; [exact R2|split; [exact R3|]]]]. rewrite <- foot_strip, map_app. exact R4.
Qed.
Lemma remove_inv h t m m1 m2 e k x v : inv h t m -> m = m1 ++ (e, k, x, v) :: m2 ->
  exists h', avl_tree_remove t e h = Ok (tt, h') /\ inv h' t (m1 ++ m2) /\ kept_by t m (m1 ++ m2) h h' /\ get h' e = None.
Proof.
  intros V E. pose proof (iv_history _ _ _ V) as Hh. rewrite E, map_app in Hh. cbn [map] in Hh. change (strip (e, k, x, v)) with (e, k, v) in Hh.
  destruct (C28_remove (fn_at h) cmp obj h t (map strip m1) e k v (map strip m2) Hh) as (h' & E1 & Hh' & R).
  exists h'. split; [exact E1|]. destruct (advance h t m h' 0 (m1 ++ m2) V) as [V' F].
  { rewrite map_app. eapply (AO_remove _ _ _ _ _ _ e k v); [rewrite E, map_app; reflexivity|exact E1]. }
  { eapply drop_keys; eauto. }
  split; [exact V'|split; [exact F|exact R]].
Qed.
Lemma same_kept t (m : list entry) h : kept_by t m m h h.
Proof. split; [|reflexivity]. intros y N _. split; [reflexivity|exact N]. Qed.
Lemma tl_map (m : list entry) : map strip (tl m) = tl (map strip m).
Proof. destruct m; reflexivity. Qed.
Lemma removelast_map (m : list entry) : map strip (removelast m) = removelast (map strip m).
Proof. induction m as [|a m IH]; [reflexivity|]. destruct m as [|b m]; [reflexivity|]. cbn [map removelast] in *. rewrite IH. reflexivity. Qed.
Lemma removelast_in (m : list entry) a : In a (removelast m) -> In a m.
Proof. induction m as [|b m IH]; [auto|]. destruct m as [|b' m]; [intros []|]. intros [<-|I]; [left; reflexivity|right; apply IH; exact I]. Qed.

Lemma pop_first_inv h t m : inv h t m ->
  (m = [] -> avl_tree_pop_first t h = Ok (0, h)) /\
  (forall e k x v m', m = (e, k, x, v) :: m' -> exists h', avl_tree_pop_first t h = Ok (e, h') /\ inv h' t m' /\ kept_by t m m' h h' /\
    avl_elem_get_key e h' = Ok (k, h') /\ avl_elem_get_value e h' = Ok (v, h') /\ ~ In e (foot t m')).
Proof.
  intros V. destruct (C28_pop_first _ _ _ _ _ _ (iv_history _ _ _ V)) as [A B]. split.
  - intros ->. apply A. reflexivity.
  - intros e k x v m' E. destruct (B e k v (map strip m')) as (h' & E1 & Hh' & R2 & R3 & R4); [rewrite E; reflexivity|].
    exists h'. split; [exact E1|]. destruct (advance h t m h' e m' V) as [V' F].
    { replace (map strip m') with (tl (map strip m)) by (rewrite E; reflexivity). apply AO_pop_first. exact E1. }
    { intros a Ha. apply (iv_keys _ _ _ V). rewrite E. right; exact Ha. }
    split; [exact V'|split; [exact F|split; [exact R2|split; [exact R3|]]]]. rewrite <- foot_strip. exact R4.
Qed.
Lemma pop_last_inv h t m : inv h t m ->
  (m = [] -> avl_tree_pop_last t h = Ok (0, h)) /\
  (forall e k x v m', m = m' ++ [(e, k, x, v)] -> exists h', avl_tree_pop_last t h = Ok (e, h') /\ inv h' t m' /\ kept_by t m m' h h' /\
    avl_elem_get_key e h' = Ok (k, h') /\ avl_elem_get_value e h' = Ok (v, h') /\ ~ In e (foot t m')).
Proof.
  intros V. destruct (C28_pop_last _ _ _ _ _ _ (iv_history _ _ _ V)) as [A B]. split.
  - intros ->. apply A. reflexivity.
  - intros e k x v m' E. destruct (B e k v (map strip m')) as (h' & E1 & Hh' & R2 & R3 & R4); [rewrite E, map_app; reflexivity|].
    exists h'. split; [exact E1|]. destruct (advance h t m h' e m' V) as [V' F].
    { replace (map strip m') with (removelast (map strip m)) by (rewrite E, map_app; apply removelast_last). apply AO_pop_last. exact E1. }
    { intros a Ha. apply (iv_keys _ _ _ V). rewrite E. apply in_app_iff. left; exact Ha. }
    split; [exact V'|split; [exact F|split; [exact R2|split; [exact R3|]]]]. rewrite <- foot_strip. exact R4.
Qed.

Lemma op_inv h t m h' r m' : inv h t m -> t_op t h m h' r m' -> inv h' t m' /\ kept_by t m m' h h'.
Proof.
  intros V O. destruct O as [k x v r e m1 m2 K E B1 B2 Fm R G|k x v r e e0 k0 x0 v0 m1 m2 K E Cx R G|k x r e k0 x0 v m1 m2 K E Cx R|k x r K A R
    |e k x v m1 m2 E R|e k x v m1 m2 E R|r R|r R].
  - destruct (put_new_inv h t m m1 m2 k x v V K E B1 B2 Fm) as (e1 & h1 & R1 & G1 & V1 & F). rewrite R in R1. injection R1 as -> ->.
    rewrite G in G1. injection G1 as ->. auto.
  - destruct (put_replace_inv h t m m1 m2 e0 k0 x0 v0 k x v V K E Cx) as (e1 & h1 & R1 & G1 & V1 & F & _). rewrite R in R1. injection R1 as -> ->.
    rewrite G in G1. injection G1 as ->. auto.
  - destruct (pop_inv h t m m1 m2 e k0 x0 v k x V K E Cx) as (h1 & R1 & V1 & F & _). rewrite R in R1. injection R1 as -> ->. auto.
  - rewrite (pop_none_inv h t m k x V K A) in R. injection R as <- <-. split; [exact V|apply same_kept].
  - destruct (detach_inv h t m m1 m2 e k x v V E) as (h1 & R1 & V1 & F & _). rewrite R in R1. injection R1 as ->. auto.
  - destruct (remove_inv h t m m1 m2 e k x v V E) as (h1 & R1 & V1 & F & _). rewrite R in R1. injection R1 as ->. auto.
  - destruct (pop_first_inv h t m V) as [A B]. destruct m as [|[[[e k] x] v] m'].
    + rewrite (A eq_refl) in R. injection R as <- <-. split; [exact V|apply same_kept].
    + destruct (B e k x v m' eq_refl) as (h1 & R1 & V1 & F & _). rewrite R in R1. injection R1 as -> ->. auto.
  - destruct (pop_last_inv h t m V) as [A B]. destruct m as [|a0 m0] eqn:E0.
    + rewrite (A eq_refl) in R. injection R as <- <-. split; [exact V|apply same_kept].
    + rewrite <- E0 in *. destruct (exists_last (l := m)) as (m' & [[[e k] x] v] & E); [rewrite E0; discriminate|].
      destruct (B e k x v m' E) as (h1 & R1 & V1 & F & _). rewrite R in R1. injection R1 as -> ->. rewrite E, removelast_last, <- E. auto.
Qed.

Lemma make_inv h : exists t h', make_avl_tree_2 cmp obj h = Ok (t, h') /\ inv h' t [] /\
  get h t = None /\ (forall y, y <> t -> get h' y = get h y).
Proof.
  destruct (alloc_spec (CAvl (mk_avl cmp obj 0 0)) h) as (t & h' & E & N & F & G). exists t, h'. split; [exact E|]. split.
  - constructor; [|intros a []]. eapply AH_make; [apply fn_preorder|exact E].
  - split; [exact F|]. intros y Ny. rewrite G, (proj2 (Z.eqb_neq _ _) Ny). reflexivity.
Qed.

Lemma copy_inv h t m : inv h t m ->
  exists t' h' m', avl_tree_copy t h = Ok (t', h') /\ map (fun a => (address a, content a, value a)) m' = map (fun a => (address a, content a, value a)) m /\
    inv h' t' m' /\ inv h' t m /\ (forall y, In y (foot t' m') -> get h y = None) /\ (forall y, ~ In y (foot t' m') -> get h' y = get h y).
Proof.
  intros V. destruct (C34_copy _ _ _ _ _ _ (iv_history _ _ _ V)) as (t' & h' & m0 & E & Ep & H' & H & Ap & F1 & F2 & _).
  assert (M : exists m', map strip m' = m0 /\ map (fun a : entry => (address a, content a, value a)) m' = map (fun a => (address a, content a, value a)) m).
  { clear - Ep. revert m Ep. induction m0 as [|[[e k] v] m0 IH]; intros m Ep; (destruct m as [|[[[e1 k1] x1] v1] m]; [try discriminate|try discriminate]).
    - exists []. split; reflexivity.
    - cbn [map] in Ep. change (a_pair (e, k, v)) with (k, v) in Ep. change (a_pair (strip (e1, k1, x1, v1))) with (k1, v1) in Ep.
      injection Ep as -> -> Ep. destruct (IH m Ep) as (m' & S1 & S2). exists ((e, k1, x1, v1) :: m'). cbn [map]. rewrite S1, S2. split; reflexivity. }
  destruct M as (m' & <- & EQ). exists t', h', m'. rewrite foot_strip in F1, F2.
  assert (KK : forall l y, key_at h l y -> key_at h' l y).
  { intros l y (b & Gb & Rb). exists b. split; [|exact Rb]. rewrite F2; [exact Gb|]. intros I. specialize (F1 _ I). congruence. }
  assert (KM : forall a, In a m' -> key_at h (address a) (content a)).
  { intros a Ha. pose proof (in_map (fun a : entry => (address a, content a, value a)) _ _ Ha) as I. rewrite EQ in I.
    apply in_map_iff in I. destruct I as (b & Eb & Hb). injection Eb as E1 E2 E3. rewrite <- E1, <- E2. exact (iv_keys _ _ _ V _ Hb). }
  split; [exact E|]. split; [exact EQ|]. split; [|split; [|split; [exact F1|exact F2]]].
  - apply (change h); [exact H'|exact KM|]. intros a Ha. apply KK, KM, Ha.
  - apply (change h); [exact H|exact (iv_keys _ _ _ V)|]. intros a Ha. apply KK, (iv_keys _ _ _ V), Ha.
Qed.

Lemma triples_elems (m m' : list entry) :
  map (fun a => (address a, content a, value a)) m' = map (fun a => (address a, content a, value a)) m -> map elem m' = map elem m -> m' = m.
Proof.
  revert m; induction m' as [|[[[e k] x] v] m' IH]; intros [|[[[e1 k1] x1] v1] m]; try discriminate; [reflexivity|].
  cbn [map]. intros E F. unfold address, content, value, elem in E, F. cbn [fst snd] in E, F. injection E as -> -> -> E. injection F as -> F.
  f_equal. apply IH; [exact E|exact F].
Qed.

Lemma other_inv h h' t m : inv h t m -> (forall y, In y (foot t m) -> get h' y = get h y) ->
  (forall a, In a m -> key_at h' (address a) (content a)) -> inv h' t m.
Proof.
  intros V F A. apply (change h); [|exact (iv_keys _ _ _ V)|exact A]. eapply AH_other; [exact (iv_history _ _ _ V)|].
  intros y Hy. apply F. rewrite <- foot_strip. exact Hy.
Qed.

Lemma look_inv h t m n : inv h t m -> (length m <= n)%nat ->
  avl_tree_size t h = Ok (zlen m, h) /\ avl_tree_empty t h = Ok (match m with [] => true | _ => false end, h) /\
  (forall a, In a m -> elem a <> 0 /\ avl_elem_get_key (elem a) h = Ok (address a, h) /\ avl_elem_get_value (elem a) h = Ok (value a, h)) /\
  traverse_forward t n h = Ok (map elem m, h) /\ traverse_backward t n h = Ok (rev (map elem m), h).
Proof.
  intros V Hn. pose proof (iv_history _ _ _ V) as Hh. destruct (C28_size _ _ _ _ _ _ Hh) as [S1 S2].
  destruct (C30_traversal _ _ _ _ _ _ n Hh) as [T1 T2]; [rewrite map_length; exact Hn|].
  unfold handles in T1, T2. rewrite map_map in T1, T2.
  split; [rewrite S1; unfold zlen; rewrite map_length; reflexivity|]. split; [rewrite S2; destruct m; reflexivity|].
  split; [|split; [exact T1|exact T2]]. intros a Ha. exact (C28_element _ _ _ _ _ _ _ _ _ Hh (in_map strip _ _ Ha)).
Qed.

Lemma sorted_inv h t m : sorted_tree h t m -> inv h t m.
Proof.
  induction 1 as [h t h' E|h t m r h' m' K V O|h t m t' h' m' n K V E EQ Tr|h t m h' K V F A].
  - destruct (make_inv h) as (t1 & h1 & E1 & V & _). rewrite E in E1. injection E1 as <- <-. exact V.
  - exact (proj1 (op_inv _ _ _ _ _ _ V O)).
  - destruct (copy_inv h t m V) as (t1 & h1 & m1 & E1 & EQ1 & V1 & _). rewrite E in E1. injection E1 as <- <-.
    replace m' with m1; [exact V1|]. apply triples_elems; [congruence|].
    rewrite (forward_avl _ _ _ _ _ _ n (iv_avl _ _ _ V1)) in Tr. destruct (length (map strip m1) <=? n)%nat; [|discriminate].
    injection Tr as Tr. unfold handles in Tr. rewrite map_map in Tr. exact Tr.
  - eapply other_inv; eauto.
Qed.

(** * Results *)

Lemma make_sorted h : exists t h', make_avl_tree_2 cmp obj h = Ok (t, h') /\ sorted_tree h' t [] /\
  get h t = None /\ (forall y, y <> t -> get h' y = get h y).
Proof. destruct (make_inv h) as (t & h' & E & _ & F). exists t, h'. split; [exact E|]. split; [eapply T_make; exact E|exact F]. Qed.
Lemma get_sorted h t m k x : sorted_tree h t m -> key_at h k x ->
  (forall e k' x' v, In (e, k', x', v) m -> C x x' = 0 -> t_avl_tree_get ask t k h = Ok (e, h)) /\
  (missing C x m -> t_avl_tree_get ask t k h = Ok (0, h)).
Proof. intros V. apply get_inv. apply sorted_inv. exact V. Qed.

Lemma greatest_strip h t m (Q : X -> Prop) (Q' : Z -> Prop) e : inv h t m ->
  (forall a, In a m -> (Q' (address a) <-> Q (content a))) ->
  greatest (order (fn_at h) cmp obj) Q' (map strip m) e -> greatest_key C Q m e.
Proof.
  intros V I [[E N]|(a & Ha & E & Qa & M)].
  - left. split; [exact E|]. intros a Ha Qa. apply (N (strip a) (in_map strip _ _ Ha)). apply I; assumption.
  - right. apply in_map_iff in Ha. destruct Ha as (a0 & <- & Ha). exists a0. split; [exact Ha|]. split; [exact E|]. split; [apply I; assumption|].
    intros b Hb Qb. specialize (M (strip b) (in_map strip _ _ Hb)). change (a_key (strip b)) with (address b) in M. change (a_key (strip a0)) with (address a0) in M.
    rewrite (cmp_keys h _ (content b) _ (content a0)) in M; [apply M; apply I; assumption|exact (iv_keys _ _ _ V _ Hb)|exact (iv_keys _ _ _ V _ Ha)].
Qed.
Lemma least_strip h t m (Q : X -> Prop) (Q' : Z -> Prop) e : inv h t m ->
  (forall a, In a m -> (Q' (address a) <-> Q (content a))) ->
  least (order (fn_at h) cmp obj) Q' (map strip m) e -> least_key C Q m e.
Proof.
  intros V I [[E N]|(a & Ha & E & Qa & M)].
  - left. split; [exact E|]. intros a Ha Qa. apply (N (strip a) (in_map strip _ _ Ha)). apply I; assumption.
  - right. apply in_map_iff in Ha. destruct Ha as (a0 & <- & Ha). exists a0. split; [exact Ha|]. split; [exact E|]. split; [apply I; assumption|].
    intros b Hb Qb. specialize (M (strip b) (in_map strip _ _ Hb)). change (a_key (strip b)) with (address b) in M. change (a_key (strip a0)) with (address a0) in M.
    rewrite (cmp_keys h _ (content a0) _ (content b)) in M; [apply M; apply I; assumption|exact (iv_keys _ _ _ V _ Ha)|exact (iv_keys _ _ _ V _ Hb)].
Qed.
Lemma neighbours_sorted h t m k x : sorted_tree h t m -> key_at h k x ->
  (exists e, t_avl_tree_get_before ask t k h = Ok (e, h) /\ greatest_key C (fun y => C y x < 0) m e) /\
  (exists e, t_avl_tree_get_on_or_before ask t k h = Ok (e, h) /\ greatest_key C (fun y => C y x <= 0) m e) /\
  (exists e, t_avl_tree_get_after ask t k h = Ok (e, h) /\ least_key C (fun y => C x y < 0) m e) /\
  (exists e, t_avl_tree_get_on_or_after ask t k h = Ok (e, h) /\ least_key C (fun y => C x y <= 0) m e).
Proof.
  intros T K. pose proof (sorted_inv _ _ _ T) as V. destruct (same_calls h t m k x V K) as (_ & (E1 & E2 & E3 & E4) & _).
  pose proof (iv_history _ _ _ V) as Hh. rewrite <- E1, <- E2, <- E3, <- E4.
  destruct (C29_get_before _ _ _ _ _ _ k Hh) as (e1 & R1 & G1). destruct (C29_get_on_or_before _ _ _ _ _ _ k Hh) as (e2 & R2 & G2).
  destruct (C29_get_after _ _ _ _ _ _ k Hh) as (e3 & R3 & G3). destruct (C29_get_on_or_after _ _ _ _ _ _ k Hh) as (e4 & R4 & G4).
  assert (KA : forall a, In a m -> key_at h (address a) (content a)) by (exact (iv_keys _ _ _ V)).
  split; [|split; [|split]]; eexists; (split; [eassumption|]); (eapply greatest_strip || eapply least_strip); try eassumption;
    intros a Ha; cbv beta; specialize (KA a Ha).
  - rewrite (cmp_keys h _ _ _ _ cmp obj KA K). reflexivity.
  - rewrite (cmp_keys h _ _ _ _ cmp obj KA K). reflexivity.
  - rewrite (cmp_keys h _ _ _ _ cmp obj K KA). reflexivity.
  - rewrite (cmp_keys h _ _ _ _ cmp obj K KA). reflexivity.
Qed.

Lemma put_new_sorted h t m m1 m2 k x v : sorted_tree h t m -> key_at h k x -> m = m1 ++ m2 -> below C x m1 -> above C x m2 -> few m ->
  exists e h', t_avl_tree_put ask t k v h = Ok (0, h') /\
    sorted_tree h' t (m1 ++ (e, k, x, v) :: m2) /\ kept_by t m (m1 ++ (e, k, x, v) :: m2) h h'.
Proof.
  intros T K E B1 B2 F. destruct (put_new_inv h t m m1 m2 k x v (sorted_inv _ _ _ T) K E B1 B2 F) as (e & h' & E1 & E2 & _ & KB).
  exists e, h'. split; [exact E1|]. split; [|exact KB]. eapply T_op; [exact T|]. eapply TO_put_new; eauto.
Qed.
Lemma put_replace_sorted h t m m1 m2 e0 k0 x0 v0 k x v : sorted_tree h t m -> key_at h k x -> m = m1 ++ (e0, k0, x0, v0) :: m2 -> C x x0 = 0 ->
  exists e h', t_avl_tree_put ask t k v h = Ok (e0, h') /\
    sorted_tree h' t (m1 ++ (e, k, x, v) :: m2) /\ kept_by t m (m1 ++ (e, k, x, v) :: m2) h h' /\ e <> e0 /\
    avl_elem_get_key e0 h' = Ok (k0, h') /\ avl_elem_get_value e0 h' = Ok (v0, h') /\ ~ In e0 (foot t (m1 ++ (e, k, x, v) :: m2)).
Proof.
  intros T K E Cx. destruct (put_replace_inv h t m m1 m2 e0 k0 x0 v0 k x v (sorted_inv _ _ _ T) K E Cx) as (e & h' & E1 & E2 & _ & KB).
  exists e, h'. split; [exact E1|]. split; [|exact KB]. eapply T_op; [exact T|]. eapply TO_put_replace; eauto.
Qed.
(** One of the two always applies. *)
Lemma place_of h t m x : sorted_tree h t m -> readable read x ->
  (exists m1 m2, m = m1 ++ m2 /\ below C x m1 /\ above C x m2) \/
  (exists m1 a m2, m = m1 ++ a :: m2 /\ C x (content a) = 0).
Proof.
  intros T Rx. pose proof (sorted_inv _ _ _ T) as V.
  assert (RA : forall a, In a m -> readable read (content a)) by (intros a Ha; exact (key_readable _ _ _ (iv_keys _ _ _ V a Ha))).
  pose proof (proj1 (C28_sorted _ _ _ _ _ _ (iv_history _ _ _ V))) as S.
  assert (S' : StronglySorted (fun a b => C (content a) (content b) < 0) m).
  { pose proof (iv_keys _ _ _ V) as KA. clear - S KA. unfold increasing in S. induction m as [|a m IH]; [constructor|].
    cbn [map] in S. apply StronglySorted_inv in S. destruct S as [S F]. constructor; [apply IH; [exact S|intros b Hb; apply KA; right; exact Hb]|].
    apply Forall_forall. intros b Hb. rewrite Forall_forall in F. specialize (F (strip b) (in_map strip _ _ Hb)).
    change (a_key (strip a)) with (address a) in F. change (a_key (strip b)) with (address b) in F.
    rewrite (cmp_keys h _ (content a) _ (content b)) in F; [exact F|apply KA; left; reflexivity|apply KA; right; exact Hb]. }
  clear S V T. revert RA S'. induction m as [|a m IH]; intros RA S'.
  - left. exists [], []. split; [reflexivity|split; intros a []].
  - apply StronglySorted_inv in S'. destruct S' as [S' F]. rewrite Forall_forall in F. assert (Ra : readable read (content a)) by (apply RA; left; reflexivity).
    pose proof (C_flip _ _ _ _ _ P (content a) x Ra Rx) as Fl. pose proof (C_flip _ _ _ _ _ P x (content a) Rx Ra) as Fl'.
    destruct (Z.lt_trichotomy (C x (content a)) 0) as [L|[E|G]].
    + left. exists [], (a :: m). split; [reflexivity|]. split; [intros b []|]. intros b [<-|Hb]; [exact L|].
      assert (Rb : readable read (content b)) by (apply RA; right; exact Hb). specialize (F b Hb).
      pose proof (C_order _ _ _ _ _ P x (content a) (content b) Rx Ra Rb) as Tr.
      pose proof (C_order _ _ _ _ _ P (content b) x (content a) Rb Rx Ra) as Tr'.
      pose proof (C_flip _ _ _ _ _ P (content a) (content b) Ra Rb) as Fb. pose proof (C_flip _ _ _ _ _ P x (content b) Rx Rb) as Fx. pose proof (C_flip _ _ _ _ _ P (content b) x Rb Rx) as Fx'. lia.
    + right. exists [], a, m. split; [reflexivity|exact E].
    + destruct IH as [(m1 & m2 & E & B & A)|(m1 & b & m2 & E & Z0)]; [intros b Hb; apply RA; right; exact Hb|exact S'| |].
      * left. exists (a :: m1), m2. split; [cbn [app]; rewrite E; reflexivity|]. split; [|exact A]. intros b [<-|Hb]; [lia|apply B; exact Hb].
      * right. exists (a :: m1), b, m2. split; [cbn [app]; rewrite E; reflexivity|exact Z0].
Qed.
Lemma pop_sorted h t m m1 m2 e k0 x0 v k x : sorted_tree h t m -> key_at h k x -> m = m1 ++ (e, k0, x0, v) :: m2 -> C x x0 = 0 ->
  exists h', t_avl_tree_pop ask t k h = Ok (e, h') /\ sorted_tree h' t (m1 ++ m2) /\ kept_by t m (m1 ++ m2) h h' /\
    avl_elem_get_key e h' = Ok (k0, h') /\ avl_elem_get_value e h' = Ok (v, h') /\ ~ In e (foot t (m1 ++ m2)).
Proof.
  intros T K E Cx. destruct (pop_inv h t m m1 m2 e k0 x0 v k x (sorted_inv _ _ _ T) K E Cx) as (h' & E1 & _ & R).
  exists h'. split; [exact E1|]. split; [|exact R]. eapply T_op; [exact T|]. eapply TO_pop; eauto.
Qed.
Lemma pop_none_sorted h t m k x : sorted_tree h t m -> key_at h k x -> missing C x m -> t_avl_tree_pop ask t k h = Ok (0, h).
Proof. intros T. apply pop_none_inv. apply sorted_inv. exact T. Qed.
Lemma detach_sorted h t m m1 m2 e k x v : sorted_tree h t m -> m = m1 ++ (e, k, x, v) :: m2 ->
  exists h', avl_tree_detach t e h = Ok (tt, h') /\ sorted_tree h' t (m1 ++ m2) /\ kept_by t m (m1 ++ m2) h h' /\
    avl_elem_get_key e h' = Ok (k, h') /\ avl_elem_get_value e h' = Ok (v, h') /\ ~ In e (foot t (m1 ++ m2)).
Proof.
  intros T E. destruct (detach_inv h t m m1 m2 e k x v (sorted_inv _ _ _ T) E) as (h' & E1 & _ & R).
  exists h'. split; [exact E1|]. split; [|exact R]. eapply T_op; [exact T|]. eapply TO_detach; eauto.
Qed.
Lemma remove_sorted h t m m1 m2 e k x v : sorted_tree h t m -> m = m1 ++ (e, k, x, v) :: m2 ->
  exists h', avl_tree_remove t e h = Ok (tt, h') /\ sorted_tree h' t (m1 ++ m2) /\ kept_by t m (m1 ++ m2) h h' /\ get h' e = None.
Proof.
  intros T E. destruct (remove_inv h t m m1 m2 e k x v (sorted_inv _ _ _ T) E) as (h' & E1 & _ & R).
  exists h'. split; [exact E1|]. split; [|exact R]. eapply T_op; [exact T|]. eapply TO_remove; eauto.
Qed.
Lemma pop_first_sorted h t m : sorted_tree h t m ->
  (m = [] -> avl_tree_pop_first t h = Ok (0, h)) /\
  (forall e k x v m', m = (e, k, x, v) :: m' -> exists h', avl_tree_pop_first t h = Ok (e, h') /\ sorted_tree h' t m' /\ kept_by t m m' h h' /\
    avl_elem_get_key e h' = Ok (k, h') /\ avl_elem_get_value e h' = Ok (v, h') /\ ~ In e (foot t m')).
Proof.
  intros T. destruct (pop_first_inv h t m (sorted_inv _ _ _ T)) as [A B]. split; [exact A|]. intros e k x v m' E.
  destruct (B e k x v m' E) as (h' & E1 & _ & R). exists h'. split; [exact E1|]. split; [|exact R].
  eapply T_op; [exact T|]. replace m' with (tl m) by (rewrite E; reflexivity). eapply TO_pop_first; eauto.
Qed.
Lemma pop_last_sorted h t m : sorted_tree h t m ->
  (m = [] -> avl_tree_pop_last t h = Ok (0, h)) /\
  (forall e k x v m', m = m' ++ [(e, k, x, v)] -> exists h', avl_tree_pop_last t h = Ok (e, h') /\ sorted_tree h' t m' /\ kept_by t m m' h h' /\
    avl_elem_get_key e h' = Ok (k, h') /\ avl_elem_get_value e h' = Ok (v, h') /\ ~ In e (foot t m')).
Proof.
  intros T. destruct (pop_last_inv h t m (sorted_inv _ _ _ T)) as [A B]. split; [exact A|]. intros e k x v m' E.
  destruct (B e k x v m' E) as (h' & E1 & _ & R). exists h'. split; [exact E1|]. split; [|exact R].
  eapply T_op; [exact T|]. replace m' with (removelast m) by (rewrite E; apply removelast_last). eapply TO_pop_last; eauto.
Qed.
Lemma copy_sorted h t m : sorted_tree h t m ->
  exists t' h' m', avl_tree_copy t h = Ok (t', h') /\ map (fun a => (address a, content a, value a)) m' = map (fun a => (address a, content a, value a)) m /\
    sorted_tree h' t' m' /\ sorted_tree h' t m /\ (forall y, In y (foot t' m') -> get h y = None) /\ (forall y, ~ In y (foot t' m') -> get h' y = get h y).
Proof.
  intros T. pose proof (sorted_inv _ _ _ T) as V. destruct (copy_inv h t m V) as (t' & h' & m' & E & EQ & V' & V2 & F1 & F2).
  exists t', h', m'. split; [exact E|]. split; [exact EQ|]. split; [|split; [|split; [exact F1|exact F2]]].
  - eapply (T_copy _ _ _ _ _ _ _ _ _ _ _ (length m')); [exact T|exact E|exact EQ|]. exact (proj1 (proj2 (proj2 (proj2 (look_inv h' t' m' _ V' (le_n _)))))).
  - eapply T_other; [exact T| |exact (iv_keys _ _ _ V2)]. intros y Hy. apply F2. intros I. specialize (F1 y I).
    assert (get h y <> None); [|contradiction]. eapply avl_alloc; [exact (iv_avl _ _ _ V)|]. rewrite foot_strip. exact Hy.
Qed.
Lemma destroy_sorted h t m : sorted_tree h t m ->
  exists h', destroy_avl_tree t h = Ok (tt, h') /\ (forall y, In y (foot t m) -> get h' y = None) /\
    (forall y, ~ In y (foot t m) -> get h' y = get h y).
Proof. intros T. pose proof (C35_destroy _ _ _ _ _ _ (iv_history _ _ _ (sorted_inv _ _ _ T))) as R. rewrite foot_strip in R. exact R. Qed.
Lemma look_sorted h t m n : sorted_tree h t m -> (length m <= n)%nat ->
  avl_tree_size t h = Ok (zlen m, h) /\ avl_tree_empty t h = Ok (match m with [] => true | _ => false end, h) /\
  (forall a, In a m -> elem a <> 0 /\ avl_elem_get_key (elem a) h = Ok (address a, h) /\ avl_elem_get_value (elem a) h = Ok (value a, h)) /\
  traverse_forward t n h = Ok (map elem m, h) /\ traverse_backward t n h = Ok (rev (map elem m), h).
Proof. intros T. apply look_inv. apply sorted_inv. exact T. Qed.
(** The keys lie outside of the tree, and are strictly increasing. *)
Lemma keys_sorted h t m : sorted_tree h t m ->
  (forall a, In a m -> key_at h (address a) (content a) /\ ~ In (address a) (foot t m)) /\
  (forall m1 a m2 b m3, m = m1 ++ a :: m2 ++ b :: m3 -> C (content a) (content b) < 0).
Proof.
  intros T. pose proof (sorted_inv _ _ _ T) as V. split.
  - intros a Ha. pose proof (iv_keys _ _ _ V _ Ha) as K. split; [exact K|]. exact (proj1 (key_outside _ _ _ _ _ V K)).
  - intros m1 a m2 b m3 E. pose proof (proj1 (C28_sorted _ _ _ _ _ _ (iv_history _ _ _ V))) as S. unfold increasing in S.
    assert (Ia : In a m) by (rewrite E; apply in_app_iff; right; left; reflexivity).
    assert (Ib : In b m) by (rewrite E; apply in_app_iff; right; right; apply in_app_iff; right; left; reflexivity).
    rewrite <- (cmp_keys h _ _ _ _ cmp obj (iv_keys _ _ _ V _ Ia) (iv_keys _ _ _ V _ Ib)).
    rewrite E in S. clear - S. induction m1 as [|d m1 IH].
    + cbn [app map] in S. apply StronglySorted_inv in S. destruct S as [_ F]. rewrite Forall_forall in F.
      apply (F (strip b)). apply in_map, in_app_iff. right; left; reflexivity.
    + cbn [app map] in S. apply StronglySorted_inv in S. exact (IH (proj1 S)).
Qed.
End Keys.
