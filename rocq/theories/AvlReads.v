(** AVL trees: order, lookups, iteration, copying. *)
From Verif Require Import Base Heap Sep AvlModel AvlSpec AvlProofs AvlDetach.
From Coq Require Import Permutation.

(** ** The order of the keys *)
Section order.
  Variables (f : Z -> Z -> Z) (P : total_preorder f).
  Lemma f_gt a b : f a b < 0 <-> f b a > 0.
  Proof. apply P. Qed.
  Lemma f_eq a b : f a b = 0 -> f b a = 0.
  Proof. pose proof (f_gt a b). pose proof (f_gt b a). lia. Qed.
  Lemma f_refl a : f a a = 0.
  Proof. pose proof (f_gt a a). lia. Qed.
  Lemma f_lt_trans a b c : f a b < 0 -> f b c < 0 -> f a c < 0.
  Proof.
    intros H1 H2. pose proof (cmp_trans _ P a b c ltac:(lia) ltac:(lia)) as L.
    destruct (Z.eq_dec (f a c) 0) as [E0|]; [|lia]. apply f_eq in E0.
    pose proof (cmp_trans _ P c a b ltac:(lia) ltac:(lia)). apply f_gt in H2. lia.
  Qed.
  Lemma f_eq_lt a b c : f a b = 0 -> f b c < 0 -> f a c < 0.
  Proof.
    intros H1 H2. pose proof (cmp_trans _ P a b c ltac:(lia) ltac:(lia)) as L.
    destruct (Z.eq_dec (f a c) 0) as [E0|]; [|lia]. apply f_eq in E0.
    pose proof (cmp_trans _ P c a b ltac:(lia) ltac:(lia)). apply f_gt in H2. lia.
  Qed.
  Lemma f_lt_eq a b c : f a b < 0 -> f b c = 0 -> f a c < 0.
  Proof.
    intros H1 H2. apply f_eq in H2. pose proof (cmp_trans _ P a b c ltac:(lia) ltac:(apply f_eq in H2; lia)) as L.
    destruct (Z.eq_dec (f a c) 0) as [E0|]; [|lia]. apply f_eq in E0.
    pose proof (cmp_trans _ P b c a ltac:(apply f_eq in H2; lia) ltac:(lia)). apply f_gt in H1. lia.
  Qed.
  Lemma f_eq_eq a b c : f a b = 0 -> f b c = 0 -> f a c = 0.
  Proof.
    intros H1 H2. pose proof (cmp_trans _ P a b c ltac:(lia) ltac:(lia)).
    pose proof (cmp_trans _ P c b a ltac:(apply f_eq in H2; lia) ltac:(apply f_eq in H1; lia)).
    pose proof (f_gt a c). lia.
  Qed.

  Lemma increasing_app m1 m2 : increasing f (m1 ++ m2) <->
    increasing f m1 /\ increasing f m2 /\ (forall a b, In a m1 -> In b m2 -> f (a_key a) (a_key b) < 0).
  Proof.
    unfold increasing. induction m1 as [|x m1 IH]; simpl.
    - split; [intros H; repeat split; auto; [constructor|tauto]|tauto].
    - split.
      + intros H. inversion H as [|? ? H1 H2]; subst. apply IH in H1 as (I1 & I2 & I3). rewrite Forall_app in H2. destruct H2 as [H2 H3].
        rewrite Forall_forall in H3. repeat split; auto; [constructor; auto|].
        intros a b [<-|Ia] Ib; auto.
      + intros (H1 & H2 & H3). inversion H1 as [|? ? H4 H5]; subst. constructor.
        * apply IH. auto.
        * rewrite Forall_app. split; auto. apply Forall_forall. auto.
  Qed.
  Lemma increasing_cons a m : increasing f (a :: m) <-> increasing f m /\ (forall b, In b m -> f (a_key a) (a_key b) < 0).
  Proof.
    unfold increasing. split.
    - intros H. inversion H as [|? ? H1 H2]; subst. rewrite Forall_forall in H2. auto.
    - intros [H1 H2]. constructor; auto. apply Forall_forall; auto.
  Qed.
  (** The keys around one that is equal to [k]. *)
  Lemma around k x m1 m2 : increasing f (m1 ++ x :: m2) -> f k (a_key x) = 0 -> all_below f k m1 /\ all_above f k m2.
  Proof.
    intros H E0. apply increasing_app in H as (H1 & H2 & H3). apply increasing_cons in H2 as [H2 H4]. split.
    - intros a Ia. eapply f_lt_eq; [apply H3; [exact Ia|left; reflexivity]|]. apply f_eq; auto.
    - intros a Ia. eapply f_eq_lt; [exact E0|]. auto.
  Qed.
  Lemma increasing_insert k x m1 m2 : increasing f (m1 ++ m2) -> all_below f k m1 -> all_above f k m2 -> a_key x = k ->
    increasing f (m1 ++ x :: m2).
  Proof.
    intros H H1 H2 <-. apply increasing_app in H as (I1 & I2 & I3). apply increasing_app. repeat split; auto.
    - apply increasing_cons. auto.
    - intros a b Ia [<-|Ib]; auto.
  Qed.
  Lemma increasing_remove x m1 m2 : increasing f (m1 ++ x :: m2) -> increasing f (m1 ++ m2).
  Proof.
    intros H. apply increasing_app in H as (H1 & H2 & H3). apply increasing_cons in H2 as [H2 H4].
    apply increasing_app. repeat split; auto. intros a b Ia Ib. apply H3; auto. right; auto.
  Qed.
  Lemma cmp_cases k m : increasing f m ->
    (exists m1 m2, m = m1 ++ m2 /\ all_below f k m1 /\ all_above f k m2 /\ absent f k m) \/
    (exists m1 a m2, m = m1 ++ a :: m2 /\ f k (a_key a) = 0 /\ all_below f k m1 /\ all_above f k m2).
  Proof.
    induction m as [|a m IH]; intros I.
    - left. exists [], []. repeat split; intros x Hx; simpl in Hx; tauto.
    - apply increasing_cons in I as [I1 I2]. destruct (Z.eq_dec (f k (a_key a)) 0) as [E0|N0].
      + right. exists [], a, m. repeat split; auto; [intros x []|]. intros b Ib. eapply f_eq_lt; eauto.
      + destruct (Z.ltb_spec (f k (a_key a)) 0) as [L|L].
        * left. exists [], (a :: m). assert (AA : all_above f k (a :: m)).
          { intros b [<-|Ib]; auto. eapply f_lt_trans; eauto. }
          repeat split; auto; [intros x []|]. intros b Ib. apply AA in Ib. lia.
        * assert (LT : f (a_key a) k < 0) by (apply f_gt; lia).
          destruct (IH I1) as [(m1 & m2 & -> & H1 & H2 & H3)|(m1 & x & m2 & -> & H1 & H2 & H3)].
          -- left. exists (a :: m1), m2. repeat split; auto.
             ++ intros b [<-|Ib]; auto.
             ++ intros b [<-|Ib]; auto.
          -- right. exists (a :: m1), x, m2. repeat split; auto. intros b [<-|Ib]; auto.
  Qed.
End order.

Lemma app_split {A} (l1 l2 m1 m2 : list A) x : l1 ++ x :: l2 = m1 ++ m2 ->
  (exists m, l1 = m1 ++ m /\ m2 = m ++ x :: l2) \/ (exists m, m1 = l1 ++ x :: m /\ l2 = m ++ m2).
Proof.
  revert m1. induction l1 as [|y l1 IH]; intros m1; simpl.
  - destruct m1 as [|z m1]; simpl.
    + intros <-. left. exists []. auto.
    + intros H. injection H as <- ->. right. exists m1. auto.
  - destruct m1 as [|z m1]; simpl.
    + intros <-. left. exists (y :: l1). auto.
    + intros H. injection H as <- H. destruct (IH _ H) as [(m & -> & ->)|(m & -> & ->)]; [left|right]; exists m; auto.
Qed.
Lemma app_split3 {A} (l1 l2 m1 m2 : list A) x y : l1 ++ x :: l2 = m1 ++ y :: m2 ->
  (exists m, l1 = m1 ++ y :: m /\ m2 = m ++ x :: l2) \/ (l1 = m1 /\ x = y /\ l2 = m2) \/
  (exists m, m1 = l1 ++ x :: m /\ l2 = m ++ y :: m2).
Proof.
  intros H. destruct (app_split _ _ _ _ _ H) as [(m & -> & E0)|(m & -> & E0)].
  - destruct m as [|z m]; simpl in E0; injection E0 as <- ->.
    + right. left. rewrite app_nil_r. auto.
    + left. exists m. auto.
  - right. right. exists m. auto.
Qed.

(** The zipper of an element. *)
Lemma zip_elem t x m1 m2 : elems t = m1 ++ x :: m2 ->
  exists c l b r, t = plug c (N l (a_elem x) (a_key x) (a_value x) b r) /\ m1 = before_c c ++ elems l /\ m2 = elems r ++ after_c c.
Proof.
  revert m1 m2. induction t as [|l IHl a k v b r IHr]; intros m1 m2 H; cbn [elems] in H.
  - destruct m1; discriminate.
  - destruct (app_split3 _ _ _ _ _ _ H) as [(m & E1 & ->)|[(E1 & <- & E2)|(m & -> & E1)]].
    + destruct (IHl _ _ E1) as (c & l' & b' & r' & -> & -> & ->).
      exists (c ++ [FL a k v b r]), l', b', r'. rewrite plug_app, before_app, after_app. cbn [plug before_c after_c].
      rewrite app_nil_r, <- !app_assoc. auto.
    + exists [], l, b, r. cbn [plug before_c after_c a_elem a_key a_value fst snd]. rewrite app_nil_r. subst. auto.
    + destruct (IHr _ _ E1) as (c & l' & b' & r' & -> & -> & ->).
      exists (c ++ [FR l a k v b]), l', b', r'. rewrite plug_app, before_app, after_app. cbn [plug before_c after_c].
      repeat (rewrite ?app_nil_r, <- ?app_assoc; cbn [app]). auto.
Qed.

(** ** Put *)
Section put.
  Variables (f : Z -> Z -> Z) (P : total_preorder f) (e k v : Z).
  Lemma put_elems l a k' v' b r : bal (N l a k' v' b r) -> elems (fst (put_t f e k v (N l a k' v' b r))) =
    if f k k' <? 0 then elems (fst (put_t f e k v l)) ++ (a, k', v') :: elems r
    else if f k k' >? 0 then elems l ++ (a, k', v') :: elems (fst (put_t f e k v r))
    else elems l ++ (e, k, v) :: elems r.
  Proof.
    intros B. cbn [put_t]. destruct B as (B1 & B2 & B3 & B4).
    pose proof (put_t_bal f e k v l B3) as (_ & L2 & L3 & _). pose proof (put_t_bal f e k v r B4) as (_ & R2 & R3 & _).
    destruct (f k k' <? 0).
    - destruct (put_t f e k v l) as [l' g]. cbn [fst snd] in *. destruct g; [|reflexivity].
      destruct (b - 1 =? -2) eqn:Eb; [|reflexivity].
      destruct (rot_right_ok l' a k' v' r) as (t' & Et & _ & _ & _ & _ & R5); auto; [lia|]. cbn [fst]. rewrite Et. exact R5.
    - destruct (f k k' >? 0); [|reflexivity].
      destruct (put_t f e k v r) as [r' g]. cbn [fst snd] in *. destruct g; [|reflexivity].
      destruct (b + 1 =? 2) eqn:Eb; [|reflexivity].
      destruct (rot_left_ok l a k' v' r') as (t' & Et & _ & _ & _ & _ & R5); auto; [lia|]. cbn [fst]. rewrite Et. exact R5.
  Qed.
  Lemma put_new t : forall m1 m2, bal t -> elems t = m1 ++ m2 -> all_below f k m1 -> all_above f k m2 ->
    elems (fst (put_t f e k v t)) = m1 ++ (e, k, v) :: m2 /\ forall c, put_old f k c t = [].
  Proof.
    induction t as [|l IHl a k' v' b r IHr]; intros m1 m2 B H H1 H2.
    - cbn [elems] in H. symmetry in H. apply app_eq_nil in H as [-> ->]. split; reflexivity.
    - rewrite put_elems by auto. destruct B as (B1 & B2 & B3 & B4). cbn [elems] in H. cbn [put_old].
      destruct (app_split _ _ _ _ _ H) as [(m & E1 & ->)|(m & -> & E1)].
      + assert (X : f k k' < 0) by (apply (H2 (a, k', v')); apply in_or_app; right; left; reflexivity).
        replace (f k k' <? 0) with true by lia.
        destruct (IHl m1 m) as [I1 I2]; auto; [intros y Iy; apply H2; apply in_or_app; auto|].
        rewrite I1. rewrite <- app_assoc. auto.
      + assert (X : f k' k < 0) by (apply (H1 (a, k', v')); apply in_or_app; right; left; reflexivity).
        apply (f_gt f P) in X. replace (f k k' <? 0) with false by lia. replace (f k k' >? 0) with true by lia.
        destruct (IHr m m2) as [I1 I2]; auto; [intros y Iy; apply H1; apply in_or_app; right; right; auto|].
        rewrite I1. rewrite <- app_assoc. auto.
  Qed.
  Lemma put_replace t : forall m1 x m2, bal t -> elems t = m1 ++ x :: m2 -> f k (a_key x) = 0 -> all_below f k m1 -> all_above f k m2 ->
    elems (fst (put_t f e k v t)) = m1 ++ (e, k, v) :: m2 /\
    forall c, exists l r p b, put_old f k c t = [(a_elem x, CAelem (mk_aelem (a_key x) (a_value x) l r p b))].
  Proof.
    induction t as [|l IHl a k' v' b r IHr]; intros m1 x m2 B H HX H1 H2.
    - cbn [elems] in H. destruct m1; discriminate.
    - rewrite put_elems by auto. destruct B as (B1 & B2 & B3 & B4). cbn [elems] in H. cbn [put_old].
      destruct (app_split3 _ _ _ _ _ _ H) as [(m & E1 & ->)|[(E1 & <- & E2)|(m & -> & E1)]].
      + assert (X : f k k' < 0) by (apply (H2 (a, k', v')); apply in_or_app; right; left; reflexivity).
        replace (f k k' <? 0) with true by lia.
        destruct (IHl m1 x m) as [I1 I2]; auto; [intros y Iy; apply H2; apply in_or_app; auto|].
        rewrite I1. rewrite <- app_assoc. auto.
      + cbn [a_key fst snd] in HX. replace (f k k' <? 0) with false by lia. replace (f k k' >? 0) with false by lia.
        rewrite E1, E2. split; auto. intros c. cbn [a_elem a_key a_value fst snd]. eauto.
      + assert (X : f k' k < 0) by (apply (H1 (a, k', v')); apply in_or_app; right; left; reflexivity).
        apply (f_gt f P) in X. replace (f k k' <? 0) with false by lia. replace (f k k' >? 0) with true by lia.
        destruct (IHr m x m2) as [I1 I2]; auto; [intros y Iy; apply H1; apply in_or_app; right; right; auto|].
        rewrite I1. rewrite <- app_assoc. auto.
  Qed.
  Lemma put_count_height t : 0 <= put_count f k t <= height t.
  Proof.
    induction t as [|l IHl a k' v' b r IHr]; cbn [put_count height]; [lia|].
    destruct (f k k' <? 0); [lia|]. destruct (f k k' >? 0); lia.
  Qed.
End put.

(** ** Lookups *)
Lemma last_last_app {A} (l1 : list A) x l2 d : last (l1 ++ x :: l2) d = last l2 x.
Proof.
  induction l1 as [|y l1 IH]; cbn [app].
  - destruct l2 as [|z l2]; [reflexivity|]. revert x z. induction l2 as [|w l2 IH]; intros x z; [reflexivity|]. apply (IH x w).
  - rewrite <- IH. destruct (l1 ++ x :: l2) eqn:E0; [destruct l1; discriminate|reflexivity].
Qed.
Lemma handles_last m1 x m2 d : last (handles (m1 ++ x :: m2)) d = last (handles m2) (a_elem x).
Proof. unfold handles. rewrite map_app. apply last_last_app. Qed.
Lemma handles_hd m1 x m2 d : List.hd d (handles (m1 ++ x :: m2)) = List.hd (a_elem x) (handles m1).
Proof. destruct m1; reflexivity. Qed.
Section lookup.
  Variables (call : comparator) (cmp obj T R size k : Z).
  Let f k1 k2 := call cmp k1 k2 obj.
  Let tc : Z * cell := (T, CAvl (mk_avl cmp obj R size)).
  Hypothesis P : total_preorder f.

  Lemma truth_root q t D A (x y : M A) z :
    t <> E -> reads (cells q t ++ D) x z -> reads (cells q t ++ D) (if truth (root t) then x else y) z.
  Proof.
    intros NE H. apply r_ok. intros O. unfold truth. rewrite (root_nonnull _ q t D O NE (Permutation_refl _)). exact H.
  Qed.

  Lemma get_loop_ok n : forall t q D cnt, (Z.to_nat (height t) < n)%nat ->
    (forall m1 x m2, elems t = m1 ++ x :: m2 -> f k (a_key x) = 0 -> all_below f k m1 -> all_above f k m2 ->
      reads (cells q t ++ tc :: D) (get_loop call n T k obj (root t) cnt) (a_elem x, cnt + put_count f k t)) /\
    (forall m1 m2, elems t = m1 ++ m2 -> all_below f k m1 -> all_above f k m2 ->
      reads (cells q t ++ tc :: D) (get_loop call n T k obj (root t) cnt) (0, cnt + put_count f k t)).
  Proof.
    induction n as [|n IH]; intros t q D cnt Hn; [lia|]. cbn [get_loop].
    destruct t as [|l a k' v' b r].
    - split.
      + intros [|] x m2 H; discriminate.
      + intros m1 m2 _ _ _. cbn [root truth Z.eqb negb put_count]. rewrite Z.add_0_r. apply r_ret.
    - cbn [height] in Hn. pose proof (height_pos l). pose proof (height_pos r). cbn [elems put_count]. split.
      + intros m1 x m2 H' HX H1 H2. apply truth_root; [discriminate|].
        fields. norm. eapply r_ld_avl; [unfold tc; intac|]. fields. eapply r_ld_aelem; [intac|]. fields. cbv zeta. change (call cmp k k' obj) with (f k k').
        destruct (app_split3 _ _ _ _ _ _ H') as [(m & E1 & ->)|[(E1 & <- & E2)|(m & -> & E1)]].
        * assert (X : f k k' < 0) by (apply (H2 (a, k', v')); apply in_or_app; right; left; reflexivity).
          replace (f k k' =? 0) with false by lia. replace (f k k' >? 0) with false by lia. replace (f k k' <? 0) with true by lia.
          replace (cnt + (put_count f k l + 1)) with (cnt + 1 + put_count f k l) by lia.
          eapply r_perm; [|apply (proj1 (IH l a ((a, CAelem (mk_aelem k' v' (root l) (root r) q b)) :: cells a r ++ D) (cnt + 1) ltac:(lia)) m1 x m); auto].
          -- unfold tc. perm.
          -- intros y Iy. apply H2. apply in_or_app; auto.
        * cbn [a_key fst snd] in HX. replace (f k k' =? 0) with true by lia. replace (f k k' >? 0) with false by lia. replace (f k k' <? 0) with false by lia.
          apply r_ret.
        * assert (X : f k' k < 0) by (apply (H1 (a, k', v')); apply in_or_app; right; left; reflexivity).
          apply (f_gt f P) in X. replace (f k k' =? 0) with false by lia. replace (f k k' >? 0) with true by lia. replace (f k k' <? 0) with false by lia.
          replace (cnt + (put_count f k r + 1)) with (cnt + 1 + put_count f k r) by lia.
          eapply r_perm; [|apply (proj1 (IH r a ((a, CAelem (mk_aelem k' v' (root l) (root r) q b)) :: cells a l ++ D) (cnt + 1) ltac:(lia)) m x m2); auto].
          -- unfold tc. perm.
          -- intros y Iy. apply H1. apply in_or_app; right; right; auto.
      + intros m1 m2 H' H1 H2. apply truth_root; [discriminate|].
        fields. norm. eapply r_ld_avl; [unfold tc; intac|]. fields. eapply r_ld_aelem; [intac|]. fields. cbv zeta. change (call cmp k k' obj) with (f k k').
        destruct (app_split _ _ _ _ _ H') as [(m & E1 & ->)|(m & -> & E1)].
        * assert (X : f k k' < 0) by (apply (H2 (a, k', v')); apply in_or_app; right; left; reflexivity).
          replace (f k k' =? 0) with false by lia. replace (f k k' >? 0) with false by lia. replace (f k k' <? 0) with true by lia.
          replace (cnt + (put_count f k l + 1)) with (cnt + 1 + put_count f k l) by lia.
          eapply r_perm; [|apply (proj2 (IH l a ((a, CAelem (mk_aelem k' v' (root l) (root r) q b)) :: cells a r ++ D) (cnt + 1) ltac:(lia)) m1 m); auto].
          -- unfold tc. perm.
          -- intros y Iy. apply H2. apply in_or_app; auto.
        * assert (X : f k' k < 0) by (apply (H1 (a, k', v')); apply in_or_app; right; left; reflexivity).
          apply (f_gt f P) in X. replace (f k k' =? 0) with false by lia. replace (f k k' >? 0) with true by lia. replace (f k k' <? 0) with false by lia.
          replace (cnt + (put_count f k r + 1)) with (cnt + 1 + put_count f k r) by lia.
          eapply r_perm; [|apply (proj2 (IH r a ((a, CAelem (mk_aelem k' v' (root l) (root r) q b)) :: cells a l ++ D) (cnt + 1) ltac:(lia)) m m2); auto].
          -- unfold tc. perm.
          -- intros y Iy. apply H1. apply in_or_app; right; right; auto.
  Qed.

  Fixpoint path (g : Z -> bool) (t : tree) : Z :=
    match t with E => 0 | N l _ k' _ _ r => 1 + (if g (f k k') then path g l else path g r) end.
  Lemma path_height g t : 0 <= path g t <= height t.
  Proof. induction t as [|l IHl a k' v' b r IHr]; cbn [path height]; [lia|]. destruct (g (f k k')); lia. Qed.

  Lemma before_loop_ok g n : forall t q D cand cnt, (Z.to_nat (height t) < n)%nat ->
    forall m1 m2, elems t = m1 ++ m2 ->
    (forall a, In a m1 -> g (f k (a_key a)) = false) -> (forall a, In a m2 -> g (f k (a_key a)) = true) ->
    reads (cells q t ++ tc :: D) (before_loop call g n T k obj (root t) cand cnt) (last (handles m1) cand, cnt + path g t).
  Proof.
    induction n as [|n IH]; intros t q D cand cnt Hn m1 m2 H H1 H2; [lia|]. cbn [before_loop].
    destruct t as [|l a k' v' b r].
    - cbn [elems] in H. symmetry in H. apply app_eq_nil in H as [-> ->].
      cbn [root truth Z.eqb negb path handles map last]. rewrite Z.add_0_r. apply r_ret.
    - cbn [height] in Hn. pose proof (height_pos l). pose proof (height_pos r). cbn [elems path] in *.
      apply truth_root; [discriminate|].
      fields. norm. eapply r_ld_avl; [unfold tc; intac|]. fields. eapply r_ld_aelem; [intac|]. fields. cbv zeta. change (call cmp k k' obj) with (f k k').
      destruct (app_split _ _ _ _ _ H) as [(m & E1 & ->)|(m & -> & E1)].
      + rewrite (H2 (a, k', v') ltac:(apply in_or_app; right; left; reflexivity) : g (f k k') = true).
        rewrite Z.add_assoc. eapply r_perm; [|apply (IH l a ((a, CAelem (mk_aelem k' v' (root l) (root r) q b)) :: cells a r ++ D) cand (cnt + 1) ltac:(lia) m1 m); auto].
        * unfold tc. perm.
        * intros y Iy. apply H2. apply in_or_app; auto.
      + rewrite (H1 (a, k', v') ltac:(apply in_or_app; right; left; reflexivity) : g (f k k') = false).
        rewrite Z.add_assoc.
        rewrite handles_last. cbn [a_elem fst].
        eapply r_perm; [|apply (IH r a ((a, CAelem (mk_aelem k' v' (root l) (root r) q b)) :: cells a l ++ D) a (cnt + 1) ltac:(lia) m m2); auto].
        * unfold tc. perm.
        * intros y Iy. apply H1. apply in_or_app; right; right; auto.
  Qed.
  Lemma after_loop_ok g n : forall t q D cand cnt, (Z.to_nat (height t) < n)%nat ->
    forall m1 m2, elems t = m1 ++ m2 ->
    (forall a, In a m1 -> g (f k (a_key a)) = true) -> (forall a, In a m2 -> g (f k (a_key a)) = false) ->
    reads (cells q t ++ tc :: D) (after_loop call g n T k obj (root t) cand cnt)
      (List.hd cand (handles m2), cnt + path (fun x => negb (g x)) t).
  Proof.
    induction n as [|n IH]; intros t q D cand cnt Hn m1 m2 H H1 H2; [lia|]. cbn [after_loop].
    destruct t as [|l a k' v' b r].
    - cbn [elems] in H. symmetry in H. apply app_eq_nil in H as [-> ->].
      cbn [root truth Z.eqb negb path handles map List.hd]. rewrite Z.add_0_r. apply r_ret.
    - cbn [height] in Hn. pose proof (height_pos l). pose proof (height_pos r). cbn [elems path] in *.
      apply truth_root; [discriminate|].
      fields. norm. eapply r_ld_avl; [unfold tc; intac|]. fields. eapply r_ld_aelem; [intac|]. fields. cbv zeta. change (call cmp k k' obj) with (f k k').
      destruct (app_split _ _ _ _ _ H) as [(m & E1 & ->)|(m & -> & E1)].
      + rewrite (H2 (a, k', v') ltac:(apply in_or_app; right; left; reflexivity) : g (f k k') = false). cbn [negb].
        rewrite Z.add_assoc.
        rewrite handles_hd. cbn [a_elem fst].
        eapply r_perm; [|apply (IH l a ((a, CAelem (mk_aelem k' v' (root l) (root r) q b)) :: cells a r ++ D) a (cnt + 1) ltac:(lia) m1 m); auto].
        * unfold tc. perm.
        * intros y Iy. apply H2. apply in_or_app; auto.
      + rewrite (H1 (a, k', v') ltac:(apply in_or_app; right; left; reflexivity) : g (f k k') = true). cbn [negb].
        rewrite Z.add_assoc.
        eapply r_perm; [|apply (IH r a ((a, CAelem (mk_aelem k' v' (root l) (root r) q b)) :: cells a l ++ D) cand (cnt + 1) ltac:(lia) m m2); auto].
        * unfold tc. perm.
        * intros y Iy. apply H1. apply in_or_app; right; right; auto.
  Qed.
End lookup.

(** ** Iteration *)
Lemma elems_nonempty t : t <> E -> elems t <> [].
Proof. destruct t as [|l a k v b r]; [congruence|]. intros _. cbn [elems]. destruct (elems l); discriminate. Qed.

Section iter.
  Variables (T cmp obj size : Z).
  Lemma climb_right_ok c : forall t n, t <> E -> (length c < n)%nat ->
    reads (full T cmp obj size c t) (climb_right n (root t)) (List.hd 0 (handles (after_c c))).
  Proof.
    induction c as [|[y ky vy by_ ry|ly y ky vy by_] c IH]; intros t n NE Hn; (destruct n as [|n]; [simpl in Hn; lia|]);
      cbn [climb_right]; apply r_ok; intros O; destruct t as [|l a k v b r]; try congruence; clear NE; cbn [root].
    - shape. norm. eapply r_ld_aelem; [intac|]. fields. cbn [Z.eqb]. apply r_ret.
    - unfold full, hd in O. cbn [top pcells par f_addr cells root] in O. shape. norm. eapply r_ld_aelem; [intac|]. fields.
      nonnull O y. rename N into NZ. replace (y =? 0) with false by lia.
      eapply r_ld_aelem; [intac|]. fields.
      rewrite (not_child' _ y ry ((a, CAelem (mk_aelem k v (root l) (root r) y b)) :: (T, CAvl (mk_avl cmp obj (top c y) size)) ::
        (y, CAelem (mk_aelem ky vy a (root ry) (par 0 c) by_)) :: pcells 0 c y ++ cells a l ++ cells a r) a O); [|perm|left; reflexivity].
      apply r_ret.
    - unfold full, hd in O. cbn [top pcells par f_addr cells root] in O. shape. norm. eapply r_ld_aelem; [intac|]. fields.
      nonnull O y. rename N into NZ. replace (y =? 0) with false by lia.
      eapply r_ld_aelem; [intac|]. fields. rewrite Z.eqb_refl.
      eapply r_perm; [|apply (IH (N ly y ky vy by_ (N l a k v b r)) n); [discriminate|simpl in Hn; lia]].
      shape. perm.
  Qed.
  Lemma climb_left_ok c : forall t n, t <> E -> (length c < n)%nat ->
    reads (full T cmp obj size c t) (climb_left n (root t)) (last (handles (before_c c)) 0).
  Proof.
    induction c as [|[y ky vy by_ ry|ly y ky vy by_] c IH]; intros t n NE Hn; (destruct n as [|n]; [simpl in Hn; lia|]);
      cbn [climb_left]; apply r_ok; intros O; destruct t as [|l a k v b r]; try congruence; clear NE; cbn [root].
    - shape. norm. eapply r_ld_aelem; [intac|]. fields. cbn [Z.eqb]. apply r_ret.
    - unfold full, hd in O. cbn [top pcells par f_addr cells root] in O. shape. norm. eapply r_ld_aelem; [intac|]. fields.
      nonnull O y. rename N into NZ. replace (y =? 0) with false by lia.
      eapply r_ld_aelem; [intac|]. fields. rewrite Z.eqb_refl.
      eapply r_perm; [|apply (IH (N (N l a k v b r) y ky vy by_ ry) n); [discriminate|simpl in Hn; lia]].
      shape. perm.
    - unfold full, hd in O. cbn [top pcells par f_addr cells root] in O. shape. norm. eapply r_ld_aelem; [intac|]. fields.
      nonnull O y. rename N into NZ. replace (y =? 0) with false by lia.
      eapply r_ld_aelem; [intac|]. fields.
      rewrite (not_child' _ y ly ((a, CAelem (mk_aelem k v (root l) (root r) y b)) :: (T, CAvl (mk_avl cmp obj (top c y) size)) ::
        (y, CAelem (mk_aelem ky vy (root ly) a (par 0 c) by_)) :: pcells 0 c y ++ cells a l ++ cells a r) a O); [|perm|left; reflexivity].
      cbn [before_c]. rewrite (app_assoc (before_c c)), handles_last. apply r_ret.
  Qed.

  Lemma full_length c t : length (full T cmp obj size c t) = S (length (before_c c ++ elems t ++ after_c c)).
  Proof.
    rewrite (Permutation_length (full_plug _ _ _ _ _ _)). unfold full, hd. cbn [app pcells par length].
    rewrite cells_length, elems_plug. reflexivity.
  Qed.
  Lemma full_ctx_length c t : (length c < length (full T cmp obj size c t))%nat.
  Proof.
    rewrite full_length. pose proof (ctx_length c) as H. rewrite !app_length in *. lia.
  Qed.
  Lemma hd_nonnull c a x : In x (handles (elems (plug c a))) -> ok (full T cmp obj size c a) -> (x =? 0) = false.
  Proof.
    intros I [h O]. apply Z.eqb_neq. intros ->. eapply hp_perm in O; [|apply full_plug].
    unfold full, hd in O. cbn [top pcells par app] in O. apply (hp_app_r _ [_] _) in O.
    apply (hp_get _ _ 0 O); [|reflexivity]. eapply Permutation_in; [symmetry; apply keys_cells|exact I].
  Qed.
  Lemma next_ok c l a k v b r :
    reads (full T cmp obj size c (N l a k v b r)) (avl_tree_next a) (List.hd 0 (handles (elems r ++ after_c c))).
  Proof.
    unfold avl_tree_next. apply r_ok. intros O.
    assert (P1 : Permutation (full T cmp obj size c (N l a k v b r)) (cells (par 0 c) (N l a k v b r) ++ hd T cmp obj size c a)).
    { unfold full. apply Permutation_app_comm. }
    destruct r as [|rl ra rk rv rb rr].
    - eapply r_seq; [eapply r_perm; [exact P1|apply next_descendant_E]|]. cbn [Z.eqb elems app].
      apply r_fuel. intros n Hn. apply (climb_right_ok c (N l a k v b E)); [discriminate|].
      pose proof (full_ctx_length c (N l a k v b E)). lia.
    - set (r := N rl ra rk rv rb rr) in *.
      destruct (next_descendant_N r) as (p & r2 & a2 & k2 & v2 & b2 & E1 & E2 & E3); [discriminate|].
      eapply r_seq; [eapply r_perm; [exact P1|apply E3]|].
      rewrite (hd_nonnull c (N l a k v b r) a2); auto.
      + rewrite E1, elems_plug, E2. apply r_ret.
      + rewrite elems_plug. cbn [elems]. rewrite E1, elems_plug. cbn [elems]. unfold handles.
        repeat (rewrite ?map_app, ?in_app_iff; cbn [map a_elem fst app In]). tauto.
  Qed.
  Lemma previous_ok c l a k v b r :
    reads (full T cmp obj size c (N l a k v b r)) (avl_tree_previous a) (last (handles (before_c c ++ elems l)) 0).
  Proof.
    unfold avl_tree_previous. apply r_ok. intros O.
    assert (P1 : Permutation (full T cmp obj size c (N l a k v b r)) (cells (par 0 c) (N l a k v b r) ++ hd T cmp obj size c a)).
    { unfold full. apply Permutation_app_comm. }
    destruct l as [|ll la lk lv lb lr].
    - eapply r_seq; [eapply r_perm; [exact P1|apply previous_descendant_E]|]. cbn [Z.eqb elems]. rewrite app_nil_r.
      apply r_fuel. intros n Hn. apply (climb_left_ok c (N E a k v b r)); [discriminate|].
      pose proof (full_ctx_length c (N E a k v b r)). lia.
    - set (l := N ll la lk lv lb lr) in *.
      destruct (previous_descendant_N l) as (p & l2 & a2 & k2 & v2 & b2 & E1 & E2 & E3); [discriminate|].
      eapply r_seq; [eapply r_perm; [exact P1|apply E3]|].
      rewrite (hd_nonnull c (N l a k v b r) a2); auto.
      + rewrite E1, elems_plug, E2. cbn [elems]. rewrite app_nil_r, (app_assoc (before_c p)), (app_assoc (before_c c)), handles_last. apply r_ret.
      + rewrite elems_plug. cbn [elems]. rewrite E1, elems_plug. cbn [elems]. unfold handles.
        repeat (rewrite ?map_app, ?in_app_iff; cbn [map a_elem fst app In]). tauto.
  Qed.
  Lemma empty_ok t : reads (full T cmp obj size [] t) (avl_tree_empty T) (match elems t with [] => true | _ => false end).
  Proof.
    unfold avl_tree_empty. apply r_ok. intros O. shape. norm. eapply r_ld_avl; [intac|]. fields.
    destruct t as [|l a k v b r].
    - apply r_ret.
    - rewrite (root_nonnull _ 0 (N l a k v b r) (hd T cmp obj size [] a) O); [|discriminate|unfold full; apply Permutation_app_comm].
      cbn [elems]. destruct (elems l); apply r_ret.
  Qed.
  Lemma first_ok t : reads (full T cmp obj size [] t) (avl_tree_get_first T) (List.hd 0 (handles (elems t))).
  Proof.
    unfold avl_tree_get_first. eapply r_seq; [apply empty_ok|]. destruct t as [|l a k v b r].
    - apply r_ret.
    - set (t := N l a k v b r). destruct (elems t) eqn:E0; [exfalso; revert E0; apply elems_nonempty; discriminate|]. rewrite <- E0.
      destruct (leftmost_ok t) as (p & r2 & a2 & k2 & v2 & b2 & E1 & E2 & E3); [discriminate|].
      unfold full, hd. norm. cbn [top]. eapply r_ld_avl; [intac|]. fields. change a with (root t).
      apply r_fuel. intros n Hn. cbn [pcells app par] in *.
      assert (E4 : List.hd 0 (handles (elems t)) = a2) by (rewrite E1, elems_plug, E2; reflexivity). rewrite E4.
      eapply r_perm; [|apply (E3 0 [(T, CAvl (mk_avl cmp obj (root t) size))])].
      + perm.
      + cbn [length] in Hn. pose proof (cells_len 0 t). lia.
  Qed.
  Lemma last_ok t : reads (full T cmp obj size [] t) (avl_tree_get_last T) (last (handles (elems t)) 0).
  Proof.
    unfold avl_tree_get_last. eapply r_seq; [apply empty_ok|]. destruct t as [|l a k v b r].
    - apply r_ret.
    - set (t := N l a k v b r). destruct (elems t) eqn:E0; [exfalso; revert E0; apply elems_nonempty; discriminate|]. rewrite <- E0.
      destruct (rightmost_ok t) as (p & l2 & a2 & k2 & v2 & b2 & E1 & E2 & E3); [discriminate|].
      unfold full, hd. norm. cbn [top]. eapply r_ld_avl; [intac|]. fields. change a with (root t).
      apply r_fuel. intros n Hn. cbn [pcells app par] in *.
      assert (E4 : last (handles (elems t)) 0 = a2).
      { rewrite E1, elems_plug, E2. cbn [elems app]. rewrite app_nil_r, (app_assoc (before_c p)), handles_last. reflexivity. }
      rewrite E4.
      eapply r_perm; [|apply (E3 0 [(T, CAvl (mk_avl cmp obj (root t) size))])].
      + perm.
      + cbn [length] in Hn. pose proof (cells_len 0 t). lia.
  Qed.
End iter.

(** ** Destroying *)
Lemma destroy_subtree_ok n : forall t q D, (Z.to_nat (height t) < n)%nat ->
  triple (cells q t ++ D) (destroy_subtree n (root t)) (det tt D).
Proof.
  induction n as [|n IH]; intros t q D Hn; [lia|]. cbn [destroy_subtree]. destruct t as [|l a k v b r].
  - apply t_ret_det. reflexivity.
  - apply t_ok. intros O. cbn [root cells] in *. norm. nonnull O a. replace (a =? 0) with false by lia.
    cbn [height] in Hn. pose proof (height_pos l). pose proof (height_pos r).
    run. eapply t_seq.
    { tpicka (cells a l). apply IH. lia. }
    run. eapply t_seq.
    { tpicka (cells a r). apply IH. lia. }
    tpick a. apply t_free.
Qed.
Lemma destroy_within_ok T cmp obj size t n : (Z.to_nat (height t) < n)%nat ->
  triple (full T cmp obj size [] t) (destroy_avl_tree_within n T) (det tt []).
Proof.
  intros Hn. unfold destroy_avl_tree_within. shape. run. eapply t_seq.
  { tpicka (cells 0 t). apply destroy_subtree_ok. exact Hn. }
  apply t_free.
Qed.
Lemma destroy_ok T cmp obj size t : triple (full T cmp obj size [] t) (destroy_avl_tree T) (det tt []).
Proof.
  unfold destroy_avl_tree. eapply t_bnd; [apply t_fuel|]. intros n D [-> Hn]. apply destroy_within_ok.
  unfold full in Hn. rewrite app_length in Hn. cbn [par] in Hn. pose proof (cells_len 0 t). lia.
Qed.

(** ** Copying *)
(** The same shape, keys and values. *)
Fixpoint same (t t' : tree) : Prop :=
  match t, t' with
  | E, E => True
  | N l _ k v b r, N l' _ k' v' b' r' => same l l' /\ k = k' /\ v = v' /\ b = b' /\ same r r'
  | _, _ => False
  end.
Lemma same_height t : forall t', same t t' -> height t' = height t.
Proof.
  induction t as [|l IHl a k v b r IHr]; intros [|l' a' k' v' b' r']; cbn [same]; try tauto.
  intros (H1 & -> & -> & -> & H2). cbn [height]. rewrite (IHl _ H1), (IHr _ H2). reflexivity.
Qed.
Lemma same_bal t : forall t', same t t' -> bal t -> bal t'.
Proof.
  induction t as [|l IHl a k v b r IHr]; intros [|l' a' k' v' b' r']; cbn [same]; try tauto.
  intros (H1 & -> & -> & -> & H2). cbn [bal]. rewrite (same_height _ _ H1), (same_height _ _ H2). intros (B1 & B2 & B3 & B4). auto.
Qed.
Lemma same_elems t : forall t', same t t' -> map a_pair (elems t') = map a_pair (elems t).
Proof.
  induction t as [|l IHl a k v b r IHr]; intros [|l' a' k' v' b' r']; cbn [same]; try tauto.
  intros (H1 & -> & -> & -> & H2). cbn [elems]. rewrite !map_app. cbn [map]. rewrite (IHl _ H1), (IHr _ H2). reflexivity.
Qed.
Lemma same_nonempty t t' : same t t' -> t <> E -> t' <> E.
Proof. destruct t, t'; cbn [same]; try tauto; congruence. Qed.
Lemma copy_tree_ok n : forall t q D, t <> E -> (Z.to_nat (height t) <= n)%nat ->
  triple (cells q t ++ D) (copy_tree n (root t))
    (fun a X => exists t', a = root t' /\ same t t' /\ Permutation X (cells 0 t' ++ cells q t ++ D)).
Proof.
  induction n as [|n IH]; intros t q D NE Hn.
  { destruct t as [|l a k v b r]; [congruence|]. cbn [height] in Hn. pose proof (height_pos l). lia. }
  destruct t as [|l a k v b r]; [congruence|]. clear NE. cbn [copy_tree]. cbn [root cells height] in *.
  pose proof (height_pos l). pose proof (height_pos r). apply t_ok. intros O. norm.
  eapply t_ld_aelem; [intac|]. fields. eapply t_bnd; [apply t_alloc|]. intros e X [-> He].
  run.
  (* the left subtree *)
  eapply t_bnd with (Q := fun (_ : unit) (X : cells_t) => exists l', same l l' /\ Permutation X ((e, CAelem (mk_aelem k v (root l') 0 0 b)) :: cells e l' ++
      (a, CAelem (mk_aelem k v (root l) (root r) q b)) :: cells a l ++ cells a r ++ D)).
  { destruct l as [|ll la lk lv lb lr].
    - cbn [root Z.eqb]. apply t_ret. exists E. split; [exact I|]. cbn [root cells]. perm.
    - set (l := N ll la lk lv lb lr) in *.
      rewrite (root_nonnull _ a l ((a, CAelem (mk_aelem k v (root l) (root r) q b)) :: cells a r ++ D) O); [|discriminate|perm].
      eapply t_bnd.
      { tpicka (cells a l). apply IH; [discriminate|lia]. }
      intros x X (l' & -> & S' & PX). eapply t_perm; [exact PX|]. clear PX.
      destruct l' as [|ll' la' lk' lv' lb' lr']; [cbn [l same] in S'; tauto|]. fields.
      run. apply t_tail. run. apply t_ret. exists (N ll' la' lk' lv' lb' lr'). split; [exact S'|]. fields. perm. }
  intros _ X (l' & Sl & PX). eapply t_perm; [exact PX|]. clear X PX.
  eapply t_bnd with (Q := fun (_ : unit) (X : cells_t) => exists r', same r r' /\ Permutation X ((e, CAelem (mk_aelem k v (root l') (root r') 0 b)) :: cells e l' ++ cells e r' ++
      (a, CAelem (mk_aelem k v (root l) (root r) q b)) :: cells a l ++ cells a r ++ D)).
  { destruct r as [|rl ra rk rv rb rr].
    - cbn [root Z.eqb]. apply t_ret. exists E. split; [exact I|]. cbn [root cells]. perm.
    - set (r := N rl ra rk rv rb rr) in *.
      rewrite (root_nonnull _ a r ((a, CAelem (mk_aelem k v (root l) (root r) q b)) :: cells a l ++ D) O); [|discriminate|perm].
      eapply t_bnd.
      { tpicka (cells a r). apply IH; [discriminate|lia]. }
      intros x X (r' & -> & S' & PX). eapply t_perm; [exact PX|]. clear PX.
      destruct r' as [|rl' ra' rk' rv' rb' rr']; [cbn [r same] in S'; tauto|]. fields.
      run. apply t_tail. run. apply t_ret. exists (N rl' ra' rk' rv' rb' rr'). split; [exact S'|]. fields. perm. }
  intros _ X (r' & Sr & PX). eapply t_perm; [exact PX|]. clear X PX.
  apply t_ret. exists (N l' e k v b r'). split; [reflexivity|]. split; [cbn [same]; auto|]. fields. perm.
Qed.
Lemma copy_within_ok T cmp obj size t n : (elems t = [] -> size = 0) -> (Z.to_nat (height t) <= n)%nat ->
  triple (full T cmp obj size [] t) (avl_tree_copy_within n T)
    (fun T' X => exists t', same t t' /\ Permutation X (full T' cmp obj size [] t' ++ full T cmp obj size [] t)).
Proof.
  intros Hs Hn. unfold avl_tree_copy_within. apply t_ok. intros O. shape. run. unfold make_avl_tree_2.
  eapply t_bnd; [apply t_alloc|]. intros T' X [-> HT].
  eapply t_bnd with (Q := fun (_ : unit) (X : cells_t) => exists t', same t t' /\ Permutation X (full T' cmp obj size [] t' ++ full T cmp obj size [] t)).
  - destruct t as [|l a k v b r].
    + cbn [root Z.eqb]. apply t_ret. exists E. split; [exact I|]. rewrite Hs by reflexivity. shape. perm.
    + set (t := N l a k v b r) in *.
      rewrite (root_nonnull _ 0 t (hd T cmp obj size [] a) O); [|discriminate|unfold full; apply Permutation_app_comm].
      eapply t_bnd.
      { tpicka (cells 0 t). apply copy_tree_ok; [discriminate|exact Hn]. }
      intros x X (t' & -> & S' & PX). eapply t_perm; [exact PX|]. clear PX.
      run. apply t_tail. run. apply t_ret. exists t'. split; [exact S'|]. shape. perm.
  - intros _ X (t' & S' & PX). apply t_ret. eauto.
Qed.
Lemma copy_ok T cmp obj size t : (elems t = [] -> size = 0) ->
  triple (full T cmp obj size [] t) (avl_tree_copy T)
    (fun T' X => exists t', same t t' /\ Permutation X (full T' cmp obj size [] t' ++ full T cmp obj size [] t)).
Proof.
  intros Hs. unfold avl_tree_copy. eapply t_bnd; [apply t_fuel|]. intros n D [-> Hn]. apply copy_within_ok; [exact Hs|].
  unfold full in Hn. rewrite app_length in Hn. cbn [par] in Hn. pose proof (cells_len 0 t). lia.
Qed.
