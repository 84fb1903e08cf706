(** Assertions about parts of the heap as lists of cells, and a logic for
    programs on them. *)
From Verif Require Import Base Heap.
From Coq Require Import ZifyBool ZifyNat.
From Coq Require Export Permutation.

Notation cells_t := (list (Z * cell)).
Definition keys (D : cells_t) : list Z := map fst D.
Definition hp (h : heap) (D : cells_t) : Prop :=
  NoDup (keys D) /\ forall x c, In (x, c) D -> get h x = Some c.

(** [m] can run on a heap with the cells [D]: it returns, the cells are then as
    [Q] says, it changes no other cell, the cells that are new were not allocated
    before and the cells that are missing are free. *)
Definition triple {A} (D : cells_t) (m : M A) (Q : A -> cells_t -> Prop) : Prop :=
  forall h, hp h D -> exists a D' h',
    m h = Ok (a, h') /\ Q a D' /\ hp h' D' /\
    (forall x, ~ In x (keys D) -> In x (keys D') -> get h x = None) /\
    (forall x, ~ In x (keys D) -> ~ In x (keys D') -> get h' x = get h x) /\
    (forall x, In x (keys D) -> ~ In x (keys D') -> get h' x = None).
Definition det {A} (a : A) (D' : cells_t) : A -> cells_t -> Prop := fun x y => x = a /\ y = D'.

Definition ok (D : cells_t) : Prop := exists h, hp h D.

Lemma keys_app D E : keys (D ++ E) = keys D ++ keys E.
Proof. apply map_app. Qed.
Lemma keys_perm D E : Permutation D E -> Permutation (keys D) (keys E).
Proof. apply Permutation_map. Qed.
Lemma in_keys D x : In x (keys D) <-> exists c, In (x, c) D.
Proof.
  unfold keys. rewrite in_map_iff. split.
  - intros ([y c] & <- & H). eauto.
  - intros (c & H). exists (x, c). auto.
Qed.
Lemma hp_perm h D E : Permutation D E -> hp h D -> hp h E.
Proof.
  intros P [N H]. split.
  - eapply Permutation_NoDup; [apply keys_perm; exact P|exact N].
  - intros x c I. apply H. eapply Permutation_in; [symmetry; exact P|exact I].
Qed.
Lemma hp_app_l h D E : hp h (D ++ E) -> hp h D.
Proof.
  intros [N H]. split.
  - rewrite keys_app in N. clear H. induction (keys D); [constructor|]. inversion N; subst. constructor; auto.
    intros I. apply H1. apply in_or_app; auto.
  - intros x c I. apply H. apply in_or_app; auto.
Qed.
Lemma hp_app_r h D E : hp h (D ++ E) -> hp h E.
Proof. intros H. eapply hp_app_l with (E := D). eapply hp_perm; [apply Permutation_app_comm|exact H]. Qed.
Lemma hp_get h D x : hp h D -> In x (keys D) -> get h x <> None.
Proof. intros [N H] I. apply in_keys in I as (c & I). rewrite (H _ _ I). discriminate. Qed.
Lemma nodup_app_not {A} (l1 l2 : list A) x : NoDup (l1 ++ l2) -> In x l1 -> ~ In x l2.
Proof.
  induction l1 as [|y l1 IH]; simpl; [tauto|]. intros N. inversion N; subst. intros [<-|I]; auto.
  intros J. apply H1. apply in_or_app; auto.
Qed.
Lemma nodup_app_intro {A} (l1 l2 : list A) : NoDup l1 -> NoDup l2 -> (forall x, In x l1 -> ~ In x l2) -> NoDup (l1 ++ l2).
Proof.
  induction l1 as [|y l1 IH]; simpl; auto. intros N1 N2 H. inversion N1; subst. constructor.
  - intros I. apply in_app_or in I as [I|I]; auto. eapply H; eauto.
  - apply IH; auto.
Qed.

Lemma ok_perm D E : Permutation D E -> ok D -> ok E.
Proof. intros P [h H]. exists h. eapply hp_perm; eauto. Qed.
Lemma ok_nonnull D x c : ok D -> In (x, c) D -> x <> 0.
Proof. intros [h [N H]] I. apply H in I. eapply get_nonnull; eauto. Qed.
Lemma ok_distinct D x c y d E : ok D -> Permutation D ((x, c) :: (y, d) :: E) -> x <> y.
Proof.
  intros O P. destruct (ok_perm _ _ P O) as [h [N _]]. simpl in N. inversion N; subst. intros ->. apply H1. left; auto.
Qed.
Lemma ok_not_in D x c E y : ok D -> Permutation D ((x, c) :: E) -> In y (keys E) -> x <> y.
Proof.
  intros O P I. destruct (ok_perm _ _ P O) as [h [N _]]. simpl in N. inversion N; subst. congruence.
Qed.

(** ** Rules *)
Lemma t_ok {A} D (m : M A) Q : (ok D -> triple D m Q) -> triple D m Q.
Proof. intros T h H. apply T; auto. exists h; auto. Qed.
Lemma t_perm {A} D E (m : M A) Q : Permutation D E -> triple E m Q -> triple D m Q.
Proof.
  intros P T h H. destruct (T h (hp_perm _ _ _ P H)) as (a & D' & h' & R & q & H' & F1 & F2 & F3).
  assert (K : forall x, In x (keys E) <-> In x (keys D)).
  { intros x. split; apply Permutation_in; apply keys_perm; auto. symmetry; auto. }
  exists a, D', h'. do 3 (split; auto). repeat split.
  - intros x N. apply F1. rewrite K. auto.
  - intros x N. apply F2. rewrite K. auto.
  - intros x N. apply F3. rewrite K. auto.
Qed.
Lemma t_conseq {A} D (m : M A) (Q R : A -> cells_t -> Prop) :
  triple D m Q -> (forall a E, Q a E -> exists E', Permutation E E' /\ R a E') -> triple D m R.
Proof.
  intros T C h H. destruct (T h H) as (a & E & h' & r & q & H' & F1 & F2 & F3).
  destruct (C _ _ q) as (E' & P & q').
  assert (K : forall x, In x (keys E) <-> In x (keys E')).
  { intros x. split; apply Permutation_in; apply keys_perm; auto. symmetry; auto. }
  exists a, E', h'. split; auto. split; auto. split; [eapply hp_perm; eauto|]. repeat split.
  - intros x N N'. apply F1; auto. apply K; auto.
  - intros x N N'. apply F2; auto. rewrite K; auto.
  - intros x N N'. apply F3; auto. rewrite K; auto.
Qed.
Lemma t_det {A} D (m : M A) a E E' : triple D m (det a E) -> Permutation E E' -> triple D m (det a E').
Proof.
  intros T P. eapply t_conseq; [exact T|]. intros a' E0 [-> ->]. exists E'. split; auto. split; auto.
Qed.
Lemma t_bnd {A B} D (m : M A) (f : A -> M B) Q R :
  triple D m Q -> (forall a E, Q a E -> triple E (f a) R) -> triple D (bnd m f) R.
Proof.
  intros T K h H. destruct (T h H) as (a & D1 & h1 & r1 & q1 & H1 & F1 & F2 & F3).
  destruct (K a D1 q1 h1 H1) as (b & D2 & h2 & r2 & q2 & H2 & G1 & G2 & G3).
  exists b, D2, h2. split; [rewrite (bnd_Ok _ _ _ _ _ r1); exact r2|]. do 2 (split; auto). repeat split.
  - intros x N I. destruct (in_dec Z.eq_dec x (keys D1)) as [J|J]; [auto|].
    rewrite <- F2 by auto. auto.
  - intros x N I. destruct (in_dec Z.eq_dec x (keys D1)) as [J|J].
    + rewrite G3, F1; auto.
    + rewrite G2, F2; auto.
  - intros x N I. destruct (in_dec Z.eq_dec x (keys D1)) as [J|J]; auto.
    rewrite G2; auto.
Qed.
Lemma t_seq {A B} D (m : M A) (f : A -> M B) a E R :
  triple D m (det a E) -> triple E (f a) R -> triple D (bnd m f) R.
Proof. intros T K. eapply t_bnd; [exact T|]. intros ? ? [-> ->]. exact K. Qed.
Lemma t_frame {A} D F (m : M A) (Q : A -> cells_t -> Prop) :
  triple D m Q -> triple (D ++ F) m (fun a E => exists D', E = D' ++ F /\ Q a D').
Proof.
  intros T h H. destruct (T h (hp_app_l _ _ _ H)) as (a & D' & h' & r & q & H' & F1 & F2 & F3).
  pose proof (hp_app_r _ _ _ H) as HF. pose proof (proj1 H) as ND. rewrite keys_app in ND.
  assert (DJ : forall x, In x (keys F) -> ~ In x (keys D)) by (intros x I J; eapply nodup_app_not in J; eauto).
  assert (DJ' : forall x, In x (keys F) -> ~ In x (keys D')).
  { intros x I J. apply (hp_get _ _ _ HF I). apply F1; auto. }
  exists a, (D' ++ F), h'. split; auto. split; [eauto|]. split.
  - split.
    + rewrite keys_app. apply nodup_app_intro; [apply H'|apply HF|]. intros x I J. eapply DJ'; eauto.
    + intros x c I. apply in_app_or in I as [I|I]; [apply H'; auto|].
      assert (In x (keys F)) by (apply in_keys; eauto). rewrite F2; auto. apply HF; auto.
  - rewrite !keys_app. repeat split; intros x N I; rewrite in_app_iff in *.
    + apply F1; tauto.
    + apply F2; tauto.
    + apply F3; tauto.
Qed.
Lemma t_frame_det {A} D F (m : M A) a E : triple D m (det a E) -> triple (D ++ F) m (det a (E ++ F)).
Proof.
  intros T. eapply t_conseq; [apply t_frame; exact T|]. intros a' E' (D' & -> & -> & ->).
  eexists; split; [reflexivity|split; reflexivity].
Qed.

Lemma t_ret {A} D (a : A) (Q : A -> cells_t -> Prop) : Q a D -> triple D (ret a) Q.
Proof. intros q h H. exists a, D, h. repeat (split; auto); intros; tauto. Qed.
Lemma t_ret_det {A} D (a : A) E : Permutation D E -> triple D (ret a) (det a E).
Proof. intros P. eapply t_det; [apply t_ret; split; reflexivity|exact P]. Qed.
Lemma t_bret {A B} D (a : A) (f : A -> M B) Q : triple D (f a) Q -> triple D (bnd (ret a) f) Q.
Proof. intros T. exact T. Qed.
Lemma t_assoc {A B C} D (m : M A) (f : A -> M B) (g : B -> M C) Q :
  triple D (bnd m (fun x => bnd (f x) g)) Q -> triple D (bnd (bnd m f) g) Q.
Proof.
  intros T h H. destruct (T h H) as (a & D' & h' & r & X). exists a, D', h'. split; auto.
  rewrite <- r. unfold bnd. destruct (m h) as [[y hy]| | |]; reflexivity.
Qed.
Lemma t_tail {A} D (m : M A) Q : triple D (bnd m (fun x => ret x)) Q -> triple D m Q.
Proof.
  intros T h H. destruct (T h H) as (a & D' & h' & r & X). exists a, D', h'. split; auto.
  rewrite <- r. unfold bnd, ret. destruct (m h) as [[y hy]| | |]; reflexivity.
Qed.
Lemma t_eq {A} D (m m' : M A) Q : (forall h, m h = m' h) -> triple D m' Q -> triple D m Q.
Proof. intros E T h H. destruct (T h H) as (a & D' & h' & r & X). exists a, D', h'. rewrite E. auto. Qed.

Lemma t_ld_aelem {B} D a c (f : aelem_c -> M B) Q :
  In (a, CAelem c) D -> triple D (f c) Q -> triple D (bnd (ld_aelem a) f) Q.
Proof.
  intros I T h H. destruct (T h H) as (b & D' & h' & r & X). exists b, D', h'. split; auto.
  unfold bnd, ld_aelem. rewrite (proj2 H _ _ I). exact r.
Qed.
Lemma t_ld_avl {B} D a c (f : avl_c -> M B) Q :
  In (a, CAvl c) D -> triple D (f c) Q -> triple D (bnd (ld_avl a) f) Q.
Proof.
  intros I T h H. destruct (T h H) as (b & D' & h' & r & X). exists b, D', h'. split; auto.
  unfold bnd, ld_avl. rewrite (proj2 H _ _ I). exact r.
Qed.
Lemma hp_put h a c c' D : hp h ((a, c) :: D) -> hp (put_cell h a c') ((a, c') :: D).
Proof.
  intros [N H]. assert (a <> 0) by (apply get_nonnull with h c; apply H; left; auto). split; [exact N|].
  intros x d [I|I].
  - injection I as -> ->. rewrite get_put by auto. rewrite Z.eqb_refl. reflexivity.
  - rewrite get_put by auto. inversion N as [|? ? N1 N2]; subst.
    assert (x <> a) by (intros ->; apply N1; apply in_keys; eauto).
    replace (x =? a) with false by lia. apply H. right; auto.
Qed.
Lemma t_put {A} D a c c' (m : M A) x :
  (forall h, get h a = Some c -> m h = Ok (x, put_cell h a c')) -> triple ((a, c) :: D) m (det x ((a, c') :: D)).
Proof.
  intros R h H. assert (Hg : get h a = Some c) by (apply H; left; auto).
  eexists x, _, _. split; [apply R; exact Hg|]. split; [split; reflexivity|]. split; [eapply hp_put; eauto|].
  cbn [keys map fst]. repeat split; intros y N I; try tauto.
  rewrite get_put by (eapply get_nonnull; eauto). destruct (y =? a) eqn:E; auto.
  apply Z.eqb_eq in E. subst y. exfalso. apply N. left; auto.
Qed.
Lemma t_st_aelem D a c c' : triple ((a, CAelem c) :: D) (st_aelem a c') (det tt ((a, CAelem c') :: D)).
Proof. apply t_put. intros h H. unfold st_aelem. rewrite H. reflexivity. Qed.
Lemma t_st_avl D a c c' : triple ((a, CAvl c) :: D) (st_avl a c') (det tt ((a, CAvl c') :: D)).
Proof. apply t_put. intros h H. unfold st_avl. rewrite H. reflexivity. Qed.
Lemma t_free D a c : triple ((a, c) :: D) (free a) (det tt D).
Proof.
  intros h H. assert (Hg : get h a = Some c) by (apply H; left; auto). destruct H as [N H].
  inversion N as [|? ? N1 N2]; subst.
  exists tt, D, (drop_cell h a). split; [unfold free; rewrite Hg; reflexivity|]. split; [split; reflexivity|]. split.
  - split; auto. intros x d I. rewrite get_drop. assert (x <> a) by (intros ->; apply N1; apply in_keys; eauto).
    replace (x =? a) with false by lia. apply H. right; auto.
  - cbn [keys map fst]. repeat split; intros y M I.
    + exfalso. apply M. right; auto.
    + rewrite get_drop. destruct (y =? a) eqn:E; auto. apply Z.eqb_eq in E. subst. exfalso. apply M. left; auto.
    + rewrite get_drop. destruct M as [<-|M]; [rewrite Z.eqb_refl; auto|]. tauto.
Qed.
Lemma t_alloc D c : triple D (alloc c) (fun a E => E = (a, c) :: D /\ a <> 0).
Proof.
  intros h H. destruct (alloc_spec c h) as (a & h' & r & Ha & Hn & G).
  assert (NI : ~ In a (keys D)) by (intros I; apply (hp_get _ _ _ H I); auto).
  exists a, ((a, c) :: D), h'. split; auto. split; auto. split.
  - split; [constructor; [exact NI|apply H]|]. intros x d [I|I].
    + injection I as -> ->. rewrite G, Z.eqb_refl. reflexivity.
    + rewrite G. assert (x <> a) by (intros ->; apply NI; apply in_keys; eauto).
      replace (x =? a) with false by lia. apply H; auto.
  - cbn [keys map fst]. repeat split.
    + intros x N [<-|I]; [auto|tauto].
    + intros x N I. rewrite G. destruct (x =? a) eqn:E; auto. apply Z.eqb_eq in E. subst. exfalso. apply I. left; auto.
    + intros x N I. exfalso. apply I. right; auto.
Qed.
Lemma t_fuel D : triple D fuel (fun n E => E = D /\ (length D < n)%nat).
Proof.
  intros h H. exists (S (length (mem h))), D, h. split; [reflexivity|]. split; [split; [reflexivity|]|].
  - assert (length (keys D) <= length (mem h))%nat as B.
    { apply cells_bound; [apply H|]. intros a I. eapply hp_get; eauto. }
    unfold keys in B. rewrite map_length in B. lia.
  - split; auto. repeat split; auto; intros; tauto.
Qed.

(** Computations that do not change the heap. *)
Definition reads {A} (D : cells_t) (m : M A) (a : A) : Prop := forall h, hp h D -> m h = Ok (a, h).
Lemma t_reads {A} D (m : M A) a : reads D m a -> triple D m (det a D).
Proof.
  intros R h H. exists a, D, h. split; [apply R; exact H|]. split; [split; reflexivity|].
  split; auto. repeat split; auto; intros; tauto.
Qed.
Lemma r_ok {A} D (m : M A) a : (ok D -> reads D m a) -> reads D m a.
Proof. intros R h H. apply R; auto. exists h; auto. Qed.
Lemma r_perm {A} D E (m : M A) a : Permutation D E -> reads E m a -> reads D m a.
Proof. intros P R h H. apply R. eapply hp_perm; eauto. Qed.
Lemma r_ret {A} D (a : A) : reads D (ret a) a.
Proof. intros h H. reflexivity. Qed.
Lemma r_seq {A B} D (m : M A) (f : A -> M B) a b : reads D m a -> reads D (f a) b -> reads D (bnd m f) b.
Proof. intros R S h H. rewrite (bnd_Ok _ _ _ _ _ (R h H)). apply S; auto. Qed.
Lemma r_ld_aelem {B} D a c (f : aelem_c -> M B) b :
  In (a, CAelem c) D -> reads D (f c) b -> reads D (bnd (ld_aelem a) f) b.
Proof. intros I R h H. unfold bnd, ld_aelem. rewrite (proj2 H _ _ I). apply R; auto. Qed.
Lemma r_ld_avl {B} D a c (f : avl_c -> M B) b :
  In (a, CAvl c) D -> reads D (f c) b -> reads D (bnd (ld_avl a) f) b.
Proof. intros I R h H. unfold bnd, ld_avl. rewrite (proj2 H _ _ I). apply R; auto. Qed.
Lemma r_fuel {B} D (f : nat -> M B) b :
  (forall n, (length D < n)%nat -> reads D (f n) b) -> reads D (bnd fuel f) b.
Proof.
  intros R h H. destruct (t_fuel D h H) as (n & D' & h' & r & [-> L] & _).
  unfold fuel in r. injection r as <- <-. unfold bnd, fuel. apply R; auto.
Qed.
Lemma r_frame {A} D F (m : M A) a : reads D m a -> reads (D ++ F) m a.
Proof. intros R h H. apply R. eapply hp_app_l; eauto. Qed.

(** ** Permutations *)
Lemma br_cons {A} (x y : A) r e : Permutation r (x :: e) -> Permutation (y :: r) (x :: y :: e).
Proof. intros P. rewrite P. apply perm_swap. Qed.
Lemma br_app {A} (x : A) B r e : Permutation r (x :: e) -> Permutation (B ++ r) (x :: B ++ e).
Proof. intros P. rewrite P. symmetry. apply Permutation_middle. Qed.
Lemma bra_cons {A} (B : list A) y r e : Permutation r (B ++ e) -> Permutation (y :: r) (B ++ y :: e).
Proof. intros P. rewrite P. apply Permutation_middle. Qed.
Lemma bra_app {A} (B C : list A) r e : Permutation r (B ++ e) -> Permutation (C ++ r) (B ++ C ++ e).
Proof. intros P. rewrite P. apply Permutation_app_swap_app. Qed.
Lemma br_end {A} (B : list A) e : Permutation (B ++ e) (B ++ e).
Proof. reflexivity. Qed.
Lemma br_last {A} (B : list A) : Permutation B (B ++ []).
Proof. rewrite app_nil_r. reflexivity. Qed.

(** Brings the cell of an address to the front: solves
    [Permutation D ((a, ?c) :: ?E)]. *)
Ltac bring :=
  lazymatch goal with
  | |- Permutation ((?a, _) :: _) ((?a, _) :: _) => apply Permutation_refl
  | |- Permutation (_ :: _) (_ :: _) => eapply br_cons; bring
  | |- Permutation (_ ++ _) (_ :: _) => eapply br_app; bring
  end.
(** The same for a block: [Permutation D (B ++ ?E)]. *)
Ltac bringa :=
  lazymatch goal with
  | |- Permutation (?B ++ _) (?B ++ _) => apply Permutation_refl
  | |- Permutation ?B (?B ++ _) => apply br_last
  | |- Permutation (_ :: _) (_ ++ _) => eapply bra_cons; bringa
  | |- Permutation (_ ++ _) (_ ++ _) => eapply bra_app; bringa
  end.
Ltac norm := repeat (rewrite <- !app_assoc || rewrite <- !app_comm_cons || rewrite !app_nil_r || rewrite !app_nil_l).
(** Decides [Permutation D E] for lists built from the same cells and blocks. *)
Lemma perm_step {A} (x : A) D e r : Permutation D (x :: r) -> Permutation r e -> Permutation D (x :: e).
Proof. intros P Q. rewrite P, Q. reflexivity. Qed.
Lemma perm_stepa {A} (B : list A) D e r : Permutation D (B ++ r) -> Permutation r e -> Permutation D (B ++ e).
Proof. intros P Q. rewrite P, Q. reflexivity. Qed.
Lemma perm_lasta {A} (B : list A) D r : Permutation D (B ++ r) -> Permutation r [] -> Permutation D B.
Proof. intros P Q. rewrite P, Q, app_nil_r. reflexivity. Qed.
Ltac perm :=
  norm;
  lazymatch goal with
  | |- Permutation [] [] => apply perm_nil
  | |- Permutation ?A ?A => apply Permutation_refl
  | |- Permutation _ (_ :: _) => eapply perm_step; [bring|perm]
  | |- Permutation _ (_ ++ _) => eapply perm_stepa; [bringa|perm]
  | |- Permutation _ _ => eapply perm_lasta; [bringa|perm]
  end.
Ltac intac :=
  lazymatch goal with
  | |- In (?a, _) ((?a, _) :: _) => left; reflexivity
  | |- In _ (_ :: _) => right; intac
  | |- In _ (_ ++ _) => apply in_or_app; right; intac
  end.
(** Focus on a cell. *)
Ltac tpick a := eapply t_perm; [norm; match goal with |- Permutation _ ?E => let c := open_constr:((a, _) :: _) in unify E c end; bring|].
Ltac tpicka B := eapply t_perm; [norm; match goal with |- Permutation _ ?E => let c := open_constr:(B ++ _) in unify E c end; bringa|].

Ltac nonnull O a := let N := fresh "N" in assert (N : a <> 0) by (eapply (ok_nonnull _ _ _ O); norm; intac).
Ltac differ O a b := let N := fresh "N" in
  assert (N : a <> b) by (eapply (ok_distinct _ a _ b _ _ O); norm; eapply perm_step; [bring|bring]).
