(** How deep the recursive functions of AVL trees recurse. *)
From Verif Require Import Base Heap Sep AvlModel AvlSpec AvlProofs AvlDetach AvlReads AvlHist AvlAnySpec AvlAny.
From Coq Require Import Permutation.

(** ** What succeeds within a depth does the same within a greater one *)
Definition le_m {A} (f g : M A) : Prop := forall h x, f h = Ok x -> g h = Ok x.
Lemma le_refl {A} (f : M A) : le_m f f.
Proof. intros h x H. exact H. Qed.
Lemma le_bnd {A B} (f g : M A) (k k' : A -> M B) : le_m f g -> (forall a, le_m (k a) (k' a)) -> le_m (bnd f k) (bnd g k').
Proof.
  intros H K h x. unfold bnd. destruct (f h) as [[a h1]| | |] eqn:F; try discriminate. rewrite (H _ _ F). apply K.
Qed.
Lemma le_fail {A} (g : M A) : le_m no_fuel g.
Proof. intros h x. discriminate. Qed.

Ltac le_step := match goal with
  | |- le_m (bnd _ _) (bnd _ _) => apply le_bnd; [|intros ?]
  | |- le_m ?x ?x => apply le_refl
  | |- le_m (if ?b then _ else _) (if ?b then _ else _) => destruct b
  | H : forall _, le_m _ _ |- _ => apply H
  end.
Ltac le_run := repeat le_step.

Lemma destroy_le n : forall n', (n <= n')%nat -> forall e, le_m (destroy_subtree n e) (destroy_subtree n' e).
Proof.
  induction n as [|n IH]; intros n' Hn e; [apply le_fail|]. destruct n' as [|n']; [lia|].
  specialize (IH n' ltac:(lia)). cbn [destroy_subtree]. le_run.
Qed.
Lemma copy_le n : forall n', (n <= n')%nat -> forall e, le_m (copy_tree n e) (copy_tree n' e).
Proof.
  induction n as [|n IH]; intros n' Hn e; [apply le_fail|]. destruct n' as [|n']; [lia|].
  specialize (IH n' ltac:(lia)). cbn [copy_tree]. le_run.
Qed.
Lemma put_le call T e n : forall n', (n <= n')%nat -> forall pl, le_m (put call n T pl e) (put call n' T pl e).
Proof.
  induction n as [|n IH]; intros n' Hn pl; [apply le_fail|]. destruct n' as [|n']; [lia|].
  specialize (IH n' ltac:(lia)). cbn [put]. unfold put_left, put_right. le_run.
Qed.
Lemma lighten_le T n : forall n', (n <= n')%nat -> forall e, le_m (lighten_parent n T e) (lighten_parent n' T e).
Proof.
  induction n as [|n IH]; intros n' Hn e; [apply le_fail|]. destruct n' as [|n']; [lia|].
  specialize (IH n' ltac:(lia)). cbn [lighten_parent]. unfold lighten_left, lighten_right, relink. le_run.
Qed.

Lemma destroy_within_le n n' T : (n <= n')%nat -> le_m (destroy_avl_tree_within n T) (destroy_avl_tree_within n' T).
Proof. intros H. pose proof (destroy_le n n' H). unfold destroy_avl_tree_within. le_run. Qed.
Lemma copy_within_le n n' T : (n <= n')%nat -> le_m (avl_tree_copy_within n T) (avl_tree_copy_within n' T).
Proof. intros H. pose proof (copy_le n n' H). unfold avl_tree_copy_within. le_run. Qed.
Lemma put_within_le n n' call T k v : (n <= n')%nat -> le_m (avl_tree_put_within n call T k v) (avl_tree_put_within n' call T k v).
Proof.
  intros H. unfold avl_tree_put_within. apply le_bnd; [apply le_refl|]. intros e. pose proof (put_le call T e n n' H). le_run.
Qed.
Lemma detach_within_le n n' T e : (n <= n')%nat -> le_m (avl_tree_detach_within n T e) (avl_tree_detach_within n' T e).
Proof.
  intros H. pose proof (lighten_le T n n' H). unfold avl_tree_detach_within, lighten_left, lighten_right, relink. le_run.
Qed.

(** The operation with any depth that is enough, and the operation itself. *)
Lemma enough {A} (op : nat -> M A) h d x y : (forall n n', (n <= n')%nat -> le_m (op n) (op n')) ->
  op d h = Ok x -> (let! n := fuel in op n) h = Ok y ->
  (let! n := fuel in op n) h = Ok x /\ forall n, (d <= n)%nat -> op n h = Ok x.
Proof.
  intros LE R F. unfold bnd, fuel in *. cbn beta iota in *.
  assert (P : forall n, (d <= n)%nat -> op n h = Ok x) by (intros n Hn; exact (LE d n Hn h x R)).
  split; [|exact P].
  pose proof (P (Nat.max d (S (length (mem h)))) ltac:(lia)) as P1.
  pose proof (LE (S (length (mem h))) (Nat.max d (S (length (mem h)))) ltac:(lia) h y F) as P2. congruence.
Qed.

(** ** The depths *)
Lemma plug_height c t : Z.of_nat (length c) + height t <= height (plug c t).
Proof.
  revert t. induction c as [|[a k v b r|l a k v b] c IH]; intros t; cbn [plug length].
  - lia.
  - specialize (IH (N t a k v b r)). cbn [height] in IH. pose proof (height_pos r). lia.
  - specialize (IH (N l a k v b t)). cbn [height] in IH. pose proof (height_pos l). lia.
Qed.

Section depth.
  Variables (cmp obj : Z).
  Local Notation is_tree := (AvlAny.is_tree cmp obj).

  Lemma destroy_depth h T m : is_tree h T m -> exists d h', 0 <= d /\ logarithmic d (zlen m) /\ destroy_avl_tree T h = Ok (tt, h') /\
    forall n, d < Z.of_nat n -> destroy_avl_tree_within n T h = Ok (tt, h').
  Proof using cmp obj.
    intros A. pose proof A as (Z0 & t & E0 & B & H). exists (height t). pose proof (height_pos t).
    destruct (destroy_within_ok T cmp obj (zlen m) t (S (Z.to_nat (height t))) ltac:(lia) h H) as ([] & D & h' & Run & _).
    destruct (destroy_any cmp obj h T m A) as (h1 & Run1 & _).
    destruct (enough (fun n => destroy_avl_tree_within n T) h _ _ _ (fun n n' => destroy_within_le n n' T) Run Run1) as [R1 R2].
    exists h'. split; [lia|]. split; [rewrite <- E0; apply count_log; [exact B|lia]|]. split; [exact R1|].
    intros n Hn. apply R2. lia.
  Qed.
  Lemma copy_depth h T m : is_tree h T m -> exists d T' h', 0 <= d /\ logarithmic d (zlen m) /\ avl_tree_copy T h = Ok (T', h') /\
    forall n, d <= Z.of_nat n -> avl_tree_copy_within n T h = Ok (T', h').
  Proof using cmp obj.
    intros A. pose proof A as (Z0 & t & E0 & B & H). exists (height t). pose proof (height_pos t).
    assert (HS : elems t = [] -> zlen m = 0) by (intros X; rewrite <- E0, X; reflexivity).
    destruct (copy_within_ok T cmp obj (zlen m) t (Z.to_nat (height t)) HS ltac:(lia) h H) as (T' & D & h' & Run & _).
    destruct (copy_any cmp obj h T m A) as (T1 & h1 & m1 & Run1 & _).
    destruct (enough (fun n => avl_tree_copy_within n T) h _ _ _ (fun n n' => copy_within_le n n' T) Run Run1) as [R1 R2].
    exists T', h'. split; [lia|]. split; [rewrite <- E0; apply count_log; [exact B|lia]|]. split; [exact R1|].
    intros n Hn. apply R2. lia.
  Qed.
  Lemma put_depth call h T m k v : is_tree h T m -> sparse m -> exists d r h', 0 <= d /\ logarithmic d (zlen m) /\
    avl_tree_put_counted call T k v h = Ok (r, h') /\
    forall n, d <= Z.of_nat n -> avl_tree_put_within n call T k v h = Ok (r, h').
  Proof using cmp obj.
    intros A Sp. pose proof A as (Z0 & t & E0 & B & H). exists (height t). pose proof (height_pos t).
    assert (SZ : 0 <= zlen m <= 2 ^ 60) by (pose proof (zlen_nonneg m); lia).
    destruct (put_within_ok call cmp obj T (zlen m) t k v (Z.to_nat (height t)) B SZ ltac:(intros ->; rewrite <- E0; reflexivity) ltac:(lia) h H)
      as (r & D & h' & Run & _).
    destruct (put_any cmp obj call h T m k v A Sp) as (m1 & o & m2 & r1 & e1 & h1 & n1 & _ & Run1 & _).
    destruct (enough (fun n => avl_tree_put_within n call T k v) h _ _ _ (fun n n' => put_within_le n n' call T k v) Run Run1) as [R1 R2].
    exists r, h'. split; [lia|]. split; [rewrite <- E0; apply count_log; [exact B|lia]|]. split; [exact R1|].
    intros n Hn. apply R2. lia.
  Qed.
  Lemma detach_depth h T m m1 x m2 : is_tree h T m -> m = m1 ++ x :: m2 -> exists d h', 0 <= d /\ logarithmic d (zlen m) /\
    avl_tree_detach T (a_elem x) h = Ok (tt, h') /\
    forall n, d <= Z.of_nat n -> avl_tree_detach_within n T (a_elem x) h = Ok (tt, h').
  Proof using cmp obj.
    intros A Em. pose proof A as (Z0 & t & E0 & B & H).
    assert (E1 : elems t = m1 ++ x :: m2) by congruence.
    destruct (zip_elem t x m1 m2 E1) as (c & l & b & r & Et & Em1 & Em2).
    assert (SZ : 1 <= zlen m <= 2 ^ 60).
    { split; auto. rewrite Em. rewrite zlen_app, zlen_cons. pose proof (zlen_nonneg m1). pose proof (zlen_nonneg m2). lia. }
    rewrite Et in B.
    destruct (detach_within_ok T cmp obj (zlen m) c l (a_elem x) (a_key x) (a_value x) b r B SZ) as (c' & t' & q & B1 & S' & _ & _ & TR).
    assert (H1 : hp h (full T cmp obj (zlen m) c (N l (a_elem x) (a_key x) (a_value x) b r))).
    { eapply hp_perm; [symmetry; apply full_plug|]. rewrite <- Et. exact H. }
    destruct (TR (length c') (Nat.le_refl _) h H1) as ([] & D & h' & Run & _).
    destruct (detach_any cmp obj h T m m1 x m2 A Em) as (h1 & Run1 & _).
    destruct (enough (fun n => avl_tree_detach_within n T (a_elem x)) h _ _ _ (fun n n' => detach_within_le n n' T (a_elem x)) Run Run1) as [R1 R2].
    exists (Z.of_nat (length c')), h'. split; [lia|]. split.
    - replace (zlen m) with (zlen (elems (plug c' (N E (a_elem x) (a_key x) (a_value x) 0 E)))).
      + apply count_log; [exact B1|]. pose proof (plug_height c' (N E (a_elem x) (a_key x) (a_value x) 0 E)) as P. cbn [height] in P. lia.
      + rewrite elems_plug. cbn [elems app].
        assert (L1 : zlen (before_c c' ++ after_c c') = zlen (m1 ++ m2)).
        { rewrite S', Em1, Em2, <- !app_assoc. reflexivity. }
        rewrite Em. rewrite !zlen_app in L1. rewrite !zlen_app, !zlen_cons. lia.
    - split; [exact R1|]. intros n Hn. apply R2. lia.
  Qed.
End depth.
