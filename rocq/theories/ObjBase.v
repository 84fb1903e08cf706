(** Accesses to the fields of the objects of ObjModel.v, and what an object does to the memory. *)
From Verif Require Import Base CMem Heap ListModel ListSpec ListProofs ObjModel OwnModel OwnSpec OwnProofs.
From Coq Require Import ZifyBool ZifyNat.

(** ** Single accesses *)
Lemma field_ok a i c v h : get h a = Some (CSlots c) -> rd c i = Ok v -> field a i h = Ok (v, h).
Proof. intros H R. unfold field. rewrite (step_ld_slots _ _ _ _ H). unfold lift. rewrite R. reflexivity. Qed.
Lemma set_field_ok a i c c' v h : get h a = Some (CSlots c) -> wr c i v = Ok c' -> set_field a i v h = Ok (tt, put_cell h a (CSlots c')).
Proof. intros H R. unfold set_field. rewrite (step_ld_slots _ _ _ _ H). rewrite R, step_lift. unfold st_slots. rewrite H. reflexivity. Qed.
Lemma step_field {B} (f : Z -> M B) a i c v h : get h a = Some (CSlots c) -> rd c i = Ok v -> bnd (field a i) f h = f v h.
Proof. intros H R. rewrite (bnd_Ok _ _ _ _ _ (field_ok _ _ _ _ _ H R)). reflexivity. Qed.
Lemma step_set_field {B} (f : unit -> M B) a i c c' v h : get h a = Some (CSlots c) -> wr c i v = Ok c' ->
  bnd (set_field a i v) f h = f tt (put_cell h a (CSlots c')).
Proof. intros H R. rewrite (bnd_Ok _ _ _ _ _ (set_field_ok _ _ _ _ _ _ H R)). reflexivity. Qed.
Lemma step_ret {A B} (a : A) (f : A -> M B) h : bnd (ret a) f h = f a h.
Proof. reflexivity. Qed.

(** ** What an object does to the memory: its cells were [c], and are [c'] now. *)
Definition turns (c c' : list Z) (h h' : heap) : Prop :=
  (forall x, ~ In x c -> ~ In x c' -> get h' x = get h x) /\
  (forall x, In x c' -> ~ In x c -> get h x = None) /\
  (forall x, In x c -> ~ In x c' -> get h' x = None).

Lemma turns_refl c h : turns c c h h.
Proof. split; [auto|]. split; tauto. Qed.
Lemma turns_trans c1 c2 c3 h1 h2 h3 : turns c1 c2 h1 h2 -> turns c2 c3 h2 h3 -> turns c1 c3 h1 h3.
Proof.
  intros (A1 & A2 & A3) (B1 & B2 & B3). split; [|split].
  - intros x X Y. destruct (in_dec Z.eq_dec x c2) as [Z2|Z2].
    + rewrite (B3 x Z2 Y). symmetry. exact (A2 x Z2 X).
    + rewrite B1 by assumption. apply A1; assumption.
  - intros x X Y. destruct (in_dec Z.eq_dec x c2) as [Z2|Z2]; [exact (A2 x Z2 Y)|].
    rewrite <- (A1 x Y Z2). exact (B2 x X Z2).
  - intros x X Y. destruct (in_dec Z.eq_dec x c2) as [Z2|Z2]; [exact (B3 x Z2 Y)|].
    rewrite B1 by assumption. exact (A3 x X Z2).
Qed.
Lemma turns_put c h a v : In a c -> a <> 0 -> turns c c h (put_cell h a v).
Proof.
  intros Ia Na. split; [|split; tauto]. intros x X _. rewrite get_put by exact Na.
  destruct (Z.eqb_spec x a); [subst; tauto|reflexivity].
Qed.

Lemma free_ok a c h : get h a = Some c -> fsfree a h = Ok (tt, drop_cell h a).
Proof.
  intros H. unfold fsfree. rewrite (proj2 (Z.eqb_neq a 0)) by (eapply get_nonnull; exact H). unfold free. rewrite H. reflexivity.
Qed.
Lemma put_same {A} k (x : A) l : nth_error l k = Some x -> firstn k l ++ x :: skipn (S k) l = l.
Proof.
  revert l. induction k as [|k IH]; intros [|y l] E; cbn [nth_error] in E; try discriminate.
  - injection E as ->. reflexivity.
  - change (y :: (firstn k l ++ x :: skipn (S k) l) = y :: l). rewrite IH by exact E. reflexivity.
Qed.
