(** Functions that access memory a constant number of times. *)
From Verif Require Import Base Heap ThreadModel ThreadApi ConstSpec.
Open Scope list_scope.
Open Scope Z_scope.

Definition counted (n : nat) {A} (m : M A) : Type := { s : steps A | (forall h, effect s h = m h) /\ within n s }.
Lemma counted_takes n {A} (m : M A) : counted n m -> takes n m.
Proof. intros [s H]. exists s. exact H. Qed.

Lemma within_more {A} (s : steps A) : forall n, within n s -> within (S n) s.
Proof. induction s as [a| | | |a r IH|a ch r IH|c r IH|a r IH|e r IH]; intros [|n] W; cbn in *; try easy; intros; apply IH, W. Qed.
Lemma within_le {A} (s : steps A) n j : within n s -> within (j + n) s.
Proof. intros W. induction j as [|j IH]; [exact W|apply within_more, IH]. Qed.
Lemma within_followed {A B} (k : A -> steps B) n (K : forall a, within n (k a)) (s : steps A) : forall j, within j s -> within (j + n) (followed_by s k).
Proof.
  induction s as [a| | | |a r IH|a ch r IH|c r IH|a r IH|e r IH]; intros j W; cbn [followed_by].
  - apply within_le, K.
  - destruct j, n; exact I.
  - destruct j, n; exact I.
  - destruct j, n; exact I.
  - destruct j as [|j]; [destruct W|]. intros c. apply IH, W.
  - destruct j as [|j]; [destruct W|]. apply (IH j), W.
  - destruct j as [|j]; [destruct W|]. intros c'. apply IH, W.
  - destruct j as [|j]; [destruct W|]. apply (IH j), W.
  - destruct j; destruct W.
Qed.
(** A primitive of one access, and then the rest. *)
Definition counted_bnd n {ro A B} (m : M A) (f : A -> M B) (Hm : coded ro m) : within 1 (proj1_sig Hm) -> (forall a, counted n (f a)) -> counted (S n) (bnd m f).
Proof.
  intros W K. exists (followed_by (proj1_sig Hm) (fun a => proj1_sig (K a))). split.
  - intros h. rewrite followed_effect. unfold bnd. rewrite (proj1 (proj2_sig Hm)). destruct (m h) as [[a h']| | |]; try reflexivity. apply (proj1 (proj2_sig (K a))).
  - apply (within_followed _ n (fun a => proj2 (proj2_sig (K a))) _ 1%nat W).
Defined.
Definition counted_one n {ro A} (m : M A) (Hm : coded ro m) : within 1 (proj1_sig Hm) -> counted (S n) m.
Proof.
  intros W. exists (proj1_sig Hm). split; [apply (proj2_sig Hm)|]. clear -W. induction n as [|n IH]; [exact W|apply within_more, IH].
Defined.
Definition counted_ret n {A} (a : A) : counted n (ret a).
Proof. exists (Finish a). split; [reflexivity|destruct n; exact I]. Defined.
Definition counted_fail n {A} : counted n (@fail A).
Proof. exists Undefined. split; [reflexivity|destruct n; exact I]. Defined.
Definition counted_lift n {A} (r : res A) : counted n (lift r).
Proof. destruct r; [exists (Finish a)|exists Undefined|exists Aborts|exists Exhausted]; (split; [reflexivity|destruct n; exact I]). Defined.
Definition counted_bnd_ret n {A B} (a : A) (f : A -> M B) : counted n (f a) -> counted n (bnd (ret a) f).
Proof. intros K. exact K. Defined.
Definition counted_bnd_fail n {A B} (f : A -> M B) : counted n (bnd (@fail A) f).
Proof. exists Undefined. split; [reflexivity|destruct n; exact I]. Defined.
Definition counted_bnd_lift n {A B} (r : res A) (f : A -> M B) : (forall a, counted n (f a)) -> counted n (bnd (lift r) f).
Proof. intros K. destruct r as [a| | |]; [exact (K a)|exists Undefined|exists Aborts|exists Exhausted]; (split; [reflexivity|destruct n; exact I]). Defined.
Definition counted_bnd_bnd n {A B C} (m : M A) (f : A -> M B) (g : B -> M C) : counted n (bnd m (fun a => bnd (f a) g)) -> counted n (bnd (bnd m f) g).
Proof.
  intros [s [E W]]. exists s. split; [|exact W]. intros h. rewrite E. unfold bnd. destruct (m h) as [[a h']| | |]; reflexivity.
Defined.

Ltac one_access m :=
  match m with
  | alloc ?c => constr:(c_alloc c) | free ?a => constr:(c_free a)
  | ld_list ?a => constr:(@c_ld_list false a) | ld_lelem ?a => constr:(@c_ld_lelem false a) | ld_htab ?a => constr:(@c_ld_htab false a)
  | ld_slots ?a => constr:(@c_ld_slots false a) | ld_helem ?a => constr:(@c_ld_helem false a) | ld_avl ?a => constr:(@c_ld_avl false a) | ld_aelem ?a => constr:(@c_ld_aelem false a)
  | st_list ?a ?x => constr:(c_st_list a x) | st_lelem ?a ?x => constr:(c_st_lelem a x) | st_htab ?a ?x => constr:(c_st_htab a x)
  | st_slots ?a ?x => constr:(c_st_slots a x) | st_helem ?a ?x => constr:(c_st_helem a x) | st_avl ?a ?x => constr:(c_st_avl a x) | st_aelem ?a ?x => constr:(c_st_aelem a x)
  end.
Ltac access_goal := cbn; auto; let c := fresh in intros c; destruct c; exact I.
Ltac count1 :=
  cbv beta zeta;
  match goal with
  | |- counted _ (match ?x with _ => _ end) => destruct x
  | |- counted _ (bnd (match ?x with _ => _ end) _) => destruct x
  | |- counted _ (ret _) => apply counted_ret
  | |- counted _ fail => apply counted_fail
  | |- counted _ (lift _) => apply counted_lift
  | |- counted _ (bnd (ret _) _) => apply counted_bnd_ret
  | |- counted _ (bnd fail _) => apply counted_bnd_fail
  | |- counted _ (bnd (lift _) _) => apply counted_bnd_lift; intro
  | |- counted _ (bnd (bnd _ _) _) => apply counted_bnd_bnd
  | |- counted (S _) (bnd ?m _) => let c := one_access m in apply (counted_bnd _ _ _ c); [access_goal|intro]
  | |- counted (S _) ?m => let c := one_access m in apply (counted_one _ _ c); access_goal
  end.
Ltac count := intros; apply counted_takes; repeat count1.
