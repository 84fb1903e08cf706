(** The smart pointers destroy every object once. *)
From Verif Require Import Base CppPtrModel CppPtrSpec.
From Coq Require Import Permutation.
Open Scope list_scope.
Open Scope Z_scope.

Definition heldv (vars : list (option smart)) : list (kind * Z) := concat (map held_by vars).
Definition cf (k : kind) : cfun := fst (destruction (k, 0)).
(** Deleters are empty or those of the kind. *)
Definition ok_var (x : smart) : Prop := s_del x = None \/ s_del x = Some (cf (s_kind x)).
Definition fine (st : cpp) : Prop := forall v x, nth_error (c_vars st) v = Some (Some x) -> ok_var x.
Definition armed (st : cpp) : Prop := forall v x, nth_error (c_vars st) v = Some (Some x) -> s_ptr x <> 0 -> s_del x <> None.
(** Every object that was handed over is held, released or destroyed. *)
Definition books (given : list (kind * Z)) (st : cpp) : Prop :=
  exists gone, c_calls st = map destruction gone /\ Permutation given (gone ++ held st ++ c_released st).

Lemma upd_perm vars : forall v x y, nth_error vars v = Some y -> Permutation (held_by x ++ heldv vars) (held_by y ++ heldv (upd vars v x)).
Proof.
  unfold heldv. induction vars as [|z vars IH]; intros [|v] x y E; try discriminate; cbn [nth_error upd map concat] in *.
  - injection E as ->. rewrite !app_assoc. apply Permutation_app_tail, Permutation_app_comm.
  - rewrite !(Permutation_app_swap_app _ (held_by z)). apply Permutation_app_head, IH, E.
Qed.
Lemma upd_nth vars : forall v x w, nth_error vars v <> None -> nth_error (upd vars v x) w = if Nat.eqb v w then Some x else nth_error vars w.
Proof. induction vars as [|z vars IH]; intros [|v] x [|w] H; cbn in *; try congruence; auto. Qed.
Lemma var_nth st v x : var st v = Ok x -> nth_error (c_vars st) v = Some (Some x).
Proof. unfold var. destruct (nth_error (c_vars st) v) as [[y|]|]; congruence. Qed.
Lemma nth_var st v x : nth_error (c_vars st) v = Some (Some x) -> var st v = Ok x.
Proof. unfold var. intros ->. reflexivity. Qed.
Lemma var_res st v : (exists x, var st v = Ok x) \/ var st v = UB.
Proof. unfold var. destruct (nth_error (c_vars st) v) as [[y|]|]; eauto. Qed.
Lemma same_kind_eq a b : same_kind a b = true -> a = b.
Proof. destruct a, b; cbn; congruence. Qed.

(** * Changing variables *)
Lemma set_nth st v x y w : nth_error (c_vars st) v = Some y -> nth_error (c_vars (set_var st v x)) w = if Nat.eqb v w then Some x else nth_error (c_vars st) w.
Proof. intros E. cbn. apply upd_nth. congruence. Qed.
Lemma fine_set st v x y : fine st -> nth_error (c_vars st) v = Some y -> (forall z, x = Some z -> ok_var z) -> fine (set_var st v x).
Proof. intros F E X w z. rewrite (set_nth _ _ _ _ _ E). destruct (Nat.eqb v w); [intros [= ->]; auto|apply F]. Qed.
Lemma armed_set st v x y : armed st -> nth_error (c_vars st) v = Some y -> (forall z, x = Some z -> s_ptr z <> 0 -> s_del z <> None) -> armed (set_var st v x).
Proof. intros F E X w z. rewrite (set_nth _ _ _ _ _ E). destruct (Nat.eqb v w); [intros [= ->]; auto|apply F]. Qed.
Lemma new_nth st x w y : nth_error (c_vars (new_var st x)) w = Some y -> nth_error (c_vars st) w = Some y \/ y = Some x.
Proof.
  cbn. intros E. destruct (Nat.ltb_spec w (length (c_vars st))); [rewrite nth_error_app1 in E by assumption; auto|].
  rewrite nth_error_app2 in E by assumption. destruct (w - length (c_vars st))%nat as [|n]; cbn in E; [right; congruence|destruct n; discriminate].
Qed.
Lemma fine_new st x : fine st -> ok_var x -> fine (new_var st x).
Proof. intros F X w y E. apply new_nth in E as [E|[= ->]]; [eapply F, E|exact X]. Qed.
Lemma armed_new st x : armed st -> (s_ptr x <> 0 -> s_del x <> None) -> armed (new_var st x).
Proof. intros F X w y E. apply new_nth in E as [E|[= ->]]; [eapply F, E|exact X]. Qed.
Lemma held_new st x : Permutation (held (new_var st x)) (held_by (Some x) ++ held st).
Proof.
  unfold held, new_var. cbn [c_vars]. rewrite map_app, concat_app. cbn [map concat]. rewrite app_nil_r. apply Permutation_app_comm.
Qed.
Lemma held_set st v x y : nth_error (c_vars st) v = Some y -> Permutation (held_by x ++ held st) (held_by y ++ held (set_var st v x)).
Proof. apply upd_perm. Qed.
Lemma make_ok k p : ok_var (make_ptr k p).
Proof. right. destruct k; reflexivity. Qed.
Lemma make_ptr_ptr k p : s_ptr (make_ptr k p) = p. Proof. destruct k; reflexivity. Qed.
Lemma make_ptr_kind k p : s_kind (make_ptr k p) = k. Proof. destruct k; reflexivity. Qed.
Lemma make_ptr_del k p : s_del (make_ptr k p) = Some (cf k). Proof. destruct k; reflexivity. Qed.

(** * reset, release and the destructor *)

Definition obj (k : kind) (p : Z) : list (kind * Z) := if p =? 0 then [] else [(k, p)].
Lemma held_by_obj x : held_by (Some x) = obj (s_kind x) (s_ptr x). Proof. reflexivity. Qed.
(** The books with an object that the program has in its hand *)
Definition books_with (hand given : list (kind * Z)) (st : cpp) : Prop :=
  exists gone, c_calls st = map destruction gone /\ Permutation given (gone ++ hand ++ held st ++ c_released st).

Lemma replace_ok st v x z given p : books_with p given st -> fine st -> nth_error (c_vars st) v = Some (Some x) ->
  held_by z = p -> (forall y, z = Some y -> ok_var y) ->
  let r := (if s_ptr x =? 0 then Ok (set_var st v z) else call_deleter (set_var st v z) (s_del x) (s_ptr x)) in
  r = Abort \/ exists st', r = Ok st' /\ books given st' /\ fine st' /\ c_vars st' = c_vars (set_var st v z) /\ c_released st' = c_released st.
Proof.
  intros (gone & C & B) F E HP K. cbv zeta. pose proof (held_set st v z (Some x) E) as HS. rewrite HP, held_by_obj in HS. unfold obj in HS.
  pose proof (fine_set st v z _ F E K) as F'. destruct (s_ptr x =? 0) eqn:P.
  - right. eexists. split; [reflexivity|]. split; [|auto]. exists gone. split; [exact C|]. cbn [app] in HS. rewrite B. apply Permutation_app_head.
    rewrite app_assoc, HS. reflexivity.
  - unfold call_deleter. destruct (s_del x) as [f|] eqn:D; [|left; reflexivity]. right. eexists. split; [reflexivity|]. split; [|split; [exact F'|auto]].
    exists (gone ++ [(s_kind x, s_ptr x)]). cbn [c_calls c_released set_var]. split.
    + rewrite C, map_app. f_equal. cbn. f_equal. destruct (F _ _ E) as [Y|Y]; rewrite D in Y; [discriminate|]. injection Y as ->. reflexivity.
    + rewrite B, <- app_assoc. apply Permutation_app_head. rewrite app_assoc, HS. reflexivity.
Qed.
Lemma reset_ok st v x given p : books_with (obj (s_kind x) p) given st -> fine st -> var st v = Ok x ->
  reset st v p = Abort \/ exists st', reset st v p = Ok st' /\ books given st' /\ fine st' /\
    c_vars st' = c_vars (set_var st v (Some (mk_smart (s_kind x) p (s_del x)))) /\ c_released st' = c_released st.
Proof.
  intros B F V. unfold reset. rewrite V. cbn [bind]. cbv zeta. apply var_nth in V.
  apply (replace_ok st v x (Some (mk_smart (s_kind x) p (s_del x))) given _ B F V eq_refl). intros y [= <-]. apply (F _ _ V).
Qed.
Lemma destroy_ok st v x given : books given st -> fine st -> var st v = Ok x ->
  destroy st v = Abort \/ exists st', destroy st v = Ok st' /\ books given st' /\ fine st' /\ c_vars st' = c_vars (set_var st v None) /\ c_released st' = c_released st.
Proof.
  intros B F V. unfold destroy. rewrite V. cbn [bind]. cbv zeta. apply var_nth in V.
  apply (replace_ok st v x None given [] B F V eq_refl). discriminate.
Qed.
Lemma release_ok st v x given : books given st -> fine st -> var st v = Ok x ->
  exists st', release st v = Ok (s_ptr x, st') /\ books_with (obj (s_kind x) (s_ptr x)) given st' /\ fine st' /\
    c_vars st' = c_vars (set_var st v (Some (mk_smart (s_kind x) 0 (s_del x)))).
Proof.
  intros (gone & C & B) F V. unfold release. rewrite V. cbn [bind]. apply var_nth in V. eexists. split; [reflexivity|].
  pose proof (held_set st v (Some (mk_smart (s_kind x) 0 (s_del x))) _ V) as HS. rewrite !held_by_obj in HS. cbn [s_ptr] in HS. unfold obj at 1 in HS. cbn [Z.eqb app] in HS.
  split; [|split; [|reflexivity]].
  - exists gone. split; [exact C|]. rewrite B. apply Permutation_app_head. rewrite (app_assoc (obj _ _)), <- HS. reflexivity.
  - eapply fine_set; [exact F|exact V|]. intros y [= <-]. apply (F _ _ V).
Qed.
Lemma deleter_ok st v d x given : books given st -> fine st -> var st v = Ok x -> (d = None \/ d = Some (cf (s_kind x))) ->
  exists st', set_deleter st v d = Ok st' /\ books given st' /\ fine st' /\ c_vars st' = c_vars (set_var st v (Some (mk_smart (s_kind x) (s_ptr x) d))).
Proof.
  intros (gone & C & B) F V D. unfold set_deleter. rewrite V. cbn [bind]. apply var_nth in V. eexists. split; [reflexivity|].
  pose proof (held_set st v (Some (mk_smart (s_kind x) (s_ptr x) d)) _ V) as HS. rewrite !held_by_obj in HS. cbn [s_ptr s_kind] in HS. apply Permutation_app_inv_l in HS.
  split; [|split; [|reflexivity]].
  - exists gone. split; [exact C|]. rewrite B, HS. reflexivity.
  - eapply fine_set; [exact F|exact V|]. intros y [= <-]. exact D.
Qed.

Lemma books_hand o given st : books given st -> books_with o (o ++ given) st.
Proof. intros (gone & C & B). exists gone. split; [exact C|]. rewrite B. apply Permutation_app_swap_app. Qed.
Lemma var_set st v x y w st' : nth_error (c_vars st) v = Some y -> c_vars st' = c_vars (set_var st v (Some x)) -> w = v -> var st' w = Ok x.
Proof. intros E S ->. apply nth_var. rewrite S, (set_nth _ _ _ _ _ E), Nat.eqb_refl. reflexivity. Qed.
Lemma var_set_other st v x y w st' z : nth_error (c_vars st) v = Some y -> c_vars st' = c_vars (set_var st v x) -> w <> v -> var st w = Ok z -> var st' w = Ok z.
Proof. intros E S N V. apply nth_var. rewrite S, (set_nth _ _ _ _ _ E). destruct (Nat.eqb_spec v w); [congruence|]. apply var_nth, V. Qed.

(** * Every operation *)

Lemma books_perm g g' st : Permutation g g' -> books g st -> books g' st.
Proof. intros P (gone & C & B). exists gone. split; [exact C|]. rewrite <- P. exact B. Qed.
Lemma books_new st x given : books given st -> books (held_by (Some x) ++ given) (new_var st x).
Proof.
  intros (gone & C & B). exists gone. split; [exact C|]. rewrite B. rewrite held_new, <- !app_assoc. cbn [c_released new_var]. apply Permutation_app_swap_app.
Qed.
Lemma books_new_hand st k p d given : books_with (obj k p) given st -> books given (new_var st (mk_smart k p d)).
Proof.
  intros (gone & C & B). exists gone. split; [exact C|]. rewrite B. rewrite held_new, <- !app_assoc. reflexivity.
Qed.
Lemma step_books st o given : books given st -> fine st ->
  step st o = UB \/ step st o = Abort \/ exists st', step st o = Ok st' /\ books (handed_by o ++ given) st' /\ fine st'.
Proof.
  intros B F. destruct o as [k|k p|k v p|w keeps|v w keeps|v w|k v p|v|v]; cbn [step handed_by].
  - right. right. eexists. split; [reflexivity|]. split; [apply (books_new st (mk_smart k 0 None)), B|apply fine_new; [exact F|left; reflexivity]].
  - right. right. eexists. split; [reflexivity|]. split; [|apply fine_new; [exact F|apply make_ok]].
    pose proof (books_new st (make_ptr k p) given B) as X. rewrite held_by_obj, make_ptr_kind, make_ptr_ptr in X. exact X.
  - destruct (var_res st v) as [[x V]|V]; rewrite V; [|left; reflexivity]. cbn [bind]. destruct (same_kind (s_kind x) k) eqn:SK; [|left; reflexivity]. right. apply same_kind_eq in SK.
    cbv zeta. rewrite make_ptr_ptr, make_ptr_del.
    destruct (reset_ok st v x (obj k p ++ given) p) as [->|(st1 & -> & B1 & F1 & S1 & _)]; [rewrite SK; apply books_hand, B|exact F|exact V|left; reflexivity|]. cbn [bind]. right.
    pose proof (var_set _ _ _ _ v _ (var_nth _ _ _ V) S1 eq_refl) as V1.
    destruct (deleter_ok st1 v (Some (cf k)) _ _ B1 F1 V1) as (st2 & -> & B2 & F2 & _); [right; cbn; rewrite SK; reflexivity|]. exists st2. auto.
  - destruct (var_res st w) as [[x V]|V]; rewrite V; [|left; reflexivity]. cbn [bind]. right. right.
    destruct (release_ok st w x given B F V) as (st1 & -> & B1 & F1 & S1). cbn [bind].
    pose proof (F _ _ (var_nth _ _ _ V)) as K. destruct keeps; cbn [bind].
    + eexists. split; [reflexivity|]. split; [apply books_new_hand, B1|apply fine_new; [exact F1|exact K]].
    + pose proof (var_set _ _ _ _ w _ (var_nth _ _ _ V) S1 eq_refl) as V1.
      unfold set_deleter. rewrite V1. cbn [bind s_kind s_ptr]. eexists. split; [reflexivity|]. split.
      * apply books_new_hand. destruct B1 as (gone & C & B1). exists gone. split; [exact C|]. rewrite B1.
        pose proof (held_set st1 w (Some (mk_smart (s_kind x) 0 None)) _ (var_nth _ _ _ V1)) as HS. rewrite !held_by_obj in HS. cbn [s_ptr s_kind obj Z.eqb app] in HS.
        rewrite HS. reflexivity.
      * apply fine_new; [|exact K]. eapply fine_set; [exact F1|exact (var_nth _ _ _ V1)|]. intros y [= <-]. left. reflexivity.
  - destruct (var_res st v) as [[x V]|V]; rewrite V; [|left; reflexivity]. destruct (var_res st w) as [[y W]|W]; rewrite W; [|left; reflexivity]. cbn [bind].
    destruct (same_kind (s_kind x) (s_kind y)) eqn:SK; [|left; reflexivity]. right. apply same_kind_eq in SK.
    destruct (release_ok st w y given B F W) as (st1 & -> & B1 & F1 & S1). cbn [bind].
    pose proof (F _ _ (var_nth _ _ _ W)) as K. pose proof (var_set _ _ _ _ w _ (var_nth _ _ _ W) S1 eq_refl) as W1.
    assert (V1 : exists x1, var st1 v = Ok x1 /\ s_kind x1 = s_kind x).
    { destruct (Nat.eq_dec v w) as [->|N]; [exists (mk_smart (s_kind y) 0 (s_del y)); auto|]. exists x. split; [|reflexivity]. eapply var_set_other; [exact (var_nth _ _ _ W)|exact S1|exact N|exact V]. }
    destruct V1 as (x1 & V1 & K1).
    destruct (reset_ok st1 v x1 given (s_ptr y)) as [->|(st2 & -> & B2 & F2 & S2 & _)]; [rewrite K1, SK; exact B1|exact F1|exact V1|left; reflexivity|]. cbn [bind]. right.
    pose proof (var_set _ _ _ _ v _ (var_nth _ _ _ V1) S2 eq_refl) as V2.
    assert (W2 : exists y2, var st2 w = Ok y2).
    { destruct (Nat.eq_dec w v) as [->|N]; [eauto|]. eexists. eapply var_set_other; [exact (var_nth _ _ _ V1)|exact S2|exact N|exact W1]. }
    destruct W2 as (y2 & W2).
    assert (M : exists st3, (if keeps then Ok st2 else set_deleter st2 w None) = Ok st3 /\ books given st3 /\ fine st3 /\ exists x3, var st3 v = Ok x3 /\ s_kind x3 = s_kind y).
    { destruct keeps; [exists st2; split; [reflexivity|]; split; [exact B2|]; split; [exact F2|]; eexists; split; [exact V2|]; cbn; congruence|].
      destruct (deleter_ok st2 w None y2 given B2 F2 W2 (or_introl eq_refl)) as (st3 & -> & B3 & F3 & S3). exists st3. split; [reflexivity|]. split; [exact B3|]. split; [exact F3|].
      destruct (Nat.eq_dec v w) as [E|N].
      - eexists. split; [eapply var_set; [exact (var_nth _ _ _ W2)|exact S3|exact E]|]. cbn. subst w. rewrite V2 in W2. injection W2 as <-. cbn. congruence.
      - eexists. split; [eapply var_set_other; [exact (var_nth _ _ _ W2)|exact S3|exact N|exact V2]|]. cbn. congruence. }
    destruct M as (st3 & -> & B3 & F3 & x3 & V3 & K3). cbn [bind].
    destruct (deleter_ok st3 v (s_del y) x3 given B3 F3 V3) as (st4 & -> & B4 & F4 & _); [rewrite K3; exact K|]. exists st4. auto.
  - destruct (var_res st v) as [[x V]|V]; rewrite V; [|left; reflexivity]. destruct (var_res st w) as [[y W]|W]; rewrite W; [|left; reflexivity]. cbn [bind].
    destruct (same_kind (s_kind x) (s_kind y)) eqn:SK; [|left; reflexivity]. right. right. eexists. split; [reflexivity|]. apply var_nth in V, W.
    assert (W1 : nth_error (c_vars (set_var st v (Some y))) w = Some (Some y)). { rewrite (set_nth _ _ _ _ _ V). destruct (Nat.eqb v w); [reflexivity|exact W]. }
    split.
    + destruct B as (gone & C & B). exists gone. split; [exact C|]. cbn [app]. rewrite B. apply Permutation_app_head. cbn [c_released set_var]. apply Permutation_app_tail.
      pose proof (held_set st v (Some y) _ V) as H1. pose proof (held_set (set_var st v (Some y)) w (Some x) _ W1) as H2.
      apply (Permutation_app_inv_l (held_by (Some y))). rewrite H1, H2. reflexivity.
    + eapply fine_set; [eapply fine_set; [exact F|exact V|]|exact W1|]; intros z [= <-]; [apply (F _ _ W)|apply (F _ _ V)].
  - destruct (var_res st v) as [[x V]|V]; rewrite V; [|left; reflexivity]. cbn [bind]. destruct (same_kind (s_kind x) k) eqn:SK; [|left; reflexivity]. right. apply same_kind_eq in SK.
    destruct (reset_ok st v x (obj k p ++ given) p) as [->|(st1 & -> & B1 & F1 & _)]; [rewrite SK; apply books_hand, B|exact F|exact V|left; reflexivity|]. right. exists st1. auto.
  - destruct (var_res st v) as [[x V]|V]; rewrite V; [|left; reflexivity]. cbn [bind]. right. right.
    destruct (release_ok st v x given B F V) as (st1 & -> & B1 & F1 & S1). cbn [bind]. eexists. split; [reflexivity|].
    destruct B1 as (gone & C & B1). unfold obj in B1. destruct (s_ptr x =? 0); [split; [exists gone; auto|exact F1]|]. split; [|exact F1].
    exists gone. split; [exact C|]. cbn [app c_released]. rewrite B1. apply Permutation_app_head. unfold held. cbn [c_vars app]. rewrite app_assoc. apply Permutation_cons_append.
  - destruct (var_res st v) as [[x V]|V]; [|left; unfold destroy; rewrite V; reflexivity]. right.
    destruct (destroy_ok st v x given B F V) as [->|(st1 & -> & B1 & F1 & _)]; [left; reflexivity|right; exists st1; auto].
Qed.

Lemma run_books os : forall st given, books given st -> fine st ->
  run st os = UB \/ run st os = Abort \/ exists st', run st os = Ok st' /\ books (handed os ++ given) st' /\ fine st'.
Proof.
  induction os as [|o os IH]; intros st given B F; cbn [run]; [right; right; exists st; auto|].
  destruct (step_books st o given B F) as [->|[->|(st1 & -> & B1 & F1)]]; [auto|auto|]. cbn [bind].
  destruct (IH st1 _ B1 F1) as [E|[E|(st2 & E & B2 & F2)]]; [auto|auto|]. right. right. exists st2. split; [exact E|]. split; [|exact F2].
  eapply books_perm; [|exact B2]. unfold handed. cbn [map concat]. rewrite <- app_assoc. apply Permutation_app_swap_app.
Qed.
Lemma run_once os st : run start os = Ok st -> exists destroyed, c_calls st = map destruction destroyed /\ Permutation (handed os) (destroyed ++ held st ++ c_released st).
Proof.
  intros R. destruct (run_books os start []) as [E|[E|(st' & E & B & _)]]; [exists []; split; [reflexivity|constructor]|intros v x E; destruct v; discriminate|congruence|congruence|].
  rewrite R in E. injection E as <-. rewrite app_nil_r in B. exact B.
Qed.

(** * The program is not ended *)

Lemma reset_armed st v x p : armed st -> var st v = Ok x ->
  exists st', reset st v p = Ok st' /\ c_vars st' = c_vars (set_var st v (Some (mk_smart (s_kind x) p (s_del x)))).
Proof.
  intros A V. unfold reset. rewrite V. cbn [bind]. cbv zeta. destruct (s_ptr x =? 0) eqn:P; [eauto|]. unfold call_deleter.
  apply Z.eqb_neq in P. specialize (A _ _ (var_nth _ _ _ V) P). destruct (s_del x); [|congruence]. eexists. split; reflexivity.
Qed.
Lemma armed_vars st st' : c_vars st' = c_vars st -> armed st -> armed st'.
Proof. unfold armed. intros ->. auto. Qed.
Lemma release_eq st v x : var st v = Ok x -> release st v = Ok (s_ptr x, set_var st v (Some (mk_smart (s_kind x) 0 (s_del x)))).
Proof. intros V. unfold release. rewrite V. reflexivity. Qed.
Lemma deleter_eq st v x d : var st v = Ok x -> set_deleter st v d = Ok (set_var st v (Some (mk_smart (s_kind x) (s_ptr x) d))).
Proof. intros V. unfold set_deleter. rewrite V. reflexivity. Qed.
Lemma upd_upd vars : forall v x y, upd (upd vars v x) v y = upd vars v y.
Proof. induction vars as [|z vars IH]; intros [|v] x y; cbn; try reflexivity. f_equal. apply IH. Qed.
Lemma step_armed st o : armed st -> (forall k v p, o = Reset k v p -> p <> 0 -> holds st v) ->
  step st o = UB \/ exists st', step st o = Ok st' /\ armed st'.
Proof.
  intros A R. destruct o as [k|k p|k v p|w keeps|v w keeps|v w|k v p|v|v]; cbn [step].
  - right. eexists. split; [reflexivity|]. apply armed_new; [exact A|]. cbn. congruence.
  - right. eexists. split; [reflexivity|]. apply armed_new; [exact A|]. rewrite make_ptr_del. discriminate.
  - destruct (var_res st v) as [[x V]|V]; rewrite V; [|left; reflexivity]. cbn [bind]. destruct (same_kind _ _); [|left; reflexivity]. right.
    cbv zeta. rewrite make_ptr_ptr, make_ptr_del. destruct (reset_armed st v x p A V) as (st1 & -> & S1). cbn [bind].
    pose proof (var_set _ _ _ _ v _ (var_nth _ _ _ V) S1 eq_refl) as V1. rewrite (deleter_eq _ _ _ _ V1). eexists. split; [reflexivity|].
    apply (armed_vars (set_var st v (Some (mk_smart (s_kind x) p (Some (cf k)))))); [cbn; rewrite S1; cbn; apply upd_upd|].
    eapply armed_set; [exact A|exact (var_nth _ _ _ V)|]. intros z [= <-] _. discriminate.
  - destruct (var_res st w) as [[x V]|V]; rewrite V; [|left; reflexivity]. cbn [bind]. right. rewrite (release_eq _ _ _ V). cbn [bind].
    pose proof (A _ _ (var_nth _ _ _ V)) as K.
    assert (A1 : armed (set_var st w (Some (mk_smart (s_kind x) 0 (s_del x))))) by (eapply armed_set; [exact A|exact (var_nth _ _ _ V)|]; intros z [= <-]; cbn; congruence).
    destruct keeps; cbn [bind]; [eexists; split; [reflexivity|]; apply armed_new; [exact A1|exact K]|].
    pose proof (var_set _ _ _ _ w _ (var_nth _ _ _ V) eq_refl eq_refl : var _ w = Ok (mk_smart (s_kind x) 0 (s_del x))) as V1.
    rewrite (deleter_eq _ _ _ _ V1). cbn [bind]. eexists. split; [reflexivity|]. apply armed_new; [|exact K].
    eapply armed_set; [exact A1|exact (var_nth _ _ _ V1)|]. intros z [= <-]. cbn. congruence.
  - destruct (var_res st v) as [[x V]|V]; rewrite V; [|left; reflexivity]. destruct (var_res st w) as [[y W]|W]; rewrite W; [|left; reflexivity]. cbn [bind].
    destruct (same_kind _ _); [|left; reflexivity]. right. rewrite (release_eq _ _ _ W). cbn [bind]. pose proof (A _ _ (var_nth _ _ _ W)) as K.
    set (st1 := set_var st w _).
    assert (A1 : armed st1) by (eapply armed_set; [exact A|exact (var_nth _ _ _ W)|]; intros z [= <-]; cbn; congruence).
    pose proof (var_set st w _ _ w st1 (var_nth _ _ _ W) eq_refl eq_refl) as W1.
    assert (V1 : exists x1, var st1 v = Ok x1).
    { destruct (Nat.eq_dec v w) as [->|N]; [eauto|]. exists x. eapply var_set_other; [exact (var_nth _ _ _ W)|reflexivity|exact N|exact V]. }
    destruct V1 as (x1 & V1). destruct (reset_armed st1 v x1 (s_ptr y) A1 V1) as (st2 & -> & S2). cbn [bind].
    pose proof (var_set _ _ _ _ v _ (var_nth _ _ _ V1) S2 eq_refl) as V2.
    assert (O2 : forall u z, u <> v -> nth_error (c_vars st2) u = Some (Some z) -> s_ptr z <> 0 -> s_del z <> None).
    { intros u z N E. rewrite S2, (set_nth _ _ _ _ _ (var_nth _ _ _ V1)) in E. destruct (Nat.eqb_spec v u); [congruence|]. apply (A1 _ _ E). }
    assert (M : exists st3 x3, (if keeps then Ok st2 else set_deleter st2 w None) = Ok st3 /\ var st3 v = Ok x3 /\ s_ptr x3 = s_ptr y /\
      forall u z, u <> v -> nth_error (c_vars st3) u = Some (Some z) -> s_ptr z <> 0 -> s_del z <> None).
    { destruct keeps; [eexists _, _; split; [reflexivity|]; split; [exact V2|]; split; [reflexivity|exact O2]|]. destruct (Nat.eq_dec v w) as [E|N].
      - subst w. rewrite (deleter_eq _ _ _ _ V2). eexists _, _. split; [reflexivity|]. split; [eapply var_set; [exact (var_nth _ _ _ V2)|reflexivity|reflexivity]|]. split; [reflexivity|].
        intros u z N E. rewrite (set_nth _ _ _ _ _ (var_nth _ _ _ V2)) in E. destruct (Nat.eqb_spec v u); [congruence|]. exact (O2 u z N E).
      - pose proof (var_set_other _ _ _ _ w _ _ (var_nth _ _ _ V1) S2 (not_eq_sym N) W1) as W2. rewrite (deleter_eq _ _ _ _ W2). eexists _, _. split; [reflexivity|].
        split; [eapply var_set_other; [exact (var_nth _ _ _ W2)|reflexivity|exact N|exact V2]|]. split; [reflexivity|].
        intros u z Nu E. rewrite (set_nth _ _ _ _ _ (var_nth _ _ _ W2)) in E. destruct (Nat.eqb_spec w u); [injection E as <-; cbn; congruence|]. exact (O2 u z Nu E). }
    destruct M as (st3 & x3 & -> & V3 & P3 & O3). cbn [bind]. rewrite (deleter_eq _ _ _ _ V3). eexists. split; [reflexivity|].
    intros u z E. rewrite (set_nth _ _ _ _ _ (var_nth _ _ _ V3)) in E. destruct (Nat.eqb_spec v u) as [->|N]; [injection E as <-; cbn; rewrite P3; exact K|].
    apply (O3 u z); [congruence|exact E].
  - destruct (var_res st v) as [[x V]|V]; rewrite V; [|left; reflexivity]. destruct (var_res st w) as [[y W]|W]; rewrite W; [|left; reflexivity]. cbn [bind].
    destruct (same_kind _ _); [|left; reflexivity]. right. eexists. split; [reflexivity|]. apply var_nth in V, W.
    assert (W1 : nth_error (c_vars (set_var st v (Some y))) w = Some (Some y)). { rewrite (set_nth _ _ _ _ _ V). destruct (Nat.eqb v w); [reflexivity|exact W]. }
    eapply armed_set; [eapply armed_set; [exact A|exact V|]|exact W1|]; intros z [= <-]; [apply (A _ _ W)|apply (A _ _ V)].
  - destruct (var_res st v) as [[x V]|V]; rewrite V; [|left; reflexivity]. cbn [bind]. destruct (same_kind _ _); [|left; reflexivity]. right.
    destruct (reset_armed st v x p A V) as (st1 & -> & S1). exists st1. split; [reflexivity|]. eapply armed_vars; [exact S1|].
    eapply armed_set; [exact A|exact (var_nth _ _ _ V)|]. intros z [= <-]. cbn. intros P. destruct (R k v p eq_refl P) as (k' & p' & d & E & P').
    rewrite (var_nth _ _ _ V) in E. injection E as ->. exact (A _ _ (var_nth _ _ _ V) P').
  - destruct (var_res st v) as [[x V]|V]; rewrite V; [|left; reflexivity]. cbn [bind]. right. rewrite (release_eq _ _ _ V). cbn [bind]. eexists. split; [reflexivity|].
    assert (A1 : armed (set_var st v (Some (mk_smart (s_kind x) 0 (s_del x))))) by (eapply armed_set; [exact A|exact (var_nth _ _ _ V)|]; intros z [= <-]; cbn; congruence).
    destruct (s_ptr x =? 0); exact A1.
  - unfold destroy. destruct (var_res st v) as [[x V]|V]; rewrite V; [|left; reflexivity]. cbn [bind]. cbv zeta. right.
    assert (A1 : armed (set_var st v None)) by (eapply armed_set; [exact A|exact (var_nth _ _ _ V)|discriminate]).
    destruct (s_ptr x =? 0) eqn:P; [eauto|]. apply Z.eqb_neq in P. pose proof (A _ _ (var_nth _ _ _ V) P) as D. unfold call_deleter. destruct (s_del x); [|congruence].
    eexists. split; [reflexivity|]. exact A1.
Qed.
Lemma run_armed os : forall st, armed st ->
  (forall before k v p after st', os = before ++ Reset k v p :: after -> p <> 0 -> run st before = Ok st' -> holds st' v) -> run st os = UB \/ exists st', run st os = Ok st'.
Proof.
  induction os as [|o os IH]; intros st A R; cbn [run]; [eauto|].
  destruct (step_armed st o A) as [->|(st1 & E & A1)]; [intros k v p -> P; apply (R [] k v p os st eq_refl P eq_refl)|auto|]. rewrite E. cbn [bind]. apply IH; [exact A1|].
  intros before k v p after st' -> P X. apply (R (o :: before) k v p after st' eq_refl P). cbn [run]. rewrite E. exact X.
Qed.
Lemma all_gone_held st : all_gone st -> held st = [].
Proof.
  unfold all_gone, held. intros G. induction (c_vars st) as [|x vars IH]; [reflexivity|]. cbn [map concat]. rewrite IH.
  - specialize (G O). cbn in G. assert (X : Some x = Some None) by (apply G; discriminate). injection X as ->. reflexivity.
  - intros v. exact (G (S v)).
Qed.
