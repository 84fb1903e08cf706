(** Threads do not disturb each other. *)
From Verif Require Import Base Heap ThreadModel ThreadSpec.
From Coq Require Import ZifyNat.
Open Scope list_scope.
Open Scope Z_scope.

(** * Memory *)

Lemma find_get h a : get h a = find (mem h) a. Proof. reflexivity. Qed.
Lemma lookup_app m1 m2 a : lookup (m1 ++ m2) a = match lookup m1 a with Some c => Some c | None => lookup m2 a end.
Proof. induction m1 as [|[b c] m1 IH]; cbn [lookup app]; [reflexivity|]. destruct (a =? b); auto. Qed.
Lemma find_app m1 m2 a : find (m1 ++ m2) a = match find m1 a with Some c => Some c | None => find m2 a end.
Proof. unfold find. destruct (a =? 0); [reflexivity|apply lookup_app]. Qed.
Lemma find_put m a c b : a <> 0 -> find ((a, c) :: erase m a) b = if b =? a then Some c else find m b.
Proof.
  intros N. unfold find. cbn [lookup]. rewrite lookup_erase. destruct (b =? 0) eqn:B; destruct (b =? a) eqn:E; try reflexivity. lia.
Qed.
Lemma find_erase m a b : find (erase m a) b = if b =? a then None else find m b.
Proof. unfold find. rewrite lookup_erase. destruct (b =? 0), (b =? a); reflexivity. Qed.
Lemma find_nonnull m a c : find m a = Some c -> a <> 0.
Proof. unfold find. intros H ->. discriminate. Qed.
Lemma lookup_in m a c : lookup m a = Some c -> In a (map fst m).
Proof. induction m as [|[b d] m IH]; cbn [lookup map fst In]; [discriminate|]. destruct (Z.eqb_spec a b); [left; congruence|auto]. Qed.
Lemma erase_incl m a b : In b (map fst (erase m a)) -> In b (map fst m) /\ b <> a.
Proof.
  unfold erase. induction m as [|[d c] m IH]; cbn [filter map fst In]; [tauto|]. destruct (Z.eqb_spec d a) as [E|E]; cbn [negb map fst In]; [tauto|].
  intros [<-|H]; [auto|]. tauto.
Qed.
Lemma erase_nodup m a : NoDup (map fst m) -> NoDup (map fst (erase m a)).
Proof.
  unfold erase. induction m as [|[d c] m IH]; cbn [filter map fst]; [auto|]. intros H. inversion_clear H as [|? ? N D]. destruct (d =? a); cbn [negb map fst]; [auto|].
  constructor; [|auto]. intros I. apply N. apply (erase_incl m a). exact I.
Qed.
Lemma put_nodup m a c : NoDup (map fst m) -> NoDup (map fst ((a, c) :: erase m a)).
Proof. intros D. cbn. constructor; [|apply erase_nodup, D]. intros I. apply erase_incl in I. tauto. Qed.
Lemma erase_none m a : ~ In a (map fst m) -> erase m a = m.
Proof.
  unfold erase. induction m as [|[d c] m IH]; cbn [filter map fst In]; [auto|]. intros H. destruct (Z.eqb_spec d a); cbn [negb]; [tauto|]. f_equal. tauto.
Qed.
Lemma erase_length m a c : NoDup (map fst m) -> lookup m a = Some c -> S (length (erase m a)) = length m.
Proof.
  induction m as [|[d x] m IH]; cbn [map fst lookup]; [discriminate|]. intros H. inversion_clear H as [|? ? N D]. unfold erase. cbn [filter fst].
  destruct (Z.eqb_spec a d) as [->|E].
  - intros _. rewrite Z.eqb_refl. cbn [negb]. fold (erase m d). rewrite erase_none by exact N. reflexivity.
  - intros L. replace (d =? a) with false by lia. cbn [negb length]. f_equal. apply IH; assumption.
Qed.
Lemma lookup_none m a : lookup m a = None -> ~ In a (map fst m).
Proof. induction m as [|[b d] m IH]; cbn [lookup map fst In]; [tauto|]. destruct (Z.eqb_spec a b); [discriminate|]. intros L [E|I]; [congruence|]. tauto. Qed.
Lemma new_address_free m hint : new_address m hint <> 0 /\ lookup m (new_address m hint) = None.
Proof.
  unfold new_address. pose proof (above_all_pos m) as P. assert (A : above_all m <> 0 /\ lookup m (above_all m) = None) by (split; [lia|apply lookup_above; lia]).
  destruct (Z.eqb_spec hint 0); [exact A|]. destruct (lookup m hint) eqn:L; [exact A|auto].
Qed.

(** * What a thread needs, access by access *)

Fixpoint wp {A} (shared : list (Z * cell)) (s : steps A) (own : list (Z * cell)) (Q : A -> list (Z * cell) -> Prop) : Prop :=
  match s with
  | Finish a => Q a own
  | Undefined | Aborts | Exhausted => False
  | Load a k => exists c, find (own ++ shared) a = Some c /\ wp shared (k c) own Q
  | Store a change k => exists c c', find own a = Some c /\ change c = Some c' /\ wp shared k ((a, c') :: erase own a) Q
  | Allocate c k => forall a, a <> 0 -> find (own ++ shared) a = None -> wp shared (k a) ((a, c) :: erase own a) Q
  | Release a k => (exists c, find own a = Some c) /\ wp shared k (erase own a) Q
  | Rounds extra k => wp shared (k (extra + S (length own))%nat) own Q
  end.
Lemma wp_mono {A} shared (s : steps A) : forall own (Q R : A -> _ -> Prop), (forall a o, Q a o -> R a o) -> wp shared s own Q -> wp shared s own R.
Proof.
  induction s as [a| | | |a k IH|a ch k IH|c k IH|a k IH|e k IH]; intros own Q R H; cbn [wp]; try tauto; auto.
  - intros (c & F & W). exists c. split; [exact F|]. eapply IH; eauto.
  - intros (c & c' & F & E & W). exists c, c'. split; [exact F|]. split; [exact E|]. eapply IH; eauto.
  - intros W a N F. eapply IH; eauto.
  - intros [F W]. split; [exact F|]. eapply IH; eauto.
  - intros W. eapply IH; eauto.
Qed.
Lemma wp_followed {A B} shared (s : steps A) (k : A -> steps B) : forall own Q, wp shared s own (fun a o => wp shared (k a) o Q) -> wp shared (followed_by s k) own Q.
Proof.
  induction s as [a| | | |a r IH|a ch r IH|c r IH|a r IH|e r IH]; intros own Q; cbn [wp followed_by]; try tauto; auto.
  - intros (c & F & W). exists c. auto.
  - intros (c & c' & F & E & W). exists c, c'. auto.
  - intros [F W]. auto.
Qed.

(** A function that looks. *)
Lemma wp_look {A} shared (s : steps A) : looks_only s -> forall own b h, effect s (mk_heap (own ++ shared) (fun _ => 0) 0) = Ok (b, h) ->
  wp shared (longer (length shared) s) own (fun a o => a = b /\ o = own).
Proof.
  induction s as [a| | | |a k IH|a ch k IH|c k IH|a k IH|e k IH]; intros L own b h; cbn [looks_only effect longer wp] in *; try tauto; try discriminate.
  - intros [= <- _]. auto.
  - rewrite find_get. cbn [mem]. destruct (find (own ++ shared) a) as [c|]; [|discriminate]. intros E. exists c. split; [reflexivity|]. eapply IH; [apply L|exact E].
  - unfold bnd, fuel. cbn [mem]. rewrite app_length. intros E. replace (length shared + e + S (length own))%nat with (e + S (length own + length shared))%nat by lia.
    eapply IH; [apply L|exact E].
Qed.

(** A function that changes: addresses that the allocator has returned so far. *)
Definition follows (past : list Z) (hints : nat -> Z) : Prop := forall n a, nth_error past n = Some a -> hints n = a.
Lemma follows_snoc past a hints : follows (past ++ [a]) hints -> follows past hints /\ hints (length past) = a.
Proof.
  intros F. split.
  - intros n b E. apply F. rewrite nth_error_app1; [exact E|]. apply nth_error_Some. congruence.
  - apply F. rewrite nth_error_app2, Nat.sub_diag; [reflexivity|apply le_n].
Qed.
Lemma apart_put own shared a c : apart own shared -> find shared a = None -> apart ((a, c) :: erase own a) shared.
Proof.
  intros D N b H. destruct (Z.eqb_spec b a) as [->|E]; [exact N|]. apply D. unfold find in *. destruct (b =? 0); [exact H|]. cbn [lookup] in H. rewrite lookup_erase in H.
  replace (b =? a) with false in H by lia. exact H.
Qed.
Lemma apart_erase own shared a : apart own shared -> apart (erase own a) shared.
Proof. intros D b H. apply D. rewrite find_erase in H. destruct (b =? a); congruence. Qed.
Lemma hint_address own hints n a : a <> 0 -> lookup own a = None -> hints n = a -> fresh_address (mk_heap own hints n) = a.
Proof. intros N L E. unfold fresh_address. cbn [Heap.hints clock mem]. rewrite E. replace (a =? 0) with false by lia. rewrite L. reflexivity. Qed.
Lemma wp_change {A} shared (s : steps A) : forall own past, apart own shared ->
  (forall hints, follows past hints -> exists b h, effect s (mk_heap own hints (length past)) = Ok (b, h)) ->
  wp shared s own (fun b o => exists hints h, follows past hints /\ effect s (mk_heap own hints (length past)) = Ok (b, h) /\ mem h = o /\ apart o shared).
Proof.
  induction s as [a| | | |a k IH|a ch k IH|c k IH|a k IH|e k IH]; intros own past D H; cbn [effect wp] in *.
  - assert (X : exists hints, follows past hints). { exists (fun n => nth n past 0). intros n b E. apply nth_error_nth, E. }
    destruct X as [hints X]. exists hints. destruct (H hints X) as (b & h & [= <- <-]). eexists. split; [exact X|]. split; [reflexivity|]. auto.
  - assert (X : follows past (fun n => nth n past 0)) by (intros n b E; apply nth_error_nth, E). destruct (H _ X) as (b & h & E). discriminate.
  - assert (X : follows past (fun n => nth n past 0)) by (intros n b E; apply nth_error_nth, E). destruct (H _ X) as (b & h & E). discriminate.
  - assert (X : follows past (fun n => nth n past 0)) by (intros n b E; apply nth_error_nth, E). destruct (H _ X) as (b & h & E). discriminate.
  - assert (X : follows past (fun n => nth n past 0)) by (intros n b E; apply nth_error_nth, E). destruct (H _ X) as (b & h & E).
    rewrite find_get in E. cbn [mem] in E. destruct (find own a) as [c|] eqn:F; [|discriminate]. exists c. split; [rewrite find_app, F; reflexivity|].
    eapply wp_mono; [|apply (IH c own past D)].
    + intros r o (hints & h1 & X1 & E1 & M). exists hints, h1. split; [exact X1|]. split; [|exact M]. rewrite find_get. cbn [mem]. rewrite F. exact E1.
    + intros hints Y. destruct (H _ Y) as (b1 & h1 & E1). rewrite find_get in E1. cbn [mem] in E1. rewrite F in E1. eauto.
  - assert (X : follows past (fun n => nth n past 0)) by (intros n b E; apply nth_error_nth, E). destruct (H _ X) as (b & h & E).
    rewrite find_get in E. cbn [mem] in E. destruct (find own a) as [c|] eqn:F; [|discriminate]. destruct (ch c) as [c'|] eqn:C; [|discriminate].
    exists c, c'. split; [reflexivity|]. split; [exact C|].
    eapply wp_mono; [|apply (IH ((a, c') :: erase own a) past)].
    + intros r o (hints & h1 & X1 & E1 & M). exists hints, h1. split; [exact X1|]. split; [|exact M]. rewrite find_get. cbn [mem]. rewrite F, C. exact E1.
    + apply apart_put; [exact D|]. apply D. congruence.
    + intros hints Y. destruct (H _ Y) as (b1 & h1 & E1). rewrite find_get in E1. cbn [mem] in E1. rewrite F, C in E1. eauto.
  - intros a N F. rewrite find_app in F. destruct (find own a) as [x|] eqn:Fo; [discriminate|]. assert (Lo : lookup own a = None) by (unfold find in Fo; replace (a =? 0) with false in Fo by lia; exact Fo).
    assert (Z1 : forall hints, hints (length past) = a -> bnd (alloc c) (fun a => effect (k a)) (mk_heap own hints (length past)) = effect (k a) (mk_heap ((a, c) :: erase own a) hints (S (length past)))).
    { intros hints E. unfold bnd, alloc. rewrite (hint_address own hints _ a N Lo E). reflexivity. }
    assert (LP : length (past ++ [a]) = S (length past)) by (rewrite app_length; cbn; lia).
    eapply wp_mono; [|apply (IH a ((a, c) :: erase own a) (past ++ [a]))].
    + intros r o (hints & h1 & X1 & E1 & M). destruct (follows_snoc _ _ _ X1) as [X2 X3]. exists hints, h1. split; [exact X2|]. split; [|exact M]. rewrite LP in E1. rewrite (Z1 hints X3). exact E1.
    + apply apart_put; [exact D|exact F].
    + intros hints Y. destruct (follows_snoc _ _ _ Y) as [X2 X3]. destruct (H _ X2) as (b1 & h1 & E1). rewrite LP. rewrite (Z1 hints X3) in E1. eauto.
  - assert (X : follows past (fun n => nth n past 0)) by (intros n b E; apply nth_error_nth, E). destruct (H _ X) as (b & h & E).
    unfold bnd, free in E. rewrite find_get in E. cbn [mem] in E. destruct (find own a) as [c|] eqn:F; [|discriminate]. split; [eauto|].
    eapply wp_mono; [|apply (IH (erase own a) past)].
    + intros r o (hints & h1 & X1 & E1 & M). exists hints, h1. split; [exact X1|]. split; [|exact M]. unfold bnd, free. rewrite find_get. cbn [mem]. rewrite F. exact E1.
    + apply apart_erase, D.
    + intros hints Y. destruct (H _ Y) as (b1 & h1 & E1). unfold bnd, free in E1. rewrite find_get in E1. cbn [mem] in E1. rewrite F in E1. eauto.
  - eapply wp_mono; [|apply (IH (e + S (length own))%nat own past D)].
    + intros r o (hints & h1 & X1 & E1 & M). exists hints, h1. auto.
    + intros hints Y. exact (H _ Y).
Qed.

(** The program of a thread. *)
Lemma wp_prog {A} shared (p : prog A) : forall own, apart own shared -> fine_alone shared p own ->
  wp shared (steps_of (length shared) p) own (fun a o => may_alone shared p own a o /\ apart o shared).
Proof.
  induction p as [a|B c L k IH|B c k IH]; intros own D F; cbn [fine_alone steps_of may_alone] in *.
  - cbn. auto.
  - destruct F as (b & h & E & F). apply wp_followed. pose proof (c_same c) as SC. rewrite <- SC in E.
    eapply wp_mono; [|exact (wp_look shared (c_steps c) L own b h E)]. cbn. intros x o [-> ->].
    eapply wp_mono; [|apply (IH b own D F)]. cbn. intros y o' [M D']. split; [|exact D']. exists b, h. split; [rewrite <- SC; exact E|exact M].
  - apply wp_followed. pose proof (c_same c) as SC.
    eapply wp_mono; [|apply (wp_change shared (c_steps c) own [] D)].
    + cbn. intros b o (hints & h & _ & E & <- & D'). rewrite SC in E.
      destruct (F hints) as (b' & h' & E' & F'). rewrite E in E'. injection E' as <- <-.
      eapply wp_mono; [|apply (IH b (mem h) D' (F' D'))]. cbn. intros y o' [M D'']. split; [|exact D'']. exists hints, b, h. auto.
    + intros hints _. destruct (F hints) as (b & h & E & _). exists b, h. rewrite SC. exact E.
Qed.

(** * All threads *)

Lemma replace_nth {X} (l : list X) : forall i x j, nth_error l i <> None -> nth_error (replace l i x) j = if Nat.eqb i j then Some x else nth_error l j.
Proof. induction l as [|y l IH]; intros [|i] x [|j] H; cbn in *; try congruence; auto. Qed.
Lemma replace_length {X} (l : list X) : forall i x, length (replace l i x) = length l.
Proof. induction l as [|y l IH]; intros [|i] x; cbn; auto. Qed.

Section Threads.
Context {A : Type} (shared : list (Z * cell)) (Q : nat -> A -> list (Z * cell) -> Prop).

Definition good (t : thread A) (own : list (Z * cell)) (i : nat) : Prop :=
  wp shared (t_steps t) own (Q i) /\ NoDup (map fst own) /\ t_blocks t = length own /\ apart own shared.
Definition inv (w : world A) (owns : list (list (Z * cell))) : Prop :=
  length owns = length (w_threads w) /\
  (forall i t own, nth_error (w_threads w) i = Some t -> nth_error owns i = Some own -> good t own i) /\
  (forall i j own own', i <> j -> nth_error owns i = Some own -> nth_error owns j = Some own' -> apart own own') /\
  (forall a c, find (w_mem w) a = Some c <-> (exists i own, nth_error owns i = Some own /\ find own a = Some c) \/ find shared a = Some c).

Lemma find_all w owns i own a c : inv w owns -> nth_error owns i = Some own -> find (own ++ shared) a = Some c -> find (w_mem w) a = Some c.
Proof.
  intros (_ & _ & _ & M) N F. apply M. rewrite find_app in F. destruct (find own a) as [d|] eqn:E; [|auto]. injection F as ->. left. eauto.
Qed.
Lemma find_own w owns i own a c : inv w owns -> nth_error owns i = Some own -> find own a = Some c -> find (w_mem w) a = Some c.
Proof. intros V N F. eapply find_all; [exact V|exact N|]. rewrite find_app, F. reflexivity. Qed.

(** The world after a step of thread [i] *)
Lemma inv_step w owns i t own m' t' own' : inv w owns -> nth_error (w_threads w) i = Some t -> nth_error owns i = Some own ->
  good t' own' i ->
  (forall j o, j <> i -> nth_error owns j = Some o -> apart own' o /\ apart o own') ->
  (forall a c, find m' a = Some c <-> find own' a = Some c \/ (exists j o, j <> i /\ nth_error owns j = Some o /\ find o a = Some c) \/ find shared a = Some c) ->
  inv (mk_world m' (replace (w_threads w) i t')) (replace owns i own').
Proof.
  intros (L & G & D & M) NT NO G' D' M'. split; [cbn; rewrite !replace_length; exact L|]. assert (N1 : nth_error (w_threads w) i <> None) by congruence. assert (N2 : nth_error owns i <> None) by congruence.
  split; [|split].
  - intros j u o. cbn [w_threads]. rewrite (replace_nth _ _ _ _ N1), (replace_nth _ _ _ _ N2). destruct (Nat.eqb_spec i j) as [->|N]; [intros [= <-] [= <-]; exact G'|apply G].
  - intros j l o o' N. rewrite !(replace_nth _ _ _ _ N2). destruct (Nat.eqb_spec i j) as [->|Nj]; [destruct (Nat.eqb_spec j l) as [->|Nl]; [congruence|]|].
    + intros [= <-] E. destruct (D' l o' (not_eq_sym N) E) as [X _]. exact X.
    + destruct (Nat.eqb_spec i l) as [->|Ni].
      * intros E [= <-]. destruct (D' j o (not_eq_sym Nj) E) as [_ X]. exact X.
      * intros E1 E2. exact (D j l o o' N E1 E2).
  - intros a c. cbn [w_mem]. rewrite M'. split.
    + intros [F|[(j & o & N & E & F)|F]]; [left; exists i, own'; split; [rewrite (replace_nth _ _ _ _ N2), Nat.eqb_refl; reflexivity|exact F]| |right; exact F].
      left. exists j, o. split; [|exact F]. rewrite (replace_nth _ _ _ _ N2). destruct (Nat.eqb_spec i j); [congruence|exact E].
    + intros [(j & o & E & F)|F]; [|auto]. rewrite (replace_nth _ _ _ _ N2) in E. destruct (Nat.eqb_spec i j) as [->|N]; [injection E as <-; auto|].
      right. left. exists j, o. split; [congruence|]. auto.
Qed.
Lemma inv_same w owns i t t' own : inv w owns -> nth_error (w_threads w) i = Some t -> nth_error owns i = Some own -> good t' own i ->
  inv (mk_world (w_mem w) (replace (w_threads w) i t')) (replace owns i own).
Proof.
  intros V NT NO G'. eapply inv_step; try eassumption; destruct V as (L & G & D & M).
  - intros j o N E. split; [exact (D i j own o (not_eq_sym N) NO E)|exact (D j i o own N E NO)].
  - intros a c. rewrite M. split.
    + intros [(j & o & E & F)|F]; [|auto]. destruct (Nat.eq_dec j i) as [->|N]; [left; congruence|]. right. left. eauto.
    + intros [F|[(j & o & N & E & F)|F]]; eauto.
Qed.
Lemma apart_sym m m' : apart m m' -> apart m' m.
Proof. intros D a H. destruct (find m a) eqn:E; [|reflexivity]. exfalso. apply H. apply D. congruence. Qed.

Lemma access_ok w owns i t hint : inv w owns -> nth_error (w_threads w) i = Some t ->
  exists m' t' owns', access (w_mem w) hint t = Ok (m', t') /\ inv (mk_world m' (replace (w_threads w) i t')) owns'.
Proof.
  intros V NT. assert (NO : exists own, nth_error owns i = Some own).
  { destruct (nth_error owns i) as [own|] eqn:E; [eauto|]. exfalso. apply nth_error_None in E. assert (X : nth_error (w_threads w) i <> None) by congruence. apply nth_error_Some in X. destruct V as [L _]. lia. }
  destruct NO as [own NO]. pose proof V as (L & G & D & M). destruct (G i t own NT NO) as (W & ND & C & AS). unfold access.
  destruct (t_steps t) as [a| | | |a k|a ch k|c k|a k|e k] eqn:T; cbn [wp] in W; try tauto.
  - exists (w_mem w), t, (replace owns i own). split; [reflexivity|]. eapply inv_same; [exact V|exact NT|exact NO|]. split; [rewrite T; exact W|auto].
  - destruct W as (c & F & W). rewrite (find_all w owns i own a c V NO F). eexists _, _, _. split; [reflexivity|]. eapply inv_same; [exact V|exact NT|exact NO|]. split; auto.
  - destruct W as (c & c' & F & E & W). rewrite (find_own w owns i own a c V NO F), E. eexists _, _, _. split; [reflexivity|].
    pose proof (find_nonnull _ _ _ F) as N. assert (Lk : lookup own a = Some c) by (unfold find in F; replace (a =? 0) with false in F by lia; exact F).
    eapply (inv_step w owns i t own _ _ ((a, c') :: erase own a) V NT NO).
    + split; [exact W|]. split; [apply put_nodup, ND|]. split; [cbn [t_blocks length]; rewrite (erase_length own a c ND Lk); exact C|]. apply apart_put; [exact AS|apply AS; congruence].
    + intros j o Nj E'. assert (X : apart own o) by (eapply D; [|exact NO|exact E']; congruence). assert (Y : apart ((a, c') :: erase own a) o) by (apply apart_put; [exact X|apply X; congruence]).
      split; [exact Y|apply apart_sym, Y].
    + intros b d. rewrite !find_put by exact N. destruct (Z.eqb_spec b a) as [->|Nb].
      * split; [auto|]. intros [X|[(j & o & Nj & E' & X)|X]]; [exact X| |].
        -- exfalso. assert (Y : find o a = None) by (eapply (D i j own o); [congruence|exact NO|exact E'|congruence]). congruence.
        -- exfalso. assert (Y : find shared a = None) by (apply AS; congruence). congruence.
      * rewrite M. split.
        -- intros [(j & o & E' & X)|X]; [|auto]. destruct (Nat.eq_dec j i) as [->|Nj]; [left; congruence|right; left; eauto].
        -- intros [X|[(j & o & Nj & E' & X)|X]]; eauto.
  - destruct (new_address_free (w_mem w) hint) as [N FR]. set (a := new_address (w_mem w) hint) in *. eexists _, _, _. split; [reflexivity|].
    assert (Fw : find (w_mem w) a = None) by (unfold find; replace (a =? 0) with false by lia; exact FR).
    assert (Fo : forall j o, nth_error owns j = Some o -> find o a = None). { intros j o E. destruct (find o a) eqn:X; [|reflexivity]. rewrite (find_own w owns j o a _ V E X) in Fw. discriminate. }
    assert (Fs : find shared a = None). { destruct (find shared a) eqn:X; [|reflexivity]. assert (Y : find (w_mem w) a = Some c0) by (apply M; auto). congruence. }
    assert (Lk : lookup own a = None). { specialize (Fo i own NO). unfold find in Fo. replace (a =? 0) with false in Fo by lia. exact Fo. }
    eapply (inv_step w owns i t own _ _ ((a, c) :: erase own a) V NT NO).
    + split; [apply W; [exact N|rewrite find_app, (Fo i own NO); exact Fs]|]. split; [apply put_nodup, ND|]. split; [|apply apart_put; assumption].
      cbn [t_blocks length]. rewrite erase_none by (apply lookup_none, Lk). congruence.
    + intros j o Nj E'. assert (X : apart own o) by (eapply D; [|exact NO|exact E']; congruence). assert (Y : apart ((a, c) :: erase own a) o) by (apply apart_put; [exact X|eapply Fo, E']).
      split; [exact Y|apply apart_sym, Y].
    + intros b d. rewrite !find_put by exact N. destruct (Z.eqb_spec b a) as [->|Nb].
      * split; [auto|]. intros [X|[(j & o & Nj & E' & X)|X]]; [exact X| |congruence]. rewrite (Fo j o E') in X. discriminate.
      * rewrite M. split.
        -- intros [(j & o & E' & X)|X]; [|auto]. destruct (Nat.eq_dec j i) as [->|Nj]; [left; congruence|right; left; eauto].
        -- intros [X|[(j & o & Nj & E' & X)|X]]; eauto.
  - destruct W as [[c F] W]. rewrite (find_own w owns i own a c V NO F). eexists _, _, _. split; [reflexivity|].
    pose proof (find_nonnull _ _ _ F) as N. assert (Lk : lookup own a = Some c) by (unfold find in F; replace (a =? 0) with false in F by lia; exact F).
    eapply (inv_step w owns i t own _ _ (erase own a) V NT NO).
    + split; [exact W|]. split; [apply erase_nodup, ND|]. split; [cbn [t_blocks]; pose proof (erase_length own a c ND Lk); lia|]. apply apart_erase, AS.
    + intros j o Nj E'. assert (X : apart own o) by (eapply D; [|exact NO|exact E']; congruence). pose proof (apart_erase own o a X) as Y. split; [exact Y|apply apart_sym, Y].
    + intros b d. rewrite !find_erase. destruct (Z.eqb_spec b a) as [->|Nb].
      * split; [discriminate|]. intros [X|[(j & o & Nj & E' & X)|X]]; [exact X| |].
        -- exfalso. assert (Y : find o a = None) by (eapply (D i j own o); [congruence|exact NO|exact E'|congruence]). congruence.
        -- exfalso. assert (Y : find shared a = None) by (apply AS; congruence). congruence.
      * rewrite M. split.
        -- intros [(j & o & E' & X)|X]; [|auto]. destruct (Nat.eq_dec j i) as [->|Nj]; [left; congruence|right; left; eauto].
        -- intros [X|[(j & o & Nj & E' & X)|X]]; eauto.
  - eexists _, _, _. split; [reflexivity|]. eapply inv_same; [exact V|exact NT|exact NO|]. split; [cbn [t_steps]; rewrite C; exact W|auto].
Qed.
Lemma run_ok schedule : forall w owns, inv w owns -> exists w' owns', run w schedule = Ok w' /\ inv w' owns'.
Proof.
  induction schedule as [|[i hint] schedule IH]; intros w owns V; cbn [run]; [eauto|]. destruct (nth_error (w_threads w) i) as [t|] eqn:E; [|eauto].
  destruct (access_ok w owns i t hint V E) as (m' & t' & owns' & -> & V'). cbn [bind]. eauto.
Qed.

(** The next accesses *)
Lemma next_own w owns i own a (wr : bool) : inv w owns -> nth_error owns i = Some own -> next_access w i = Some (a, wr) ->
  if wr then find own a <> None else find (own ++ shared) a <> None.
Proof.
  intros (L & G & _) NO. unfold next_access. destruct (nth_error (w_threads w) i) as [t|] eqn:NT; [|discriminate]. destruct (G i t own NT NO) as (W & _).
  destruct (t_steps t) as [x| | | |x k|x ch k|c k|x k|e k]; cbn [wp] in W; try discriminate; intros [= <- <-].
  - destruct W as (c & F & _). congruence.
  - destruct W as (c & c' & F & _). congruence.
  - destruct W as [[c F] _]. congruence.
Qed.
Lemma no_race w owns i j a wi wj : inv w owns -> i <> j -> next_access w i = Some (a, wi) -> next_access w j = Some (a, wj) -> wi = false /\ wj = false.
Proof.
  intros V N Ai Aj. pose proof V as (L & G & D & _).
  assert (O : forall i x, next_access w i = Some x -> exists own, nth_error owns i = Some own).
  { intros l x E. unfold next_access in E. destruct (nth_error (w_threads w) l) as [t|] eqn:NT; [|discriminate]. destruct (nth_error owns l) as [o|] eqn:X; [eauto|].
    exfalso. apply nth_error_None in X. assert (Y : nth_error (w_threads w) l <> None) by congruence. apply nth_error_Some in Y. lia. }
  destruct (O i _ Ai) as [oi Ni]. destruct (O j _ Aj) as [oj Nj]. pose proof (next_own w owns i oi a wi V Ni Ai) as Fi. pose proof (next_own w owns j oj a wj V Nj Aj) as Fj.
  assert (X : apart oi oj) by (eapply D; eassumption). assert (Y : apart oj oi) by (apply apart_sym, X).
  assert (S1 : forall l o, nth_error owns l = Some o -> apart o shared).
  { intros l o E. destruct (nth_error (w_threads w) l) as [t|] eqn:NT; [|exfalso; apply nth_error_None in NT; assert (Z : nth_error owns l <> None) by congruence; apply nth_error_Some in Z; lia].
    apply (G l t o NT E). }
  assert (K : forall o o' b, apart o o' -> apart o shared -> find o b <> None -> find (o' ++ shared) b = None).
  { intros o o' b H1 H2 F. rewrite find_app, (H1 b F). apply H2, F. }
  destruct wi, wj; auto; exfalso.
  - apply Fj. apply X, Fi.
  - apply Fj. eapply K; [exact X|eapply S1, Ni|exact Fi].
  - apply Fi. eapply K; [exact Y|eapply S1, Nj|exact Fj].
Qed.

(** A thread that runs comes to its end. *)
Lemma thread_ends w owns i t : inv w owns -> nth_error (w_threads w) i = Some t ->
  exists n w' a, run w (repeat (i, 0) n) = Ok w' /\ finished w' i a.
Proof.
  destruct t as [s n]. revert w owns n. induction s as [a| | | |a k IH|a ch k IH|c k IH|a k IH|e k IH]; intros w owns n V NT;
    destruct (access_ok w owns i _ 0 V NT) as (m' & t' & owns' & E & V'); assert (N1 : nth_error (w_threads w) i <> None) by congruence;
    assert (NT' : nth_error (replace (w_threads w) i t') i = Some t') by (rewrite (replace_nth _ _ _ _ N1), Nat.eqb_refl; reflexivity); pose proof E as E0; cbn [access t_steps t_blocks] in E0.
  - exists O, w, a. split; [reflexivity|]. exists n. exact NT.
  - discriminate.
  - discriminate.
  - discriminate.
  - destruct (find (w_mem w) a) as [c|]; [|discriminate]. injection E0 as <- <-. destruct (IH c _ owns' n V' NT') as (r & w' & x & R & F).
    exists (S r), w', x. split; [|exact F]. cbn [repeat run]. rewrite NT, E. exact R.
  - destruct (find (w_mem w) a) as [c|]; [|discriminate]. destruct (ch c); [|discriminate]. injection E0 as <- <-. destruct (IH _ owns' n V' NT') as (r & w' & x & R & F).
    exists (S r), w', x. split; [|exact F]. cbn [repeat run]. rewrite NT, E. exact R.
  - injection E0 as <- <-. destruct (IH _ _ owns' (S n) V' NT') as (r & w' & x & R & F).
    exists (S r), w', x. split; [|exact F]. cbn [repeat run]. rewrite NT, E. exact R.
  - destruct (find (w_mem w) a) as [c|]; [|discriminate]. injection E0 as <- <-. destruct (IH _ owns' (pred n) V' NT') as (r & w' & x & R & F).
    exists (S r), w', x. split; [|exact F]. cbn [repeat run]. rewrite NT, E. exact R.
  - injection E0 as <- <-. destruct (IH _ _ owns' n V' NT') as (r & w' & x & R & F).
    exists (S r), w', x. split; [|exact F]. cbn [repeat run]. rewrite NT, E. exact R.
Qed.
End Threads.

(** * From the start *)

Lemma find_concat owns : (forall i j o o', i <> j -> nth_error owns i = Some o -> nth_error owns j = Some o' -> apart o o') ->
  forall a c, find (concat owns) a = Some c <-> exists i o, nth_error owns i = Some o /\ find o a = Some c.
Proof.
  induction owns as [|o owns IH]; intros D a c; cbn [concat].
  - split; [unfold find; cbn; destruct (a =? 0); discriminate|]. intros (i & o & E & _). destruct i; discriminate.
  - rewrite find_app. assert (D' : forall i j x y, i <> j -> nth_error owns i = Some x -> nth_error owns j = Some y -> apart x y).
    { intros i j x y N E1 E2. apply (D (S i) (S j)); [congruence|exact E1|exact E2]. }
    destruct (find o a) as [d|] eqn:F.
    + split; [intros [= <-]; exists O, o; auto|]. intros ([|i] & x & E & X); cbn in E; [congruence|]. exfalso.
      assert (Y : find x a = None) by (apply (D O (S i) o x); [discriminate|reflexivity|exact E|congruence]). congruence.
    + rewrite (IH D'). split; [intros (i & x & E & X); exists (S i), x; auto|]. intros ([|i] & x & E & X); cbn in E; [congruence|]. eauto.
Qed.

Definition goals {A} (shared : list (Z * cell)) (ts : list (prog A * list (Z * cell))) (i : nat) (a : A) (o : list (Z * cell)) : Prop :=
  forall p own, nth_error ts i = Some (p, own) -> may_alone shared p own a o.
Lemma inv_start {A} shared (ts : list (prog A * list (Z * cell))) : separate shared ts -> inv shared (goals shared ts) (start shared ts) (map snd ts).
Proof.
  intros [F D]. split; [cbn; rewrite !map_length; reflexivity|]. assert (E : forall i o, nth_error (map snd ts) i = Some o -> exists p, nth_error ts i = Some (p, o)).
  { intros i o. rewrite nth_error_map. destruct (nth_error ts i) as [[p x]|]; cbn; intros [= <-]. eauto. }
  assert (DD : forall i j o o', i <> j -> nth_error (map snd ts) i = Some o -> nth_error (map snd ts) j = Some o' -> apart o o').
  { intros i j o o' N E1 E2. destruct (E i o E1) as [p P]. destruct (E j o' E2) as [q R]. exact (D i j p o q o' N P R). }
  split; [|split; [exact DD|]].
  - intros i t o. cbn [start w_threads]. rewrite !nth_error_map. destruct (nth_error ts i) as [[p x]|] eqn:T; cbn [option_map fst snd]; [|discriminate]. intros [= <-] [= <-].
    destruct (F i p x T) as (ND & AP & FA). split; [|auto]. cbn [t_steps]. eapply wp_mono; [|exact (wp_prog shared p x AP FA)]. intros a o [M _] q y E'. rewrite T in E'. injection E' as <- <-. exact M.
  - intros a c. cbn [start w_mem]. rewrite find_app. destruct (find (concat (map snd ts)) a) as [d|] eqn:C.
    + pose proof (proj1 (find_concat _ DD a d) C) as (i & o & N & X). split.
      * intros [= <-]. left. eauto.
      * intros [(j & o' & N' & X')|X'].
        -- pose proof (proj2 (find_concat _ DD a c) (ex_intro _ j (ex_intro _ o' (conj N' X')))) as Y. congruence.
        -- exfalso. destruct (E i o N) as [p P]. destruct (F i p o P) as (_ & AP & _). rewrite AP in X'; congruence.
    + split; [auto|]. intros [(j & o' & N' & X')|X']; [|exact X']. pose proof (proj2 (find_concat _ DD a c) (ex_intro _ j (ex_intro _ o' (conj N' X')))). congruence.
Qed.
Lemma run_threads {A} schedule : forall (w w' : world A), run w schedule = Ok w' -> length (w_threads w') = length (w_threads w).
Proof.
  induction schedule as [|[i hint] schedule IH]; intros w w'; cbn [run]; [intros [= <-]; reflexivity|]. destruct (nth_error (w_threads w) i) as [t|]; [|apply IH].
  destruct (access (w_mem w) hint t) as [[m t']| | |]; cbn [bind]; try discriminate. intros R. rewrite (IH _ _ R). cbn. apply replace_length.
Qed.

Lemma isolated {A} shared (ts : list (prog A * list (Z * cell))) schedule : separate shared ts ->
  exists w owns, run (start shared ts) schedule = Ok w /\ length owns = length ts /\
    (forall i j own own', i <> j -> nth_error owns i = Some own -> nth_error owns j = Some own' -> apart own own') /\
    (forall x c, find (w_mem w) x = Some c <-> (exists i own, nth_error owns i = Some own /\ find own x = Some c) \/ find shared x = Some c) /\
    (forall i p own own' a, nth_error ts i = Some (p, own) -> nth_error owns i = Some own' -> finished w i a -> may_alone shared p own a own').
Proof.
  intros SP. destruct (run_ok _ _ schedule _ _ (inv_start shared ts SP)) as (w & owns & R & L & G & D & M). exists w, owns. split; [exact R|].
  pose proof (run_threads _ _ _ R) as LT. cbn [start w_threads] in LT. rewrite map_length in LT. split; [congruence|]. split; [exact D|]. split; [exact M|].
  intros i p own own' a E O [n T]. destruct (G i _ own' T O) as (W & _). apply W. exact E.
Qed.
Lemma race_free {A} shared (ts : list (prog A * list (Z * cell))) schedule w i j a wi wj : separate shared ts -> run (start shared ts) schedule = Ok w -> i <> j ->
  next_access w i = Some (a, wi) -> next_access w j = Some (a, wj) -> wi = false /\ wj = false.
Proof.
  intros SP R N Ai Aj. destruct (run_ok _ _ schedule _ _ (inv_start shared ts SP)) as (w' & owns & R' & V). rewrite R in R'. injection R' as <-. exact (no_race _ _ w owns i j a wi wj V N Ai Aj).
Qed.
Lemma ends {A} shared (ts : list (prog A * list (Z * cell))) schedule w i : separate shared ts -> run (start shared ts) schedule = Ok w -> (i < length ts)%nat ->
  exists n w' a, run w (repeat (i, 0) n) = Ok w' /\ finished w' i a.
Proof.
  intros SP R I. destruct (run_ok _ _ schedule _ _ (inv_start shared ts SP)) as (w' & owns & R' & V). rewrite R in R'. injection R' as <-.
  destruct (nth_error (w_threads w) i) as [t|] eqn:E; [exact (thread_ends _ _ w owns i t V E)|]. exfalso. apply nth_error_None in E. pose proof (run_threads _ _ _ R) as LT.
  cbn [start w_threads] in LT. rewrite map_length in LT. lia.
Qed.
