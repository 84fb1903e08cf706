(** Lists that are changed while they are traversed. *)
From Verif Require Import Base Heap ListModel ListSpec ListProofs ListIterSpec.
From Coq Require Import ZifyBool.

Lemma changes_history l h es h' es' : changes l h es h' es' -> list_history h l es -> list_history h' l es'.
Proof.
  induction 1 as [h es|h es h1 es1 h2 es2 S C IH|h es h1 h2 es2 S C IH]; intros H; [exact H| |]; apply IH.
  - eapply LH_step; eauto.
  - eapply LH_other; eauto.
Qed.

Lemma foreach_zero n f h : foreach_loop (S n) f 0 h = Ok (tt, h).
Proof. reflexivity. Qed.
Lemma foreach_more n f l h pre e w post h1 pre1 post1 : list_history h l (pre ++ (e, w) :: post) -> f w h = Ok (tt, h1) ->
  list_history h1 l (pre1 ++ (e, w) :: post1) -> foreach_loop (S n) f e h = foreach_loop n f (first_handle post1) h1.
Proof.
  intros H F H1. apply history_is_list in H. apply history_is_list in H1. cbn [foreach_loop].
  pose proof (il_mid _ _ _ _ _ _ H) as (_ & N & _). replace (e =? 0) with false by lia.
  rewrite (bnd_Ok _ _ _ _ _ (get_value_ok _ _ _ _ _ _ H)). rewrite (bnd_Ok _ _ _ _ _ F).
  rewrite (bnd_Ok _ _ _ _ _ (next_ok _ _ _ _ _ _ H1)). rewrite hd_addr_first. reflexivity.
Qed.

Lemma visits_run l f h es e vs h' es' : visits l f h es e vs h' es' -> list_history h l es ->
  list_history h' l es' /\ forall n, (length vs < n)%nat -> foreach_loop n f e h = Ok (tt, h').
Proof.
  induction 1 as [h es|h pre e w post h1 pre1 post1 vs h2 es2 F C V IH]; intros H.
  - split; [exact H|]. intros [|n] L; [lia|]. reflexivity.
  - pose proof (changes_history _ _ _ _ _ C H) as H1. destruct (IH H1) as (H2 & R). split; [exact H2|].
    intros [|n] L; [lia|]. cbn [length] in L. rewrite (foreach_more n f l h pre e w post h1 pre1 post1 H F H1). apply R. lia.
Qed.
Theorem foreach_visits l f h es vs h' es' : list_history h l es -> visits l f h es (first_handle es) vs h' es' ->
  list_history h' l es' /\ forall n, (length vs < n)%nat -> foreach_within n l f h = Ok (tt, h').
Proof.
  intros H V. destruct (visits_run l f h es _ vs h' es' V H) as (H' & R). split; [exact H'|]. intros n L. unfold foreach_within.
  pose proof (history_is_list _ _ _ H) as I. rewrite (bnd_Ok _ _ _ _ _ (get_first_ok _ _ _ I)). rewrite hd_addr_first. apply R. exact L.
Qed.

Lemma considerate_run P l f : considerate P l f -> forall n h es e, list_history h l es -> P h es -> (e = 0 \/ exists pre w post, es = pre ++ (e, w) :: post) ->
  foreach_loop n f e h = NoFuel \/ exists vs h' es', (length vs < n)%nat /\ visits l f h es e vs h' es' /\ foreach_loop n f e h = Ok (tt, h').
Proof.
  intros K. induction n as [|n IH]; intros h es e H Ph E; [left; reflexivity|].
  destruct E as [->|(pre & w & post & ->)].
  - right. exists [], h, es. split; [simpl; lia|]. split; [constructor|reflexivity].
  - destruct (K h pre e w post H Ph) as (h1 & pre1 & post1 & F & P1 & C). pose proof (changes_history _ _ _ _ _ C H) as H1.
    rewrite (foreach_more n f l h pre e w post h1 pre1 post1 H F H1).
    destruct (IH h1 _ (first_handle post1) H1 P1) as [N|(vs & h' & es' & L & V & R)].
    + destruct post1 as [|[e2 w2] post1]; [left; reflexivity|right]. exists (pre1 ++ [(e, w)]), w2, post1. rewrite <- app_assoc. reflexivity.
    + left. exact N.
    + right. exists (w :: vs), h', es'. split; [cbn [length]; lia|]. split; [|exact R]. econstructor; eauto.
Qed.
Theorem foreach_considerate P l f h es : considerate P l f -> list_history h l es -> P h es -> forall n,
  foreach_within n l f h = NoFuel \/
  exists vs h' es', (length vs < n)%nat /\ visits l f h es (first_handle es) vs h' es' /\ foreach_within n l f h = Ok (tt, h').
Proof.
  intros K H Ph n. unfold foreach_within. pose proof (history_is_list _ _ _ H) as I. rewrite (bnd_Ok _ _ _ _ _ (get_first_ok _ _ _ I)). rewrite hd_addr_first.
  apply (considerate_run P l f K n h es _ H Ph). destruct es as [|[e w] es]; [left; reflexivity|right]. exists [], w, es. reflexivity.
Qed.

(** ** Callbacks that leave the rest of the list alone *)
Lemma back_visits P l f : looks_back P l f -> forall post h pre e w, list_history h l (pre ++ (e, w) :: post) -> P h (pre ++ (e, w) :: post) ->
  exists h' pre', visits l f h (pre ++ (e, w) :: post) e (w :: values post) h' (pre' ++ [last ((e, w) :: post) (0, 0)]).
Proof.
  intros K. induction post as [|[e2 w2] post IH]; intros h pre e w H Ph; destruct (K h pre e w _ H Ph) as (h1 & pre1 & F & P1 & C).
  - exists h1, pre1. cbn [last]. econstructor; [exact F|exact C|]. constructor.
  - pose proof (changes_history _ _ _ _ _ C H) as H1. specialize (IH h1 (pre1 ++ [(e, w)]) e2 w2).
    rewrite <- app_assoc in IH. destruct (IH H1 P1) as (h2 & pre2 & V). exists h2, pre2.
    change (last ((e, w) :: (e2, w2) :: post) (0, 0)) with (last ((e2, w2) :: post) (0, 0)). econstructor; [exact F|exact C|exact V].
Qed.
Theorem foreach_back P l f h es : looks_back P l f -> list_history h l es -> P h es ->
  exists h' es', visits l f h es (first_handle es) (values es) h' es' /\ list_foreach l f h = Ok (tt, h') /\ list_history h' l es'.
Proof.
  intros K H Ph. assert (V : exists h' es', visits l f h es (first_handle es) (values es) h' es').
  { destruct es as [|[e w] es]; [exists h, []; constructor|]. destruct (back_visits P l f K es h [] e w H Ph) as (h' & pre' & V). eauto. }
  destruct V as (h' & es' & V). exists h', es'. split; [exact V|]. destruct (foreach_visits l f h es _ h' es' H V) as (H' & R).
  split; [|exact H']. unfold list_foreach, fuel, bnd at 1. specialize (R (S (length (mem h)))). unfold foreach_within in R. apply R.
  unfold values. rewrite map_length. apply (il_fuel _ _ _ (history_is_list _ _ _ H)).
Qed.

(** ** Work lists *)
Lemma appends_visits P l f : appends P l f -> forall h es e vs h' es', visits l f h es e vs h' es' -> list_history h l es -> P h es ->
  forall pre post, es = pre ++ post -> e = first_handle post -> exists more, es' = pre ++ post ++ more /\ vs = values (post ++ more).
Proof.
  intros K. induction 1 as [h es|h pre0 e w post0 h1 pre1 post1 vs h2 es2 F C V IH]; intros H Ph pre post E Ee.
  - exists []. rewrite !app_nil_r. split; [exact E|]. destruct post as [|[e1 w1] post]; [reflexivity|]. exfalso.
    pose proof (history_is_list _ _ _ H) as I. rewrite E in I. pose proof (il_mid _ _ _ _ _ _ I) as (_ & N & _). apply N. symmetry. exact Ee.
  - pose proof (history_is_list _ _ _ H) as I.
    assert (X : pre = pre0 /\ post = (e, w) :: post0).
    { pose proof (il_mid _ _ _ _ _ _ I) as (_ & N & _ & Npre & Npost). destruct post as [|[e1 w1] post].
      - exfalso. cbn in Ee. congruence.
      - cbn in Ee. subst e1. clear -E Npre Npost. revert pre E. induction pre0 as [|[a b] pre0 IH]; intros [|[a' b'] pre] E; cbn [app] in E.
        + injection E as -> ->. auto.
        + injection E as -> -> E. exfalso. apply Npost. rewrite E. rewrite handles_app. apply in_or_app. right; left; reflexivity.
        + injection E as -> -> E. exfalso. apply Npre. left; reflexivity.
        + injection E as -> -> E. destruct (IH) with (pre := pre) as (X & Y); [intros Z; apply Npre; right; exact Z|exact E|]. split; [congruence|exact Y]. }
    destruct X as (-> & ->). destruct (K h pre0 e w post0 H Ph) as (h1' & more & F' & P1 & C2). rewrite F in F'. injection F' as <-.
    pose proof (changes_history _ _ _ _ _ C H) as H1. pose proof (changes_history _ _ _ _ _ C2 H) as H1'.
    assert (ES : pre1 ++ (e, w) :: post1 = pre0 ++ (e, w) :: post0 ++ more).
    { pose proof (proj1 (observers_history _ _ _ H1)) as T1. pose proof (proj1 (observers_history _ _ _ H1')) as T2.
      apply history_is_list in H1. apply history_is_list in H1'.
      set (n := (length (pre1 ++ (e, w) :: post1) + length (pre0 ++ (e, w) :: post0 ++ more))%nat).
      pose proof (traverse_forward_ok _ _ _ n H1 ltac:(unfold n; lia)) as U1. pose proof (traverse_forward_ok _ _ _ n H1' ltac:(unfold n; lia)) as U2. congruence. }
    assert (X2 : pre1 = pre0 /\ post1 = post0 ++ more).
    { apply history_is_list in H1'. pose proof (il_mid _ _ _ _ _ _ H1') as (_ & _ & _ & Npre & Npost). clear -ES Npre Npost. revert pre1 ES.
      induction pre0 as [|[a b] pre0 IH]; intros [|[a' b'] pre] E; cbn [app] in E.
      - injection E as ->. auto.
      - injection E as -> -> E. exfalso. apply Npost. rewrite <- E. rewrite handles_app. apply in_or_app. right; left; reflexivity.
      - injection E as -> -> E. exfalso. apply Npre. left; reflexivity.
      - injection E as -> -> E. destruct (IH) with (pre1 := pre) as (X & Y); [intros Z; apply Npre; right; exact Z|exact E|]. split; [congruence|exact Y]. }
    destruct X2 as (-> & ->). destruct (IH H1 P1 (pre0 ++ [(e, w)]) (post0 ++ more)) as (more2 & E2 & Ev); [rewrite <- app_assoc; reflexivity|reflexivity|].
    exists (more ++ more2). split; [rewrite E2, <- !app_assoc; reflexivity|]. rewrite Ev. cbn [app]. rewrite <- app_assoc. reflexivity.
Qed.
Theorem foreach_worklist P l f h es vs h' es' : appends P l f -> list_history h l es -> P h es -> visits l f h es (first_handle es) vs h' es' ->
  vs = values es' /\ exists more, es' = es ++ more.
Proof.
  intros K H Ph V. destruct (appends_visits P l f K h es _ vs h' es' V H Ph [] es eq_refl eq_refl) as (more & -> & ->). split; [reflexivity|]. exists more. reflexivity.
Qed.

(** ** Removal of the current element *)
Theorem foreach_removed l f h e w es h' : list_history h l ((e, w) :: es) -> f w h = Ok (tt, h') -> get h' e = None -> list_foreach l f h = UB.
Proof.
  intros H F G. apply history_is_list in H. unfold list_foreach, fuel, bnd at 1. rewrite (bnd_Ok _ _ _ _ _ (get_first_ok _ _ _ H)). cbn [hd_addr foreach_loop].
  pose proof (il_mid _ _ [] _ _ _ H) as (_ & N & _). replace (e =? 0) with false by lia.
  rewrite (bnd_Ok _ _ _ _ _ (get_value_ok _ _ [] _ _ _ H)). rewrite (bnd_Ok _ _ _ _ _ F). unfold list_next, ld_lelem, bnd. rewrite G. reflexivity.
Qed.

(** ** A client's loop that removes *)
Lemma remove_loop_ok l p : forall es n h pre, (length es < n)%nat -> list_history h l (pre ++ es) ->
  exists h', remove_loop n l p (first_handle es) h = Ok (tt, h') /\ list_history h' l (pre ++ keep p es) /\
    (forall e w, In (e, w) es -> p w = true -> get h' e = None) /\ same_outside (footprint l (pre ++ es)) h h'.
Proof.
  induction es as [|[e w] es IH]; intros n h pre L H; (destruct n as [|n]; [simpl in L; lia|]).
  - exists h. split; [reflexivity|]. split; [exact H|]. split; [intros ? ? []|intros ? _; reflexivity].
  - pose proof (history_is_list _ _ _ H) as I. pose proof (il_mid _ _ _ _ _ _ I) as (_ & N & Nl & Npre & Npost).
    cbn [remove_loop first_handle handles map hd fst]. replace (e =? 0) with false by lia.
    rewrite (bnd_Ok _ _ _ _ _ (get_value_ok _ _ _ _ _ _ I)). rewrite (bnd_Ok _ _ _ _ _ (next_ok _ _ _ _ _ _ I)). rewrite hd_addr_first.
    cbn [keep filter snd]. cbn [length] in L. destruct (p w) eqn:P; cbn [negb].
    + destruct (remove_ok _ _ _ _ _ _ I) as (h1 & E1 & G1 & I1 & S1). rewrite (bnd_Ok _ _ _ _ _ E1).
      assert (H1 : list_history h1 l (pre ++ es)). { eapply LH_step; [exact H|]. eapply S_remove; eassumption. }
      destruct (IH n h1 pre ltac:(lia) H1) as (h2 & E2 & H2 & R2 & S2). exists h2. split; [exact E2|]. split; [exact H2|].
      assert (Ne : ~ In e (footprint l (pre ++ es))).
      { intros [X|X]; [congruence|]. rewrite handles_app in X. apply in_app_or in X. tauto. }
      split.
      * intros e' w' [X|X] P'; [|eauto]. injection X as <- <-. rewrite S2 by exact Ne. exact G1.
      * intros x X. assert (X2 : ~ In x (footprint l (pre ++ es))).
        { intros [Y|Y]; apply X; [left; exact Y|right]. rewrite handles_app in *. apply in_app_or in Y. apply in_or_app. destruct Y; [left|right; right]; assumption. }
        rewrite S2 by exact X2. apply S1. exact X.
    + unfold bnd at 1, ret. specialize (IH n h (pre ++ [(e, w)]) ltac:(lia)). rewrite <- !app_assoc in IH. destruct (IH H) as (h2 & E2 & H2 & R2 & S2).
      exists h2. split; [exact E2|]. split; [exact H2|]. split.
      * intros e' w' [X|X] P'; [|eauto]. congruence.
      * exact S2.
Qed.
Theorem remove_if_ok l p h es : list_history h l es ->
  exists h', remove_if l p h = Ok (tt, h') /\ list_history h' l (keep p es) /\
    (forall e w, In (e, w) es -> p w = true -> get h' e = None) /\ same_outside (footprint l es) h h'.
Proof.
  intros H. pose proof (history_is_list _ _ _ H) as I. unfold remove_if, fuel, bnd at 1. rewrite (bnd_Ok _ _ _ _ _ (get_first_ok _ _ _ I)). rewrite hd_addr_first.
  apply (remove_loop_ok l p es _ h []); [apply (il_fuel _ _ _ I)|exact H].
Qed.
