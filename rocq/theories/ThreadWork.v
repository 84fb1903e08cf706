(** Threads that work: each takes the first value of a shared list, puts it and other values in a list
    of its own, takes them all out again and destroys its list. *)
From Verif Require Import Base Heap ListModel ListSpec ListProofs ThreadModel ThreadSpec Thread ThreadApi.
Open Scope list_scope.
Open Scope Z_scope.

Definition call_of {ro A} {m : M A} (c : coded ro m) : call A := mk_call m (proj1_sig c) (proj1 (proj2_sig c)).
Definition looks_of {A} {m : M A} (c : coded true m) : looks_only (c_steps (call_of c)) := proj2 (proj2_sig c) eq_refl.
Lemma steps_exist {ro A} (m : M A) : coded ro m -> has_steps m.
Proof. intros c. exists (call_of c). reflexivity. Qed.
Lemma looks_exist {A} (m : M A) : coded true m -> has_looks m.
Proof. intros c. exists (call_of c). split; [reflexivity|exact (looks_of c)]. Qed.

Fixpoint append_all (l : Z) (vs : list Z) (k : prog (list Z)) : prog (list Z) :=
  match vs with
  | [] => k
  | v :: vs => Change (call_of (c_list_append l v)) (fun _ => append_all l vs k)
  end.
Fixpoint pop_all (l : Z) (n : nat) (acc : list Z) : prog (list Z) :=
  match n with
  | O => Change (call_of (c_destroy_list l)) (fun _ => Done acc)
  | S n => Change (call_of (c_list_pop_first l)) (fun x => pop_all l n (acc ++ [x]))
  end.
Definition worker (common : Z) (vs : list Z) : prog (list Z) :=
  Look (call_of (c_list_get_first common)) (looks_of (c_list_get_first common)) (fun e =>
  Look (call_of (c_list_elem_get_value e)) (looks_of (c_list_elem_get_value e)) (fun v =>
  Change (call_of c_make_list) (fun l =>
  append_all l (v :: vs) (pop_all l (S (length vs)) [])))).

Section Workers.
Variable shared : list (Z * cell).
(** Fine alone, with one result only, and nothing is left allocated. *)
Definition good_prog {A} (p : prog A) (own : list (Z * cell)) (r : A) : Prop :=
  fine_alone shared p own /\ forall a own', may_alone shared p own a own' -> a = r /\ forall x, find own' x = None.
Lemma good_change {A B} (c : call B) (k : B -> prog A) own r :
  (forall hints, exists b h, c_effect c (mk_heap own hints 0) = Ok (b, h) /\ good_prog (k b) (mem h) r) -> good_prog (Change c k) own r.
Proof.
  intros H. split; cbn [fine_alone may_alone].
  - intros hints. destruct (H hints) as (b & h & E & F & _). eauto.
  - intros a own' (hints & b & h & E & _ & M). destruct (H hints) as (b' & h' & E' & _ & G). rewrite E in E'. injection E' as <- <-. apply G, M.
Qed.
Lemma good_look {A B} (c : call B) only (k : B -> prog A) own r b h :
  c_effect c (mk_heap (own ++ shared) (fun _ => 0) 0) = Ok (b, h) -> good_prog (k b) own r -> good_prog (Look c only k) own r.
Proof.
  intros E [F G]. split; cbn [fine_alone may_alone]; [eauto|]. intros a own' (b' & h' & E' & M). rewrite E in E'. injection E' as <- <-. apply G, M.
Qed.

(** The memory holds a list and nothing else. *)
Definition holds (own : list (Z * cell)) (l : Z) (es : list (Z * Z)) : Prop :=
  is_list (mk_heap own (fun _ => 0) 0) l es /\ forall x, find own x <> None -> In x (footprint l es).
Lemma holds_list own l es hints n : holds own l es -> is_list (mk_heap own hints n) l es.
Proof. intros [I _]. eapply il_frame; [|exact I]. intros x _. reflexivity. Qed.
Lemma list_holds h l es : is_list h l es -> (forall x, get h x <> None -> In x (footprint l es)) -> holds (mem h) l es.
Proof. intros I O. split; [|exact O]. eapply il_frame; [|exact I]. intros x _. reflexivity. Qed.

Lemma good_pop l : forall es own acc, holds own l es -> good_prog (pop_all l (length es) acc) own (acc ++ values es).
Proof.
  induction es as [|[e w] es IH]; intros own acc H; cbn [length pop_all]; apply good_change; intros hints; cbn [c_effect call_of];
    pose proof (holds_list own l _ hints 0 H) as I.
  - destruct (destroy_list_ok _ _ _ I) as (h' & E & D & F). exists tt, h'. split; [exact E|]. split; cbn [fine_alone may_alone]; [exact Logic.I|].
    intros a own' [-> ->]. split; [cbn; rewrite app_nil_r; reflexivity|]. intros x. change (find (mem h') x) with (get h' x).
    destruct (in_dec Z.eq_dec x (footprint l [])) as [X|X]; [apply D, X|]. rewrite (F x X). destruct (get (mk_heap own hints 0) x) eqn:G; [|reflexivity].
    exfalso. apply X, (proj2 H). change (get (mk_heap own hints 0) x <> None). congruence.
  - destruct (pop_first_ok _ _ _ I) as (h' & E & I' & F & N). exists w, h'. split; [exact E|]. cbn [tl] in I'.
    replace (acc ++ values ((e, w) :: es)) with ((acc ++ [w]) ++ values es) by (rewrite <- app_assoc; reflexivity). apply IH. apply list_holds; [exact I'|].
    intros x G. destruct (in_dec Z.eq_dec x (footprint l ((e, w) :: es))) as [X|X].
    + cbn in X. destruct X as [X|[X|X]]; [left; exact X| |right; exact X]. subst x. exfalso. apply G. apply N. discriminate.
    + exfalso. apply X, (proj2 H). change (get (mk_heap own hints 0) x <> None). rewrite <- (F x X). exact G.
Qed.
Lemma good_append l k r : forall vs own es, holds own l es -> zlen es + zlen vs < 2 ^ 60 ->
  (forall own' es', holds own' l es' -> values es' = values es ++ vs -> length es' = (length es + length vs)%nat -> good_prog k own' r) -> good_prog (append_all l vs k) own r.
Proof.
  induction vs as [|v vs IH]; intros own es H L K; cbn [append_all].
  - apply (K own es H); [rewrite app_nil_r; reflexivity|cbn; lia].
  - rewrite zlen_cons in L. pose proof (zlen_nonneg vs). apply good_change. intros hints. cbn [c_effect call_of]. pose proof (holds_list own l _ hints 0 H) as I.
    destruct (append_ok _ _ _ v I ltac:(lia)) as (e & h' & E & _ & _ & I' & F). exists e, h'. split; [exact E|]. apply (IH (mem h') (es ++ [(e, v)])).
    + apply list_holds; [exact I'|]. intros x G. destruct (in_dec Z.eq_dec x (e :: footprint l es)) as [X|X].
      * unfold footprint. rewrite handles_app. cbn. rewrite in_app_iff. cbn in X |- *. tauto.
      * exfalso. apply X. right. apply (proj2 H). change (get (mk_heap own hints 0) x <> None). rewrite <- (F x X). exact G.
    + rewrite zlen_app. change (zlen [(e, v)]) with 1. lia.
    + intros own' es' H' V N. apply (K own' es' H').
      * rewrite V. unfold values. rewrite map_app, <- app_assoc. reflexivity.
      * rewrite N, app_length. cbn. lia.
Qed.
Lemma good_worker common e v es hints n vs : is_list (mk_heap shared hints n) common ((e, v) :: es) -> zlen vs < 2 ^ 59 -> good_prog (worker common vs) [] (v :: vs).
Proof.
  intros I L. assert (I' : is_list (mk_heap ([] ++ shared) (fun _ => 0) 0) common ((e, v) :: es)) by (eapply il_frame; [|exact I]; intros x _; reflexivity).
  unfold worker. eapply good_look; [exact (get_first_ok _ _ _ I')|]. cbn [hd_addr]. eapply good_look; [exact (get_value_ok _ _ [] _ _ _ I')|].
  apply good_change. intros hs. cbn [c_effect call_of]. destruct (make_list_ok (mk_heap [] hs 0)) as (l & h' & E & G & N & IL & F). exists l, h'. split; [exact E|].
  apply (good_append l _ _ (v :: vs) (mem h') []).
  - apply list_holds; [exact IL|]. intros x X. destruct (in_dec Z.eq_dec x [l]) as [Y|Y]; [exact Y|]. exfalso. apply X. rewrite (F x Y). unfold get. cbn. destruct (x =? 0); reflexivity.
  - rewrite zlen_cons. change (zlen (@nil (Z * Z))) with 0. lia.
  - intros own' es' H V N'. cbn in N', V. rewrite <- N'. replace (v :: vs) with ([] ++ values es') by exact V. apply good_pop, H.
Qed.
End Workers.

Lemma workers shared hints n common e v es vss schedule : is_list (mk_heap shared hints n) common ((e, v) :: es) -> (forall vs, In vs vss -> zlen vs < 2 ^ 59) ->
  let ts := map (fun vs => (worker common vs, [])) vss in
  separate shared ts /\
  exists w, run (start shared ts) schedule = Ok w /\
    (forall i r vs, nth_error vss i = Some vs -> finished w i r -> r = v :: vs) /\
    ((forall i vs, nth_error vss i = Some vs -> exists r, finished w i r) -> forall x, find (w_mem w) x = find shared x).
Proof.
  intros I L ts. assert (T : forall i p own, nth_error ts i = Some (p, own) -> exists vs, nth_error vss i = Some vs /\ p = worker common vs /\ own = []).
  { intros i p own E. subst ts. rewrite nth_error_map in E. destruct (nth_error vss i) as [vs|]; [|discriminate]. injection E as <- <-. eauto. }
  assert (SP : separate shared ts).
  { split.
    - intros i p own E. destruct (T i p own E) as (vs & N & -> & ->). split; [constructor|]. split; [intros a X; exfalso; apply X; unfold find; cbn; destruct (a =? 0); reflexivity|].
      apply (good_worker shared common e v es hints n vs I). apply L. eapply nth_error_In, N.
    - intros i j p own q own' _ E _. destruct (T i p own E) as (vs & N & -> & ->). intros a X. exfalso. apply X. unfold find. cbn. destruct (a =? 0); reflexivity. }
  split; [exact SP|]. destruct (isolated shared ts schedule SP) as (w & owns & R & LO & D & M & F). exists w. split; [exact R|].
  assert (LT : length ts = length vss) by (subst ts; apply map_length).
  assert (G : forall i r vs own', nth_error vss i = Some vs -> nth_error owns i = Some own' -> finished w i r -> r = v :: vs /\ forall x, find own' x = None).
  { intros i r vs own' N O X. assert (E : nth_error ts i = Some (worker common vs, [])) by (subst ts; rewrite nth_error_map, N; reflexivity).
    apply (good_worker shared common e v es hints n vs I (L vs (nth_error_In _ _ N))). exact (F i _ _ own' r E O X). }
  split.
  - intros i r vs N X. destruct (nth_error owns i) as [own'|] eqn:O; [exact (proj1 (G i r vs own' N O X))|]. exfalso. apply nth_error_None in O. assert (Y : nth_error vss i <> None) by congruence.
    apply nth_error_Some in Y. lia.
  - intros A x. destruct (find shared x) as [c|] eqn:S; [apply M; auto|]. destruct (find (w_mem w) x) as [c|] eqn:W; [|reflexivity]. exfalso. apply M in W. destruct W as [(i & own & O & X)|X]; [|congruence].
    assert (Y : nth_error owns i <> None) by congruence. apply nth_error_Some in Y. destruct (nth_error vss i) as [vs|] eqn:N; [|apply nth_error_None in N; lia].
    destruct (A i vs N) as [r FR]. rewrite (proj2 (G i r vs own N O FR)) in X. discriminate.
Qed.
