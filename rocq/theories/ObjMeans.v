(** Many sets, queues and byte arrays on one heap behave as sets, multisets and sequences. *)
From Verif Require Import Base CMem Heap ListSpec IntsetModel IntsetSpec PriorqModel PriorqSpec ObjModel OwnSpec ObjBase ObjSpec ObjProofs.
From Verif Require IntsetProofs PriorqProofs ByteArrayModel ByteArraySpec ByteArrayProofs.
From Coq Require Import ZifyBool.

Definition means (code : Z -> Z -> Z -> Z) (o : object) (a : meaning) : Prop :=
  match o, a with
  | Gone, Destroyed => True
  | Set_ s, ASet n ops => 0 <= n <= INT_MAX + 1 /\ Forall op_ok ops /\ run (make_intset n) ops = Ok s
  | Queue f q, AQueue f' m => f = f' /\ comparator (code f) /\ PriorqProofs.inv (code f) anything q m
  | Bytes a, ABytes m r l => (exists t rest, ByteArrayProofs.rep m a l t rest) /\ ByteArrayModel.ref_count a = r /\ 0 < r < 2 ^ 32
  | _, _ => False
  end.

Lemma f2_nth {A B} (R : A -> B -> Prop) l l' k b : Forall2 R l l' -> nth_error l' k = Some b -> exists a, nth_error l k = Some a /\ R a b.
Proof.
  intros F. revert k. induction F as [|x y l l' H F IH]; intros [|k] E; cbn [nth_error] in *; try discriminate.
  - injection E as <-. eauto.
  - apply IH. exact E.
Qed.
Lemma f2_put code os ms k o m : Forall2 (means code) os ms -> means code o m -> Forall2 (means code) (put_object k o os) (put_meaning k m ms).
Proof.
  intros F M. unfold put_object, put_meaning. apply Forall2_app.
  - clear M. revert k. induction F; intros [|k]; cbn [firstn]; constructor; auto.
  - constructor; [exact M|]. clear M. generalize (S k) as j. clear k. induction F; intros [|j]; cbn [skipn]; auto.
Qed.
Lemma run_app s ops o : run s (ops ++ [o]) = (s <- run s ops ;; step s o).
Proof.
  revert s. induction ops as [|x ops IH]; intros s; cbn [app run bind].
  - destruct (step s o); reflexivity.
  - destruct (step s x); cbn [bind]; auto.
Qed.
Lemma set_step n ops s o : 0 <= n <= INT_MAX + 1 -> Forall op_ok ops -> run (make_intset n) ops = Ok s -> op_ok o ->
  exists s', step s o = Ok s' /\ Forall op_ok (ops ++ [o]) /\ run (make_intset n) (ops ++ [o]) = Ok s'.
Proof.
  intros Hn Ho R Oo. assert (F : Forall op_ok (ops ++ [o])) by (apply Forall_app; split; [exact Ho|repeat constructor; exact Oo]).
  destruct (IntsetProofs.has_after n (ops ++ [o]) ltac:(unfold INT_MAX in Hn; lia) F) as (s' & R' & _).
  exists s'. split; [|auto]. rewrite run_app, R in R'. exact R'.
Qed.
Lemma inv_quiet cmp q m : PriorqProofs.inv cmp anything q m -> PriorqProofs.inv cmp anything (quiet q) m.
Proof.
  intros (W & H & P & A & _). split; [exact W|]. split; [exact H|]. split; [exact P|]. split; [exact A|].
  intros N. exfalso. assert (X : NoDup [0; 0]) by (apply N; exact I). apply NoDup_cons_iff in X. apply (proj1 X). left; reflexivity.
Qed.
Lemma inv_new cmp : PriorqProofs.inv cmp anything make_priority_queue [].
Proof.
  unfold PriorqProofs.inv. split; [unfold PriorqProofs.wf; cbn; lia|]. split; [intros i Hi; cbn in Hi; lia|]. split; [reflexivity|]. split; [exact I|].
  intros _ i Hi. cbn in Hi. lia.
Qed.
Lemma perm_nil_case (m : list Z) : {m = []} + {0 < zlen m}.
Proof. destruct m as [|x m]; [left; reflexivity|right]. rewrite zlen_cons. pose proof (zlen_nonneg m). lia. Qed.

Lemma bytes_step_ok junk m a l t rest o : ByteArrayProofs.rep m a l t rest -> ByteArraySpec.op_ok o ->
  exists a' c, bytes_step junk a o = Ok (a', (returns m l o, c)) /\
    (exists t' rest', ByteArrayProofs.rep m a' (fst (ByteArraySpec.spec_step m l o)) t' rest') /\ ByteArrayModel.ref_count a' = ByteArrayModel.ref_count a.
Proof.
  intros R Ho. destruct (ByteArrayProofs.step_ok junk m a l t rest o R Ho) as (a' & t' & rest' & E & R' & _ & C).
  assert (K : exists t' rest', ByteArrayProofs.rep m a' (fst (ByteArraySpec.spec_step m l o)) t' rest') by eauto.
  destruct o as [b|s|pos b|pos s|n c| |len cb]; cbn [bytes_step returns];
    try (rewrite E; cbn [bind]; eexists _, _; split; [reflexivity|]; split; [exact K|exact C]).
  - cbn [ByteArraySpec.step] in E. destruct (ByteArrayModel.byte_array_clear a) as [a1| | |]; cbn [bind] in E |- *; try discriminate. injection E as -> _.
    eexists _, _. split; [reflexivity|]. split; [exact K|exact C].
  - cbn [ByteArraySpec.step] in E. cbn [ByteArraySpec.op_ok] in Ho. pose proof (ByteArrayProofs.stream_ok junk m a l t rest len cb R (proj1 Ho) (proj2 Ho)) as S.
    destruct ((0 <? len) && (ByteArraySpec.ask m l len =? 0)).
    + destruct S as (a1 & S & _). rewrite S in E |- *. cbn [bind] in E |- *. injection E as -> _. eexists _, _. split; [reflexivity|]. split; [exact K|exact C].
    + destruct (cb (ByteArraySpec.ask m l len)) as [[w count] e]. destruct S as (a1 & t1 & rest1 & S & _). rewrite S in E |- *. cbn [bind fst snd] in E |- *. injection E as -> _.
      eexists _, _. split; [reflexivity|]. split; [exact K|exact C].
Qed.

Lemma allowed_runs code junk c os ms : Forall2 (means code) os ms -> allowed code c ms ->
  exists v l os', alone code junk c os = Ok ((v, l), os') /\ (exists ms', meant code c ms v ms') /\
    (forall ms', meant code c ms v ms' -> Forall2 (means code) os' ms').
Proof.
  intros F A.
  assert (PS : forall k n ops, nth_error ms k = Some (ASet n ops) -> exists s, a_set k os = Ok s /\ 0 <= n <= INT_MAX + 1 /\ Forall op_ok ops /\ run (make_intset n) ops = Ok s).
  { intros k n ops E. destruct (f2_nth _ _ _ _ _ F E) as ([|s|f q|a] & E' & M); try contradiction. exists s. unfold a_set. rewrite E'. auto. }
  assert (PQ : forall k f m, nth_error ms k = Some (AQueue f m) -> exists q, a_queue k os = Ok (f, q) /\ comparator (code f) /\ PriorqProofs.inv (code f) anything q m).
  { intros k f m E. destruct (f2_nth _ _ _ _ _ F E) as ([|s|f' q|a] & E' & M); try contradiction. destruct M as (<- & M). exists q. unfold a_queue. rewrite E'. auto. }
  assert (PB : forall k m r l, nth_error ms k = Some (ABytes m r l) -> exists a t rest, a_bytes k os = Ok a /\ ByteArrayProofs.rep m a l t rest /\ ByteArrayModel.ref_count a = r /\ 0 < r < 2 ^ 32).
  { intros k m r l E. destruct (f2_nth _ _ _ _ _ F E) as ([|s|f' q|a] & E' & M); try contradiction. destruct M as ((t & rest & M) & M'). exists a, t, rest. unfold a_bytes. rewrite E'. auto. }
  assert (OPS : forall k n ops o, nth_error ms k = Some (ASet n ops) -> op_ok o -> exists s s', a_set k os = Ok s /\ step s o = Ok s' /\
    Forall2 (means code) (put_object k (Set_ s') os) (put_meaning k (ASet n (ops ++ [o])) ms)).
  { intros k n ops o E Oo. destruct (PS k n ops E) as (s & E1 & Hn & Ho & R). destruct (set_step n ops s o Hn Ho R Oo) as (s' & E2 & Ho' & R').
    exists s, s'. split; [exact E1|]. split; [exact E2|]. apply f2_put; [exact F|]. cbn [means]. auto. }
  assert (QP : forall k f q m, comparator (code f) -> PriorqProofs.inv (code f) anything q m ->
    Forall2 (means code) (put_object k (Queue f (quiet q)) os) (put_meaning k (AQueue f m) ms)).
  { intros k f q m Hc Hi. apply f2_put; [exact F|]. cbn [means]. split; [reflexivity|]. split; [exact Hc|apply inv_quiet; exact Hi]. }
  destruct c; cbn [allowed] in A; cbn [alone meant].
  - eexists _, _, _. split; [reflexivity|]. split; [eexists; reflexivity|]. intros ms' ->. apply Forall2_app; [exact F|]. constructor; [|constructor].
    cbn [means]. split; [exact A|]. split; [constructor|reflexivity].
  - destruct A as (n & ops & E). destruct (OPS k n ops Fill E I) as (s & s' & E1 & E2 & E3). rewrite E1. cbn [bind]. cbn [step] in E2. rewrite E2. cbn [bind].
    eexists _, _, _. split; [reflexivity|]. split; [eexists; exists n, ops; split; [exact E|reflexivity]|].
    intros ms' (n' & ops' & E' & ->). rewrite E in E'. injection E' as <- <-. exact E3.
  - destruct A as (Oo & n & ops & E). destruct (OPS k n ops (Add elem) E Oo) as (s & s' & E1 & E2 & E3). rewrite E1. cbn [bind]. cbn [step] in E2. rewrite E2. cbn [bind].
    eexists _, _, _. split; [reflexivity|]. split; [eexists; exists n, ops; split; [exact E|reflexivity]|].
    intros ms' (n' & ops' & E' & ->). rewrite E in E'. injection E' as <- <-. exact E3.
  - destruct A as (Oo & n & ops & E). destruct (OPS k n ops (IntsetSpec.Remove elem) E Oo) as (s & s' & E1 & E2 & E3). rewrite E1. cbn [bind]. cbn [step] in E2. rewrite E2. cbn [bind].
    eexists _, _, _. split; [reflexivity|]. split; [eexists; exists n, ops; split; [exact E|reflexivity]|].
    intros ms' (n' & ops' & E' & ->). rewrite E in E'. injection E' as <- <-. exact E3.
  - destruct A as (Oo & n & ops & E). destruct (PS k n ops E) as (s & E1 & Hn & Ho & R). rewrite E1. cbn [bind].
    destruct (IntsetProofs.has_after n ops ltac:(unfold INT_MAX in Hn; lia) Ho) as (s' & R' & HA). rewrite R in R'. injection R' as <-.
    rewrite (HA elem Oo). cbn [bind]. eexists _, _, _. split; [reflexivity|]. split; [exists ms, n, ops; auto|].
    intros ms' (n' & ops' & _ & _ & ->). exact F.
  - destruct A as (Oo & n & ops & E). destruct (PS k n ops E) as (s & E1 & Hn & Ho & R). rewrite E1. cbn [bind].
    assert (G : exists r, intset_find_next s elem hit = Ok r /\ first_from (member n ops) hit elem n r).
    { destruct (IntsetProofs.find_after n ops ltac:(unfold INT_MAX in Hn; lia) Ho) as (s' & R' & HA). rewrite R in R'. injection R' as <-.
      destruct (HA elem hit Oo) as (r & R1 & R2). exists r. pose proof (IntsetProofs.first_from_range _ _ _ _ _ R2 ltac:(lia)) as B.
      rewrite IntsetProofs.s32_small in R1 by (unfold INT_MAX in Hn; lia). auto. }
    destruct G as (r & G1 & G2). rewrite G1. cbn [bind]. eexists _, _, _. split; [reflexivity|]. split; [exists ms, n, ops; auto|].
    intros ms' (n' & ops' & _ & _ & ->). exact F.
  - destruct A as (n & ops & E). destruct (PS k n ops E) as (s & E1 & _). rewrite E1. cbn [bind].
    eexists _, _, _. split; [reflexivity|]. split; [eexists; reflexivity|]. intros ms' ->. apply f2_put; [exact F|exact I].
  - eexists _, _, _. split; [reflexivity|]. split; [eexists; reflexivity|]. intros ms' ->. apply Forall2_app; [exact F|]. constructor; [|constructor].
    cbn [means]. split; [reflexivity|]. split; [exact A|apply inv_new].
  - destruct A as (f & m & E & Hr). destruct (PQ k f m E) as (q & E1 & Hc & Hi). rewrite E1. cbn [bind].
    destruct (PriorqProofs.enqueue_ok (code f) Hc anything junk q m value Hi Hr I) as (q' & E2 & I2). rewrite E2. cbn [bind].
    eexists _, _, _. split; [reflexivity|]. split; [eexists; exists f, m; split; [exact E|reflexivity]|].
    intros ms' (f' & m' & E' & ->). rewrite E in E'. injection E' as <- <-. apply QP; assumption.
  - destruct A as (f & m & E). destruct (PQ k f m E) as (q & E1 & Hc & Hi). rewrite E1. cbn [bind]. pose proof (PriorqProofs.inv_size _ _ _ _ Hi) as Hs.
    destruct (perm_nil_case m) as [Em|Hm].
    + subst m. change (zlen (@nil Z)) with 0 in Hs. unfold priorq_dequeue. rewrite <- Hs. change (0 =? 0) with true. cbn [bind].
      eexists _, _, _. split; [reflexivity|]. split; [exists ms, f, []; split; [exact E|left; auto]|].
      intros ms' (f' & m' & E' & D); rewrite E in E'; injection E' as <- <-. destruct D as [(_ & _ & ->)|((L & _) & _)]; [|destruct L].
      rewrite <- (put_same k _ ms E). apply QP; assumption.
    + destruct (PriorqProofs.dequeue_ok (code f) Hc anything q m Hi ltac:(lia)) as (q' & x & E2 & L & (m1 & P) & K). rewrite E2. cbn [bind].
      eexists _, _, _. split; [reflexivity|]. split; [eexists; exists f, m; split; [exact E|right; split; [exact L|exists m1; split; [exact P|reflexivity]]]|].
      intros ms' (f' & m' & E' & D); rewrite E in E'; injection E' as <- <-. destruct D as [(-> & _)|(_ & m2 & P2 & ->)]; [destruct L as ([] & _)|].
      apply QP; [exact Hc|]. apply K; [exact P2|exact I].
  - destruct A as (f & m & E). destruct (PQ k f m E) as (q & E1 & Hc & Hi). rewrite E1. cbn [bind]. pose proof (PriorqProofs.inv_size _ _ _ _ Hi) as Hs.
    unfold priorq_peek, priorq_empty, priorq_size. destruct (perm_nil_case m) as [Em|Hm].
    + subst m. change (zlen (@nil Z)) with 0 in Hs. rewrite <- Hs. change (0 =? 0) with true. cbn [bind].
      eexists _, _, _. split; [reflexivity|]. split; [exists ms, f, []; split; [exact E|split; [reflexivity|left; auto]]|].
      intros ms' (f' & m' & _ & -> & _). exact F.
    + replace (capacity q =? 0) with false by lia. rewrite PriorqProofs.rd_at by (destruct Hi as ((W1 & W2 & _) & _); lia). cbn [bind].
      eexists _, _, _. split; [reflexivity|]. split; [exists ms, f, m; split; [exact E|split; [reflexivity|right]]|].
      * apply (PriorqProofs.root_least (code f) Hc anything); [exact Hi|lia].
      * intros ms' (f' & m' & _ & -> & _). exact F.
  - destruct A as (f & m & E). destruct (PQ k f m E) as (q & E1 & Hc & Hi). rewrite E1. cbn [bind]. pose proof (PriorqProofs.inv_size _ _ _ _ Hi) as Hs.
    destruct (perm_nil_case m) as [Em|Hm].
    + subst m. change (zlen (@nil Z)) with 0 in Hs. unfold priorq_pop, priorq_empty, priorq_size. rewrite <- Hs. change (0 =? 0) with true. cbn [bind].
      eexists _, _, _. split; [reflexivity|]. split; [exists ms, f, []; split; [exact E|left; auto]|].
      intros ms' (f' & m' & E' & D); rewrite E in E'; injection E' as <- <-. destruct D as [(_ & _ & ->)|(m2 & P & _)]; [|apply Permutation_nil_cons in P; destruct P].
      rewrite <- (put_same k _ ms E). apply QP; assumption.
    + destruct (PriorqProofs.pop_ok (code f) anything q m Hi ltac:(lia)) as (q' & x & E2 & (m1 & P) & K). rewrite E2. cbn [bind].
      eexists _, _, _. split; [reflexivity|]. split; [eexists; exists f, m; split; [exact E|right; exists m1; split; [exact P|reflexivity]]|].
      intros ms' (f' & m' & E' & D); rewrite E in E'; injection E' as <- <-. destruct D as [(-> & _)|(m2 & P2 & ->)]; [cbn in Hm; lia|].
      apply QP; [exact Hc|]. apply K; [exact P2|exact I].
  - destruct A as (f & m & E & Hl). destruct (PQ k f m E) as (q & E1 & Hc & Hi). rewrite E1. cbn [bind]. pose proof (PriorqProofs.inv_size _ _ _ _ Hi) as Hs.
    destruct (PriorqProofs.remove_ok (code f) Hc anything q m loc Hi ltac:(lia)) as (q' & E2 & (m1 & P) & K). rewrite E2. cbn [bind].
    eexists _, _, _. split; [reflexivity|]. split; [eexists; exists f, m; split; [exact E|exists m1; split; [exact P|reflexivity]]|].
    intros ms' (f' & m' & E' & m2 & P2 & ->); rewrite E in E'; injection E' as <- <-.
    apply QP; [exact Hc|]. apply K; [exact P2|exact I].
  - destruct A as (f & m & E). destruct (PQ k f m E) as (q & E1 & Hc & Hi). rewrite E1. cbn [bind]. pose proof (PriorqProofs.inv_size _ _ _ _ Hi) as Hs.
    eexists _, _, _. split; [reflexivity|]. split; [exists ms, f, m; split; [exact E|split; [symmetry; exact Hs|reflexivity]]|].
    intros ms' (f' & m' & _ & _ & ->). exact F.
  - destruct A as (f & m & E). destruct (PQ k f m E) as (q & E1 & _). rewrite E1. cbn [bind].
    eexists _, _, _. split; [reflexivity|]. split; [eexists; reflexivity|]. intros ms' ->. apply f2_put; [exact F|exact I].
  - destruct (ByteArrayProofs.make_ok junk max A) as (a & rest & E & R & C). rewrite E. cbn [bind].
    eexists _, _, _. split; [reflexivity|]. split; [eexists; reflexivity|]. intros ms' ->. apply Forall2_app; [exact F|]. constructor; [|constructor].
    cbn [means]. split; [eauto|]. split; [exact C|lia].
  - destruct A as (Ho & m & r & l & E). destruct (PB k m r l E) as (a & t & rest & E1 & R & C & Hr). rewrite E1. cbn [bind].
    destruct (bytes_step_ok junk m a l t rest o R Ho) as (a' & c & E2 & R2 & C2). rewrite E2. cbn [bind].
    eexists _, _, _. split; [reflexivity|]. split; [eexists; exists m, r, l; split; [exact E|split; reflexivity]|].
    intros ms' (m' & r' & l' & E' & _ & ->). rewrite E in E'. injection E' as <- <- <-. apply f2_put; [exact F|]. cbn [means]. split; [exact R2|]. split; [congruence|exact Hr].
  - destruct A as (N & (m & r & l & E) & mj & rj & lj & Ej & Hi & Hl & Hil). rewrite (proj2 (Nat.eqb_neq k j) N).
    destruct (PB k m r l E) as (a & t & rest & E1 & R & C & Hr). destruct (PB j mj rj lj Ej) as (b & tj & restj & E1j & Rj & _). rewrite E1, E1j. cbn [bind].
    pose proof Rj as (Dj & Cj & Mj & Sj & Lj & Zj). unfold ByteArrayModel.byte_array_data, from. rewrite Dj.
    replace ((0 <=? i) && (i <=? zlen (lj ++ tj :: restj))) with true by (rewrite zlen_app, zlen_cons; pose proof (zlen_nonneg restj); lia). cbn [bind].
    set (u := firstn (Z.to_nat len) (skipn (Z.to_nat i) lj)).
    assert (Lu : zlen u = len) by (unfold u, zlen in *; rewrite firstn_length, skipn_length; lia).
    assert (Eu : skipn (Z.to_nat i) (lj ++ tj :: restj) = u ++ (skipn (Z.to_nat len) (skipn (Z.to_nat i) lj) ++ tj :: restj)).
    { rewrite ByteArrayProofs.skipn_app_le by (unfold zlen in *; lia). unfold u. rewrite app_assoc, firstn_skipn. reflexivity. }
    rewrite Eu. rewrite ByteArrayProofs.byte_array_append_src by lia. rewrite <- Lu.
    destruct (ByteArrayProofs.append_ok junk m a l t rest u R ltac:(lia)) as (a' & t' & rest' & E2 & R2 & _ & C2). rewrite E2. cbn [bind].
    eexists _, _, _. split; [reflexivity|]. split.
    + destruct (zlen l + zlen u <? m) eqn:Q; eexists; exists m, r, l, mj, rj, lj; split; [exact E| |exact E|]; split; try exact Ej.
      * left. split; [reflexivity|]. split; [lia|]. reflexivity.
      * right. split; [reflexivity|]. split; [lia|]. reflexivity.
    + intros ms' (m' & r' & l' & mj' & rj' & lj' & E' & Ej' & D). rewrite E in E'. injection E' as <- <- <-. rewrite Ej in Ej'. injection Ej' as <- <- <-. rewrite Lu in D. fold u in D.
      destruct (zlen l + zlen u <? m) eqn:Q; destruct D as [(V & L & ->)|(V & L & ->)]; cbn [Z.b2z] in V; try lia.
      * apply f2_put; [exact F|]. cbn [means]. split; [eauto|]. split; [congruence|exact Hr].
      * rewrite <- (put_same k _ ms E). apply f2_put; [exact F|]. cbn [means]. split; [eauto|]. split; [congruence|exact Hr].
  - destruct A as (m & r & l & E & Hi). destruct (PB k m r l E) as (a & t & rest & E1 & R & C & Hr). rewrite E1. cbn [bind].
    destruct R as (D & _). unfold ByteArrayModel.byte_array_data. rewrite D.
    destruct (nth_error l (Z.to_nat i)) as [x|] eqn:X; [|apply nth_error_None in X; unfold zlen in Hi; lia].
    assert (Rx : rd (l ++ t :: rest) i = Ok x).
    { unfold rd, inb. rewrite zlen_app, zlen_cons. pose proof (zlen_nonneg rest). replace ((0 <=? i) && (i <? zlen l + (1 + zlen rest))) with true by lia.
      rewrite app_nth1 by (unfold zlen in Hi; lia). rewrite (nth_error_nth _ _ _ X). reflexivity. }
    rewrite Rx. cbn [bind]. eexists _, _, _. split; [reflexivity|]. split; [exists ms, m, r, l; auto|]. intros ms' (m' & r' & l' & _ & _ & ->). exact F.
  - destruct A as (m & r & l & E). destruct (PB k m r l E) as (a & t & rest & E1 & R & C & Hr). rewrite E1. cbn [bind].
    eexists _, _, _. split; [reflexivity|]. split; [exists ms, m, r, l; split; [exact E|split; [apply R|reflexivity]]|]. intros ms' (m' & r' & l' & _ & _ & ->). exact F.
  - destruct A as (m & r & l & E & Hs). destruct (PB k m r l E) as (a & t & rest & E1 & R & C & Hr). rewrite E1. cbn [bind].
    eexists _, _, _. split; [reflexivity|]. split; [eexists; exists m, r, l; split; [exact E|reflexivity]|].
    intros ms' (m' & r' & l' & E' & ->). rewrite E in E'. injection E' as <- <- <-. apply f2_put; [exact F|]. cbn [means]. split; [exists t, rest; exact R|].
    cbn [ByteArrayModel.share_byte_array ByteArrayModel.ref_count]. rewrite C. split; [unfold u32; rewrite Z.mod_small by lia; reflexivity|lia].
  - destruct A as (m & r & l & E). destruct (PB k m r l E) as (a & t & rest & E1 & R & C & Hr). rewrite E1. cbn [bind].
    eexists _, _, _. split; [reflexivity|]. split; [eexists; exists m, r, l; split; [exact E|reflexivity]|].
    intros ms' (m' & r' & l' & E' & ->). rewrite E in E'. injection E' as <- <- <-. apply f2_put; [exact F|].
    unfold ByteArrayModel.destroy_byte_array. rewrite C. replace (u32 (r - 1)) with (r - 1) by (unfold u32; rewrite Z.mod_small by lia; reflexivity).
    unfold truth. destruct (Z.eqb_spec r 1) as [->|]; [exact I|]. replace (r - 1 =? 0) with false by lia. cbn [negb means].
    split; [exists t, rest; exact R|]. split; [reflexivity|lia].
Qed.

Lemma reached_world code h0 h ps ms : reached code h0 h ps ms ->
  exists es, world h0 h es /\ ps = map e_ptr es /\ Forall2 (means code) (map e_obj es) ms.
Proof.
  induction 1 as [|h ps ms c junk v l ps' h' ms' R IH A T M].
  - exists []. split; [|split; [reflexivity|constructor]]. split; [constructor|]. split; [constructor|]. split; [intros ? []|intros ? _; reflexivity].
  - destruct IH as (es & W & -> & F). destruct (allowed_runs code junk c _ ms F A) as (v1 & l1 & os' & E & _ & K).
    destruct (alone_together code junk c h0 h es _ os' W E) as (h1 & es' & T1 & O1 & W1). rewrite T in T1. injection T1 as <- <- -> ->.
    exists es'. split; [exact W1|]. split; [reflexivity|]. rewrite O1. apply K. exact M.
Qed.
Theorem reached_call code junk h0 h ps ms c : reached code h0 h ps ms -> allowed code c ms ->
  exists v l ps' h' ms', together code junk c ps h = Ok (((v, l), ps'), h') /\ meant code c ms v ms' /\ reached code h0 h' ps' ms'.
Proof.
  intros R A. destruct (reached_world code h0 h ps ms R) as (es & W & -> & F).
  destruct (allowed_runs code junk c _ ms F A) as (v & l & os' & E & (ms' & M) & _).
  destruct (alone_together code junk c h0 h es _ os' W E) as (h' & es' & T & _ & _).
  exists v, l, (map e_ptr es'), h', ms'. split; [exact T|]. split; [exact M|]. eapply R_call; eauto.
Qed.
Lemma means_live code os ms : Forall2 (means code) os ms -> live os = undestroyed ms.
Proof.
  induction 1 as [|o m os ms H _ IH]; [reflexivity|]. unfold live, undestroyed in *. cbn [filter].
  destruct o, m; cbn [means] in H; try contradiction; cbn [length]; congruence.
Qed.
Theorem reached_memory code h0 h ps ms : reached code h0 h ps ms ->
  exists new, NoDup new /\ (forall x, In x new -> get h0 x = None) /\ same_outside new h0 h /\ (length new <= 2 * undestroyed ms)%nat.
Proof.
  intros R. destruct (reached_world code h0 h ps ms R) as (es & (W1 & W2 & W3 & W4) & -> & F).
  exists (all_cells es). split; [exact W2|]. split; [exact W3|]. split; [exact W4|]. rewrite <- (means_live _ _ _ F). exact (few_cells _ _ W1).
Qed.
