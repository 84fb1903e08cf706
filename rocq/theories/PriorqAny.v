(** Proofs for PriorqAnyProps.v. *)
From Verif Require Import Base PriorqModel PriorqSpec PriorqProofs PriorqAnySpec.

Lemma raise_any cmp n value : forall fuel q slot,
  wf q -> 0 <= slot < n -> n <= zlen (storage q) -> (Z.to_nat slot < fuel)%nat ->
  exists q' slot', raise_loop cmp fuel q slot value = Ok (q', slot') /\
    same_caps q q' /\ 0 <= slot' <= slot /\
    Permutation (live n (put (storage q') slot' value)) (live n (put (storage q) slot value)) /\
    (NoDup (live n (put (storage q) slot value)) ->
     located n slot (storage q) (calls q) -> located n slot' (storage q') (calls q')).
Proof.
  induction fuel as [|fuel IH]; intros q slot W Hs Hn Hf; [lia|].
  cbn [raise_loop]. unfold truth. destruct (slot =? 0) eqn:E0; cbn [negb].
  { exists q, slot. split; [reflexivity|]. split; [repeat split|]. split; [lia|]. split; [reflexivity|auto]. }
  assert (Hcap : zlen (storage q) <= 2 ^ 60) by (destruct W as (_ & -> & ?); assumption).
  rewrite u64_small by lia. fold (par slot). set (p := par slot).
  assert (Hp : 0 <= p < slot) by (unfold p; plia).
  rewrite rd_at by lia. cbn [bind].
  destruct (cmp value (at_ (storage q) p) >=? 0) eqn:Ec.
  { exists q, slot. split; [reflexivity|]. split; [repeat split|]. split; [lia|]. split; [reflexivity|auto]. }
  rewrite assign_ok by lia. cbn [bind].
  set (q1 := Priorq _ _ _ _).
  assert (A : forall i, 0 <= i -> i <> slot -> at_ (storage q1) i = at_ (storage q) i)
    by (intros; cbn; apply at_put_neq; lia).
  assert (L1 : zlen (storage q1) = zlen (storage q)) by (cbn; apply put_zlen; lia).
  assert (S1 : same_caps q q1) by (unfold same_caps; rewrite L1; auto).
  destruct (IH q1 p) as (q' & slot' & R1 & R2 & R3 & R6 & R7).
  - eapply same_caps_wf; eassumption.
  - lia.
  - lia.
  - lia.
  - exists q', slot'. split; [exact R1|]. split.
    { unfold same_caps in *. destruct R2 as (-> & -> & ->). cbn. auto. }
    split; [lia|].
    assert (PM : Permutation (live n (put (storage q1) p value)) (live n (put (storage q) slot value))).
    { cbn. apply move_perm; lia. }
    split; [rewrite R6; exact PM|].
    intros ND Loc. apply R7.
    { eapply Permutation_NoDup; [symmetry; exact PM|exact ND]. }
    intros i Hi Hip. cbn [calls q1 last_loc].
    destruct (Z.eq_dec i slot) as [->|Hne].
    + change (storage q1) with (put (storage q) slot (at_ (storage q) p)). rewrite at_put_eq by lia.
      rewrite Z.eqb_refl. reflexivity.
    + rewrite A by lia. replace (at_ (storage q) p =? at_ (storage q) i) with false; [apply Loc; assumption|].
      assert (at_ (storage q) p <> at_ (storage q) i); [|lia].
      intros E.
      apply (nodup_at n (put (storage q) slot value) p i) in ND; try lia.
      * rewrite !at_put_neq in ND by lia. congruence.
      * rewrite put_zlen by lia. lia.
Qed.

Lemma lower_any cmp value : forall fuel q slot,
  wf q -> 0 <= slot < capacity q -> (Z.to_nat (capacity q - slot) < fuel)%nat ->
  exists q', lower_loop cmp fuel q slot value = Ok q' /\ same_caps q q' /\
    Permutation (live (capacity q) (storage q')) (live (capacity q) (put (storage q) slot value)) /\
    (NoDup (live (capacity q) (put (storage q) slot value)) ->
     located (capacity q) slot (storage q) (calls q) -> located (capacity q) (-1) (storage q') (calls q')).
Proof.
  induction fuel as [|fuel IH]; intros q slot W Hs Hf; [lia|].
  destruct W as (W1 & W2 & W3).
  set (n := capacity q) in *.
  cbn [lower_loop]. fold n. rewrite (u64_small (slot * 2 + 1)) by lia.
  set (left := slot * 2 + 1).
  assert (Stop :
    exists q', assign q slot value = Ok q' /\ same_caps q q' /\
    Permutation (live n (storage q')) (live n (put (storage q) slot value)) /\
    (NoDup (live n (put (storage q) slot value)) ->
     located n slot (storage q) (calls q) -> located n (-1) (storage q') (calls q'))).
  { rewrite assign_ok by lia. eexists. split; [reflexivity|]. cbn [storage calls].
    split. { unfold same_caps. cbn. rewrite put_zlen by lia. auto. }
    split; [reflexivity|]. intros ND Loc i Hi _. cbn [last_loc].
    destruct (Z.eq_dec i slot) as [->|Hne].
    - rewrite at_put_eq by lia. rewrite Z.eqb_refl. reflexivity.
    - rewrite at_put_neq by lia. replace (value =? at_ (storage q) i) with false; [apply Loc; assumption|].
      assert (value <> at_ (storage q) i); [|lia]. intros E.
      apply (nodup_at n (put (storage q) slot value) slot i) in ND; try lia.
      + rewrite at_put_eq, at_put_neq in ND by lia. congruence.
      + rewrite put_zlen by lia. lia. }
  destruct (left >=? n) eqn:El; [exact Stop|].
  rewrite (u64_small (left + 1)) by lia. set (right := left + 1).
  assert (Br : exists b,
    (if right >=? n then Ok left
     else x <- rd (storage q) left ;; y <- rd (storage q) right ;; Ok (if cmp x y <? 0 then left else right)) = Ok b /\
    slot < b < n).
  { destruct (right >=? n) eqn:Er.
    - exists left. split; [reflexivity|]. unfold left in *; lia.
    - rewrite rd_at by (unfold right, left in *; lia). cbn [bind]. rewrite rd_at by (unfold right, left in *; lia). cbn [bind].
      eexists. split; [reflexivity|].
      destruct (cmp (at_ (storage q) left) (at_ (storage q) right) <? 0); unfold right, left in *; lia. }
  destruct Br as (b & Eb & Hb). rewrite Eb. cbn [bind].
  clear Eb El. clearbody left right. clear left right.
  rewrite rd_at by lia. cbn [bind].
  destruct (cmp value (at_ (storage q) b) <=? 0) eqn:Ev; [exact Stop|].
  clear Stop.
  rewrite assign_ok by lia. cbn [bind].
  set (q1 := Priorq _ _ _ _).
  assert (A : forall i, 0 <= i -> i <> slot -> at_ (storage q1) i = at_ (storage q) i)
    by (intros; cbn; apply at_put_neq; lia).
  assert (L1 : zlen (storage q1) = zlen (storage q)) by (cbn; apply put_zlen; lia).
  assert (S1 : same_caps q q1) by (unfold same_caps; rewrite L1; auto).
  assert (C1 : capacity q1 = n) by reflexivity.
  destruct (IH q1 b) as (q' & R1 & R2 & R4 & R5); rewrite ?C1.
  - eapply same_caps_wf; [exact S1|]. unfold wf. fold n. lia.
  - lia.
  - lia.
  - rewrite C1 in *. exists q'. split; [exact R1|].
    split. { unfold same_caps in *. destruct R2 as (-> & -> & ->). cbn. auto. }
    assert (PM : Permutation (live n (put (storage q1) b value)) (live n (put (storage q) slot value))).
    { cbn. apply move_perm; lia. }
    split; [rewrite R4; exact PM|].
    intros ND Loc. apply R5.
    { eapply Permutation_NoDup; [symmetry; exact PM|exact ND]. }
    intros i Hi Hip. cbn [calls q1 last_loc].
    destruct (Z.eq_dec i slot) as [->|Hne].
    + change (storage q1) with (put (storage q) slot (at_ (storage q) b)). rewrite at_put_eq by lia.
      rewrite Z.eqb_refl. reflexivity.
    + rewrite A by lia. replace (at_ (storage q) b =? at_ (storage q) i) with false; [apply Loc; assumption|].
      assert (at_ (storage q) b <> at_ (storage q) i); [|lia].
      intros E.
      apply (nodup_at n (put (storage q) slot value) b i) in ND; try lia.
      * rewrite !at_put_neq in ND by lia. congruence.
      * rewrite put_zlen by lia. lia.
Qed.

(** ** The invariant without the order *)

Definition held (P : list Z -> Prop) (q : priorq) (m : list Z) : Prop :=
  wf q /\ Permutation (live (capacity q) (storage q)) m /\ P m /\
  ((forall m, P m -> NoDup m) -> located (capacity q) (-1) (storage q) (calls q)).

Lemma held_size P q m : held P q m -> zlen m = capacity q.
Proof.
  intros (W & Pm & _). apply Permutation_length in Pm. unfold zlen. rewrite <- Pm.
  fold (zlen (live (capacity q) (storage q))). apply live_zlen. destruct W as (? & -> & _). lia.
Qed.

Lemma held_enqueue P cmp junk q m v : held P q m -> room m -> P (v :: m) ->
  exists q', priorq_enqueue cmp junk q v = Ok q' /\ held P q' (v :: m).
Proof.
  intros I Hr Pv. pose proof (held_size P q m I) as Hsz. destruct I as (W & Hp & Pm & Hl).
  unfold room in Hr. unfold priorq_enqueue.
  destruct (grow_ok junk q W ltac:(lia)) as (q1 & -> & W1 & C1 & M1 & Cl & A1 & L1 & _). cbn [bind].
  rewrite C1. set (n := capacity q) in *.
  assert (Hn : 0 <= n) by (destruct W; lia).
  rewrite u64_small by lia.
  set (q2 := Priorq (storage q1) (n + 1) (max_capacity q1) (calls q1)).
  pose proof W1 as (Wa & Wb & Wc).
  assert (W2 : wf q2) by (unfold wf, q2; cbn; lia).
  unfold raise.
  destruct (raise_any cmp (n + 1) v (S (length (storage q2))) q2 n) as (q3 & slot & R1 & R2 & R3 & R6 & R7).
  - assumption.
  - lia.
  - unfold q2. cbn. lia.
  - unfold q2. cbn [storage]. unfold zlen in *. lia.
  - rewrite R1. cbn [bind]. destruct R2 as (R2a & R2b & R2c).
    assert (H3 : 0 <= slot < zlen (storage q3)) by (rewrite R2c; unfold q2; cbn; lia).
    rewrite assign_ok by assumption. eexists. split; [reflexivity|].
    unfold held. cbn [storage capacity max_capacity calls]. rewrite R2a. change (capacity q2) with (n + 1).
    assert (PM : Permutation (live (n + 1) (put (storage q3) slot v)) (v :: m)).
    { rewrite R6. unfold q2. cbn [storage].
      rewrite live_S by (rewrite put_zlen by lia; lia). rewrite at_put_eq by lia.
      rewrite live_put_out by lia. rewrite L1. rewrite <- Permutation_cons_append. apply perm_skip. exact Hp. }
    split.
    { unfold wf. cbn. rewrite put_zlen by assumption. rewrite R2b, R2c. unfold q2. cbn. lia. }
    split; [exact PM|]. split; [exact Pv|].
    intros PN i Hi _. cbn [last_loc].
    assert (ND : NoDup (live (n + 1) (put (storage q3) slot v))).
    { eapply Permutation_NoDup; [symmetry; exact PM|]. apply PN, Pv. }
    destruct (Z.eq_dec i slot) as [->|Hne].
    + rewrite at_put_eq by assumption. rewrite Z.eqb_refl. reflexivity.
    + rewrite at_put_neq by lia.
      assert (Nv : v <> at_ (storage q3) i).
      { intros E. apply (nodup_at (n + 1) _ slot i) in ND; try lia.
        * rewrite at_put_eq, at_put_neq in ND by lia. congruence.
        * rewrite put_zlen by lia. rewrite R2c. unfold q2. cbn. lia. }
      replace (v =? at_ (storage q3) i) with false by lia.
      apply R7; [|  | lia|assumption].
      * eapply Permutation_NoDup; [exact R6|exact ND].
      * intros k Hk Hkn. unfold q2. cbn [storage calls]. rewrite A1 by lia. rewrite Cl. apply Hl; [assumption|lia|lia].
Qed.

Lemma held_last P q m : held P q m -> 0 < capacity q ->
  let x := at_ (storage q) (capacity q - 1) in
  Permutation m (x :: live (capacity q - 1) (storage q)) /\
  forall c m', Permutation m (x :: m') -> P m' ->
    ((forall m, P m -> NoDup m) -> located (capacity q - 1) (-1) (storage q) c) ->
    held P (Priorq (storage q) (capacity q - 1) (max_capacity q) c) m'.
Proof.
  intros I H0 x. destruct I as (W & Hp & Pm & Hl).
  pose proof W as (W1 & W2 & W3).
  assert (E : Permutation m (x :: live (capacity q - 1) (storage q))).
  { rewrite <- Hp. replace (capacity q) with (capacity q - 1 + 1) at 1 by lia. rewrite live_S by lia.
    symmetry. apply Permutation_cons_append. }
  split; [exact E|]. intros c m' Hm Pm' Loc. unfold held. cbn [storage capacity calls max_capacity].
  split. { unfold wf. cbn. lia. }
  split. { apply (Permutation_cons_inv (a := x)). rewrite <- E. exact Hm. }
  split; assumption.
Qed.

Lemma held_pop P q m : held P q m -> 0 < capacity q ->
  exists q' x, priorq_pop q = Ok (q', x) /\ (exists m', Permutation m (x :: m')) /\
    forall m', Permutation m (x :: m') -> P m' -> held P q' m'.
Proof.
  intros I H0. destruct (held_last P q m I H0) as [L1 L2]. cbv zeta in L1, L2.
  pose proof I as (W & Hp & Pm & Hl).
  destruct (shrink_wf q W H0) as (Ws & Cs).
  unfold priorq_pop, priorq_empty, priorq_size. replace (capacity q =? 0) with false by lia.
  rewrite Cs. rewrite rd_at by (destruct W as (? & Wb & _); cbn; lia). cbn [bind].
  eexists _, _. split; [reflexivity|]. cbn [shrink storage]. split; [eexists; exact L1|].
  intros m' Hm Pm'. unfold shrink. change (u64 (capacity q - 1)) with (capacity (shrink q)). rewrite Cs.
  apply L2; try assumption. intros PN. eapply located_less; [apply Hl; assumption|lia].
Qed.

(** Raising and lowering in what is left. *)
Lemma sift_total cmp fuel q slot other : wf q -> 0 <= slot < capacity q -> (Z.to_nat slot < fuel)%nat ->
  exists q2 slot2 q', raise_loop cmp fuel q slot other = Ok (q2, slot2) /\ lower cmp q2 slot2 other = Ok q' /\
    forall (P : list Z -> Prop) m', Permutation (live (capacity q) (put (storage q) slot other)) m' -> P m' ->
    ((forall m, P m -> NoDup m) -> located (capacity q) slot (storage q) (calls q)) -> held P q' m'.
Proof.
  intros W Hs Hf. pose proof W as (W1 & W2 & W3). set (n := capacity q) in *.
  destruct (raise_any cmp n other fuel q slot) as (q2 & slot2 & R1 & R2 & R3 & R6 & R7).
  - assumption.
  - lia.
  - lia.
  - assumption.
  - exists q2, slot2. destruct R2 as (R2a & R2b & R2c).
    assert (C2 : capacity q2 = n) by lia.
    unfold lower.
    destruct (lower_any cmp other (S (length (storage q2))) q2 slot2) as (q' & T1 & T2 & T4 & T5).
    + eapply same_caps_wf; [|exact W]. unfold same_caps. auto.
    + lia.
    + rewrite C2. unfold zlen in *. lia.
    + exists q'. split; [exact R1|]. split; [exact T1|]. intros P m' Pm Pm' Hl.
      rewrite C2 in *. destruct T2 as (T2a & T2b & T2c).
      unfold held. replace (capacity q') with n by lia.
      split. { unfold wf. lia. }
      split; [rewrite T4, R6; exact Pm|]. split; [assumption|].
      intros PN.
      assert (ND : NoDup (live n (put (storage q) slot other))).
      { eapply Permutation_NoDup; [symmetry; exact Pm|]. apply PN. assumption. }
      apply T5; [eapply Permutation_NoDup; [symmetry; exact R6|exact ND]|].
      apply R7; [exact ND|]. apply Hl. exact PN.
Qed.

Lemma held_refill P cmp q m slot (x := at_ (storage q) slot) (other := at_ (storage q) (capacity q - 1)) :
  held P q m -> 0 <= slot < capacity q - 1 ->
  exists q2 slot2 q', raise cmp (shrink q) slot other = Ok (q2, slot2) /\
    lower cmp q2 slot2 other = Ok q' /\
    (exists m', Permutation m (x :: m')) /\
    forall m', Permutation m (x :: m') -> P m' -> held P q' m'.
Proof.
  intros I Hs. pose proof I as (W & Hp & Pm & Hl).
  destruct (shrink_wf q W ltac:(lia)) as (Ws & Cs).
  pose proof W as (W1 & W2 & W3). set (n := capacity q - 1) in *.
  assert (PM : Permutation m (x :: live n (put (storage q) slot other))).
  { rewrite <- Hp. replace (capacity q) with (n + 1) by lia. rewrite live_S by lia.
    rewrite <- Permutation_cons_append. apply (live_put_perm n (storage q) slot); lia. }
  unfold raise.
  destruct (sift_total cmp (S (length (storage (shrink q)))) (shrink q) slot other Ws ltac:(lia)
    ltac:(cbn [shrink storage]; unfold zlen in *; lia)) as (q2 & s2 & q' & R1 & R2 & R3).
  exists q2, s2, q'. split; [exact R1|]. split; [exact R2|]. split; [eexists; exact PM|].
  intros m' Hm Pm'. apply R3; [|assumption|].
  - rewrite Cs. apply (Permutation_cons_inv (a := x)). change (storage (shrink q)) with (storage q).
    rewrite <- PM. exact Hm.
  - intros PN i Hi Hne. rewrite Cs in Hi. cbn [shrink storage calls]. apply Hl; [assumption|lia|lia].
Qed.

Lemma held_dequeue P cmp q m : held P q m -> 0 < capacity q ->
  exists q' x, priorq_dequeue cmp q = Ok (q', x) /\ priorq_peek q = Ok x /\ (exists m', Permutation m (x :: m')) /\
    forall m', Permutation m (x :: m') -> P m' -> held P q' m'.
Proof.
  intros I H0. pose proof I as (W & Hp & Pm & Hl). pose proof W as (W1 & W2 & W3).
  unfold priorq_dequeue, priorq_peek, priorq_empty, priorq_size. replace (capacity q =? 0) with false by lia.
  destruct (shrink_wf q W H0) as (Ws & Cs).
  rewrite (rd_at _ 0) by lia.
  destruct (capacity q =? 1) eqn:E1.
  - destruct (held_pop P q m I H0) as (q' & x & P1 & P2 & P3).
    unfold priorq_pop, priorq_empty, priorq_size in P1. replace (capacity q =? 0) with false in P1 by lia.
    rewrite P1. exists q', x. split; [reflexivity|].
    rewrite Cs in P1. rewrite rd_at in P1 by (cbn; lia). cbn [bind] in P1.
    assert (x = at_ (storage q) 0) as ->.
    { replace (capacity q - 1) with 0 in P1 by lia. inversion P1. reflexivity. }
    auto.
  - cbn [bind]. rewrite Cs. rewrite rd_at by (cbn; lia). cbn [bind].
    cbn [shrink storage].
    destruct (held_refill P cmp q m 0 I ltac:(lia)) as (q2 & slot2 & q' & R1 & R2 & R3 & R4).
    unfold raise in R1. cbn [raise_loop] in R1. change (truth 0) with false in R1. cbn iota in R1.
    inversion R1. subst q2 slot2. clear R1. fold (shrink q). rewrite R2. cbn [bind].
    exists q', (at_ (storage q) 0). auto.
Qed.

Lemma put_at s i : 0 <= i < zlen s -> put s i (at_ s i) = s.
Proof.
  intros H. unfold put, at_. destruct (split_at s i H) as (pre & y & post & -> & L).
  rewrite <- L, zlen_to_nat. rewrite upd_app by reflexivity. rewrite app_nth2, Nat.sub_diag by lia. reflexivity.
Qed.

Lemma put_comm s i j v w : 0 <= i < zlen s -> 0 <= j < zlen s -> i <> j ->
  put (put s i v) j w = put (put s j w) i v.
Proof.
  intros Hi Hj Hn. apply (nth_ext _ _ 0 0).
  - pose proof (put_zlen (put s i v) j w ltac:(rewrite put_zlen; lia)).
    pose proof (put_zlen (put s j w) i v ltac:(rewrite put_zlen; lia)).
    pose proof (put_zlen s i v Hi). pose proof (put_zlen s j w Hj). unfold zlen in *. lia.
  - intros k _. rewrite <- (Nat2Z.id k). fold (at_ (put (put s i v) j w) (Z.of_nat k)).
    fold (at_ (put (put s j w) i v) (Z.of_nat k)).
    destruct (Z.eq_dec (Z.of_nat k) i) as [->|Ni]; [|destruct (Z.eq_dec (Z.of_nat k) j) as [->|Nj]].
    + rewrite at_put_neq by (rewrite ?put_zlen; lia). rewrite !at_put_eq by (rewrite ?put_zlen; lia). reflexivity.
    + rewrite (at_put_neq (put s j w)) by (rewrite ?put_zlen; lia).
      rewrite !at_put_eq by (rewrite ?put_zlen; lia). reflexivity.
    + rewrite !at_put_neq by (rewrite ?put_zlen; lia). reflexivity.
Qed.

Lemma misplaced_iff cmp q loc : wf q -> 0 <= loc < capacity q ->
  misplaced cmp q loc <->
  loc = capacity q - 1 /\ 0 < loc /\ cmp (at_ (storage q) loc) (at_ (storage q) (par loc)) < 0.
Proof.
  intros (W1 & W2 & W3) Hl. unfold misplaced, occupant, priorq_size. fold (par loc). split.
  - intros (A & B & x & y & (_ & Ex) & (Hy & Ey) & C). split; [exact A|]. split; [exact B|].
    rewrite rd_at in Ex by lia. rewrite rd_at in Ey by lia. congruence.
  - intros (A & B & C). split; [exact A|]. split; [exact B|]. eexists _, _.
    split; [split; [lia|apply rd_at; lia]|]. split; [|exact C]. split; [plia|apply rd_at; plia].
Qed.

(** Nothing moves when the last slot is taken out in the good case. *)
Lemma remove_last cmp q : wf q -> 0 < capacity q -> ~ misplaced cmp q (capacity q - 1) ->
  let x := at_ (storage q) (capacity q - 1) in
  priorq_remove cmp q (capacity q - 1) =
    Ok (Priorq (storage q) (capacity q - 1) (max_capacity q) ((x, capacity q - 1) :: calls q), x).
Proof.
  intros W H0 Hm x. pose proof W as (W1 & W2 & W3).
  rewrite misplaced_iff in Hm by (try assumption; lia). fold x in Hm.
  destruct (shrink_wf q W H0) as (Ws & Cs). set (loc := capacity q - 1) in *.
  unfold priorq_remove. rewrite rd_at by lia. cbn [bind]. rewrite Cs. rewrite rd_at by (cbn; lia). cbn [bind].
  change (storage (shrink q)) with (storage q). fold x.
  assert (Er : raise cmp (shrink q) loc x = Ok (shrink q, loc)).
  { unfold raise. cbn [raise_loop]. unfold truth. destruct (loc =? 0) eqn:E0; cbn [negb]; [reflexivity|].
    rewrite u64_small by lia. fold (par loc). change (storage (shrink q)) with (storage q).
    rewrite rd_at by plia. cbn [bind].
    replace (cmp x (at_ (storage q) (par loc)) >=? 0) with true; [reflexivity|].
    symmetry. lia. }
  rewrite Er. cbn [bind].
  assert (Elow : lower cmp (shrink q) loc x = assign (shrink q) loc x).
  { unfold lower. cbn [lower_loop]. rewrite Cs. rewrite u64_small by lia.
    replace (loc * 2 + 1 >=? loc) with true by lia. reflexivity. }
  rewrite Elow, assign_ok by (cbn; lia). cbn [bind]. rewrite Cs. cbn [shrink storage max_capacity calls].
  unfold x. rewrite put_at by lia. reflexivity.
Qed.

Lemma held_remove P cmp q m loc : held P q m -> 0 <= loc < capacity q -> ~ misplaced cmp q loc ->
  exists q', priorq_remove cmp q loc = Ok (q', at_ (storage q) loc) /\
    (exists m', Permutation m (at_ (storage q) loc :: m')) /\
    forall m', Permutation m (at_ (storage q) loc :: m') -> P m' -> held P q' m'.
Proof.
  intros I Hloc Hmis. pose proof I as (W & Hp & Pm & Hl).
  pose proof W as (W1 & W2 & W3).
  destruct (Z.eq_dec loc (capacity q - 1)) as [El|El].
  - destruct (held_last P q m I ltac:(lia)) as [L1 L2]. cbv zeta in L1, L2.
    subst loc. rewrite (remove_last cmp q W ltac:(lia) Hmis). set (loc := capacity q - 1) in *.
    set (x := at_ (storage q) loc) in *.
    eexists. split; [reflexivity|]. split; [eexists; exact L1|].
    intros m' Hm Pm'. apply L2; try assumption.
    intros PN i Hi Hn. cbn [last_loc].
    assert (x <> at_ (storage q) i).
    { apply (nodup_at (capacity q)); try lia.
      eapply Permutation_NoDup; [symmetry; exact Hp|]. apply PN. assumption. }
    replace (x =? at_ (storage q) i) with false by lia. apply Hl; [assumption|lia|lia].
  - destruct (shrink_wf q W ltac:(lia)) as (Ws & Cs).
    unfold priorq_remove. rewrite rd_at by lia. cbn [bind]. rewrite Cs. rewrite rd_at by (cbn; lia). cbn [bind].
    change (storage (shrink q)) with (storage q).
    destruct (held_refill P cmp q m loc I ltac:(lia)) as (q2 & slot2 & q' & R1 & R2 & R3 & R4).
    rewrite R1. cbn [bind]. rewrite R2. cbn [bind]. exists q'. auto.
Qed.

(** The bad case: the element above is lost and the returned one stays. *)
Lemma held_misplaced P cmp q m loc : held P q m -> 0 <= loc < capacity q -> misplaced cmp q loc ->
  let x := at_ (storage q) loc in let y := at_ (storage q) (par loc) in
  exists q', priorq_remove cmp q loc = Ok (q', x) /\
    (exists m', Permutation m (x :: y :: m')) /\
    forall m', Permutation m (x :: y :: m') -> P (x :: m') -> held P q' (x :: m').
Proof.
  intros I Hloc Hmis x y. pose proof I as (W & Hp & Pm & Hl). pose proof W as (W1 & W2 & W3).
  apply misplaced_iff in Hmis; [|assumption|assumption]. fold x y in Hmis. destruct Hmis as (El & H0 & Hc).
  destruct (shrink_wf q W ltac:(lia)) as (Ws & Cs).
  assert (Hpar : 0 <= par loc < loc) by plia.
  assert (E : Permutation m (x :: live loc (storage q))).
  { rewrite <- Hp. replace (capacity q) with (loc + 1) by lia. rewrite live_S by lia.
    symmetry. apply Permutation_cons_append. }
  pose proof (live_put_perm loc (storage q) (par loc) x Hpar ltac:(lia)) as PM. fold y in PM.
  set (q1 := Priorq (put (storage q) loc y) loc (max_capacity q) ((y, loc) :: calls q)).
  assert (Wq1 : wf q1) by (unfold wf, q1; cbn; rewrite put_zlen by lia; lia).
  destruct (sift_total cmp (length (storage q)) q1 (par loc) x Wq1 ltac:(cbn; lia) ltac:(unfold zlen in *; lia))
    as (q2 & s2 & q' & R1 & R2 & R3).
  assert (R0 : raise cmp (shrink q) loc x = Ok (q2, s2)).
  { unfold raise. cbn [raise_loop]. unfold truth. replace (loc =? 0) with false by lia. cbn [negb].
    rewrite u64_small by lia. fold (par loc). change (storage (shrink q)) with (storage q).
    rewrite rd_at by lia. cbn [bind]. fold y. replace (cmp x y >=? 0) with false by lia.
    rewrite assign_ok by (cbn; lia). cbn [bind]. rewrite Cs. cbn [shrink storage max_capacity calls].
    replace (capacity q - 1) with loc by lia. exact R1. }
  exists q'. unfold priorq_remove. rewrite rd_at by lia. cbn [bind]. rewrite Cs. rewrite rd_at by (cbn; lia).
  cbn [bind]. change (storage (shrink q)) with (storage q). rewrite <- El. fold x.
  rewrite R0. cbn [bind]. rewrite R2. cbn [bind]. split; [reflexivity|].
  assert (E2 : Permutation m (y :: live loc (put (storage q) (par loc) x))) by (rewrite E; exact PM).
  destruct (live_put loc (storage q) (par loc) x Hpar ltac:(lia)) as (a & b & La & Lb & _). fold y in La.
  split.
  { exists (a ++ b). rewrite E, La. apply perm_skip. symmetry. apply Permutation_middle. }
  intros m' Hm Pm'. apply R3; [|assumption|].
  - cbn [q1 capacity storage].
    replace (live loc (put (put (storage q) loc y) (par loc) x)) with (live loc (put (storage q) (par loc) x)).
    + apply (Permutation_cons_inv (a := y)). rewrite <- E2, Hm. apply perm_swap.
    + assert (L : forall s : list Z, loc < zlen s -> live loc (put s loc y) = live loc s) by (intros; apply live_put_out; lia).
      rewrite <- (L (put (storage q) (par loc) x)) by (rewrite put_zlen; lia).
      f_equal. apply put_comm; lia.
  - cbn [q1 capacity storage calls]. intros PN i Hi Hne. cbn [last_loc]. rewrite at_put_neq by lia.
    assert (y <> at_ (storage q) i).
    { apply (nodup_at (capacity q)); try lia.
      eapply Permutation_NoDup; [symmetry; exact Hp|]. apply PN. assumption. }
    replace (y =? at_ (storage q) i) with false by lia. apply Hl; [assumption|lia|lia].
Qed.

(** ** Histories *)

Lemma loose_held P q m : loose P q m -> held P q m.
Proof.
  induction 1 as [P0|cmp q m junk v q' Hi IH Hr Pv E|cmp q m q' x m' Hi IH Pm' E Hm|q m q' x m' Hi IH Pm' E Hm|cmp q m loc q' x m' Hi IH Pm' Hl Hs E Hm].
  - unfold held. split; [unfold wf; cbn; lia|]. split; [reflexivity|]. split; [assumption|].
    intros _ i Hi. cbn in Hi. lia.
  - destruct (held_enqueue P cmp junk q m v IH Hr Pv) as (q2 & E2 & I2). congruence.
  - pose proof (perm_nonempty m x m' Hm). pose proof (held_size P q m IH).
    destruct (held_dequeue P cmp q m IH ltac:(lia)) as (q2 & x2 & E2 & _ & _ & I2).
    rewrite E in E2. inversion E2. subst. auto.
  - pose proof (perm_nonempty m x m' Hm). pose proof (held_size P q m IH).
    destruct (held_pop P q m IH ltac:(lia)) as (q2 & x2 & E2 & _ & I2).
    rewrite E in E2. inversion E2. subst. auto.
  - destruct (held_remove P cmp q m loc IH Hl Hs) as (q2 & E2 & _ & I2).
    rewrite E in E2. inversion E2. subst. auto.
Qed.

Lemma held_content q : forall n m, held anything q m -> length m = n ->
  exists l, pop_all n q = Ok l /\ Permutation l m.
Proof.
  intros n. revert q. induction n as [|n IH]; intros q m H Hn.
  - destruct m as [|]; [|discriminate]. exists []. split; reflexivity.
  - pose proof (held_size _ q m H) as E.
    destruct (held_pop anything q m H) as (q' & x & E1 & (m' & Hp) & H'); [unfold zlen in *; lia|].
    pose proof (Permutation_length Hp) as L. cbn [length] in L.
    destruct (IH q' m' (H' m' Hp I) ltac:(lia)) as (l & E2 & Hp2).
    exists (x :: l). cbn [pop_all]. rewrite E1. cbn [bind]. rewrite E2. cbn [bind]. split; [reflexivity|].
    rewrite Hp2. symmetry. exact Hp.
Qed.

Lemma nonempty_size (m : list Z) : m <> [] -> 0 < zlen m.
Proof. destruct m as [|x m]; [congruence|]. intros _. rewrite zlen_cons. pose proof (zlen_nonneg m). lia. Qed.

Lemma loose_ops q m : loose anything q m ->
  priorq_size q = zlen m /\
  (exists l, pop_all (length m) q = Ok l /\ Permutation l m) /\
  (forall cmp junk v, room m -> exists q', priorq_enqueue cmp junk q v = Ok q' /\ loose anything q' (v :: m)) /\
  (forall cmp, m <> [] -> exists q' x m', priorq_peek q = Ok x /\ priorq_dequeue cmp q = Ok (q', x) /\
    Permutation m (x :: m') /\ loose anything q' m') /\
  (m <> [] -> exists q' x m', priorq_pop q = Ok (q', x) /\ Permutation m (x :: m') /\ loose anything q' m') /\
  (forall cmp loc, 0 <= loc < zlen m -> ~ misplaced cmp q loc ->
    exists q' x m', priorq_remove cmp q loc = Ok (q', x) /\ occupant q loc x /\
      Permutation m (x :: m') /\ loose anything q' m').
Proof.
  intros H. pose proof (loose_held _ q m H) as I. pose proof (held_size _ q m I) as E.
  pose proof I as ((W1 & W2 & W3) & _).
  split; [symmetry; exact E|]. split; [apply held_content; [exact I|reflexivity]|].
  split.
  { intros cmp junk v Hr. destruct (held_enqueue anything cmp junk q m v I Hr Logic.I) as (q' & E1 & _).
    exists q'. split; [exact E1|]. eapply L_enqueue; eauto. exact Logic.I. }
  split.
  { intros cmp Hm. apply nonempty_size in Hm.
    destruct (held_dequeue anything cmp q m I ltac:(lia)) as (q' & x & E1 & E2 & (m' & Hp) & _).
    exists q', x, m'. split; [exact E2|]. split; [exact E1|]. split; [exact Hp|].
    eapply L_dequeue; eauto. exact Logic.I. }
  split.
  { intros Hm. apply nonempty_size in Hm.
    destruct (held_pop anything q m I ltac:(lia)) as (q' & x & E1 & (m' & Hp) & _).
    exists q', x, m'. split; [exact E1|]. split; [exact Hp|].
    eapply L_pop; eauto. exact Logic.I. }
  intros cmp loc Hl Hmis.
  destruct (held_remove anything cmp q m loc I ltac:(lia) Hmis) as (q' & E1 & (m' & Hp) & _).
  exists q', (at_ (storage q) loc), m'. split; [exact E1|].
  split. { split; [unfold priorq_size; lia|]. apply rd_at. lia. }
  split; [exact Hp|]. eapply L_remove; eauto; [exact Logic.I|unfold priorq_size; lia].
Qed.

Lemma content_misplaced cmp q m loc : held anything q m -> misplaced cmp q loc ->
  exists q' x y m',
    occupant q loc x /\ occupant q ((loc - 1) / 2) y /\ Permutation m (x :: y :: m') /\
    priorq_remove cmp q loc = Ok (q', x) /\ held anything q' (x :: m').
Proof.
  intros I Hmis. pose proof (held_size _ q m I) as E.
  pose proof I as ((W1 & W2 & W3) & _). pose proof Hmis as (El & H0 & _). unfold priorq_size in El.
  destruct (held_misplaced anything cmp q m loc I ltac:(lia) Hmis) as (q' & E1 & (m' & Hp) & H').
  specialize (H' m' Hp Logic.I).
  exists q', (at_ (storage q) loc), (at_ (storage q) (par loc)), m'.
  split. { split; [unfold priorq_size; lia|]. apply rd_at. lia. }
  split. { fold (par loc). split; [unfold priorq_size; plia|]. apply rd_at. plia. }
  split; [exact Hp|]. split; [exact E1|exact H'].
Qed.

Lemma loose_misplaced cmp q m loc : loose anything q m -> misplaced cmp q loc ->
  exists q' x y m' l,
    occupant q loc x /\ occupant q ((loc - 1) / 2) y /\ Permutation m (x :: y :: m') /\
    priorq_remove cmp q loc = Ok (q', x) /\ priorq_size q' = zlen m - 1 /\
    pop_all (length m - 1) q' = Ok l /\ Permutation l (x :: m').
Proof.
  intros H Hmis.
  destruct (content_misplaced cmp q m loc (loose_held _ q m H) Hmis) as (q' & x & y & m' & A & B & Hp & E1 & H').
  pose proof (Permutation_length Hp) as L. cbn [length] in L.
  destruct (held_content q' (length m - 1) (x :: m') H' ltac:(cbn [length]; lia)) as (l & E2 & Hl).
  pose proof (held_size _ q' _ H') as Eq. unfold zlen in Eq. cbn [length] in Eq.
  exists q', x, y, m', l. split; [exact A|]. split; [exact B|]. split; [exact Hp|]. split; [exact E1|].
  split; [unfold priorq_size, zlen; lia|]. split; [exact E2|exact Hl].
Qed.

Lemma held_any P q m : held P q m -> held anything q m.
Proof.
  intros (W & Hp & _ & _). split; [exact W|]. split; [exact Hp|]. split; [exact Logic.I|].
  intros N. exfalso. specialize (N [0; 0] Logic.I). apply NoDup_cons_iff in N. destruct N as [N _]. apply N. left. reflexivity.
Qed.

Lemma held_locate q m e : held (@NoDup Z) q m -> In e m ->
  exists loc, last_loc (calls q) e = Some loc /\ 0 <= loc < zlen m /\ at_ (storage q) loc = e.
Proof.
  intros H He. pose proof (held_size _ q m H) as E. pose proof H as (W & Hp & Pm & Hl).
  assert (Hn : 0 <= capacity q <= zlen (storage q)) by (destruct W as (? & -> & _); lia).
  apply (Permutation_in e (Permutation_sym Hp)) in He. apply live_in in He; [|assumption].
  destruct He as (loc & Hloc & <-). exists loc. split; [apply Hl; [auto|assumption|lia]|]. split; [lia|reflexivity].
Qed.

Lemma loose_locate q m e : loose (@NoDup Z) q m -> In e m ->
  exists loc, last_loc (calls q) e = Some loc /\ 0 <= loc < zlen m /\
    (forall cmp, exists q', priorq_remove cmp q loc = Ok (q', e)) /\
    (forall cmp, ~ misplaced cmp q loc -> exists q' m',
      priorq_remove cmp q loc = Ok (q', e) /\ Permutation m (e :: m') /\ loose (@NoDup Z) q' m').
Proof.
  intros H He. pose proof (loose_held _ q m H) as I. pose proof (held_size _ q m I) as E.
  destruct (held_locate q m e I He) as (loc & L1 & L2 & L3). exists loc. split; [exact L1|]. split; [exact L2|].
  pose proof I as (W & _).
  assert (G : forall cmp, ~ misplaced cmp q loc -> exists q' m',
    priorq_remove cmp q loc = Ok (q', e) /\ Permutation m (e :: m') /\ loose (@NoDup Z) q' m').
  { intros cmp Hmis. destruct (held_remove _ cmp q m loc I ltac:(lia) Hmis) as (q' & E1 & (m' & Hp) & _).
    rewrite L3 in *. exists q', m'. split; [exact E1|]. split; [exact Hp|].
    eapply L_remove; eauto; [|unfold priorq_size; lia].
    eapply NoDup_cons_iff. eapply Permutation_NoDup; [exact Hp|]. apply I. }
  split; [|exact G]. intros cmp.
  destruct (Z_lt_dec (cmp (at_ (storage q) loc) (at_ (storage q) (par loc))) 0) as [D|D];
    [destruct (Z.eq_dec loc (capacity q - 1)) as [D1|D1]; [destruct (Z.eq_dec loc 0) as [D2|D2]|]|].
  all: try (destruct (G cmp) as (q' & m' & E1 & _); [rewrite misplaced_iff by (try assumption; lia); lia|]; exists q'; exact E1).
  destruct (held_misplaced (@NoDup Z) cmp q m loc I ltac:(lia)) as (q' & E1 & _).
  { apply misplaced_iff; [assumption|lia|lia]. }
  rewrite L3 in E1. exists q'. exact E1.
Qed.

(** ** Changing priorities *)

Lemma agree_in n s cmp cmp' m i j : 0 <= n <= zlen s -> Permutation (live n s) m -> agree m cmp cmp' ->
  0 <= i < n -> 0 <= j < n -> cmp' (at_ s i) (at_ s j) = cmp (at_ s i) (at_ s j).
Proof.
  intros Hn Hp Ha Hi Hj. apply Ha; eapply Permutation_in; try exact Hp; apply live_in; eauto.
Qed.

Lemma agree_perm m m' cmp cmp' : Permutation m m' -> agree m cmp cmp' -> agree m' cmp cmp'.
Proof. intros Hp H a b Ha Hb. apply H; eapply Permutation_in; try eassumption; symmetry; exact Hp. Qed.

Lemma change_inv P cmp cmp' q m : inv cmp P q m -> agree m cmp cmp' -> inv cmp' P q m.
Proof.
  intros (W & Hh & Hp & Pm & Hl) Ha. split; [exact W|]. split; [|auto].
  pose proof W as (W1 & W2 & W3).
  intros i Hi. rewrite (agree_in (capacity q) (storage q) cmp cmp' m (par i) i); try assumption; try plia. apply Hh. exact Hi.
Qed.

(** Taking out by the new comparison function. *)
Lemma change_remove P cmp cmp' q m loc :
  comparator cmp -> comparator cmp' -> inv cmp P q m -> 0 <= loc < capacity q ->
  (forall m', Permutation m (at_ (storage q) loc :: m') -> agree m' cmp cmp') ->
  ~ misplaced cmp' q loc ->
  exists q', priorq_remove cmp' q loc = Ok (q', at_ (storage q) loc) /\
    (exists m', Permutation m (at_ (storage q) loc :: m')) /\
    forall m', Permutation m (at_ (storage q) loc :: m') -> P m' -> inv cmp' P q' m'.
Proof.
  intros Hc Hc' I Hloc Ha Hmis. pose proof I as (W & Hh & Hp & Pm & Hl).
  pose proof W as (W1 & W2 & W3).
  destruct (Z.eq_dec loc (capacity q - 1)) as [El|El].
  - assert (Hheld : held P q m) by (split; [|split; [|split]]; assumption).
    destruct (held_remove P cmp' q m loc Hheld Hloc Hmis) as (q' & E1 & E2 & E3).
    exists q'. split; [exact E1|]. split; [exact E2|]. intros m' Hm Pm'.
    destruct (E3 m' Hm Pm') as (W' & Hp' & _ & Hl').
    split; [exact W'|]. split; [|auto].
    subst loc. rewrite (remove_last cmp' q W ltac:(lia) Hmis) in E1. inversion E1 as [Eq]. subst q'. clear E1.
    cbn [capacity storage] in *. pose proof W' as (W1' & W2' & W3'). cbn [capacity storage max_capacity] in *.
    intros i Hi. rewrite (agree_in (capacity q - 1) (storage q) cmp cmp' m' (par i) i); try assumption; try plia.
    + apply Hh. lia.
    + apply Ha. exact Hm.
  - destruct (shrink_wf q W ltac:(lia)) as (Ws & Cs). set (n := capacity q - 1) in *.
    set (x := at_ (storage q) loc) in *. set (other := at_ (storage q) n).
    assert (St : storage (shrink q) = storage q) by reflexivity.
    assert (PM : Permutation m (x :: live n (put (storage q) loc other))).
    { rewrite <- Hp. replace (capacity q) with (n + 1) by lia. rewrite live_S by lia.
      rewrite <- Permutation_cons_append. apply (live_put_perm n (storage q) loc); lia. }
    pose proof (Ha _ PM) as Hag.
    assert (Ag : forall i j, 0 <= i < n -> 0 <= j < n -> i <> loc -> j <> loc ->
      cmp' (at_ (storage q) i) (at_ (storage q) j) = cmp (at_ (storage q) i) (at_ (storage q) j)).
    { intros i j Hi Hj Ni Nj.
      pose proof (agree_in n (put (storage q) loc other) cmp cmp' _ i j ltac:(rewrite put_zlen; lia)
        (Permutation_refl _) Hag Hi Hj) as A.
      rewrite !at_put_neq in A by lia. exact A. }
    unfold priorq_remove. rewrite rd_at by lia. cbn [bind]. rewrite Cs. rewrite rd_at by (cbn; lia). cbn [bind].
    rewrite St. fold x. fold other. unfold raise.
    destruct (raise_loop_ok cmp' Hc' n other (S (length (storage (shrink q)))) (shrink q) loc)
      as (q2 & slot2 & R1 & R2 & R3 & R4 & R5 & _ & R6 & R7).
    + assumption.
    + lia.
    + rewrite St. lia.
    + rewrite St. unfold zlen in *. lia.
    + rewrite St. destruct (heap_holed cmp Hc n loc (storage q)) as [Q1 Q2].
      { eapply heap_less; [exact Hh|lia]. }
      { lia. }
      split.
      * intros i Hi Ni Np. rewrite Ag; [apply Q1; assumption|plia|plia|assumption|assumption].
      * intros H0 i Hi Hpi. rewrite Ag; [apply Q2; assumption|plia|plia|plia|plia].
    + rewrite R1. cbn [bind]. destruct R2 as (R2a & R2b & R2c). rewrite St in *.
      assert (C2 : capacity q2 = n) by lia.
      unfold lower.
      destruct (lower_loop_ok cmp' Hc' other (S (length (storage q2))) q2 slot2) as (q' & T1 & T2 & T3 & T4 & T5).
      * eapply same_caps_wf; [|exact Ws]. unfold same_caps. rewrite St. auto.
      * lia.
      * rewrite C2. unfold zlen in *. lia.
      * rewrite C2. assumption.
      * assumption.
      * rewrite T1. cbn [bind]. exists q'. split; [reflexivity|]. split; [eexists; exact PM|]. intros m' Hm Pm'.
        rewrite C2 in *. destruct T2 as (T2a & T2b & T2c).
        assert (Em : Permutation (live n (put (storage q) loc other)) m').
        { apply (Permutation_cons_inv (a := x)). rewrite <- PM. exact Hm. }
        unfold inv. replace (capacity q') with n by lia.
        split. { unfold wf. cbn in R2b. lia. }
        split; [exact T3|]. split; [rewrite T4, R6; exact Em|]. split; [assumption|].
        intros PN.
        assert (ND : NoDup (live n (put (storage q) loc other))).
        { eapply Permutation_NoDup; [symmetry; exact Em|]. apply PN. assumption. }
        apply T5; [eapply Permutation_NoDup; [symmetry; exact R6|exact ND]|].
        apply R7; [exact ND|]. intros i Hi Hne. cbn [shrink calls]. apply Hl; [assumption|lia|lia].
Qed.

Lemma remove_agree (m m' m2 : list Z) x cmp cmp' :
  Permutation m (x :: m') -> agree m' cmp cmp' -> Permutation m (x :: m2) -> agree m2 cmp cmp'.
Proof. intros A B C. eapply agree_perm; [|exact B]. apply (Permutation_cons_inv (a := x)). rewrite <- A. exact C. Qed.

Lemma remove_returns cmp q m P loc q' x : held P q m -> 0 <= loc < capacity q ->
  priorq_remove cmp q loc = Ok (q', x) -> x = at_ (storage q) loc.
Proof.
  intros I Hl E. pose proof I as (W & _). pose proof W as (W1 & W2 & W3).
  unfold priorq_remove in E. rewrite rd_at in E by lia. cbn [bind] in E.
  destruct (rd (storage (shrink q)) (capacity (shrink q))) as [o| | |]; try discriminate. cbn [bind] in E.
  destruct (raise cmp (shrink q) loc o) as [[q2 s2]| | |]; try discriminate. cbn [bind] in E.
  destruct (lower cmp q2 s2 o) as [q3| | |]; try discriminate. cbn [bind] in E. congruence.
Qed.

Lemma inv_held cmp P q m : inv cmp P q m -> held P q m.
Proof. intros (W & _ & Hp & Pm & Hl). split; [|split; [|split]]; assumption. Qed.

Lemma evolving_inv P cmp q m : evolving P cmp q m -> comparator cmp /\ inv cmp P q m.
Proof.
  induction 1 as [cmp Hc P0|cmp cmp' q m Hi (Hc & IH) Hc' Ha|cmp q m junk v q' Hi (Hc & IH) Hr Pv E
    |cmp q m q' x m' Hi (Hc & IH) Pm' E Hm|cmp q m q' x m' Hi (Hc & IH) Pm' E Hm
    |cmp cmp' q m loc q' x m' Hi (Hc & IH) Pm' Hl Hc' Ha Hs E Hm].
  - split; [exact Hc|]. unfold inv. split; [unfold wf; cbn; lia|]. split; [intros i Hi; cbn in Hi; lia|].
    split; [reflexivity|]. split; [assumption|]. intros _ i Hi. cbn in Hi. lia.
  - split; [exact Hc'|]. eapply change_inv; eassumption.
  - split; [exact Hc|]. destruct (enqueue_ok cmp Hc P junk q m v IH Hr Pv) as (q2 & E2 & I2). congruence.
  - split; [exact Hc|]. pose proof (perm_nonempty m x m' Hm). pose proof (inv_size cmp P q m IH).
    destruct (dequeue_ok cmp Hc P q m IH ltac:(lia)) as (q2 & x2 & E2 & _ & _ & I2).
    rewrite E in E2. inversion E2. subst. auto.
  - split; [exact Hc|]. pose proof (perm_nonempty m x m' Hm). pose proof (inv_size cmp P q m IH).
    destruct (pop_ok cmp P q m IH ltac:(lia)) as (q2 & x2 & E2 & _ & I2).
    rewrite E in E2. inversion E2. subst. auto.
  - split; [exact Hc'|].
    pose proof (remove_returns cmp' q m P loc q' x (inv_held _ _ _ _ IH) Hl E) as Ex.
    destruct (change_remove P cmp cmp' q m loc Hc Hc' IH Hl) as (q2 & E2 & _ & I2).
    + intros m2 Hm2. rewrite <- Ex in Hm2. exact (remove_agree m m' m2 x cmp cmp' Hm Ha Hm2).
    + exact Hs.
    + rewrite E in E2. inversion E2. subst. auto.
Qed.

Lemma evolving_ops cmp q m : evolving anything cmp q m ->
  priorq_size q = zlen m /\
  (m <> [] -> exists q' x m', priorq_peek q = Ok x /\ priorq_dequeue cmp q = Ok (q', x) /\
    In x m /\ (forall y, In y m -> cmp x y <= 0) /\ Permutation m (x :: m') /\ evolving anything cmp q' m') /\
  (forall junk v, room m -> exists q', priorq_enqueue cmp junk q v = Ok q' /\ evolving anything cmp q' (v :: m)) /\
  (exists l, pop_all (length m) q = Ok l /\ Permutation l m).
Proof.
  intros H. pose proof (evolving_inv _ _ _ _ H) as (Hc & I). pose proof (inv_size _ _ _ _ I) as E.
  split; [symmetry; exact E|]. split.
  { intros Hm. apply nonempty_size in Hm.
    destruct (dequeue_ok cmp Hc anything q m I ltac:(lia)) as (q' & x & E1 & (L1 & L2) & (m' & Hp) & _).
    destruct (held_dequeue anything cmp q m (inv_held _ _ _ _ I) ltac:(lia)) as (q2 & x2 & E2 & E3 & _).
    rewrite E1 in E2. inversion E2. subst q2 x2.
    exists q', x, m'. split; [exact E3|]. split; [exact E1|]. split; [exact L1|]. split; [exact L2|]. split; [exact Hp|].
    eapply E_dequeue; eauto. exact Logic.I. }
  split.
  { intros junk v Hr. destruct (enqueue_ok cmp Hc anything junk q m v I Hr Logic.I) as (q' & E1 & _).
    exists q'. split; [exact E1|]. eapply E_enqueue; eauto. exact Logic.I. }
  apply held_content; [exact (inv_held _ _ _ _ I)|reflexivity].
Qed.

Lemma evolving_update cmp cmp' q m e : evolving (@NoDup Z) cmp q m -> In e m -> comparator cmp' ->
  (forall a b, In a m -> In b m -> a <> e -> b <> e -> cmp' a b = cmp a b) ->
  exists loc, last_loc (calls q) e = Some loc /\ 0 <= loc < zlen m /\
    ((loc <> zlen m - 1 \/ (forall y, In y m -> cmp e y >= 0 -> cmp' e y >= 0)) ->
     exists q' m', priorq_remove cmp' q loc = Ok (q', e) /\ Permutation m (e :: m') /\
       evolving (@NoDup Z) cmp' q' m').
Proof.
  intros H He Hc' Ha. pose proof (evolving_inv _ _ _ _ H) as (Hc & I). pose proof (inv_size _ _ _ _ I) as E.
  pose proof (inv_held _ _ _ _ I) as Hh. destruct (held_locate q m e Hh He) as (loc & L1 & L2 & L3).
  pose proof I as (W & Hheap & Hp & ND & _). pose proof W as (W1 & W2 & W3).
  exists loc. split; [exact L1|]. split; [exact L2|]. intros Hor.
  assert (Hmis : ~ misplaced cmp' q loc).
  { rewrite misplaced_iff by (try assumption; lia). rewrite L3. intros (D1 & D2 & D3).
    destruct Hor as [Hor|Hor]; [lia|].
    assert (cmp (at_ (storage q) (par loc)) e <= 0) by (rewrite <- L3; apply Hheap; lia).
    assert (In (at_ (storage q) (par loc)) m).
    { eapply Permutation_in; [exact Hp|]. apply live_in; [lia|]. exists (par loc). split; [plia|reflexivity]. }
    specialize (Hor _ H1). destruct Hc as [Hc0 _]. specialize (Hc0 e (at_ (storage q) (par loc))). lia. }
  assert (Hag : forall m', Permutation m (at_ (storage q) loc :: m') -> agree m' cmp cmp').
  { rewrite L3. intros m' Hm a b Ia Ib.
    assert (N : NoDup (e :: m')) by (eapply Permutation_NoDup; [exact Hm|exact ND]).
    apply NoDup_cons_iff in N. destruct N as [N _].
    apply Ha; try (eapply Permutation_in; [symmetry; exact Hm|right; assumption]); intros ->; contradiction. }
  destruct (change_remove _ cmp cmp' q m loc Hc Hc' I ltac:(lia) Hag Hmis) as (q' & E1 & (m' & Hm) & _).
  exists q', m'. pose proof (Hag m' Hm) as Hag'. rewrite L3 in *. split; [exact E1|]. split; [exact Hm|].
  eapply E_remove; eauto; [|unfold priorq_size; lia].
  eapply NoDup_cons_iff. eapply Permutation_NoDup; eassumption.
Qed.

Lemma evolving_lost cmp cmp' q m e loc : evolving (@NoDup Z) cmp q m -> In e m ->
  last_loc (calls q) e = Some loc -> misplaced cmp' q loc ->
  exists q' y m' l, priorq_remove cmp' q loc = Ok (q', e) /\ Permutation m (e :: y :: m') /\
    pop_all (length m - 1) q' = Ok l /\ Permutation l (e :: m') /\
    forall junk, room m -> exists q'' l', priorq_enqueue cmp' junk q' e = Ok q'' /\
      pop_all (length m) q'' = Ok l' /\ Permutation l' (e :: e :: m').
Proof.
  intros H He Hloc Hmis. pose proof (evolving_inv _ _ _ _ H) as (Hc & I). apply inv_held in I.
  destruct (held_locate q m e I He) as (loc2 & L1 & L2 & L3). rewrite Hloc in L1. inversion L1. subst loc2. clear L1.
  pose proof (held_size _ _ _ I) as Esz.
  destruct (content_misplaced cmp' q m loc (held_any _ _ _ I) Hmis) as (q' & x & y & m' & _ & _ & Hp & E1 & H').
  pose proof (remove_returns cmp' q m _ loc q' x I ltac:(lia) E1) as Ex. rewrite L3 in Ex. subst x.
  pose proof (Permutation_length Hp) as L. cbn [length] in L.
  destruct (held_content q' (length m - 1) (e :: m') H' ltac:(cbn [length]; lia)) as (l & E2 & Hl).
  exists q', y, m', l. split; [exact E1|]. split; [exact Hp|]. split; [exact E2|]. split; [exact Hl|].
  intros junk Hr.
  destruct (held_enqueue anything cmp' junk q' (e :: m') e H') as (q'' & E3 & H'').
  { unfold room, zlen in *. cbn [length]. lia. }
  { exact Logic.I. }
  destruct (held_content q'' (length m) _ H'' ltac:(cbn [length]; lia)) as (l' & E4 & Hl').
  exists q'', l'. auto.
Qed.
