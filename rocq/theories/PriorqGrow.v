(** The storage of priority queues. *)
From Verif Require Import Base PriorqModel PriorqSpec PriorqProofs PriorqGrowSpec.

Lemma grown_any cmp q n peak moves : grown cmp q n peak moves -> any_history cmp q n.
Proof.
  induction 1 as [|q n peak moves junk v q' Hi IH Hr E|q n peak moves q' x Hi IH E
                  |q n peak moves q' x Hi IH E|q n peak moves loc q' x Hi IH Hl E].
  - constructor.
  - eapply A_enqueue; eassumption.
  - eapply A_dequeue; eassumption.
  - eapply A_pop; eassumption.
  - eapply A_remove; eassumption.
Qed.

Definition len (q : priorq) : Z := zlen (storage q).

Lemma assign_len q slot v q' : assign q slot v = Ok q' -> len q' = len q.
Proof.
  unfold assign, wr, len. intros H. destruct (inb _ _) eqn:E; unfold inb in E; [|discriminate]. cbn [bind] in H.
  injection H as <-. cbn [storage]. unfold zlen in *. rewrite upd_length by lia. reflexivity.
Qed.

Lemma raise_len cmp : forall fuel q slot v q' slot',
  raise_loop cmp fuel q slot v = Ok (q', slot') -> len q' = len q.
Proof.
  induction fuel as [|fuel IH]; intros q slot v q' slot' H; [discriminate|]. cbn [raise_loop] in H.
  destruct (truth slot); [|injection H as <- <-; reflexivity].
  cbv zeta in H. destruct (rd _ _) as [x| | |]; try discriminate H. cbn [bind] in H.
  destruct (_ >=? _); [injection H as <- <-; reflexivity|].
  destruct (assign q slot x) as [q1| | |] eqn:Ea; try discriminate H. cbn [bind] in H.
  rewrite (IH _ _ _ _ _ H). apply (assign_len _ _ _ _ Ea).
Qed.

Lemma lower_len cmp : forall fuel q slot v q', lower_loop cmp fuel q slot v = Ok q' -> len q' = len q.
Proof.
  induction fuel as [|fuel IH]; intros q slot v q' H; [discriminate|]. cbn [lower_loop] in H. cbv zeta in H.
  destruct (_ >=? _); [apply (assign_len _ _ _ _ H)|].
  match type of H with bind ?e _ = _ => destruct e as [branch| | |] end; try discriminate H. cbn [bind] in H.
  destruct (rd _ _) as [x| | |]; try discriminate H. cbn [bind] in H.
  destruct (_ <=? _); [apply (assign_len _ _ _ _ H)|].
  destruct (assign q slot x) as [q1| | |] eqn:Ea; try discriminate H. cbn [bind] in H.
  rewrite (IH _ _ _ _ H). apply (assign_len _ _ _ _ Ea).
Qed.

Lemma dequeue_len cmp q q' x : priorq_dequeue cmp q = Ok (q', x) -> len q' = len q.
Proof.
  unfold priorq_dequeue. intros H. destruct (capacity q =? 0); [injection H as <- <-; reflexivity|].
  destruct (capacity q =? 1); cbv zeta in H.
  - destruct (rd _ _) as [y| | |]; try discriminate H. cbn [bind] in H. injection H as <- <-. reflexivity.
  - destruct (rd _ 0) as [y| | |]; try discriminate H. cbn [bind] in H.
    destruct (rd _ _) as [z| | |]; try discriminate H. cbn [bind] in H.
    destruct (lower _ _ _ _) as [q1| | |] eqn:El; try discriminate H. cbn [bind] in H. injection H as <- <-.
    apply (lower_len _ _ _ _ _ _ El).
Qed.

Lemma pop_len q q' x : priorq_pop q = Ok (q', x) -> len q' = len q.
Proof.
  unfold priorq_pop. intros H. destruct (priorq_empty q); [injection H as <- <-; reflexivity|]. cbv zeta in H.
  destruct (rd _ _) as [y| | |]; try discriminate H. cbn [bind] in H. injection H as <- <-. reflexivity.
Qed.

Lemma remove_len cmp q loc q' x : priorq_remove cmp q loc = Ok (q', x) -> len q' = len q.
Proof.
  unfold priorq_remove. cbv zeta. intros H.
  destruct (rd _ loc) as [y| | |]; try discriminate H. cbn [bind] in H.
  destruct (rd _ _) as [z| | |]; try discriminate H. cbn [bind] in H.
  destruct (raise _ _ _ _) as [[q1 s1]| | |] eqn:Er; try discriminate H. cbn [bind] in H.
  destruct (lower _ _ _ _) as [q2| | |] eqn:El; try discriminate H. cbn [bind] in H. injection H as <- <-.
  rewrite (lower_len _ _ _ _ _ _ El). apply (raise_len _ _ _ _ _ _ _ Er).
Qed.

Lemma round_tight target : forall fuel m n, 0 < m < 2 ^ 61 -> target <= 2 ^ 60 ->
  round_loop fuel target m = Ok n -> n = m \/ n < 2 * target.
Proof.
  induction fuel as [|fuel IH]; intros m n Hm Ht H; [discriminate|]. cbn [round_loop] in H.
  destruct (m <? target) eqn:E; [|injection H as <-; auto].
  unfold SIZE_MAX in H. replace (m >? (2 ^ 64 - 1) / 2) with false in H by (change ((2 ^ 64 - 1) / 2) with (2 ^ 63 - 1); lia).
  rewrite Z.shiftl_mul_pow2 in H by lia. change (2 ^ 1) with 2 in H. rewrite u64_small in H by lia.
  destruct (IH (m * 2) n ltac:(lia) Ht H) as [->|K]; lia.
Qed.

(** Enqueueing keeps the storage unless it is full; then the number of slots
    is the next power of two. *)
Lemma enqueue_len cmp junk q v q' : wf q -> capacity q + 1 < 2 ^ 60 -> priorq_enqueue cmp junk q v = Ok q' ->
  (capacity q < len q /\ len q' = len q) \/
  (capacity q = len q /\ capacity q < len q' /\ (len q' = 1 \/ len q' < 2 * (capacity q + 1)) /\
   exists k, 0 <= k /\ len q' = 2 ^ k).
Proof.
  intros W Hc H. pose proof W as (W1 & W2 & W3). unfold priorq_enqueue in H. unfold len in *.
  destruct (capacity q =? max_capacity q) eqn:E.
  - right.
    destruct (round_loop_ok (u64 (capacity q + 1)) ltac:(rewrite u64_small; lia) 66 0 ltac:(lia) ltac:(lia))
      as (n & N1 & N2 & N3 & N4). change (2 ^ 0) with 1 in N1. rewrite N1 in H. cbn [bind] in H.
    rewrite u64_small in N1, N2, N4 by lia. specialize (N4 ltac:(lia) ltac:(lia)). destruct N4 as [N4 N5].
    pose proof (round_tight (capacity q + 1) 66 1 n ltac:(lia) ltac:(lia) N1) as T.
    cbn [storage capacity max_capacity calls] in H.
    match type of H with context [raise cmp ?q1 ?s v] => destruct (raise cmp q1 s v) as [[q2 s2]| | |] eqn:Er end;
      try discriminate H. cbn [bind] in H.
    assert (L : zlen (storage q') = n).
    { pose proof (raise_len _ _ _ _ _ _ _ Er) as L1. pose proof (assign_len _ _ _ _ H) as L2.
      unfold len in *. rewrite L2, L1. cbn [storage]. unfold realloc_slots. rewrite u64_small by lia.
      rewrite Z.div_mul by lia. rewrite firstn_all2 by (unfold zlen in *; lia).
      rewrite zlen_app, fresh_block_zlen by lia. lia. }
    rewrite L. split; [lia|]. split; [lia|]. split; [lia|exact N5].
  - left. split; [lia|]. cbn [bind] in H.
    match type of H with context [raise cmp ?q1 ?s v] => destruct (raise cmp q1 s v) as [[q2 s2]| | |] eqn:Er end;
      try discriminate H. cbn [bind] in H.
    pose proof (raise_len _ _ _ _ _ _ _ Er) as L1. pose proof (assign_len _ _ _ _ H) as L2.
    unfold len in *. rewrite L2, L1. reflexivity.
Qed.

Lemma pow2_next j k : 0 <= j -> 0 <= k -> 2 ^ k < 2 ^ j -> 2 ^ j < 2 * (2 ^ k + 1) -> j = k + 1.
Proof.
  intros Hj Hk H1 H2. apply Z.pow_lt_mono_r_iff in H1; [|lia..].
  destruct (Z.eq_dec j (k + 1)) as [|N]; [assumption|exfalso].
  assert (2 ^ (k + 2) <= 2 ^ j) by (apply Z.pow_le_mono_r; lia).
  rewrite Z.pow_add_r in H by lia. change (2 ^ 2) with 4 in H.
  assert (0 < 2 ^ k) by (apply Z.pow_pos_nonneg; lia). lia.
Qed.

Definition told (q : priorq) (peak : Z) (moves : list (Z * Z)) : Prop :=
  (peak = 0 /\ len q = 0 /\ moves = []) \/
  exists k, 0 <= k /\ len q = 2 ^ k /\ peak <= 2 ^ k < 2 * peak /\
    zlen moves = k + 1 /\ sum (map fst moves) = 2 ^ k - 1.

Lemma grown_told cmp q n peak moves : grown cmp q n peak moves -> n <= peak /\ told q peak moves.
Proof.
  induction 1 as [|q n peak moves junk v q' Hi IH Hr E|q n peak moves q' x Hi IH E
                  |q n peak moves q' x Hi IH E|q n peak moves loc q' x Hi IH Hl E].
  - split; [lia|]. left. auto.
  - destruct IH as [Hn T]. split; [lia|].
    pose proof (grown_any _ _ _ _ _ Hi) as A. apply any_history_safe in A as (W & _ & C).
    assert (0 <= n) by (destruct W; lia).
    destruct (enqueue_len cmp junk q v q' W ltac:(lia) E) as [[L1 L2]|(L1 & L2 & L3 & j & Hj & Lj)]; unfold len in *.
    + rewrite L2, Z.eqb_refl. destruct T as [(T1 & T2 & T3)|(k & K0 & K1 & K2 & K3 & K4)]; unfold len in *; [lia|].
      right. exists k. unfold len. rewrite L2. repeat split; try assumption; lia.
    + replace (zlen (storage q') =? zlen (storage q)) with false by lia.
      right. exists j. unfold len.
      destruct T as [(T1 & T2 & T3)|(k & K0 & K1 & K2 & K3 & K4)]; unfold len in *.
      * subst moves. assert (j = 0).
        { destruct (Z.eq_dec j 0) as [|N]; [assumption|exfalso].
          assert (2 ^ 1 <= 2 ^ j) by (apply Z.pow_le_mono_r; lia). change (2 ^ 1) with 2 in *. lia. }
        subst j. change (2 ^ 0) with 1 in *. cbn [map fst sum]. rewrite zlen_cons. change (zlen (@nil (Z * Z))) with 0.
        repeat split; lia.
      * assert (0 < 2 ^ k) by (apply Z.pow_pos_nonneg; lia).
        assert (J : j = k + 1) by (apply pow2_next; lia). subst j.
        rewrite Z.pow_add_r in * by lia. change (2 ^ 1) with 2 in *.
        cbn [map fst sum]. rewrite zlen_cons. repeat split; lia.
  - destruct IH as [Hn T]. pose proof (dequeue_len _ _ _ _ E) as L.
    pose proof (grown_any _ _ _ _ _ Hi) as A. apply any_history_safe in A as (W & _ & C).
    split; [destruct W; lia|]. unfold told in *. rewrite L. exact T.
  - destruct IH as [Hn T]. pose proof (pop_len _ _ _ E) as L.
    pose proof (grown_any _ _ _ _ _ Hi) as A. apply any_history_safe in A as (W & _ & C).
    split; [destruct W; lia|]. unfold told in *. rewrite L. exact T.
  - destruct IH as [Hn T]. pose proof (remove_len _ _ _ _ _ E) as L.
    split; [lia|]. unfold told in *. rewrite L. exact T.
Qed.

Lemma storage_bounds cmp q n peak moves : grown cmp q n peak moves ->
  priorq_size q = n /\ n <= peak /\
  peak <= zlen (storage q) <= 2 * peak /\
  sum (map fst moves) <= zlen (storage q) /\
  (moves = [] \/ 2 ^ zlen moves < 4 * peak).
Proof.
  intros G. pose proof (grown_told _ _ _ _ _ G) as [Hn T].
  pose proof (grown_any _ _ _ _ _ G) as A. apply any_history_safe in A as (W & _ & C).
  split; [exact C|]. split; [exact Hn|].
  destruct T as [(-> & L & ->)|(k & K0 & L & K2 & K3 & K4)]; unfold len in L; rewrite L.
  - split; [lia|]. split; [cbn; lia|]. left. reflexivity.
  - split; [lia|]. split; [lia|]. right. rewrite K3, Z.pow_add_r by lia. change (2 ^ 1) with 2. lia.
Qed.

(** One more element, with all numbers given. *)
Lemma enqueue_step cmp q n peak moves junk v q' n' peak' moves' :
  grown cmp q n peak moves -> n + 1 < 2 ^ 60 -> priorq_enqueue cmp junk q v = Ok q' ->
  n' = n + 1 -> peak' = Z.max peak (n + 1) ->
  moves' = (if zlen (storage q') =? zlen (storage q) then moves
            else (zlen (storage q), zlen (storage q')) :: moves) ->
  grown cmp q' n' peak' moves'.
Proof. intros G L E -> -> ->. eapply G_enqueue; eassumption. Qed.
