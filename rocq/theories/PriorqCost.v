(** Work of the priority queue operations. *)
From Verif Require Import Base PriorqModel PriorqCostModel PriorqSpec PriorqProofs.
From Coq Require Import ZifyBool ZifyNat.

(** * The counter changes nothing *)

Definition uncount {A} (r : res (A * Z)) : res A := '(a, _) <- r ;; Ok a.

Lemma raise_erase cmp value : forall fuel q slot,
  raise_loop cmp fuel q slot value = uncount (raise_loop_counted cmp fuel q slot value).
Proof.
  induction fuel as [|fuel IH]; intros q slot; [reflexivity|]. cbn [raise_loop raise_loop_counted].
  destruct (truth slot); [|reflexivity]. destruct (rd (storage q) (u64 (slot - 1) / 2)) as [x| | |]; try reflexivity. cbn [bind].
  destruct (cmp value x >=? 0); [reflexivity|]. destruct (assign q slot x) as [q1| | |]; try reflexivity. cbn [bind]. rewrite IH.
  destruct (raise_loop_counted cmp fuel q1 (u64 (slot - 1) / 2) value) as [[[q2 s2] k]| | |]; reflexivity.
Qed.
Lemma lower_erase cmp value : forall fuel q slot,
  lower_loop cmp fuel q slot value = uncount (lower_loop_counted cmp fuel q slot value).
Proof.
  induction fuel as [|fuel IH]; intros q slot; [reflexivity|]. cbn [lower_loop lower_loop_counted].
  assert (A : forall k, assign q slot value = uncount (q <- assign q slot value ;; Ok (q, k))) by (intros k; destruct (assign q slot value); reflexivity).
  destruct (u64 (slot * 2 + 1) >=? capacity q); [apply A|].
  assert (G : forall b k, (x <- rd (storage q) b ;; if cmp value x <=? 0 then assign q slot value else q <- assign q slot x ;; lower_loop cmp fuel q b value) =
    uncount (x <- rd (storage q) b ;; if cmp value x <=? 0 then q <- assign q slot value ;; Ok (q, k + 1) else
      q <- assign q slot x ;; '(q, k') <- lower_loop_counted cmp fuel q b value ;; Ok (q, k + 1 + k'))).
  { intros b k. destruct (rd (storage q) b) as [x| | |]; try reflexivity. cbn [bind]. destruct (cmp value x <=? 0); [apply A|].
    destruct (assign q slot x) as [q1| | |]; try reflexivity. cbn [bind]. rewrite IH. destruct (lower_loop_counted cmp fuel q1 b value) as [[q2 k']| | |]; reflexivity. }
  destruct (u64 (u64 (slot * 2 + 1) + 1) >=? capacity q); [apply (G _ 0)|].
  destruct (rd (storage q) (u64 (slot * 2 + 1))) as [x| | |]; try reflexivity. cbn [bind].
  destruct (rd (storage q) (u64 (u64 (slot * 2 + 1) + 1))) as [y| | |]; try reflexivity. cbn [bind]. apply (G _ 1).
Qed.
Lemma enqueue_erase cmp junk q v : priorq_enqueue cmp junk q v = uncount (priorq_enqueue_counted cmp junk q v).
Proof.
  unfold priorq_enqueue, priorq_enqueue_counted.
  set (g := if capacity q =? max_capacity q then _ else _). destruct g as [q1| | |]; try reflexivity. cbn [bind].
  unfold raise, raise_counted. rewrite raise_erase.
  destruct (raise_loop_counted _ _ _ _ _) as [[[q2 s2] k]| | |]; try reflexivity. cbn [uncount bind].
  destruct (assign q2 s2 v); reflexivity.
Qed.
Lemma dequeue_erase cmp q : priorq_dequeue cmp q = uncount (priorq_dequeue_counted cmp q).
Proof.
  unfold priorq_dequeue, priorq_dequeue_counted. destruct (capacity q =? 0); [reflexivity|]. destruct (capacity q =? 1).
  - destruct (rd _ _); reflexivity.
  - destruct (rd (storage q) 0) as [x| | |]; try reflexivity. cbn [bind]. destruct (rd (storage (shrink q)) _) as [y| | |]; try reflexivity. cbn [bind].
    unfold lower, lower_counted. rewrite lower_erase. destruct (lower_loop_counted _ _ _ _ _) as [[q2 k]| | |]; reflexivity.
Qed.
Lemma remove_erase cmp q loc : priorq_remove cmp q loc = uncount (priorq_remove_counted cmp q loc).
Proof.
  unfold priorq_remove, priorq_remove_counted. destruct (rd (storage q) loc) as [x| | |]; try reflexivity. cbn [bind].
  destruct (rd (storage (shrink q)) _) as [y| | |]; try reflexivity. cbn [bind]. unfold raise, raise_counted. rewrite raise_erase.
  destruct (raise_loop_counted _ _ _ _ _) as [[[q2 s2] k]| | |]; try reflexivity. cbn [uncount bind].
  unfold lower, lower_counted. rewrite lower_erase. destruct (lower_loop_counted _ _ _ _ _) as [[q3 k3]| | |]; reflexivity.
Qed.

(** * The bounds *)

Lemma log2_pos n : 2 <= n -> 1 <= Z.log2 n.
Proof. intros H. change 1 with (Z.log2 2). apply Z.log2_le_mono. exact H. Qed.
Lemma log2_half n : 2 <= n -> Z.log2 (n / 2) = Z.log2 n - 1.
Proof.
  intros H. assert (E : Z.log2 (n / 2) = Z.log2 (Z.shiftr n 1)) by (f_equal; rewrite Z.shiftr_div_pow2 by lia; reflexivity).
  rewrite E, Z.log2_shiftr by lia. pose proof (log2_pos n H). lia.
Qed.

Lemma raise_bound cmp value : forall fuel q slot q' slot' k, 0 <= slot < 2 ^ 63 ->
  raise_loop_counted cmp fuel q slot value = Ok (q', slot', k) ->
  0 <= k <= Z.log2 (slot + 1) /\ zlen (calls q) <= zlen (calls q') <= zlen (calls q) + k /\ capacity q' = capacity q /\
  zlen (calls q') + Z.log2 (slot' + 1) <= zlen (calls q) + Z.log2 (slot + 1) /\ 0 <= slot' <= slot.
Proof.
  induction fuel as [|fuel IH]; intros q slot q' slot' k Hs H; [discriminate H|]. cbn [raise_loop_counted] in H.
  pose proof (Z.log2_nonneg (slot + 1)) as P.
  unfold truth in H. destruct (slot =? 0) eqn:E0; cbn [negb] in H.
  { injection H as <- <- <-. lia. }
  rewrite u64_small in H by lia. destruct (rd (storage q) ((slot - 1) / 2)) as [x| | |]; try discriminate H. cbn [bind] in H.
  assert (L1 : 1 <= Z.log2 (slot + 1)) by (apply log2_pos; lia).
  destruct (cmp value x >=? 0).
  { injection H as <- <- <-. lia. }
  unfold assign in H. destruct (wr (storage q) slot x) as [s| | |]; try discriminate H. cbn [bind] in H.
  set (q1 := Priorq s (capacity q) (max_capacity q) ((x, slot) :: calls q)) in H.
  destruct (raise_loop_counted cmp fuel q1 ((slot - 1) / 2) value) as [[[q2 s2] k2]| | |] eqn:E; try discriminate H. cbn [bind] in H.
  injection H as <- <- <-. apply IH in E; [|lia]. destruct E as (A & B & C & D & F).
  replace ((slot - 1) / 2 + 1) with ((slot + 1) / 2) in * by lia. rewrite log2_half in * by lia.
  cbn [q1 calls capacity] in *. rewrite zlen_cons in *. lia.
Qed.

Lemma lower_bound cmp value : forall fuel q slot q' k e, 0 <= slot < 2 ^ 62 -> capacity q < 2 ^ 62 -> 0 <= e -> capacity q < (slot + 1) * 2 ^ (e + 1) ->
  lower_loop_counted cmp fuel q slot value = Ok (q', k) ->
  0 <= k <= 2 * e /\ zlen (calls q') <= zlen (calls q) + e + 1 /\ zlen (calls q) + 1 <= zlen (calls q').
Proof.
  induction fuel as [|fuel IH]; intros q slot q' k e Hs Hq He Hc H; [discriminate H|]. cbn [lower_loop_counted] in H.
  rewrite (u64_small (slot * 2 + 1)) in H by lia.
  assert (A : forall k0, (q <- assign q slot value ;; Ok (q, k0)) = Ok (q', k) -> k = k0 /\ zlen (calls q') = zlen (calls q) + 1).
  { intros k0 A. unfold assign in A. destruct (wr (storage q) slot value) as [s| | |]; try discriminate A. cbn [bind] in A. injection A as <- <-.
    cbn [calls]. rewrite zlen_cons. lia. }
  destruct (slot * 2 + 1 >=? capacity q) eqn:El.
  { apply A in H as [-> ->]. lia. }
  assert (E1 : 1 <= e). { destruct (Z.eq_dec e 0) as [->|]; [|lia]. change (2 ^ (0 + 1)) with 2 in Hc. lia. }
  rewrite (u64_small (slot * 2 + 1 + 1)) in H by lia.
  match type of H with (' (b, k0) <- ?e ;; _) = _ => destruct e as [[b k0]| | |] eqn:Eb; try discriminate H end. cbn [bind] in H.
  assert (Hb : slot * 2 + 1 <= b <= slot * 2 + 2 /\ b < capacity q /\ 0 <= k0 <= 1).
  { destruct (slot * 2 + 1 + 1 >=? capacity q) eqn:Er.
    - injection Eb as <- <-. lia.
    - destruct (rd (storage q) (slot * 2 + 1)) as [x| | |]; try discriminate Eb. cbn [bind] in Eb.
      destruct (rd (storage q) (slot * 2 + 1 + 1)) as [y| | |]; try discriminate Eb. cbn [bind] in Eb. injection Eb as <- <-. destruct (cmp x y <? 0); lia. }
  destruct (rd (storage q) b) as [x| | |]; try discriminate H. cbn [bind] in H. destruct (cmp value x <=? 0).
  { apply A in H as [-> ->]. lia. }
  clear A. unfold assign in H. destruct (wr (storage q) slot x) as [s| | |]; try discriminate H. cbn [bind] in H.
  set (q1 := Priorq s (capacity q) (max_capacity q) ((x, slot) :: calls q)) in H.
  destruct (lower_loop_counted cmp fuel q1 b value) as [[q2 k2]| | |] eqn:E; try discriminate H. cbn [bind] in H. injection H as <- <-.
  apply IH with (e := e - 1) in E; [|lia|exact Hq|lia|].
  - cbn [q1 calls] in *. rewrite zlen_cons in *. lia.
  - cbn [q1 capacity]. replace (e - 1 + 1) with e by lia. rewrite (Z.pow_add_r 2 e 1) in Hc by lia. change (2 ^ 1) with 2 in Hc. nia.
Qed.

Lemma cap_log n : 0 < n -> n < (0 + 1) * 2 ^ (Z.log2 n + 1).
Proof. intros H. pose proof (Z.log2_spec n H). rewrite Z.add_1_r. lia. Qed.

Lemma enqueue_cost cmp junk q v : wf q -> doubled q -> capacity q + 1 < 2 ^ 60 ->
  exists q' k, priorq_enqueue_counted cmp junk q v = Ok (q', k) /\ priorq_enqueue cmp junk q v = Ok q' /\
    0 <= k <= Z.log2 (capacity q + 1) /\ zlen (calls q') <= zlen (calls q) + Z.log2 (capacity q + 1) + 1.
Proof.
  intros W D H. destruct (enqueue_safe cmp junk q v W D H) as (q' & E & _). pose proof E as E'. rewrite enqueue_erase in E'.
  destruct (priorq_enqueue_counted cmp junk q v) as [[q2 k]| | |] eqn:F; try discriminate E'. cbn [uncount bind] in E'. injection E' as ->.
  exists q', k. split; [reflexivity|]. split; [exact E|]. unfold priorq_enqueue_counted in F.
  destruct (grow_ok junk q W ltac:(lia)) as (q1 & Eg & _ & C1 & _ & K1 & _). rewrite Eg in F. cbn [bind] in F. rewrite C1 in F.
  destruct (raise_counted cmp _ (capacity q) v) as [[[q3 s3] k3]| | |] eqn:R; try discriminate F. cbn [bind] in F.
  unfold assign in F. destruct (wr (storage q3) s3 v) as [s| | |]; try discriminate F. cbn [bind] in F. injection F as <- <-. cbn [calls]. rewrite zlen_cons.
  unfold raise_counted in R. destruct W as (W1 & W2 & W3). apply raise_bound in R; [|lia]. cbn [calls] in R. rewrite K1 in R. lia.
Qed.

Lemma dequeue_cost cmp q : wf q -> doubled q ->
  exists q' x k, priorq_dequeue_counted cmp q = Ok (q', x, k) /\ priorq_dequeue cmp q = Ok (q', x) /\
    0 <= k <= 2 * Z.log2 (capacity q - 1) /\ zlen (calls q') <= zlen (calls q) + Z.log2 (capacity q - 1) + 1.
Proof.
  intros W D. destruct (dequeue_safe cmp q W D) as (q' & x & E & _). pose proof E as E'. rewrite dequeue_erase in E'.
  destruct (priorq_dequeue_counted cmp q) as [[[q2 x2] k]| | |] eqn:F; try discriminate E'. cbn [uncount bind] in E'. injection E' as -> ->.
  exists q', x, k. split; [reflexivity|]. split; [exact E|]. unfold priorq_dequeue_counted in F. pose proof (Z.log2_nonneg (capacity q - 1)).
  destruct (capacity q =? 0) eqn:E0; [injection F as <- <- <-; lia|]. destruct W as (W1 & W2 & W3). destruct (capacity q =? 1) eqn:E1.
  { destruct (rd _ _) as [y| | |]; try discriminate F. cbn [bind] in F. injection F as <- <- <-. cbn [shrink calls]. lia. }
  destruct (rd (storage q) 0) as [y| | |]; try discriminate F. cbn [bind] in F.
  destruct (rd (storage (shrink q)) _) as [z| | |]; try discriminate F. cbn [bind] in F.
  destruct (lower_counted cmp (shrink q) 0 z) as [[q3 k3]| | |] eqn:L; try discriminate F. cbn [bind] in F. injection F as <- <- <-.
  assert (C : capacity (shrink q) = capacity q - 1) by (cbn [shrink capacity]; apply u64_small; lia).
  unfold lower_counted in L. apply lower_bound with (e := Z.log2 (capacity q - 1)) in L; [|lia|lia|lia|rewrite C; apply cap_log; lia]. cbn [shrink calls] in L. lia.
Qed.

Lemma remove_cost cmp q loc : wf q -> doubled q -> 0 <= loc < capacity q ->
  exists q' x k, priorq_remove_counted cmp q loc = Ok (q', x, k) /\ priorq_remove cmp q loc = Ok (q', x) /\
    0 <= k <= 3 * Z.log2 (capacity q) /\ zlen (calls q') <= zlen (calls q) + 2 * Z.log2 (capacity q) + 1.
Proof.
  intros W D H. destruct (remove_safe cmp q loc W D H) as (q' & x & E & _). pose proof E as E'. rewrite remove_erase in E'.
  destruct (priorq_remove_counted cmp q loc) as [[[q2 x2] k]| | |] eqn:F; try discriminate E'. cbn [uncount bind] in E'. injection E' as -> ->.
  exists q', x, k. split; [reflexivity|]. split; [exact E|]. unfold priorq_remove_counted in F. destruct W as (W1 & W2 & W3).
  destruct (rd (storage q) loc) as [y| | |]; try discriminate F. cbn [bind] in F.
  destruct (rd (storage (shrink q)) _) as [z| | |]; try discriminate F. cbn [bind] in F.
  destruct (raise_counted cmp (shrink q) loc z) as [[[q3 s3] k3]| | |] eqn:R; try discriminate F. cbn [bind] in F.
  destruct (lower_counted cmp q3 s3 z) as [[q4 k4]| | |] eqn:L; try discriminate F. cbn [bind] in F. injection F as <- <- <-.
  unfold raise_counted in R. apply raise_bound in R; [|lia]. destruct R as (R1 & R2 & R3 & _ & R5).
  assert (C : capacity (shrink q) = capacity q - 1) by (cbn [shrink capacity]; apply u64_small; lia).
  pose proof (Z.log2_le_mono (loc + 1) (capacity q) ltac:(lia)).
  unfold lower_counted in L. apply lower_bound with (e := Z.log2 (capacity q)) in L; [|lia|lia|apply Z.log2_nonneg|].
  - cbn [shrink calls] in *. lia.
  - rewrite R3, C. pose proof (cap_log (capacity q) ltac:(lia)). nia.
Qed.
