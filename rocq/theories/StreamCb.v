(** Proofs about read callbacks that use byte arrays. *)
From Verif Require Import Base CMem ByteArrayModel ByteArraySpec ByteArrayProofs ByteMemModel ByteMemSpec ByteMem ByteMemHist ByteMemEnd StreamCbModel StreamCbSpec.
From Coq Require Import ZifyBool ZifyNat.

Lemma bind_cong {A B} (x : res A) (f g : A -> res B) : (forall a, x = Ok a -> f a = g a) -> (a <- x ;; f a) = (a <- x ;; g a).
Proof. destruct x; cbn; auto. Qed.
Lemma bind_assoc {A B C} (x : res A) (f : A -> res B) (g : B -> res C) : (b <- (a <- x ;; f a) ;; g b) = (a <- x ;; b <- f a ;; g b).
Proof. destruct x; reflexivity. Qed.

Lemma store_arrays m p d m' : store m p d = Ok m' -> arrays m' = arrays m.
Proof. unfold store. intros H. apply bind_Ok in H as (l & _ & H). apply bind_Ok in H as (l' & _ & H). injection H as <-. reflexivity. Qed.

Lemma store_total m p d : (exists m', store m p d = Ok m') \/ store m p d = UB.
Proof.
  unfold store, the_block. destruct (blocks m (fst p)); cbn [bind]; [|right; reflexivity].
  unfold blit. destruct ((0 <=? snd p) && (snd p + zlen d <=? zlen l)); cbn [bind]; [left; eexists; reflexivity|right; reflexivity].
Qed.

(** The limit of an array stays, and what it was asked to hold grows. *)
Lemma on_grows w k f w' r j s s' : (forall a, limit (fst (f a)) = limit a /\ reached a <= reached (fst (f a))) ->
  on w k f = Some (w', r) -> slot w j = Some s -> slot w' j = Some s' -> limit s' = limit s /\ reached s <= reached s'.
Proof.
  intros F. unfold on. destruct (slot w k) as [a|] eqn:Ha; [|discriminate]. specialize (F a). destruct (f a) as [a' r'].
  intros E. injection E as <- <-. intros Hj. destruct (Nat.eq_dec j k) as [->|Ne].
  - rewrite (slot_set _ _ _ _ Ha). intros Hs. injection Hs as <-. assert (a = s) by congruence. subst a. exact F.
  - rewrite (slot_set_other _ _ _ _ _ Ha) by assumption. intros Hs. assert (s = s') by congruence. subst. lia.
Qed.
Lemma wstep_grows w c w' r j s s' : wstep w c = Some (w', r) -> slot w j = Some s -> slot w' j = Some s' -> limit s' = limit s /\ reached s <= reached s'.
Proof.
  assert (A : forall d a, limit (fst (do_append a d)) = limit a /\ reached a <= reached (fst (do_append a d))).
  { intros d a. unfold do_append. destruct (_ <? _); cbn [fst hold limit reached]; lia. }
  assert (C : forall p d a, limit (fst (do_copy a p d)) = limit a /\ reached a <= reached (fst (do_copy a p d))).
  { intros p d a. unfold do_copy. destruct (_ && _); cbn [fst hold limit reached]; lia. }
  intros H Hj Hj'. destruct c; cbn [wstep] in H.
  - injection H as <- <-. assert (s = s') by (unfold slot in *; cbn [arrs] in *; congruence). subst. lia.
  - injection H as <- <-. rewrite slot_snoc in Hj'. destruct (Nat.eqb_spec j (length (arrs w))) as [->|].
    + pose proof (slot_bound _ _ _ Hj). lia.
    + assert (s = s') by congruence. subst. lia.
  - refine (on_grows _ _ _ _ _ _ _ _ _ H Hj Hj'). intros a. cbn [fst limit reached]. lia.
  - destruct (slot w k) as [a|] eqn:Ha; [|discriminate H]. injection H as <- <-. destruct (Nat.eq_dec j k) as [->|Ne].
    + rewrite (slot_set _ _ _ _ Ha) in Hj'. assert (a = s) by congruence. subst a. destruct (owners s =? 1); [discriminate|].
      injection Hj' as <-. cbn [limit reached]. lia.
    + rewrite (slot_set_other _ _ _ _ _ Ha) in Hj' by assumption. assert (s = s') by congruence. subst. lia.
  - destruct (source_bytes w src len); [|discriminate H]. exact (on_grows _ _ _ _ _ _ _ _ (A _) H Hj Hj').
  - destruct (source_string w src); [|discriminate H]. exact (on_grows _ _ _ _ _ _ _ _ (A _) H Hj Hj').
  - destruct (source_bytes w src len); [|discriminate H]. exact (on_grows _ _ _ _ _ _ _ _ (C _ _) H Hj Hj').
  - destruct (source_string w src); [|discriminate H]. exact (on_grows _ _ _ _ _ _ _ _ (C _ _) H Hj Hj').
  - refine (on_grows _ _ _ _ _ _ _ _ _ H Hj Hj'). intros a. unfold do_stream. destruct (_ && _); [cbn [fst]; lia|].
    destruct (cb _) as [[d count] e]. cbn [fst hold limit reached]. lia.
  - refine (on_grows _ _ _ _ _ _ _ _ _ H Hj Hj'). intros a. cbn [fst hold limit reached]. lia.
  - refine (on_grows _ _ _ _ _ _ _ _ _ H Hj Hj'). intros a. unfold do_resize. destruct (_ <? _); cbn [fst hold limit reached]; lia.
Qed.
Lemma history_grows w cs w' rs j s s' : history w cs w' rs -> slot w j = Some s -> slot w' j = Some s' -> limit s' = limit s /\ reached s <= reached s'.
Proof.
  intros H. revert s. induction H as [w|w c w1 r cs w2 rs Hw _ _ H IH]; intros s Hj Hj'.
  - assert (s = s') by congruence. subst. lia.
  - destruct (slot w1 j) as [s1|] eqn:H1.
    + destruct (wstep_grows _ _ _ _ _ _ _ Hw Hj H1). destruct (IH s1 eq_refl Hj'). lia.
    + pose proof (slot_bound _ _ _ Hj). pose proof (wstep_length _ _ _ _ Hw).
      rewrite (history_none _ _ _ _ j H ltac:(lia) H1) in Hj'. discriminate.
Qed.

(** The two models agree. *)
Lemma simple_same junk st k cb len : stream_with junk st k (simple cb) len = exec junk st (Stream k cb len).
Proof.
  unfold stream_with. cbn [exec]. apply bind_cong. intros x _. unfold p_stream_begin, p_byte_array_append_stream.
  rewrite !bind_assoc. apply bind_cong. intros a _. cbv zeta.
  destruct ((len >=? u64 (p_max_size a - p_cursor a)) && (u64 (p_max_size a - p_cursor a) =? 1)); [reflexivity|].
  set (n := if len >=? u64 (p_max_size a - p_cursor a) then _ else len). rewrite !bind_assoc. apply bind_cong. intros [ok m] _.
  destruct ok; [|reflexivity]. cbn [negb]. rewrite !bind_assoc. apply bind_cong. intros a' Ea. cbn [bind].
  unfold simple. destruct (cb n) as [[d count] e]. rewrite !bind_assoc. cbn [keep memory]. apply bind_cong. intros m' Em. cbn [bind].
  unfold p_stream_end. destruct (count >? 0); [|reflexivity]. cbn [keep memory set_errno].
  assert (E : the_arr (set_errno m' e) x = Ok a').
  { unfold the_arr in *. cbn [set_errno arrays]. rewrite (store_arrays _ _ _ _ Em). exact Ea. }
  rewrite E. cbn [bind]. rewrite bind_assoc. reflexivity.
Qed.

(** Up to the call. *)
Lemma begin_ok m0 w st k s junk len : inv m0 w st -> slot w k = Some s -> 0 <= len < 2 ^ 64 ->
  let n := ask (limit s) (content s) len in
  exists x, nth_error (made st) k = Some x /\
  if (0 <? len) && (n =? 0) then p_stream_begin junk (memory st) x len = Ok (None, set_errno (memory st) ENOSPC)
  else
    exists m1 b1, p_stream_begin junk (memory st) x len = Ok (Some ((b1, zlen (content s)), n), m1) /\
      0 <= n /\ zlen (content s) + n < limit s < 2 ^ 64 /\
      p_byte_array_data m1 x = Ok (b1, 0) /\
      inv m0 (set_slot w k (Some (hold s (zlen (content s) + n) (content s)))) (keep st m1).
Proof.
  intros I Hs Hlen n. destruct (made_at _ _ _ _ _ I Hs) as (x & Hx). exists x. split; [exact Hx|].
  destruct (i_live _ _ _ I k x s Hx Hs) as (b & v & rest & L & NB). pose proof L as [V R Rf O S Re Bl Lo].
  pose proof R as (Rd & Rc & Rm & Rs & Rlm & Rsz). pose proof (zlen_nonneg (content s)).
  unfold p_stream_begin. rewrite (view_arr _ _ _ _ V). cbn [bind p_data p_cursor p_max_size p_size p_ref_count].
  rewrite Rm, Rc, (u64_small (limit s - zlen (content s))) by lia.
  destruct ((0 <? len) && (n =? 0)) eqn:E0.
  { unfold n, ask in E0. replace ((len >=? limit s - zlen (content s)) && (limit s - zlen (content s) =? 1)) with true by lia. reflexivity. }
  replace ((len >=? limit s - zlen (content s)) && (limit s - zlen (content s) =? 1)) with false by (unfold n, ask in E0; lia).
  cbv zeta. replace (if len >=? limit s - zlen (content s) then u64 (limit s - zlen (content s) - 1) else len) with n
    by (unfold n, ask; destruct (len >=? limit s - zlen (content s)) eqn:E; [rewrite u64_small|]; lia).
  assert (Hn1 : 0 <= n /\ zlen (content s) + n < limit s) by (unfold n, ask; lia).
  pose proof (ensure_sim junk (memory st) x b v (limit s) (content s) 0 rest n V ltac:(lia) R ltac:(lia)) as ES.
  replace (zlen (content s) + n <? limit s) with true in ES by lia.
  destruct ES as (m1 & b1 & v1 & rest1 & E1 & VE & V1 & R1 & L1 & C1 & S1 & F1 & K1).
  rewrite E1. cbn [bind negb]. rewrite (view_arr _ _ _ _ V1). cbn [bind p_data p_cursor].
  pose proof R1 as (_ & Rc1 & _). rewrite Rc1. exists m1, b1. split; [reflexivity|]. split; [lia|]. split; [lia|].
  split; [exact (data_at _ _ _ _ V1)|].
  refine (proj1 (step_went m0 w st k x s b v rest m1 (zlen (content s) + n) (content s) I Hx Hs L NB _ ltac:(lia) ltac:(lia))).
  exists b1, v1, 0, rest1. split; [exact V1|]. split; [exact R1|]. split; [auto|]. split; [exact C1|]. split; [exact F1|exact S1].
Qed.

Lemma set_errno_same m : set_errno m (p_errno m) = m.
Proof. destruct m. reflexivity. Qed.

(** Storing the bytes and the end, if the array is where it was and as long as it was. *)
Lemma end_ok m0 w st k x s b n d count : inv m0 w st -> slot w k = Some s -> nth_error (made st) k = Some x ->
  p_byte_array_data (memory st) x = Ok (b, 0) -> 0 <= n -> zlen (content s) + n <= reached s -> zlen d <= n -> count <= zlen d -> (count <= 0 -> d = []) ->
  exists m1 m2, store (memory st) (b, zlen (content s)) d = Ok m1 /\ p_stream_end m1 x count = Ok m2 /\
    inv m0 (set_slot w k (Some (hold s 0 (if count >? 0 then content s ++ firstn (Z.to_nat count) d else content s)))) (keep st m2).
Proof.
  intros I Hs Hx Hd Hn Hr D1 D2 D3.
  destruct (i_live _ _ _ I k x s Hx Hs) as (b' & v & rest & L & NB). pose proof L as [V R Rf O S Re Bl Lo].
  rewrite (data_at _ _ _ _ V) in Hd. injection Hd as ->.
  pose proof R as (Rd & Rc & Rm & Rs & Rlm & Rsz). pose proof (zlen_nonneg (content s)). pose proof (zlen_nonneg d).
  set (cb := fun i => if i =? n then (d, count, p_errno (memory st)) else ([], 0, p_errno (memory st))).
  assert (K1 : cb_ok cb).
  { intros i Hi. unfold cb. destruct (Z.eqb_spec i n) as [->|]; [lia|]. change (zlen (@nil Z)) with 0. lia. }
  assert (K2 : cb_clean cb).
  { intros i. unfold cb. destruct (i =? n); [exact D3|reflexivity]. }
  assert (An : ask (limit s) (content s) n = n) by (unfold ask; lia).
  pose proof (p_stream_ok (fun _ => 0) (memory st) x b v (limit s) (content s) 0 rest n cb (i_fresh _ _ _ I) V ltac:(lia) R ltac:(lia) K1 K2) as P.
  rewrite An in P. replace ((0 <? n) && (n =? 0)) with false in P by lia.
  assert (Ec : cb n = (d, count, p_errno (memory st))) by (unfold cb; rewrite Z.eqb_refl; reflexivity). rewrite Ec in P.
  destruct P as (m' & E & W).
  unfold p_byte_array_append_stream in E. rewrite (view_arr _ _ _ _ V) in E. cbn [bind p_data p_cursor p_max_size p_size p_ref_count] in E.
  rewrite Rm, Rc, (u64_small (limit s - zlen (content s))) in E by lia.
  replace (n >=? limit s - zlen (content s)) with false in E by lia. cbn [andb] in E.
  pose proof (ensure_sim (fun _ => 0) (memory st) x b v (limit s) (content s) 0 rest n V ltac:(lia) R ltac:(lia)) as ES.
  replace (zlen (content s) + n <? limit s) with true in ES by lia.
  destruct ES as (m1 & b1 & v1 & rest1 & E1 & _ & _ & _ & _ & _ & _ & _ & K).
  pose proof (room_bounds s ltac:(lia) ltac:(lia)) as RB. destruct (K ltac:(lia)) as (-> & _ & _).
  rewrite E1 in E. cbn [bind negb] in E. rewrite (view_arr _ _ _ _ V) in E. cbn [bind p_data p_cursor] in E. rewrite Rc, Ec in E.
  apply bind_Ok in E as (m2 & E2 & E3). exists m2, m'. split; [exact E2|].
  assert (En : set_errno m2 (p_errno (memory st)) = m2).
  { replace (p_errno (memory st)) with (p_errno m2); [apply set_errno_same|].
    unfold store in E2. apply bind_Ok in E2 as (l1 & _ & E2). apply bind_Ok in E2 as (l2 & _ & E2). injection E2 as <-. reflexivity. }
  cbv zeta in E3. rewrite En in E3.
  split.
  - unfold p_stream_end. destruct (count >? 0); [|congruence]. apply bind_Ok in E3 as (m3 & E3 & E4).
    assert (EA : the_arr m2 x = the_arr (memory st) x) by (unfold the_arr; rewrite (store_arrays _ _ _ _ E2); reflexivity).
    rewrite EA, (view_arr _ _ _ _ V). cbn [bind p_cursor]. rewrite Rc. congruence.
  - destruct (step_went m0 w st k x s b v rest m' (zlen (content s) + n) _ I Hx Hs L NB W ltac:(lia)) as [I2 _].
    { destruct (count >? 0) eqn:C; [|lia]. rewrite zlen_app. rewrite firstn_zlen_self by lia. lia. }
    unfold hold in *. replace (Z.max (reached s) (zlen (content s) + n)) with (reached s) in I2 by lia.
    replace (Z.max (reached s) 0) with (reached s) by lia. exact I2.
Qed.

Section Call.
  Variables (m0 : mem) (junk : nat -> nat -> Z) (cs : list cmd) (w : world) (rs : list Z) (k : nat) (s : sarr) (len : Z)
    (junk1 : nat -> Z) (junk2 : nat -> nat -> Z) (cs' : list cmd) (w' : world) (rs' : list Z).
  Let n := ask (limit s) (content s) len.
  Hypotheses (F : fresh m0) (H1 : history empty cs w rs) (Hs : slot w k = Some s) (Hlen : 0 <= len < 2 ^ 64)
    (Room : ((0 <? len) && (n =? 0)) = false)
    (H2 : history (set_slot w k (Some (hold s (zlen (content s) + n) (content s)))) cs' w' rs').

  Lemma call_ok : exists st x b m1 st',
    exec_all junk (begin m0) cs = Ok (st, rs) /\ nth_error (made st) k = Some x /\
    p_stream_begin junk1 (memory st) x len = Ok (Some ((b, zlen (content s)), n), m1) /\
    0 <= n /\ exec_all junk2 (keep st m1) cs' = Ok (st', rs') /\ inv m0 w' st' /\ nth_error (made st') k = Some x /\
    (forall s', slot w' k = Some s' ->
       (p_byte_array_data (memory st') x = Ok (b, 0) /\ room s' = room (hold s (zlen (content s) + n) (content s))) \/
       (room (hold s (zlen (content s) + n) (content s)) < room s' /\ blocks (memory st') b = None)).
  Proof using F H1 Hs Hlen Room H2.
    destruct (run_history m0 _ _ _ _ H1 junk (begin m0) (begin_inv m0 F)) as (st & E1 & I1 & B1 & _); [constructor|].
    destruct (begin_ok m0 w st k s junk1 len I1 Hs Hlen) as (x & Hx & P). fold n in P. rewrite Room in P.
    destruct P as (m1 & b & E2 & N0 & _ & Hd & I2).
    destruct (run_history m0 _ _ _ _ H2 junk2 (keep st m1) I2) as (st' & E3 & I3 & _ & Ev).
    { exact B1. }
    exists st, x, b, m1, st'. split; [exact E1|]. split; [exact Hx|]. split; [exact E2|]. split; [exact N0|]. split; [exact E3|]. split; [exact I3|].
    destruct Ev as (_ & _ & Ev1 & Ev2). split; [exact (Ev1 _ _ Hx)|]. intros s' Hs'.
    destruct (Ev2 k x _ s' b Hx (slot_set _ _ _ _ Hs) Hs' Hd) as [[A B]|[A B]]; [left|right]; split; try assumption. symmetry. exact B.
  Qed.

  (** The callback leaves the array where it is and as long as it is. *)
  Lemma busy_ok d count s' : slot w' k = Some s' -> zlen (content s') = zlen (content s) -> room s' = room (hold s (zlen (content s) + n) (content s)) ->
    zlen d <= n -> count <= zlen d -> (count <= 0 -> d = []) ->
    exists st st', exec_all junk (begin m0) cs = Ok (st, rs) /\
      stream_with junk1 st k (busy junk2 cs' d count) len = Ok (st', count) /\
      inv m0 (set_slot w' k (Some (hold s' 0 (if count >? 0 then content s' ++ firstn (Z.to_nat count) d else content s')))) st'.
  Proof using F H1 Hs Hlen Room H2.
    intros Hs' Hc Hr D1 D2 D3. destruct call_ok as (st & x & b & m1 & st' & E1 & Hx & E2 & N0 & E3 & I3 & Hx' & K).
    destruct (K s' Hs') as [[Hd _]|[A _]]; [|lia].
    pose proof (proj2 (history_grows _ _ _ _ _ _ _ H2 (slot_set _ _ _ _ Hs) Hs')) as Hg. cbn [hold reached] in Hg.
    destruct (end_ok m0 w' st' k x s' b n d count I3 Hs' Hx' Hd N0 ltac:(lia) D1 D2 D3) as (m2 & m3 & E4 & E5 & I4).
    rewrite Hc in E4. exists st, (keep st' m3). split; [exact E1|]. split; [|exact I4].
    unfold stream_with, the. rewrite Hx. cbn [bind]. rewrite E2. cbn [bind]. unfold busy. rewrite E3. cbn [bind]. rewrite E4. cbn [bind].
    cbn [keep memory]. rewrite E5. reflexivity.
  Qed.

  (** The callback makes it move. *)
  Lemma busy_moved d count s' : slot w' k = Some s' -> room s' <> room (hold s (zlen (content s) + n) (content s)) ->
    exists st, exec_all junk (begin m0) cs = Ok (st, rs) /\ stream_with junk1 st k (busy junk2 cs' d count) len = UB.
  Proof using F H1 Hs Hlen Room H2.
    intros Hs' Hr. destruct call_ok as (st & x & b & m1 & st' & E1 & Hx & E2 & N0 & E3 & I3 & Hx' & K).
    exists st. split; [exact E1|]. destruct (K s' Hs') as [[_ A]|[_ B]]; [congruence|].
    unfold stream_with, the. rewrite Hx. cbn [bind]. rewrite E2. cbn [bind]. unfold busy. rewrite E3. cbn [bind].
    unfold store, the_block. cbn [fst]. rewrite B. reflexivity.
  Qed.

  (** The callback destroys it. *)
  Lemma busy_gone d count : slot w' k = None -> 0 < count ->
    exists st, exec_all junk (begin m0) cs = Ok (st, rs) /\ stream_with junk1 st k (busy junk2 cs' d count) len = UB.
  Proof using F H1 Hs Hlen Room H2.
    intros Hs' Hc. destruct call_ok as (st & x & b & m1 & st' & E1 & Hx & E2 & N0 & E3 & I3 & Hx' & _).
    exists st. split; [exact E1|]. pose proof (i_dead _ _ _ I3 k x Hx' Hs') as De.
    unfold stream_with, the. rewrite Hx. cbn [bind]. rewrite E2. cbn [bind]. unfold busy. rewrite E3. cbn [bind].
    destruct (store (memory st') (b, zlen (content s)) d) as [m2| | |] eqn:Es.
    - cbn [bind keep memory]. unfold p_stream_end. replace (count >? 0) with true by lia. unfold the_arr.
      rewrite (store_arrays _ _ _ _ Es), De. reflexivity.
    - reflexivity.
    - destruct (store_total (memory st') (b, zlen (content s)) d) as [[? X]|X]; congruence.
    - destruct (store_total (memory st') (b, zlen (content s)) d) as [[? X]|X]; congruence.
  Qed.
End Call.

Lemma has_room_bool s len : 0 <= len -> has_room s len -> ((0 <? len) && (ask (limit s) (content s) len =? 0)) = false.
Proof. unfold has_room. intros H [->|H0]; [reflexivity|]. apply andb_false_iff. right. apply Z.eqb_neq. lia. Qed.

Lemma stream_busy m0 junk cs w rs k s len junk1 junk2 cs' w' rs' s' d count : fresh m0 -> history empty cs w rs -> slot w k = Some s ->
  0 <= len < 2 ^ 64 -> has_room s len -> history (called w k s len) cs' w' rs' -> slot w' k = Some s' -> still_there s len s' ->
  delivers (ask (limit s) (content s) len) d count ->
  exists st st', exec_all junk (begin m0) cs = Ok (st, rs) /\
    stream_with junk1 st k (busy junk2 cs' d count) len = Ok (st', count) /\
    sees (received w' k s' d count) st' /\ untouched m0 (memory st') /\ no_leak (received w' k s' d count) m0 st'.
Proof.
  intros F H1 Hs Hl Hr H2 Hs' [T1 T2] (D1 & D2 & D3).
  destruct (busy_ok m0 junk cs w rs k s len junk1 junk2 cs' w' rs' F H1 Hs Hl (has_room_bool _ _ (proj1 Hl) Hr) H2 d count s' Hs' T1 T2 D1 D2 D3)
    as (st & st' & E1 & E2 & I).
  exists st, st'. split; [exact E1|]. split; [exact E2|]. split; [exact (inv_sees _ _ _ I)|].
  split; [exact (inv_untouched _ _ _ F I)|exact (inv_no_leak _ _ _ I)].
Qed.
Lemma stream_moved m0 junk cs w rs k s len junk1 junk2 cs' w' rs' s' d count : fresh m0 -> history empty cs w rs -> slot w k = Some s ->
  0 <= len < 2 ^ 64 -> has_room s len -> history (called w k s len) cs' w' rs' -> slot w' k = Some s' ->
  room s' <> room (hold s (zlen (content s) + ask (limit s) (content s) len) (content s)) -> d <> [] ->
  exists st, exec_all junk (begin m0) cs = Ok (st, rs) /\ stream_with junk1 st k (busy junk2 cs' d count) len = UB.
Proof.
  intros F H1 Hs Hl Hr H2 Hs' N _.
  exact (busy_moved m0 junk cs w rs k s len junk1 junk2 cs' w' rs' F H1 Hs Hl (has_room_bool _ _ (proj1 Hl) Hr) H2 d count s' Hs' N).
Qed.
Lemma stream_gone m0 junk cs w rs k s len junk1 junk2 cs' w' rs' d count : fresh m0 -> history empty cs w rs -> slot w k = Some s ->
  0 <= len < 2 ^ 64 -> has_room s len -> history (called w k s len) cs' w' rs' -> slot w' k = None -> 0 < count ->
  exists st, exec_all junk (begin m0) cs = Ok (st, rs) /\ stream_with junk1 st k (busy junk2 cs' d count) len = UB.
Proof.
  intros F H1 Hs Hl Hr H2 Hs' C.
  exact (busy_gone m0 junk cs w rs k s len junk1 junk2 cs' w' rs' F H1 Hs Hl (has_room_bool _ _ (proj1 Hl) Hr) H2 d count Hs' C).
Qed.
