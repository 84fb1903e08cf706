(** C130: read callbacks of byte_array_append_stream that use byte arrays while they run. *)
From Verif Require Import Base CMem ByteArrayModel ByteArraySpec ByteMemModel ByteMemSpec ByteMemEnd StreamCbModel StreamCbSpec StreamCb ByteMemProps.

(** The full property, that the callback may carry out any commands and the bytes it delivers are
    then appended, is false: the array may have moved, and if it has not the bytes may end up in
    the wrong place. *)
Theorem C130_refuted :
  (exists m0 junk cs w rs k s len cs' w' rs' s' d count st, fresh m0 /\ history empty cs w rs /\ slot w k = Some s /\ has_room s len /\
     history (called w k s len) cs' w' rs' /\ slot w' k = Some s' /\ delivers (ask (limit s) (content s) len) d count /\
     exec_all junk (begin m0) cs = Ok (st, rs) /\ stream_with (junk O) st k (busy junk cs' d count) len = UB) /\
  (exists m0 junk cs w rs k s len cs' w' rs' s' d count st st', fresh m0 /\ history empty cs w rs /\ slot w k = Some s /\ has_room s len /\
     history (called w k s len) cs' w' rs' /\ slot w' k = Some s' /\ delivers (ask (limit s) (content s) len) d count /\
     exec_all junk (begin m0) cs = Ok (st, rs) /\ stream_with (junk O) st k (busy junk cs' d count) len = Ok (st', count) /\
     ~ sees (received w' k s' d count) st').
Proof.
  split.
  - destruct (stream_moved mem_empty junk0 [Make 1000] (World [Some (Sarr [] 1000 1 0)] []) [0] 0 (Sarr [] 1000 1 0) 4 (junk0 O) junk0
      [Resize 0 200 65] (World [Some (Sarr (repeat 65 200) 1000 1 200)] []) [1] (Sarr (repeat 65 200) 1000 1 200) [66] 1 mem_empty_fresh)
      as (st & E & U); try reflexivity; try (cbn; lia); try discriminate.
    + unfold empty. step_here. apply done.
    + right. reflexivity.
    + unfold called, set_slot. cbn [arrs upd bufs content limit hold]. step_here. apply done.
    + exists mem_empty, junk0, [Make 1000]. eexists _, [0], O, (Sarr [] 1000 1 0), 4, [Resize 0 200 65], _, [1], (Sarr (repeat 65 200) 1000 1 200), [66], 1, st.
      split; [exact mem_empty_fresh|]. split; [unfold empty; step_here; apply done|]. split; [reflexivity|]. split; [right; reflexivity|].
      split; [unfold called, set_slot; cbn [arrs upd bufs content limit hold]; step_here; apply done|].
      split; [reflexivity|]. split; [repeat split; try (cbn; lia)|]. split; [exact E|exact U].
  - pose (cs := [NewBuf [97; 98; 88; 89]; Make 10; Append 0 (Buf 0 0) 2]).
    destruct (exec_all junk0 (begin mem_empty) cs) as [[st rs]| | |] eqn:E; try (vm_compute in E; discriminate E).
    destruct (stream_with (junk0 O) st 0 (busy junk0 [Append 0 (Buf 0 2) 2] [99; 100] 2) 5) as [[st' r]| | |] eqn:E2;
      try (vm_compute in E; injection E as <- <-; vm_compute in E2; discriminate E2).
    exists mem_empty, junk0, cs. eexists _, rs, O, (Sarr [97; 98] 10 1 2), 5, [Append 0 (Buf 0 2) 2], _, [1], _, [99; 100], 2, st, st'.
    assert (rs = [0; 0; 1]) as -> by (vm_compute in E; congruence).
    split; [exact mem_empty_fresh|]. split; [unfold cs, empty; do 3 step_here; apply done|]. split; [reflexivity|]. split; [right; reflexivity|].
    split; [unfold called, set_slot; cbn [arrs upd bufs content limit hold]; step_here; apply done|].
    split; [reflexivity|]. split; [repeat split; try (cbn; lia); intros; lia|]. split; [exact E|].
    assert (M : nth_error (made st') 0 = Some 101 /\ r = 2 /\ load (memory st') (102, 0) 7 = Ok [97; 98; 99; 100; 0; 6; 0] /\ p_byte_array_data (memory st') 101 = Ok (102, 0)).
    { vm_compute in E. injection E as <-. vm_compute in E2. injection E2 as <- <-. repeat split. }
    destruct M as (M1 & -> & M2 & M3). split; [exact E2|]. intros (_ & _ & S & _). specialize (S O 101 M1). cbn [slot received] in S.
    destruct S as (_ & p & P1 & P2). rewrite M3 in P1. injection P1 as <-. change (load (memory st') (102, 0) 7 = Ok [97; 98; 88; 89; 99; 100; 0]) in P2.
    rewrite M2 in P2. discriminate P2.
Qed.
Print Assumptions C130_refuted.

(** It holds if, whatever the callback has done (to other arrays: anything), the array is as long as
    before and has not moved when it delivers the bytes. *)
Theorem C130_callback_partial : forall m0 junk cs w rs k s len junk1 junk2 cs' w' rs' s' d count,
  fresh m0 -> history empty cs w rs -> slot w k = Some s -> 0 <= len < 2 ^ 64 -> has_room s len ->
  history (called w k s len) cs' w' rs' -> slot w' k = Some s' -> still_there s len s' ->
  delivers (ask (limit s) (content s) len) d count ->
  exists st st', exec_all junk (begin m0) cs = Ok (st, rs) /\
    stream_with junk1 st k (busy junk2 cs' d count) len = Ok (st', count) /\
    sees (received w' k s' d count) st' /\ untouched m0 (memory st') /\ no_leak (received w' k s' d count) m0 st'.
Proof. exact stream_busy. Qed.
Print Assumptions C130_callback_partial.

(** If the callback has made the array move, the bytes are written to freed memory. *)
Theorem C130_moved : forall m0 junk cs w rs k s len junk1 junk2 cs' w' rs' s' d count,
  fresh m0 -> history empty cs w rs -> slot w k = Some s -> 0 <= len < 2 ^ 64 -> has_room s len ->
  history (called w k s len) cs' w' rs' -> slot w' k = Some s' ->
  room s' <> room (hold s (zlen (content s) + ask (limit s) (content s) len) (content s)) -> d <> [] ->
  exists st, exec_all junk (begin m0) cs = Ok (st, rs) /\ stream_with junk1 st k (busy junk2 cs' d count) len = UB.
Proof. exact stream_moved. Qed.
Print Assumptions C130_moved.

(** If it has destroyed the last reference to the array, its fields are used after they were freed. *)
Theorem C130_destroyed : forall m0 junk cs w rs k s len junk1 junk2 cs' w' rs' d count,
  fresh m0 -> history empty cs w rs -> slot w k = Some s -> 0 <= len < 2 ^ 64 -> has_room s len ->
  history (called w k s len) cs' w' rs' -> slot w' k = None -> 0 < count ->
  exists st, exec_all junk (begin m0) cs = Ok (st, rs) /\ stream_with junk1 st k (busy junk2 cs' d count) len = UB.
Proof. exact stream_gone. Qed.
Print Assumptions C130_destroyed.

(** The function cut at the call is the function of C94 for callbacks that only write to their
    buffer. *)
Theorem C130_simple : forall junk st k cb len, stream_with junk st k (simple cb) len = exec junk st (Stream k cb len).
Proof. exact simple_same. Qed.
Print Assumptions C130_simple.

(** A callback that makes an array, reads into it, takes a reference to the array it is called for and
    gives back half of what it has. *)
Example C130_example :
  let cb' n := (firstn (Z.to_nat n) [1; 2; 3; 4], Z.min n 4, 0) in
  exists st st',
  exec_all junk0 (begin mem_empty) [NewBuf [97; 98; 88; 89]; Make 10; Append 0 (Buf 0 0) 2] = Ok (st, [0; 0; 1]) /\
  stream_with (junk0 O) st 0 (busy junk0 [Make 20; Stream 1 cb' 7; Share 0; Copy 0 0 (Own 1 2) 2] [1; 2] 2) 5 = Ok (st', 2) /\
  sees (World [Some (Sarr [3; 4; 1; 2] 10 2 7); Some (Sarr [1; 2; 3; 4] 20 1 7)] [[97; 98; 88; 89]]) st'.
Proof.
  intros cb'.
  assert (H1 : history empty [NewBuf [97; 98; 88; 89]; Make 10; Append 0 (Buf 0 0) 2]
    (World [Some (Sarr [97; 98] 10 1 2)] [[97; 98; 88; 89]]) [0; 0; 1]) by (unfold empty; do 3 step_here; apply done).
  assert (H2 : history (called (World [Some (Sarr [97; 98] 10 1 2)] [[97; 98; 88; 89]]) 0 (Sarr [97; 98] 10 1 2) 5)
    [Make 20; Stream 1 cb' 7; Share 0; Copy 0 0 (Own 1 2) 2]
    (World [Some (Sarr [3; 4] 10 2 7); Some (Sarr [1; 2; 3; 4] 20 1 7)] [[97; 98; 88; 89]]) [0; 4; 0; 1]).
  { unfold called, set_slot. cbn [arrs upd bufs content limit hold]. step_here.
    eapply then_; [reflexivity| |intros ? [? X]; discriminate X|].
    - split; [lia|]. split; intros n; unfold cb'.
      + intros Hn. unfold zlen. rewrite firstn_length. cbn [length]. lia.
      + intros Hn. destruct (Z.eq_dec n 0) as [->|]; [reflexivity|]. replace (Z.to_nat n) with O by lia. reflexivity.
    - do 2 step_here. apply done. }
  destruct (C130_callback_partial mem_empty junk0 _ _ _ 0 (Sarr [97; 98] 10 1 2) 5 (junk0 O) junk0 _ _ _ (Sarr [3; 4] 10 2 7) [1; 2] 2
    mem_empty_fresh H1 eq_refl ltac:(lia) ltac:(right; reflexivity) H2 eq_refl ltac:(split; reflexivity) ltac:(repeat split; cbn; lia))
    as (st & st' & E1 & E2 & S & _).
  exists st, st'. auto.
Qed.
