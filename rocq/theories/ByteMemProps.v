(** C94-C96: several byte arrays in one memory, byte arrays as their own
    sources, and the storage byte arrays use. *)
From Verif Require Import Base CMem ByteArrayModel ByteArraySpec ByteMemModel ByteMemSpec ByteMemEnd.

(** C94: after any history of commands over any number of arrays and buffers,
    with sources in buffers and in arrays, every command has given the answer it
    should, every array has the content it should, followed by a NUL, the
    buffers and everything that was in the memory before are unchanged, and
    nothing is allocated beyond the buffers and what the arrays that have not
    been destroyed need. *)
Theorem C94_world : forall m0 junk cs w rs, fresh m0 -> history empty cs w rs ->
  exists st, exec_all junk (begin m0) cs = Ok (st, rs) /\
    sees w st /\ untouched m0 (memory st) /\ no_leak w m0 st.
Proof. exact world_ok. Qed.
Print Assumptions C94_world.

(** With all arrays destroyed the memory is what it was, but for the buffers. *)
Theorem C94_released : forall m0 junk cs w rs, fresh m0 -> history empty cs w rs ->
  (forall k, slot w k = None) ->
  exists st, exec_all junk (begin m0) cs = Ok (st, rs) /\
    (forall x, arrays (memory st) x = arrays m0 x) /\
    (forall b, ~ In b (buffers st) -> blocks (memory st) b = blocks m0 b).
Proof. exact all_dropped. Qed.
Print Assumptions C94_released.

Definition mem_empty : mem := Mem (fun _ => None) (fun _ => None) 100 0 [].
Definition junk0 : nat -> nat -> Z := fun i j => Z.of_nat (i + j).

Ltac step_here :=
  eapply then_; [reflexivity|
    cbn [args_ok]; repeat split; try lia; try (intros ? E; injection E as <-; cbn; lia)|
    let E := fresh in let H := fresh in let s := fresh in let n := fresh in
    let Hs := fresh in let Hh := fresh in
    intros ? [? E] (s & n & Hs & Hh & H); cbn in E; try discriminate E; injection E; intros; subst;
    cbn in Hs; try discriminate Hs; injection Hs; intros; subst; cbn in Hh; injection Hh; intros; subst;
    cbn in H; lia|].

(** Three arrays; the second gets a part of the first, the first gets its own
    bytes while there is room, the third is shared, dropped and destroyed. *)
Definition letters : list Z := [97; 98; 99; 0].
Definition commands : list cmd :=
  [NewBuf letters; Make 10; Make 1000; Make 5; Append 0 (Buf 0 0) 3; AppendString 1 (Own 0 1);
   Append 0 (Own 0 0) 3; Copy 0 1 (Own 0 3) 3; AppendString 2 (Buf 0 0); Share 2; Drop 2;
   Append 2 (Buf 0 1) 2; Drop 2; Resize 1 200 65; Clear 1; CopyString 1 0 (Own 0 4)].

Example C94_history_example : history empty commands
  (World [Some (Sarr [97; 97; 98; 99; 98; 99] 10 1 6); Some (Sarr [98; 99] 1000 1 200); None] [letters])
  [0; 0; 0; 0; 1; 1; 1; 1; 1; 0; 0; 0; 0; 1; 0; 1].
Proof. unfold commands, empty. do 16 step_here. apply done. Qed.

Lemma mem_empty_fresh : fresh mem_empty.
Proof. split; [split; reflexivity|constructor]. Qed.

Example C94_example : exists st,
  exec_all junk0 (begin mem_empty) commands = Ok (st, [0; 0; 0; 0; 1; 1; 1; 1; 1; 0; 0; 0; 0; 1; 0; 1]) /\
  sees (World [Some (Sarr [97; 97; 98; 99; 98; 99] 10 1 6); Some (Sarr [98; 99] 1000 1 200); None] [letters]) st.
Proof.
  destruct (C94_world mem_empty junk0 _ _ _ mem_empty_fresh C94_history_example) as (st & E & S & _).
  exists st. auto.
Qed.

(** C95: an array as the source of its own append or copy. The full property,
    that this always works, is false: *)
Theorem C95_refuted : exists m0 junk cs w rs c k w' r st, fresh m0 /\ history empty cs w rs /\
  wstep w c = Some (w', r) /\ args_ok w c /\ from_itself c k /\
  exec_all junk (begin m0) cs = Ok (st, rs) /\ exec (junk O) st c = UB.
Proof.
  pose (cs := [Make 1000; Resize 0 100 65]).
  assert (H : history empty cs (World [Some (Sarr (repeat 65 100) 1000 1 100)] []) [0; 1]).
  { unfold cs, empty. do 2 step_here. apply done. }
  destruct (own_bytes mem_empty junk0 _ _ _ (Append 0 (Own 0 0) 100) O
    (World [Some (Sarr (repeat 65 200) 1000 1 200)] []) 1 (junk0 O) mem_empty_fresh H eq_refl Logic.I)
    as (st & E & U & _); [exists 0; reflexivity|].
  exists mem_empty, junk0, cs. eexists _, _, (Append 0 (Own 0 0) 100), O, _, _, st.
  split; [exact mem_empty_fresh|]. split; [exact H|]. split; [reflexivity|]. split; [exact Logic.I|].
  split; [exists 0; reflexivity|]. split; [exact E|]. apply U.
  eexists _, 200. split; [reflexivity|]. split; [reflexivity|]. cbn. lia.
Qed.
Print Assumptions C95_refuted.

(** It works exactly when the array need not move: when it has been asked to
    hold as many bytes before, up to the next power of two, or when they are
    fewer than 128, or too many for the limit. *)
Theorem C95_own_bytes_partial : forall m0 junk cs w rs c k w' r junk', fresh m0 -> history empty cs w rs ->
  wstep w c = Some (w', r) -> args_ok w c -> from_itself c k ->
  exists st, exec_all junk (begin m0) cs = Ok (st, rs) /\
    (moves w c k -> exec junk' st c = UB) /\
    (~ moves w c k -> exists st', exec junk' st c = Ok (st', r) /\ sees w' st').
Proof. exact own_bytes. Qed.
Print Assumptions C95_own_bytes_partial.

(** A pointer from byte_array_data stays good exactly as long as the array has
    the same room; after that its block is gone. *)
Theorem C95_pointers_partial : forall m0 junk1 junk2 cs1 w1 rs1 cs2 w2 rs2 k x s1 s2, fresh m0 ->
  history empty cs1 w1 rs1 -> history w1 cs2 w2 rs2 -> slot w1 k = Some s1 -> slot w2 k = Some s2 ->
  exists st1 st2, exec_all junk1 (begin m0) cs1 = Ok (st1, rs1) /\ exec_all junk2 st1 cs2 = Ok (st2, rs2) /\
  (nth_error (made st1) k = Some x ->
   exists b, p_byte_array_data (memory st1) x = Ok (b, 0) /\
     if room s1 =? room s2 then p_byte_array_data (memory st2) x = Ok (b, 0)
     else blocks (memory st2) b = None).
Proof. exact pointers_kept. Qed.
Print Assumptions C95_pointers_partial.

(** Appending an array to itself below 128 bytes. *)
Example C95_example : exists st st',
  exec_all junk0 (begin mem_empty) [Make 1000; Resize 0 60 65] = Ok (st, [0; 1]) /\
  exec (junk0 O) st (Append 0 (Own 0 0) 60) = Ok (st', 1) /\
  sees (World [Some (Sarr (repeat 65 120) 1000 1 120)] []) st'.
Proof.
  assert (H : history empty [Make 1000; Resize 0 60 65] (World [Some (Sarr (repeat 65 60) 1000 1 60)] []) [0; 1]).
  { unfold empty. do 2 step_here. apply done. }
  destruct (C95_own_bytes_partial mem_empty junk0 _ _ _ (Append 0 (Own 0 0) 60) O
    (World [Some (Sarr (repeat 65 120) 1000 1 120)] []) 1 (junk0 O) mem_empty_fresh H eq_refl Logic.I)
    as (st & E & _ & K); [exists 0; reflexivity|].
  destruct K as (st' & E' & S').
  { intros (s & n & Hs & Hh & Hn). cbn in Hs. injection Hs as <-. cbn in Hh. injection Hh as <-. cbn in Hn. lia. }
  exists st, st'. auto.
Qed.

(** C96: an array's storage is at most 128 bytes or twice what it was ever asked
    to hold (and one byte more), all its reallocations together have copied
    fewer bytes than that, and there are only logarithmically many. *)
Theorem C96_storage : forall m0 junk cs w rs k s, fresh m0 -> history empty cs w rs -> slot w k = Some s ->
  exists st x b l, exec_all junk (begin m0) cs = Ok (st, rs) /\
    nth_error (made st) k = Some x /\ p_byte_array_data (memory st) x = Ok (b, 0) /\
    blocks (memory st) b = Some l /\
    zlen (content s) <= reached s < limit s /\
    reached s < zlen l <= Z.max 128 (2 * (reached s + 1)) /\
    sum (map fst (moved_for (memory st) x)) < zlen l /\
    (moved_for (memory st) x = [] \/ 64 * 2 ^ zlen (moved_for (memory st) x) <= reached s).
Proof. exact storage_ok. Qed.
Print Assumptions C96_storage.

(** Two growths: 128, 256 and 512 bytes. *)
Example C96_example :
  history empty [Make 1000; Resize 0 130 65; Resize 0 300 66; Clear 0]
    (World [Some (Sarr [] 1000 1 300)] []) [0; 1; 1; 0] /\
  exists st, exec_all junk0 (begin mem_empty) [Make 1000; Resize 0 130 65; Resize 0 300 66; Clear 0]
    = Ok (st, [0; 1; 1; 0]) /\
    moved_for (memory st) 100 = [(256, 512); (128, 256)].
Proof.
  split.
  - unfold empty. do 4 step_here. apply done.
  - eexists. split; [vm_compute; reflexivity|reflexivity].
Qed.
