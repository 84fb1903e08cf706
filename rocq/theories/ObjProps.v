(** C102: many integer sets, priority queues and byte arrays at once. *)
From Verif Require Import Base CMem Heap ListSpec IntsetModel IntsetSpec PriorqModel PriorqSpec ObjModel OwnSpec ObjSpec ObjProofs ObjMeans.
From Verif Require ByteArrayModel ByteArraySpec.

(** Whatever has happened before, an allowed call succeeds, returns what the set, the
    multiset or the sequence of bytes of its object says, and changes this object only. *)
Theorem C102_call : forall code junk h0 h ps os c, reached code h0 h ps os -> allowed code c os ->
  exists v l ps' h' os', together code junk c ps h = Ok (((v, l), ps'), h') /\ meant code c os v os' /\
    reached code h0 h' ps' os'.
Proof. exact reached_call. Qed.
Print Assumptions C102_call.

(** What was in memory before stays, and there are at most two blocks for every object that has
    not been destroyed: destroying frees all of them. *)
Theorem C102_memory : forall code h0 h ps os, reached code h0 h ps os ->
  exists new, NoDup new /\ (forall x, In x new -> get h0 x = None) /\ same_outside new h0 h /\
    (length new <= 2 * undestroyed os)%nat.
Proof. exact reached_memory. Qed.
Print Assumptions C102_memory.
Theorem C102_released : forall code h0 h ps os, reached code h0 h ps os -> Forall (eq Destroyed) os -> same_memory h0 h.
Proof.
  intros code h0 h ps os R D. destruct (reached_memory code h0 h ps os R) as (new & _ & _ & S & L).
  assert (E : undestroyed os = 0%nat). { unfold undestroyed. clear -D. induction D as [|o os <- _ IH]; [reflexivity|exact IH]. }
  destruct new as [|x new]; [|simpl in L; lia]. intros x. apply S. intros [].
Qed.
Print Assumptions C102_released.

(** Any calls at all, with any comparison functions and any arguments, that are without undefined
    behaviour when every object is a value of its own: on the heap they return the same values,
    and make the same calls of the callbacks, in the same order. *)
Theorem C102_independent : forall code junk h cs vs os, alone_all code junk cs [] = Ok (vs, os) ->
  exists ps h' new, together_all code junk cs [] h = Ok ((vs, ps), h') /\ length ps = length os /\
    NoDup new /\ (forall x, In x new -> get h x = None) /\ same_outside new h h' /\ (length new <= 2 * live os)%nat /\
    (Forall (eq Gone) os -> same_memory h h').
Proof. exact many_objects. Qed.
Print Assumptions C102_independent.

(** For examples: code pointer 1 is a comparison by value, and 2 by value backwards; block 1 is
    someone else's; the allocator returns 10, 11, ... *)
Definition by_value (f a b : Z) : Z := if f =? 1 then a - b else b - a.
Definition other_heap : heap := mk_heap [(1, CSlots [4; 5; 6])] (fun n => 10 + Z.of_nat n) 0.
Definition some_calls : list call :=
  [MakeSet 70; MakeQueue 1; MakeSet 3; MakeQueue 2; SetAdd 0 69; Enqueue 1 5; Enqueue 3 5; SetFill 2; Enqueue 1 4; Enqueue 3 4;
   SetRemove 2 1; Enqueue 1 6; SetHas 0 69; SetHas 2 1; SetNext 0 0 true; SetNext 2 0 false; Enqueue 3 6; Peek 3; Remove 1 1;
   Dequeue 1; Pop 3; Size 1; Size 3].
Definition the_end : list call := [DestroyQueue 1; DestroySet 0; DestroySet 2; DestroyQueue 3].
Example C102_example :
  exists os, alone_all by_value (fun _ => 99) some_calls [] =
    Ok ([(0, []); (0, []); (0, []); (0, []); (0, []); (0, [(5, 0)]); (0, [(5, 0)]); (0, []); (0, [(4, 0); (5, 1)]); (0, [(4, 1)]);
         (0, []); (0, [(6, 2)]); (1, []); (0, []); (69, []); (1, []); (0, [(6, 0); (5, 2)]); (6, []); (5, [(6, 1)]);
         (4, [(6, 0)]); (5, []); (1, []); (2, [])], os) /\ live os = 4%nat.
Proof. eexists. split; vm_compute; reflexivity. Qed.
Example C102_heap_example :
  exists vs h', together_all by_value (fun _ => 99) (some_calls ++ the_end) [] other_heap = Ok ((vs, [10; 12; 13; 15]), h') /\
    map fst (firstn 8 (skipn 12 vs)) = [1; 0; 69; 1; 0; 6; 5; 4] /\ get h' 1 = Some (CSlots [4; 5; 6]) /\ mem h' = mem other_heap.
Proof. eexists _, _. split; [vm_compute; reflexivity|]. split; [|split]; vm_compute; reflexivity. Qed.
Lemma by_value_ok : comparator (by_value 1).
Proof. unfold comparator, by_value. cbn [Z.eqb Pos.eqb]. split; intros; lia. Qed.
Lemma reach_next h0 os c os' : (exists h ps, reached by_value h0 h ps os) -> allowed by_value c os ->
  (forall v os2, meant by_value c os v os2 -> os2 = os') -> exists h ps, reached by_value h0 h ps os'.
Proof.
  intros (h & ps & R) A K. destruct (C102_call by_value (fun _ => 99) h0 h ps os c R A) as (v & l & ps' & h' & os2 & _ & M & R').
  exists h', ps'. rewrite <- (K v os2 M). exact R'.
Qed.
Example C102_reached_example :
  (exists h ps, reached by_value other_heap h ps [ASet 70 [Add 69]; AQueue 1 [3; 7]; Destroyed]) /\
  allowed by_value (Dequeue 1) [ASet 70 [Add 69]; AQueue 1 [3; 7]; Destroyed].
Proof.
  split; [|exists 1, [3; 7]; reflexivity].
  apply (reach_next _ [ASet 70 [Add 69]; AQueue 1 [3; 7]; ASet 5 []] (DestroySet 2)); [|exists 5, []; reflexivity|intros v os2 M; exact M].
  apply (reach_next _ [ASet 70 [Add 69]; AQueue 1 [7]; ASet 5 []] (Enqueue 1 3)).
  2: { exists 1, [7]. split; [reflexivity|unfold room; cbn; lia]. }
  2: { intros v os2 (f & m & E & ->). injection E as <- <-. reflexivity. }
  apply (reach_next _ [ASet 70 [Add 69]; AQueue 1 []; ASet 5 []] (Enqueue 1 7)).
  2: { exists 1, []. split; [reflexivity|unfold room; cbn; lia]. }
  2: { intros v os2 (f & m & E & ->). injection E as <- <-. reflexivity. }
  apply (reach_next _ [ASet 70 []; AQueue 1 []; ASet 5 []] (SetAdd 0 69)).
  2: { split; [lia|]. exists 70, []. reflexivity. }
  2: { intros v os2 (n & ops & E & ->). injection E as <- <-. reflexivity. }
  apply (reach_next _ [ASet 70 []; AQueue 1 []] (MakeSet 5)); [|cbn; unfold INT_MAX; lia|intros v os2 M; exact M].
  apply (reach_next _ [ASet 70 []] (MakeQueue 1)); [|exact by_value_ok|intros v os2 M; exact M].
  apply (reach_next _ [] (MakeSet 70)); [|cbn; unfold INT_MAX; lia|intros v os2 M; exact M].
  exists other_heap, []. apply R_start.
Qed.

(** Byte arrays: 0 and 2 are byte arrays, 1 is a set that is made in between. *)
Definition bytes_calls : list call :=
  [MakeBytes 100; MakeSet 70; MakeBytes 4; OnBytes 0 (ByteArraySpec.AppendString [104; 105]); SetAdd 1 69; OnBytes 2 (ByteArraySpec.Append [1; 2; 3]);
   OnBytes 2 (ByteArraySpec.Append [4]); AppendBytes 0 2 1 2; ByteAt 0 2; ByteAt 0 3; BytesSize 0; ShareBytes 0; DestroyBytes 0; BytesSize 0;
   OnBytes 0 (ByteArraySpec.Stream 3 (fun n => ([7], 1, 0))); OnBytes 0 (ByteArraySpec.Resize 20 5); SetHas 1 69; BytesSize 0; ByteAt 0 19].
Example C102_bytes_example :
  exists os, alone_all by_value (fun _ => 99) bytes_calls [] =
    Ok ([(0, []); (0, []); (0, []); (1, []); (0, []); (1, []); (0, []); (1, []); (2, []); (3, []); (4, []); (0, []); (0, []); (4, []);
         (1, [(3, 0)]); (1, []); (1, []); (20, []); (5, [])], os) /\ live os = 3%nat.
Proof. eexists. split; vm_compute; reflexivity. Qed.
Example C102_bytes_heap_example :
  exists vs ps h', together_all by_value (fun _ => 99) (bytes_calls ++ [DestroyBytes 0; DestroyBytes 2; DestroySet 1]) [] other_heap = Ok ((vs, ps), h') /\
    map fst (skipn 14 vs) = [1; 1; 1; 20; 5; 0; 0; 0] /\ mem h' = mem other_heap.
Proof. eexists _, _, _. split; [vm_compute; reflexivity|]. split; vm_compute; reflexivity. Qed.
Example C102_bytes_reached_example :
  (exists h ps, reached by_value other_heap h ps [ABytes 4 2 [1; 2; 3]; ABytes 100 1 []]) /\
  allowed by_value (AppendBytes 1 0 1 2) [ABytes 4 2 [1; 2; 3]; ABytes 100 1 []] /\
  allowed by_value (DestroyBytes 0) [ABytes 4 2 [1; 2; 3]; ABytes 100 1 []].
Proof.
  split; [|split; [split; [lia|]; split; [exists 100, 1, []; reflexivity|exists 4, 2, [1; 2; 3]; split; [reflexivity|cbn; lia]]|exists 4, 2, [1; 2; 3]; reflexivity]].
  apply (reach_next _ [ABytes 4 1 [1; 2; 3]; ABytes 100 1 []] (ShareBytes 0)).
  2: { exists 4, 1, [1; 2; 3]. split; [reflexivity|lia]. }
  2: { intros v os2 (m & r & l & E & ->). injection E as <- <- <-. reflexivity. }
  apply (reach_next _ [ABytes 4 1 []; ABytes 100 1 []] (OnBytes 0 (ByteArraySpec.Append [1; 2; 3]))).
  2: { split; [cbn; unfold zlen; cbn; lia|]. exists 4, 1, []. reflexivity. }
  2: { intros v os2 (m & r & l & E & _ & ->). injection E as <- <- <-. reflexivity. }
  apply (reach_next _ [ABytes 4 1 []] (MakeBytes 100)); [|cbn; lia|intros v os2 M; exact M].
  apply (reach_next _ [] (MakeBytes 4)); [|cbn; lia|intros v os2 M; exact M].
  exists other_heap, []. apply R_start.
Qed.
