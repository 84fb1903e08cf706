(** C133: byte arrays that several threads have references of. *)
From Verif Require Import Base Heap ByteHeapModel ThreadModel ThreadSpec RefThreadSpec RefThread.
Open Scope list_scope.
Open Scope Z_scope.

(** A byte array with the content "hi" at address 10 that has two references, one in each of two
    threads. *)
Definition two_references : list (Z * cell) := [(10, CSlots [11; 2; 100; 4; 2]); (11, CSlots [104; 105; 0; 0])].
Definition two_threads (acts acts' : list action) : world unit := start two_references [(thread_of 10 acts, []); (thread_of 10 acts', [])].
Definition turns_of (l : list nat) : list (nat * Z) := map (fun i => (i, 0)) l.

(** Both give up their references. The counter is changed without a lock: one of the changes may
    be lost, and then the array is never freed. *)
Theorem C133_leak_refuted : exists schedule w, drops_all 1 [Drop] /\
  run (two_threads [Drop] [Drop]) schedule = Ok w /\ finished w 0 tt /\ finished w 1 tt /\
  find (w_mem w) 10 = Some (CSlots [11; 2; 100; 4; 1]) /\ find (w_mem w) 11 = Some (CSlots [104; 105; 0; 0]).
Proof.
  exists (turns_of [0; 1; 0; 0; 1; 1]%nat). eexists. split; [cbn; lia|]. split; [vm_compute; reflexivity|].
  split; [eexists; reflexivity|]. split; [eexists; reflexivity|]. split; reflexivity.
Qed.
Print Assumptions C133_leak_refuted.

(** One takes a second reference and gives it up again while the other gives up its reference.
    If the new reference is lost, the array is freed while the first thread still uses it. *)
Theorem C133_use_after_free_refuted : exists schedule, drops_all 1 [Take; Drop; LookAt; Drop] /\ drops_all 1 [Drop] /\
  run (two_threads [Take; Drop; LookAt; Drop] [Drop]) schedule = UB.
Proof.
  exists (turns_of [0; 1; 0; 0; 1; 1; 0; 0; 0; 0; 0; 0; 0]%nat). split; [cbn; lia|]. split; [cbn; lia|]. vm_compute. reflexivity.
Qed.
Print Assumptions C133_use_after_free_refuted.

(** The data race itself. *)
Theorem C133_race_refuted : exists schedule w, run (two_threads [Drop] [Drop]) schedule = Ok w /\
  next_access w 0 = Some (10, true) /\ next_access w 1 = Some (10, true).
Proof. exists (turns_of [0; 0; 1; 1]%nat). eexists. split; [vm_compute; reflexivity|]. split; reflexivity. Qed.
Print Assumptions C133_race_refuted.

(** With a lock, that is, with whole calls one at a time in any order: however the threads take
    and give up references, [counts] being the numbers of references that they have, the array stays
    as it is, with the right count, as long as there is a reference, and is freed with the last. *)
Theorem C133_locked_partial : forall acts counts counts' h p d cursor max size block,
  array_at h p d cursor max size (total counts) block ->
  Forall (fun n => 0 <= n) counts -> 0 < total counts -> total counts + zlen acts < 2 ^ 32 - 1 -> held counts acts = Some counts' ->
  exists h', one_at_a_time p acts h = Ok (tt, h') /\
    if total counts' =? 0 then get h' p = None /\ get h' d = None /\ forall x, x <> p -> x <> d -> get h' x = get h x
    else array_at h' p d cursor max size (total counts') block /\ forall x, x <> p -> get h' x = get h x.
Proof. exact locked_ok. Qed.
Print Assumptions C133_locked_partial.

(** The programs above with a lock: nothing is left, and nothing is undefined. *)
Definition c133_heap : heap := mk_heap two_references (fun n => 20 + Z.of_nat n) 0.
Example C133_example :
  array_at c133_heap 10 11 2 100 4 (total [1; 1]) [104; 105; 0; 0] /\
  held [1; 1] [(0%nat, Take); (1%nat, Drop); (0%nat, Drop); (0%nat, LookAt)] = Some [1; 0] /\
  held [1; 1] [(0%nat, Take); (1%nat, Drop); (0%nat, Drop); (0%nat, LookAt); (0%nat, Drop)] = Some [0; 0] /\
  exists h', one_at_a_time 10 [(0%nat, Take); (1%nat, Drop); (0%nat, Drop); (0%nat, LookAt); (0%nat, Drop)] c133_heap = Ok (tt, h') /\ mem h' = [].
Proof. split; [repeat split; discriminate|]. split; [reflexivity|]. split; [reflexivity|]. eexists. split; vm_compute; reflexivity. Qed.
(** Without a lock, but one after the other. *)
Example C133_lucky_example : exists w, run (two_threads [Drop] [Drop]) (turns_of [0; 0; 0; 1; 1; 1; 1; 1; 1]%nat) = Ok w /\
  finished w 0 tt /\ finished w 1 tt /\ w_mem w = [].
Proof. eexists. split; [vm_compute; reflexivity|]. split; [eexists; reflexivity|]. split; [eexists; reflexivity|reflexivity]. Qed.
