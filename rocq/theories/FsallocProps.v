(** C86-C88: src/fsalloc.c and charstr_printf. *)
From Verif Require Import Base FsallocModel FsallocSpec FsallocProofs.

(** C86: with the default reallocator, fsalloc returns a new block of the requested size and changes
    no other block. It returns NULL only for size 0, and the process ends for lack of memory otherwise. *)
Theorem C86_fsalloc : forall U (P : program U) s size, reallocator s = NAIVE -> proper (heap_of s) -> 0 <= size ->
  match fsalloc P size s with
  | Ok (p, s') => proper (heap_of s') /\ same_rest s s' /\ untouched [p] (heap_of s) (heap_of s') /\
      ((p <> 0 /\ live (heap_of s) p = None /\ exists b, live (heap_of s') p = Some b /\ zlen b = size /\ in_use (heap_of s') = in_use (heap_of s) + 1) \/
       (p = 0 /\ size = 0 /\ exhausted (heap_of s) /\ in_use (heap_of s') = in_use (heap_of s)))
  | Abort => exhausted (heap_of s) /\ size <> 0
  | UB | NoFuel => False
  end.
Proof. exact @fsalloc_ok. Qed.
Print Assumptions C86_fsalloc.

(** fsfree releases the block and nothing else; NULL is acceptable; anything else is undefined. *)
Theorem C86_fsfree : forall U (P : program U) s ptr, reallocator s = NAIVE -> proper (heap_of s) ->
  match fsfree P ptr s with
  | Ok s' => proper (heap_of s') /\ same_rest s s' /\ untouched [ptr] (heap_of s) (heap_of s') /\ live (heap_of s') ptr = None /\
      (ptr = 0 -> s' = s) /\ (ptr <> 0 -> live (heap_of s) ptr <> None /\ in_use (heap_of s') = in_use (heap_of s) - 1)
  | UB => ptr <> 0 /\ live (heap_of s) ptr = None
  | Abort | NoFuel => False
  end.
Proof. exact @fsfree_ok. Qed.
Print Assumptions C86_fsfree.

(** fsrealloc keeps the contents up to the smaller of the sizes. *)
Theorem C86_fsrealloc : forall U (P : program U) s ptr size b, reallocator s = NAIVE -> proper (heap_of s) -> 0 < size -> live (heap_of s) ptr = Some b ->
  match fsrealloc P ptr size s with
  | Ok (p, s') => proper (heap_of s') /\ same_rest s s' /\ p <> 0 /\
      (p = ptr \/ (live (heap_of s) p = None /\ live (heap_of s') ptr = None)) /\ untouched [ptr; p] (heap_of s) (heap_of s') /\ in_use (heap_of s') = in_use (heap_of s) /\
      exists b', live (heap_of s') p = Some b' /\ zlen b' = size /\ firstn (Z.to_nat (Z.min size (zlen b))) b' = firstn (Z.to_nat (Z.min size (zlen b))) b
  | Abort => exhausted (heap_of s)
  | UB | NoFuel => False
  end.
Proof. exact @fsrealloc_ok. Qed.
Print Assumptions C86_fsrealloc.
(** With size 0 it does the same as fsfree, and with NULL the same as fsalloc. *)
Theorem C86_fsrealloc_zero : forall U (P : program U) s ptr b, reallocator s = NAIVE -> proper (heap_of s) -> live (heap_of s) ptr = Some b ->
  exists s', fsrealloc P ptr 0 s = Ok (0, s') /\ fsfree P ptr s = Ok s'.
Proof. exact @fsrealloc_zero. Qed.
Print Assumptions C86_fsrealloc_zero.
Theorem C86_fsrealloc_null : forall U (P : program U) s size, fsrealloc P 0 size s = fsalloc P size s.
Proof. reflexivity. Qed.
Print Assumptions C86_fsrealloc_null.

(** fscalloc returns a new block of zeros; its size is the product modulo 2^64 (see C69). *)
Theorem C86_fscalloc : forall U (P : program U) s n size, reallocator s = NAIVE -> proper (heap_of s) ->
  match fscalloc P n size s with
  | Ok (p, s') => proper (heap_of s') /\ same_rest s s' /\ untouched [p] (heap_of s) (heap_of s') /\
      ((p <> 0 /\ live (heap_of s) p = None /\ live (heap_of s') p = Some (repeat 0 (Z.to_nat (n * size mod 2 ^ 64))) /\ in_use (heap_of s') = in_use (heap_of s) + 1) \/
       (p = 0 /\ n * size mod 2 ^ 64 = 0 /\ exhausted (heap_of s) /\ in_use (heap_of s') = in_use (heap_of s)))
  | Abort => exhausted (heap_of s)
  | UB | NoFuel => False
  end.
Proof. exact @fscalloc_full. Qed.
Print Assumptions C86_fscalloc.

(** A C library with two blocks that answers 5, then nothing, then 7 (and so on) *)
Definition example_heap : mem :=
  mk_mem [(2, [20; 21; 22]); (9, [90])] (fun n => if (n =? 1)%nat then None else Some (5 + Z.of_nat n)) (fun n i => 100 + Z.of_nat n) 0.
Definition no_program : program unit := mk_program (fun _ _ _ _ => UB) (fun _ _ _ => UB).
Example C86_example : proper example_heap /\ reallocator (initial (example_heap, tt)) = NAIVE /\
  match fsrealloc no_program 2 4 (initial (example_heap, tt)) with
  | Ok (p, s) => p = 5 /\ live (heap_of s) 5 = Some [20; 21; 22; 100] /\ live (heap_of s) 2 = None /\ live (heap_of s) 9 = Some [90] /\
      fsalloc no_program 1 s = Abort /\
      match fsfree no_program 9 s with Ok s' => live (heap_of s') 9 = None /\ fsfree no_program 9 s' = UB | _ => False end
  | _ => False
  end /\
  match fscalloc no_program 2 2 (initial (example_heap, tt)) with Ok (p, s) => p = 5 /\ live (heap_of s) 5 = Some [0; 0; 0; 0] | _ => False end.
Proof.
  split; [split|].
  - cbn. repeat constructor; cbn; intuition discriminate.
  - cbn. intuition discriminate.
  - vm_compute. repeat split; reflexivity.
Qed.

(** C87: whatever functions the application installs, in the course of any sequence of calls
    they are called exactly as expected, and the getters return those installed last. *)
Theorem C87_calls : forall U (P : program U) ops s s', run (recorded P) ops s = Ok s' ->
  snd (snd (world s')) = snd (snd (world s)) ++ expected ops (reallocator s) (reallocator_counter s) /\
  fs_get_reallocator s' = installed ops (reallocator s) /\ fs_get_reallocator_counter s' = installed_counter ops (reallocator_counter s).
Proof. exact @recorded_run. Qed.
Print Assumptions C87_calls.
(** At the start no function of the application is installed: as long as it installs none, none
    is called. *)
Theorem C87_initial : forall U (P : program U) ops w s', Forall no_set ops -> run (recorded P) ops (initial w) = Ok s' ->
  snd (snd (world s')) = snd (snd w) /\ fs_get_reallocator s' = NAIVE /\ fs_get_reallocator_counter s' = DUMMY.
Proof.
  intros U P ops w s' F R. apply C87_calls in R as (-> & -> & ->). cbn [initial world reallocator reallocator_counter].
  assert (E : expected ops NAIVE DUMMY = [] /\ installed ops NAIVE = NAIVE /\ installed_counter ops DUMMY = DUMMY).
  { induction F as [|o ops N _ (E1 & E2 & E3)]; [auto|]. destruct o; try contradiction; cbn; rewrite ?E1, ?E2, ?E3; auto.
    destruct (ptr =? 0); auto. }
  destruct E as (-> & -> & ->). rewrite app_nil_r. auto.
Qed.
Print Assumptions C87_initial.
Example C87_initial_example : Forall no_set [OAlloc 3; OSkew 1; OFree 5] /\
  match run (recorded no_program) [OAlloc 3; OSkew 1; OFree 5] (initial (example_heap, (tt, []))) with Ok s' => live (heap_of s') 5 = None | _ => False end.
Proof. split; [repeat constructor|vm_compute; reflexivity]. Qed.

(** A reallocator that counts blocks, together with the counter, keeps the books balanced:
    the count is the number of blocks in use, corrected by the skews. *)
Theorem C87_balance : forall ops s s', Forall no_set ops -> Forall op_ok ops ->
  reallocator s <> NAIVE -> reallocator_counter s <> DUMMY -> proper (heap_of s) -> run statistics ops s = Ok s' ->
  proper (heap_of s') /\
  snd (world s') - snd (world s) = in_use (heap_of s') - in_use (heap_of s) + fold_right (fun o n => skew_of o + n) 0 ops.
Proof. exact statistics_run. Qed.
Print Assumptions C87_balance.

Example C87_example :
  let s := mk_state (mk_mem [] (fun n => Some (5 + Z.of_nat n)) (fun _ _ => 0) 0, 0) 1 2 in
  let ops := [OAlloc 10; OCalloc 2 3; OFree 0; OSkew (-1); ORealloc 5 20; ORealloc 6 0; OAlloc 0] in
  match run statistics ops s with Ok s' => snd (world s') = 1 /\ in_use (heap_of s') = 2 | _ => False end /\
  match run (recorded statistics) (ops ++ [OSet 0; OAlloc 1; OSet 4; OFree 7])
      (mk_state (mk_mem [] (fun n => Some (5 + Z.of_nat n)) (fun _ _ => 0) 0, (0, [])) 1 2) with
  | Ok s' => fs_get_reallocator s' = 4 /\ snd (snd (world s')) =
      [Reallocator 1 0 10; Reallocator 1 0 6; Counter 2 (-1); Reallocator 1 5 20; Reallocator 1 6 0; Reallocator 1 0 0; Reallocator 4 7 0]
  | _ => False
  end.
Proof. vm_compute. repeat split; reflexivity. Qed.

(** C88: charstr_printf returns a new string that is the formatted output, in a block of exactly its size. *)
Theorem C88_printf : forall U (P : program U) s errno out, reallocator s = NAIVE -> proper (heap_of s) -> zlen out <= INT_MAX ->
  match charstr_vprintf P (Some out) errno s with
  | Ok (p, e, s') => p <> 0 /\ e = errno /\ live (heap_of s) p = None /\ live (heap_of s') p = Some (out ++ [0]) /\ untouched [p] (heap_of s) (heap_of s') /\ same_rest s s'
  | Abort => exhausted (heap_of s)
  | UB | NoFuel => False
  end.
Proof. exact @vprintf_ok. Qed.
Print Assumptions C88_printf.
(** It returns NULL with EILSEQ and allocates nothing if the output cannot be formatted. *)
Theorem C88_printf_error : forall U (P : program U) s errno output, (match output with Some out => zlen out > INT_MAX | None => True end) ->
  charstr_vprintf P output errno s = Ok (0, EILSEQ, s).
Proof. exact @vprintf_error. Qed.
Print Assumptions C88_printf_error.
Example C88_example :
  match charstr_vprintf no_program (Some [72; 105]) 0 (initial (example_heap, tt)) with
  | Ok (p, e, s) => p = 5 /\ e = 0 /\ live (heap_of s) 5 = Some [72; 105; 0]
  | _ => False
  end.
Proof. vm_compute. repeat split; reflexivity. Qed.
