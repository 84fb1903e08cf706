(** Properties of the C++ smart pointers (C123) *)
From Verif Require Import Base CppPtrModel CppPtrSpec CppPtr.
From Coq Require Import Permutation.
Open Scope list_scope.
Open Scope Z_scope.

(** C123: at every point of every program, the objects that have been handed over are those that
    were destroyed, those that are held and those that were released, each as often as it was handed
    over; and each destroyed one was passed to the destroying function of its kind. *)
Theorem C123_once : forall os st, run start os = Ok st ->
  exists destroyed, c_calls st = map destruction destroyed /\ Permutation (handed os) (destroyed ++ held st ++ c_released st).
Proof. exact run_once. Qed.
Print Assumptions C123_once.
(** When all smart pointers are gone, everything has been destroyed that was not released. *)
Theorem C123_end : forall os st, run start os = Ok st -> all_gone st ->
  exists destroyed, c_calls st = map destruction destroyed /\ Permutation (handed os) (destroyed ++ c_released st).
Proof.
  intros os st R G. destruct (run_once os st R) as (d & C & P). exists d. split; [exact C|]. rewrite (all_gone_held st G) in P. exact P.
Qed.
Print Assumptions C123_end.
(** A program that compiles is not ended by an empty deleter, if it uses reset(p) with p other
    than nullptr only on smart pointers that hold an object. *)
Theorem C123_no_terminate : forall os,
  (forall before k v p after st, os = before ++ Reset k v p :: after -> p <> 0 -> run start before = Ok st -> holds st v) ->
  run start os <> Abort.
Proof.
  intros os H. destruct (run_armed os start) as [E|(st & E)]; [intros v x E; destruct v; discriminate|exact H|congruence|congruence].
Qed.
Print Assumptions C123_no_terminate.
(** Without the condition it is: a smart pointer that was declared without make_..._ptr, or moved
    from, may have no deleter. *)
Theorem C123_reset_default : forall k p, p <> 0 -> run start [Default k; Reset k 0 p; Destroy 0] = Abort.
Proof. intros k p P. apply Z.eqb_neq in P. destruct k; cbn; rewrite P; reflexivity. Qed.
Print Assumptions C123_reset_default.

(** A byte array is moved into a second variable, which then takes another one; a block is released. *)
Example C123_example :
  run start [Make ByteArrayPtr 100; Default ByteArrayPtr; MoveAssign 1 0 false; Assign ByteArrayPtr 1 200; Make AllocPtr 300; Release 2; Make AllocPtr 0;
             Destroy 3; Destroy 2; Destroy 1; Destroy 0] =
  Ok (mk_cpp [None; None; None; None] [(C_destroy_byte_array, 100); (C_destroy_byte_array, 200)] [(AllocPtr, 300)]).
Proof. reflexivity. Qed.
Example C123_reset_example :
  run start [Make AllocPtr 100; Reset AllocPtr 0 200; MoveNew 0 true; Swap 0 1; Reset AllocPtr 0 0; MoveAssign 1 1 false; Destroy 1; Destroy 0] =
  Ok (mk_cpp [None; None] [(C_fsfree, 100); (C_fsfree, 200)] []).
Proof. reflexivity. Qed.
