(** Byte arrays that several threads have references of. *)
From Verif Require Import Base Heap ByteHeapModel ThreadModel ThreadSpec ThreadApi.
Open Scope list_scope.
Open Scope Z_scope.

(** What a thread does with its references: it takes another one (share_byte_array), gives one up
    (destroy_byte_array), or looks at the size (byte_array_size). *)
Inductive action : Type := Take | Drop | LookAt.

(** The calls, access by access. *)
Definition coded_call {B ro} {m : M B} (c : coded ro m) : call B := mk_call m (proj1_sig c) (proj1 (proj2_sig c)).
Fixpoint thread_of (p : Z) (acts : list action) : prog unit :=
  match acts with
  | [] => Done tt
  | Take :: acts => Change (coded_call (c_share_byte_array p)) (fun _ => thread_of p acts)
  | Drop :: acts => Change (coded_call (c_destroy_byte_array p)) (fun _ => thread_of p acts)
  | LookAt :: acts => Change (coded_call (c_byte_array_size (ro := false) p)) (fun _ => thread_of p acts)
  end.

(** A thread that has [n] references does [acts] legally and gives up all references in the end. *)
Fixpoint drops_all (n : Z) (acts : list action) : Prop :=
  match acts with
  | [] => n = 0
  | Take :: acts => 0 < n /\ drops_all (n + 1) acts
  | Drop :: acts => 0 < n /\ drops_all (n - 1) acts
  | LookAt :: acts => 0 < n /\ drops_all n acts
  end.

(** The same with whole calls one after the other, as with a lock: [(i, act)]: thread i does act. *)
Definition call_of (p : Z) (act : action) : M unit :=
  match act with
  | Take => do! h_share_byte_array p in ret tt
  | Drop => h_destroy_byte_array p
  | LookAt => do! h_byte_array_size p in ret tt
  end.
Fixpoint one_at_a_time (p : Z) (acts : list (nat * action)) : M unit :=
  match acts with
  | [] => ret tt
  | (_, act) :: acts => do! call_of p act in one_at_a_time p acts
  end.
(** The number of references that each thread has; a thread without references does nothing. *)
Definition references (act : action) (n : Z) : Z := match act with Take => n + 1 | Drop => n - 1 | LookAt => n end.
Definition set_nth (i : nat) (n : Z) (l : list Z) : list Z := firstn i l ++ n :: skipn (S i) l.
Fixpoint held (counts : list Z) (acts : list (nat * action)) : option (list Z) :=
  match acts with
  | [] => Some counts
  | (i, act) :: acts =>
      match nth_error counts i with
      | Some n => if 0 <? n then held (set_nth i (references act n) counts) acts else None
      | None => None
      end
  end.
Definition total (counts : list Z) : Z := fold_right Z.add 0 counts.

(** A byte array in memory. *)
Definition array_at (h : heap) (p d cursor max size refs : Z) (block : list Z) : Prop :=
  get h p = Some (CSlots [d; cursor; max; size; refs]) /\ get h d = Some (CSlots block) /\ p <> d.
