(** What threads may count on. *)
From Verif Require Import Base Heap ThreadModel.
Open Scope list_scope.
Open Scope Z_scope.

(** A function that only looks. *)
Fixpoint looks_only {A} (s : steps A) : Prop :=
  match s with
  | Finish _ | Undefined | Aborts | Exhausted => True
  | Load _ k => forall c, looks_only (k c)
  | Rounds _ k => forall n, looks_only (k n)
  | Store _ _ _ | Allocate _ _ | Release _ _ => False
  end.
(** A call of a function of the model, with its single steps. *)
Record call B := mk_call { c_effect : M B; c_steps : steps B; c_same : forall h, effect c_steps h = c_effect h }.
Arguments c_effect {B}. Arguments c_steps {B}. Arguments c_same {B}. Arguments mk_call {B}.

(** The program of a thread: it looks at what is shared or its own, and it changes what is its own;
    what it does next depends on what it got. *)
Inductive prog (A : Type) : Type :=
| Done (a : A)
| Look {B : Type} (c : call B) (only : looks_only (c_steps c)) (k : B -> prog A)
| Change {B : Type} (c : call B) (k : B -> prog A).
Arguments Done {A}. Arguments Look {A B}. Arguments Change {A B}.

(** No address is in use in both memories. *)
Definition apart (m m' : list (Z * cell)) : Prop := forall a, find m a <> None -> find m' a = None.

(** The program of a thread when there are no other threads: [own] is its own memory. It makes its
    changes when there is nothing else (so they touch nothing else), and looks when there is the
    shared memory, too. Everything is defined, whatever addresses the allocator returns. *)
Fixpoint fine_alone {A} (shared : list (Z * cell)) (p : prog A) (own : list (Z * cell)) : Prop :=
  match p with
  | Done _ => True
  | Look c _ k => exists b h, c_effect c (mk_heap (own ++ shared) (fun _ => 0) 0) = Ok (b, h) /\ fine_alone shared (k b) own
  | Change c k => forall hints, exists b h, c_effect c (mk_heap own hints 0) = Ok (b, h) /\ (apart (mem h) shared -> fine_alone shared (k b) (mem h))
  end.
(** [a] and [own'] are a result and a final memory that it may have alone, for some behaviour of the
    allocator. *)
Fixpoint may_alone {A} (shared : list (Z * cell)) (p : prog A) (own : list (Z * cell)) (a : A) (own' : list (Z * cell)) : Prop :=
  match p with
  | Done x => a = x /\ own' = own
  | Look c _ k => exists b h, c_effect c (mk_heap (own ++ shared) (fun _ => 0) 0) = Ok (b, h) /\ may_alone shared (k b) own a own'
  | Change c k => exists hints b h, c_effect c (mk_heap own hints 0) = Ok (b, h) /\ apart (mem h) shared /\ may_alone shared (k b) (mem h) a own'
  end.

(** The steps of a program; the loops of functions that look at shared memory may be longer. *)
Fixpoint longer {A} (n : nat) (s : steps A) : steps A :=
  match s with
  | Load a k => Load a (fun c => longer n (k c))
  | Rounds extra k => Rounds (n + extra) (fun r => longer n (k r))
  | s => s
  end.
Fixpoint steps_of {A} (shared : nat) (p : prog A) : steps A :=
  match p with
  | Done a => Finish a
  | Look c _ k => followed_by (longer shared (c_steps c)) (fun b => steps_of shared (k b))
  | Change c k => followed_by (c_steps c) (fun b => steps_of shared (k b))
  end.

(** Threads with their programs and their own memories, and the world at the start *)
Definition start {A} (shared : list (Z * cell)) (ts : list (prog A * list (Z * cell))) : world A :=
  mk_world (concat (map snd ts) ++ shared) (map (fun t => mk_thread (steps_of (length shared) (fst t)) (length (snd t))) ts).
(** The threads have nothing in common but the shared memory, and would be fine alone. *)
Definition separate {A} (shared : list (Z * cell)) (ts : list (prog A * list (Z * cell))) : Prop :=
  (forall i p own, nth_error ts i = Some (p, own) -> NoDup (map fst own) /\ apart own shared /\ fine_alone shared p own) /\
  (forall i j p own q own', i <> j -> nth_error ts i = Some (p, own) -> nth_error ts j = Some (q, own') -> apart own own').

(** The address that a thread is about to access, and whether it is about to change it. *)
Definition next_access {A} (w : world A) (i : nat) : option (Z * bool) :=
  match nth_error (w_threads w) i with
  | Some t =>
      match t_steps t with
      | Load a _ => Some (a, false)
      | Store a _ _ | Release a _ => Some (a, true)
      | _ => None
      end
  | None => None
  end.
(** A thread has come to its end with a result. *)
Definition finished {A} (w : world A) (i : nat) (a : A) : Prop :=
  exists n, nth_error (w_threads w) i = Some (mk_thread (Finish a) n).

(** A function of the model has a description access by access; and one that only looks. *)
Definition has_steps {B} (m : M B) : Prop := exists c : call B, c_effect c = m.
Definition has_looks {B} (m : M B) : Prop := exists c : call B, c_effect c = m /\ looks_only (c_steps c).
