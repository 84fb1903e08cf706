(** Threads. The functions of the library as sequences of single accesses to the memory of Heap.v,
    and a machine that runs the threads of a program in any order, one access at a time. The library
    has no variables of its own that change (src/fsalloc.c:20,36 are set by the application before it
    starts threads; src/charstr.c:570-605 url_encoder is only read, and all other static objects are const), so all that threads share is the memory.
    fsalloc and fsfree are taken to be atomic, as realloc(3) is. *)
From Verif Require Import Base Heap.
Open Scope list_scope.
Open Scope Z_scope.

(** What a function does, access by access. [Store] changes a struct in one step; the model changes
    one field at a time, by a [Load] and a [Store] of the struct. [Rounds]: a bound for the number of
    iterations of a loop ([Heap.fuel]), which has no counterpart in the program. *)
Inductive steps (A : Type) : Type :=
| Finish (a : A)
| Undefined
| Aborts
| Exhausted
| Load (a : Z) (k : cell -> steps A)
| Store (a : Z) (change : cell -> option cell) (k : steps A)
| Allocate (c : cell) (k : Z -> steps A)
| Release (a : Z) (k : steps A)
| Rounds (extra : nat) (k : nat -> steps A).
Arguments Finish {A}. Arguments Undefined {A}. Arguments Aborts {A}. Arguments Exhausted {A}. Arguments Load {A}.
Arguments Store {A}. Arguments Allocate {A}. Arguments Release {A}. Arguments Rounds {A}.

(** All steps one after the other, as the functions of the model have them. *)
Fixpoint effect {A} (s : steps A) : M A :=
  match s with
  | Finish a => ret a
  | Undefined => fail
  | Aborts => lift Abort
  | Exhausted => no_fuel
  | Load a k => fun h => match get h a with Some c => effect (k c) h | None => UB end
  | Store a change k => fun h =>
      match get h a with
      | Some c => match change c with Some c' => effect k (put_cell h a c') | None => UB end
      | None => UB
      end
  | Allocate c k => bnd (alloc c) (fun a => effect (k a))
  | Release a k => bnd (free a) (fun _ => effect k)
  | Rounds extra k => bnd fuel (fun n => effect (k (extra + n)%nat))
  end.

(** One after the other. *)
Fixpoint followed_by {A B} (s : steps A) (k : A -> steps B) : steps B :=
  match s with
  | Finish a => k a
  | Undefined => Undefined
  | Aborts => Aborts
  | Exhausted => Exhausted
  | Load a r => Load a (fun c => followed_by (r c) k)
  | Store a change r => Store a change (followed_by r k)
  | Allocate c r => Allocate c (fun a => followed_by (r a) k)
  | Release a r => Release a (followed_by r k)
  | Rounds extra r => Rounds extra (fun n => followed_by (r n) k)
  end.

(** * The machine *)

(** A thread: what it is about to do, and the number of blocks it has allocated and not freed (for
    [Rounds]). *)
Record thread A := mk_thread { t_steps : steps A; t_blocks : nat }.
Arguments mk_thread {A}. Arguments t_steps {A}. Arguments t_blocks {A}.
Record world A := mk_world { w_mem : list (Z * cell); w_threads : list (thread A) }.
Arguments mk_world {A}. Arguments w_mem {A}. Arguments w_threads {A}.

Definition find (m : list (Z * cell)) (a : Z) : option cell := if a =? 0 then None else lookup m a.
(** The address of a new block: [hint], or some other one if that is in use. *)
Definition new_address (m : list (Z * cell)) (hint : Z) : Z :=
  if hint =? 0 then above_all m else match lookup m hint with None => hint | Some _ => above_all m end.

(** One access by a thread. *)
Definition access {A} (m : list (Z * cell)) (hint : Z) (t : thread A) : res (list (Z * cell) * thread A) :=
  let n := t_blocks t in
  match t_steps t with
  | Finish _ => Ok (m, t)
  | Undefined => UB
  | Aborts => Abort
  | Exhausted => NoFuel
  | Load a k => match find m a with Some c => Ok (m, mk_thread (k c) n) | None => UB end
  | Store a change k =>
      match find m a with
      | Some c => match change c with Some c' => Ok ((a, c') :: erase m a, mk_thread k n) | None => UB end
      | None => UB
      end
  | Allocate c k => let a := new_address m hint in Ok ((a, c) :: erase m a, mk_thread (k a) (S n))
  | Release a k => match find m a with Some _ => Ok (erase m a, mk_thread k (pred n)) | None => UB end
  | Rounds extra k => Ok (m, mk_thread (k (extra + S n)%nat) n)
  end.

Fixpoint replace {X} (l : list X) (i : nat) (x : X) : list X :=
  match l, i with
  | [], _ => []
  | _ :: l, O => x :: l
  | y :: l, S i => y :: replace l i x
  end.
(** A schedule says which thread makes the next access, and what address the allocator would choose. *)
Fixpoint run {A} (w : world A) (schedule : list (nat * Z)) : res (world A) :=
  match schedule with
  | [] => Ok w
  | (i, hint) :: schedule =>
      match nth_error (w_threads w) i with
      | None => run w schedule
      | Some t =>
          '(m, t) <- access (w_mem w) hint t ;;
          run (mk_world m (replace (w_threads w) i t)) schedule
      end
  end.
