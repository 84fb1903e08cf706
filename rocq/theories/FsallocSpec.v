(** What is expected of allocation. *)
From Verif Require Import Base FsallocModel.

(** A heap without duplicate addresses or a block at NULL *)
Definition proper (m : mem) : Prop := NoDup (map fst (blocks m)) /\ ~ In 0 (map fst (blocks m)).

(** All blocks except those at [ps] are as before. *)
Definition untouched (ps : list Z) (m m' : mem) : Prop := forall q, ~ In q ps -> live m' q = live m q.

(** The C library has no memory for the next request. *)
Definition exhausted (m : mem) : Prop := answers m (clock m) = None.

(** The number of blocks in use *)
Definition in_use (m : mem) : Z := zlen (blocks m).

(** The heap of a state; everything else is as before. *)
Definition heap_of {U} (s : state U) : mem := fst (world s).
Definition same_rest {U} (s s' : state U) : Prop :=
  snd (world s') = snd (world s) /\ reallocator s' = reallocator s /\ reallocator_counter s' = reallocator_counter s.

(** Calls of the API *)
Inductive op : Type :=
| OAlloc (size : Z)
| OFree (ptr : Z)
| ORealloc (ptr size : Z)
| OCalloc (nmemb size : Z)
| OSet (f : Z)
| OSetCounter (f : Z)
| OSkew (count : Z).
Definition step {U} (P : program U) (o : op) (s : state U) : res (state U) :=
  match o with
  | OAlloc size => '(_, s) <- fsalloc P size s ;; Ok s
  | OFree ptr => fsfree P ptr s
  | ORealloc ptr size => '(_, s) <- fsrealloc P ptr size s ;; Ok s
  | OCalloc nmemb size => '(_, s) <- fscalloc P nmemb size s ;; Ok s
  | OSet f => Ok (fs_set_reallocator f s)
  | OSetCounter f => Ok (fs_set_reallocator_counter f s)
  | OSkew count => fs_reallocator_skew P count s
  end.
Fixpoint run {U} (P : program U) (ops : list op) (s : state U) : res (state U) :=
  match ops with
  | [] => Ok s
  | o :: ops => s <- step P o s ;; run P ops s
  end.

(** Calls of functions of the application, as it can observe them *)
Inductive event : Type :=
| Reallocator (f ptr size : Z)
| Counter (f count : Z).

(** The program [P], keeping a record of the calls of its functions *)
Definition recorded {U} (P : program U) : program (U * list event) :=
  mk_program
    (fun f ptr size '(m, (u, log)) =>
       '(obj, (m, u)) <- p_reallocator P f ptr size (m, u) ;; Ok (obj, (m, (u, log ++ [Reallocator f ptr size]))))
    (fun f count '(m, (u, log)) =>
       '(m, u) <- p_counter P f count (m, u) ;; Ok (m, (u, log ++ [Counter f count]))).

(** The calls to expect when [f] and [c] are installed *)
Fixpoint expected (ops : list op) (f c : Z) : list event :=
  let to ptr size := if f =? NAIVE then [] else [Reallocator f ptr size] in
  match ops with
  | [] => []
  | OAlloc size :: ops => to 0 size ++ expected ops f c
  | OFree ptr :: ops => (if ptr =? 0 then [] else to ptr 0) ++ expected ops f c
  | ORealloc ptr size :: ops => to ptr size ++ expected ops f c
  | OCalloc nmemb size :: ops => to 0 (size * nmemb mod 2 ^ 64) ++ expected ops f c
  | OSet f' :: ops => expected ops f' c
  | OSetCounter c' :: ops => expected ops f c'
  | OSkew count :: ops => (if c =? DUMMY then [] else [Counter c count]) ++ expected ops f c
  end.
Fixpoint installed (ops : list op) (f : Z) : Z :=
  match ops with
  | [] => f
  | OSet f' :: ops => installed ops f'
  | _ :: ops => installed ops f
  end.
Fixpoint installed_counter (ops : list op) (c : Z) : Z :=
  match ops with
  | [] => c
  | OSetCounter c' :: ops => installed_counter ops c'
  | _ :: ops => installed_counter ops c
  end.

(** An application as include/fsalloc.h (32-62) has it in mind: its reallocator (1) counts the blocks that
    are allocated and released, and its counter (2) corrects the count. *)
Definition statistics : program Z :=
  mk_program
    (fun _ ptr size '(m, n) =>
       '(obj, m) <- naive_realloc ptr size m ;;
       Ok (obj, (m, n + (if (ptr =? 0) && negb (obj =? 0) then 1 else 0) - (if negb (ptr =? 0) && (size =? 0) then 1 else 0))))
    (fun _ count '(m, n) => Ok (m, n + count)).
Definition skew_of (o : op) : Z := match o with OSkew count => count | _ => 0 end.
Definition no_set (o : op) : Prop := match o with OSet _ | OSetCounter _ => False | _ => True end.
(** Sizes are of type size_t. *)
Definition op_ok (o : op) : Prop := match o with OAlloc size => 0 <= size | ORealloc _ size => 0 <= size | _ => True end.
