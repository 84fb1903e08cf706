(** Model of src/fsalloc.c and of charstr_vprintf (src/charstr.c). *)
From Verif Require Import Base.

(** The C library's heap: the allocated blocks by address. [answers] and [clock]: how the
    n-th request for memory is answered; [None] is for lack of memory, and [Some a] suggests the
    address [a], which is taken if it is free. [dirt]: the contents of new memory. So
    all behaviours of a C library are covered by quantifying over the heap. Pointers into the
    middle of a block are not modelled. *)
Record mem := mk_mem { blocks : list (Z * list Z); answers : nat -> option Z; dirt : nat -> nat -> Z; clock : nat }.

Fixpoint find (bs : list (Z * list Z)) (a : Z) : option (list Z) :=
  match bs with
  | [] => None
  | (a', b) :: bs => if a =? a' then Some b else find bs a
  end.
Definition erase (bs : list (Z * list Z)) (a : Z) : list (Z * list Z) := filter (fun x => negb (fst x =? a)) bs.
Definition live (m : mem) (p : Z) : option (list Z) := if p =? 0 then None else find (blocks m) p.

Definition above_all (bs : list (Z * list Z)) : Z := 1 + fold_right (fun x z => Z.max (Z.abs (fst x)) z) 0 bs.
Definition choose (bs : list (Z * list Z)) (a : Z) : Z :=
  if a =? 0 then above_all bs else match find bs a with None => a | Some _ => above_all bs end.

(** realloc(3) of glibc. realloc(NULL, n) is malloc(n), which returns a block for n = 0, too.
    realloc(p, 0) releases p and returns NULL. Otherwise the block may move. *)
Definition libc_realloc (ptr size : Z) (m : mem) : res (Z * mem) :=
  if ptr =? 0 then
    match answers m (clock m) with
    | None => Ok (0, mk_mem (blocks m) (answers m) (dirt m) (S (clock m)))
    | Some a =>
        let p := choose (blocks m) a in
        Ok (p, mk_mem ((p, fresh_block (dirt m (clock m)) size) :: blocks m) (answers m) (dirt m) (S (clock m)))
    end
  else
    match live m ptr with
    | None => UB
    | Some b =>
        let rest := erase (blocks m) ptr in
        if size =? 0 then Ok (0, mk_mem rest (answers m) (dirt m) (clock m))
        else
          match answers m (clock m) with
          | None => Ok (0, mk_mem (blocks m) (answers m) (dirt m) (S (clock m)))
          | Some a =>
              let p := choose rest a in
              Ok (p, mk_mem ((p, firstn (Z.to_nat size) b ++ fresh_block (dirt m (clock m)) (size - zlen b)) :: rest)
                       (answers m) (dirt m) (S (clock m)))
          end
    end.

(** src/fsalloc.c:5-18 naive_realloc, on Linux *)
Definition naive_realloc (ptr size : Z) (m : mem) : res (Z * mem) :=
  '(obj, m) <- libc_realloc ptr size m ;;
  if (obj =? 0) && negb (size =? 0) then Abort else Ok (obj, m).

(** The functions that an application may install, by code address. They may use the heap
    and data of the application (of type [U]). That they call fs_set_reallocator themselves is not
    modelled. *)
Record program (U : Type) := mk_program {
  p_reallocator : Z -> Z -> Z -> mem * U -> res (Z * (mem * U));
  p_counter : Z -> Z -> mem * U -> res (mem * U)
}.
Arguments p_reallocator {U}.
Arguments p_counter {U}.
Arguments mk_program {U}.

(** The heap, the data of the application, and the variables of src/fsalloc.c: 20
    reallocator, 36-37 reallocator_counter. Address 0 stands for naive_realloc and
    dummy_reallocator_counter. *)
Record state (U : Type) := mk_state { world : mem * U; reallocator : Z; reallocator_counter : Z }.
Arguments mk_state {U}.
Arguments world {U}.
Arguments reallocator {U}.
Arguments reallocator_counter {U}.
Definition NAIVE : Z := 0.
Definition DUMMY : Z := 0.
Definition initial {U} (w : mem * U) : state U := mk_state w NAIVE DUMMY.

(** src/fsalloc.c:22-30 *)
Definition fs_set_reallocator {U} (realloc : Z) (s : state U) : state U := mk_state (world s) realloc (reallocator_counter s).
Definition fs_get_reallocator {U} (s : state U) : Z := reallocator s.
(** src/fsalloc.c:39-47 *)
Definition fs_set_reallocator_counter {U} (counter : Z) (s : state U) : state U := mk_state (world s) (reallocator s) counter.
Definition fs_get_reallocator_counter {U} (s : state U) : Z := reallocator_counter s.
(** src/fsalloc.c:49-52; 32-34 dummy_reallocator_counter *)
Definition fs_reallocator_skew {U} (P : program U) (count : Z) (s : state U) : res (state U) :=
  w <- (if reallocator_counter s =? DUMMY then Ok (world s) else p_counter P (reallocator_counter s) count (world s)) ;;
  Ok (mk_state w (reallocator s) (reallocator_counter s)).

(** A call through the variable reallocator *)
Definition call {U} (P : program U) (ptr size : Z) (s : state U) : res (Z * state U) :=
  if reallocator s =? NAIVE then
    '(obj, m) <- naive_realloc ptr size (fst (world s)) ;;
    Ok (obj, mk_state (m, snd (world s)) (reallocator s) (reallocator_counter s))
  else
    '(obj, w) <- p_reallocator P (reallocator s) ptr size (world s) ;;
    Ok (obj, mk_state w (reallocator s) (reallocator_counter s)).

(** src/fsalloc.c:54-57 *)
Definition fsalloc {U} (P : program U) (size : Z) (s : state U) : res (Z * state U) := call P 0 size s.
(** src/fsalloc.c:59-63 *)
Definition fsfree {U} (P : program U) (ptr : Z) (s : state U) : res (state U) :=
  if truth ptr then '(_, s) <- call P ptr 0 s ;; Ok s else Ok s.
(** src/fsalloc.c:65-68 *)
Definition fsrealloc {U} (P : program U) (ptr size : Z) (s : state U) : res (Z * state U) := call P ptr size s.

(** Writing [d] at the beginning of a block *)
Definition store (ptr : Z) (d : list Z) (m : mem) : res mem :=
  match live m ptr with
  | None => UB
  | Some b =>
      if zlen d <=? zlen b then
        Ok (mk_mem ((ptr, d ++ skipn (length d) b) :: erase (blocks m) ptr) (answers m) (dirt m) (clock m))
      else UB
  end.
(** src/fsalloc.c:70-77 *)
Definition fscalloc {U} (P : program U) (nmemb size : Z) (s : state U) : res (Z * state U) :=
  let size := u64 (size * nmemb) in
  '(obj, s) <- fsalloc P size s ;;
  if negb (obj =? 0) then
    m <- store obj (repeat 0 (Z.to_nat size)) (fst (world s)) ;;
    Ok (obj, mk_state (m, snd (world s)) (reallocator s) (reallocator_counter s))
  else Ok (obj, s).

(** src/charstr.c:714-728 charstr_vprintf (and 730-737 charstr_printf). [output]: what the C library makes of
    the format and the arguments, [None] for an error. vsnprintf reports output
    of more than INT_MAX bytes as an error. *)
Definition EILSEQ : Z := 84.
Definition vsnprintf_length (output : option (list Z)) : Z :=
  match output with
  | Some out => if zlen out <=? INT_MAX then zlen out else -1
  | None => -1
  end.
Definition charstr_vprintf {U} (P : program U) (output : option (list Z)) (errno : Z) (s : state U) : res (Z * Z * state U) :=
  let length := vsnprintf_length output in
  if length <? 0 then Ok (0, EILSEQ, s)
  else
    '(buffer, s) <- fsalloc P (length + 1) s ;;
    if negb (buffer =? 0) then
      match output with
      | Some out =>
          m <- store buffer (out ++ [0]) (fst (world s)) ;;
          Ok (buffer, errno, mk_state (m, snd (world s)) (reallocator s) (reallocator_counter s))
      | None => UB
      end
    else Ok (buffer, errno, s).
