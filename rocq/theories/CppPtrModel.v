(** The C++ parts of the headers: smart pointers to fsalloc blocks, byte arrays and URL encoders
    (include/fsalloc.h:66-87, include/bytearray.h:49-72, include/charstr.h:345-366). The headers
    instantiate std::unique_ptr with a deleter of the type std::function; the operations of these
    two classes are modelled as the C++ standard describes them ([unique.ptr.single],
    [func.wrap.func]). The effect of the operations is the list of calls of C functions. *)
From Verif Require Import Base.
Open Scope list_scope.
Open Scope Z_scope.

(** The three types: include/fsalloc.h:73-74 AllocPtr (for any T), include/bytearray.h:59-60
    ByteArrayPtr, include/charstr.h:353-355 CharstrUrlEncoderPtr *)
Inductive kind := AllocPtr | ByteArrayPtr | CharstrUrlEncoderPtr.

(** The C functions that destroy an object *)
Inductive cfun := C_fsfree | C_destroy_byte_array | C_charstr_destroy_url_encoder.

(** A smart pointer: the stored pointer (NULL is 0) and the stored deleter, a std::function that
    may be empty *)
Record smart := mk_smart { s_kind : kind; s_ptr : Z; s_del : option cfun }.

(** The variables of the program in the order of their creation ([None]: out of scope), the calls
    of C functions so far and the pointers that [release] has given back to the program. *)
Record cpp := mk_cpp { c_vars : list (option smart); c_calls : list (cfun * Z); c_released : list (kind * Z) }.

Fixpoint upd (vars : list (option smart)) (v : nat) (x : option smart) : list (option smart) :=
  match vars, v with
  | [], _ => []
  | _ :: vars, O => x :: vars
  | y :: vars, S v => y :: upd vars v x
  end.
(** A variable that is not in scope: not a C++ program ([UB]). *)
Definition var (st : cpp) (v : nat) : res smart :=
  match nth_error (c_vars st) v with Some (Some x) => Ok x | _ => UB end.
Definition set_var (st : cpp) (v : nat) (x : option smart) : cpp := mk_cpp (upd (c_vars st) v x) (c_calls st) (c_released st).
Definition new_var (st : cpp) (x : smart) : cpp := mk_cpp (c_vars st ++ [Some x]) (c_calls st) (c_released st).
Definition same_kind (a b : kind) : bool :=
  match a, b with
  | AllocPtr, AllocPtr | ByteArrayPtr, ByteArrayPtr | CharstrUrlEncoderPtr, CharstrUrlEncoderPtr => true
  | _, _ => false
  end.

(** include/fsalloc.h:78-82 make_fsalloc_ptr, include/bytearray.h:64-67 make_byte_array_ptr,
    include/charstr.h:357-361 make_charstr_url_encoder_ptr *)
Definition make_ptr (k : kind) (p : Z) : smart :=
  match k with
  | AllocPtr => mk_smart AllocPtr p (Some C_fsfree)
  | ByteArrayPtr => mk_smart ByteArrayPtr p (Some C_destroy_byte_array)
  | CharstrUrlEncoderPtr => mk_smart CharstrUrlEncoderPtr p (Some C_charstr_destroy_url_encoder)
  end.

(** get_deleter()(p): an empty std::function throws, and as reset and the destructor are noexcept,
    that ends the program. *)
Definition call_deleter (st : cpp) (d : option cfun) (p : Z) : res cpp :=
  match d with
  | None => Abort
  | Some f => Ok (mk_cpp (c_vars st) (c_calls st ++ [(f, p)]) (c_released st))
  end.
(** unique_ptr::reset(p): the old pointer is deleted after the new one has been stored. *)
Definition reset (st : cpp) (v : nat) (p : Z) : res cpp :=
  x <- var st v ;;
  let st := set_var st v (Some (mk_smart (s_kind x) p (s_del x))) in
  if s_ptr x =? 0 then Ok st else call_deleter st (s_del x) (s_ptr x).
(** unique_ptr::release() *)
Definition release (st : cpp) (v : nat) : res (Z * cpp) :=
  x <- var st v ;;
  Ok (s_ptr x, set_var st v (Some (mk_smart (s_kind x) 0 (s_del x)))).
(** The assignment of a deleter. *)
Definition set_deleter (st : cpp) (v : nat) (d : option cfun) : res cpp :=
  x <- var st v ;;
  Ok (set_var st v (Some (mk_smart (s_kind x) (s_ptr x) d))).
(** ~unique_ptr() *)
Definition destroy (st : cpp) (v : nat) : res cpp :=
  x <- var st v ;;
  let st := set_var st v None in
  if s_ptr x =? 0 then Ok st else call_deleter st (s_del x) (s_ptr x).

(** What a program does with smart pointers. A std::function that has been moved from is in an
    unspecified state: [keeps] says whether the implementation leaves its target there. *)
Inductive op :=
| Default (k : kind)                 (* T v; *)
| Make (k : kind) (p : Z)            (* T v = make_..._ptr(p); *)
| Assign (k : kind) (v : nat) (p : Z)(* v = make_..._ptr(p); *)
| MoveNew (w : nat) (keeps : bool)   (* T v = std::move(w); *)
| MoveAssign (v w : nat) (keeps : bool) (* v = std::move(w); *)
| Swap (v w : nat)                   (* v.swap(w); *)
| Reset (k : kind) (v : nat) (p : Z) (* v.reset(p); *)
| Release (v : nat)                  (* v.release() *)
| Destroy (v : nat).                 (* v goes out of scope *)

Definition step (st : cpp) (o : op) : res cpp :=
  match o with
  | Default k => Ok (new_var st (mk_smart k 0 None))
  | Make k p => Ok (new_var st (make_ptr k p))
  | Assign k v p =>
      x <- var st v ;;
      if same_kind (s_kind x) k then
        let tmp := make_ptr k p in
        st <- reset st v (s_ptr tmp) ;;
        set_deleter st v (s_del tmp)
      else UB
  | MoveNew w keeps =>
      x <- var st w ;;
      '(p, st) <- release st w ;;
      st <- (if (keeps : bool) then Ok st else set_deleter st w None) ;;
      Ok (new_var st (mk_smart (s_kind x) p (s_del x)))
  | MoveAssign v w keeps =>
      x <- var st v ;;
      y <- var st w ;;
      if same_kind (s_kind x) (s_kind y) then
        '(p, st) <- release st w ;;
        st <- reset st v p ;;
        st <- (if (keeps : bool) then Ok st else set_deleter st w None) ;;
        set_deleter st v (s_del y)
      else UB
  | Swap v w =>
      x <- var st v ;;
      y <- var st w ;;
      if same_kind (s_kind x) (s_kind y) then Ok (set_var (set_var st v (Some y)) w (Some x)) else UB
  | Reset k v p =>
      x <- var st v ;;
      if same_kind (s_kind x) k then reset st v p else UB
  | Release v =>
      x <- var st v ;;
      '(p, st) <- release st v ;;
      Ok (if p =? 0 then st else mk_cpp (c_vars st) (c_calls st) (c_released st ++ [(s_kind x, p)]))
  | Destroy v => destroy st v
  end.
Fixpoint run (st : cpp) (os : list op) : res cpp :=
  match os with
  | [] => Ok st
  | o :: os => st <- step st o ;; run st os
  end.
(** The beginning of a program *)
Definition start : cpp := mk_cpp [] [] [].
