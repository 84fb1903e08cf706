(** A byte array as a bounded byte sequence. *)
From Verif Require Import Base CMem ByteArrayModel.

Inductive op :=
| Append (d : list Z)
| AppendString (s : list Z)           (* the characters before the NUL *)
| Copy (pos : Z) (d : list Z)
| CopyString (pos : Z) (s : list Z)
| Resize (n c : Z)
| Clear
| Stream (len : Z) (cb : read_cb).

(** The number of bytes a stream append asks for when [l] is the content. *)
Definition ask (m : Z) (l : list Z) (len : Z) : Z := Z.min len (m - 1 - zlen l).

(** The intended sequence after the operation, regardless of room; None: the
    operation is not possible (copy behind the end, stream without room). *)
Definition intended (m : Z) (l : list Z) (o : op) : option (list Z) :=
  match o with
  | Append d | AppendString d => Some (l ++ d)
  | Copy pos d | CopyString pos d =>
      if pos <=? zlen l then Some (firstn (Z.to_nat pos) l ++ d ++ skipn (Z.to_nat (pos + zlen d)) l)
      else None
  | Resize n c => Some (firstn (Z.to_nat n) l ++ repeat c (Z.to_nat (n - zlen l)))
  | Clear => Some []
  | Stream len cb =>
      if (0 <? len) && (ask m l len =? 0) then None
      else let '(w, count, _) := cb (ask m l len) in
           Some (if count >? 0 then l ++ firstn (Z.to_nat count) w else l)
  end.

(** With room for [m] bytes including the NUL: new content and success. *)
Definition spec_step (m : Z) (l : list Z) (o : op) : list Z * bool :=
  match intended m l o with
  | Some l' => if zlen l' <? m then (l', true) else (l, false)
  | None => (l, false)
  end.
Fixpoint spec_run (m : Z) (l : list Z) (ops : list op) : list Z * list bool :=
  match ops with
  | [] => (l, [])
  | o :: ops =>
      let '(l, b) := spec_step m l o in
      let '(l, bs) := spec_run m l ops in
      (l, b :: bs)
  end.

(** Legal arguments: size_t numbers, strings without NUL, and a callback that
    stays within the buffer and reports no more than it stored ... *)
Definition cb_ok (cb : read_cb) : Prop :=
  forall n, 0 <= n -> let '(w, count, _) := cb n in zlen w <= n /\ count <= zlen w.
Definition op_ok (o : op) : Prop :=
  match o with
  | Append d => zlen d < 2 ^ 64
  | AppendString s => zlen s < 2 ^ 64 /\ no_nul s
  | Copy pos d => 0 <= pos < 2 ^ 64 /\ zlen d < 2 ^ 64
  | CopyString pos s => 0 <= pos < 2 ^ 64 /\ zlen s < 2 ^ 64 /\ no_nul s
  | Resize n c => 0 <= n < 2 ^ 64
  | Clear => True
  | Stream len cb => 0 <= len < 2 ^ 64 /\ cb_ok cb
  end.
(** ... and does not touch the buffer when it delivers nothing. *)
Definition cb_clean (cb : read_cb) : Prop :=
  forall n, let '(w, count, _) := cb n in count <= 0 -> w = [].
Definition op_clean (o : op) : Prop :=
  match o with Stream _ cb => cb_clean cb | _ => True end.

(** The operations carried out by the model's functions; for streams success
    means that the callback was called. *)
Definition step (junk : nat -> Z) (a : byte_array) (o : op) : res (byte_array * bool) :=
  match o with
  | Append d => byte_array_append junk a d (zlen d)
  | AppendString s => byte_array_append_string junk a (s ++ [0])
  | Copy pos d => byte_array_copy junk a pos d (zlen d)
  | CopyString pos s => byte_array_copy_string junk a pos (s ++ [0])
  | Resize n c => byte_array_resize junk a n c
  | Clear => a <- byte_array_clear a ;; Ok (a, true)
  | Stream len cb =>
      '(a, called, _) <- byte_array_append_stream junk a cb len ;;
      Ok (a, match called with Some _ => true | None => false end)
  end.
Fixpoint run (a : byte_array) (ops : list ((nat -> Z) * op)) : res (byte_array * list bool) :=
  match ops with
  | [] => Ok (a, [])
  | (junk, o) :: ops =>
      '(a, b) <- step junk a o ;;
      '(a, bs) <- run a ops ;;
      Ok (a, b :: bs)
  end.
Definition run_new (junk : nat -> Z) (m : Z) (ops : list ((nat -> Z) * op)) : res (byte_array * list bool) :=
  a <- make_byte_array junk m ;; run a ops.

(** Sharing. *)
Inductive ref_op := Share | Destroy.
(** References left after the operations. *)
Fixpoint refs (n : Z) (ops : list ref_op) : Z :=
  match ops with
  | [] => n
  | Share :: ops => refs (n + 1) ops
  | Destroy :: ops => refs (n - 1) ops
  end.
(** All of them are made through a live reference, and there are never more
    than 2^32 - 1. *)
Fixpoint refs_ok (n : Z) (ops : list ref_op) : Prop :=
  match ops with
  | [] => True
  | Share :: ops => 0 < n < 2 ^ 32 - 1 /\ refs_ok (n + 1) ops
  | Destroy :: ops => 0 < n /\ refs_ok (n - 1) ops
  end.
(** None: the array has been freed; using it then is undefined. *)
Fixpoint ref_run (a : option byte_array) (ops : list ref_op) : res (option byte_array) :=
  match ops with
  | [] => Ok a
  | o :: ops =>
      match a, o with
      | None, _ => UB
      | Some a, Share => ref_run (Some (share_byte_array a)) ops
      | Some a, Destroy => ref_run (destroy_byte_array a) ops
      end
  end.
