(** Several byte arrays and the caller's buffers, as byte sequences. *)
From Verif Require Import Base CMem ByteArrayModel ByteArraySpec ByteMemModel.

(** An array: its bytes, the limit it was made with, the number of references to
    it, and the largest number of bytes it has been asked to hold (and was
    allowed to). *)
Record sarr := Sarr { content : list Z; limit : Z; owners : Z; reached : Z }.
(** The arrays in the order in which they were made (None: destroyed), and the
    caller's buffers. *)
Record world := World { arrs : list (option sarr); bufs : list (list Z) }.

(** Where the bytes given to an operation are: in a buffer of the caller, or in
    an array ([byte_array_data] plus an offset). *)
Inductive source := Buf (k : nat) (off : Z) | Own (k : nat) (off : Z).

Inductive cmd :=
| NewBuf (l : list Z)
| Make (max_size : Z)
| Share (k : nat)
| Drop (k : nat)                                        (* destroy_byte_array *)
| Append (k : nat) (src : source) (len : Z)
| AppendString (k : nat) (src : source)
| Copy (k : nat) (pos : Z) (src : source) (len : Z)
| CopyString (k : nat) (pos : Z) (src : source)
| Stream (k : nat) (cb : read_cb) (len : Z)
| Clear (k : nat)
| Resize (k : nat) (n c : Z).

Definition slot (w : world) (k : nat) : option sarr :=
  match nth_error (arrs w) k with Some (Some s) => Some s | _ => None end.

(** All bytes behind a source. *)
Definition source_all (w : world) (src : source) : option (list Z) :=
  match src with
  | Buf k off =>
      match nth_error (bufs w) k with
      | Some l => if (0 <=? off) && (off <=? zlen l) then Some (skipn (Z.to_nat off) l) else None
      | None => None
      end
  | Own k off =>
      match slot w k with
      | Some s => if (0 <=? off) && (off <=? zlen (content s))
                  then Some (skipn (Z.to_nat off) (content s)) else None
      | None => None
      end
  end.
(** [len] of them, if there are as many. *)
Definition source_bytes (w : world) (src : source) (len : Z) : option (list Z) :=
  match source_all w src with
  | Some l => if (0 <=? len) && (len <=? zlen l) then Some (firstn (Z.to_nat len) l) else None
  | None => None
  end.
(** Those before the first NUL. In a buffer there must be one; the content of an
    array is followed by one. *)
Fixpoint before_nul (l : list Z) : list Z :=
  match l with
  | [] => []
  | c :: l => if c =? 0 then [] else c :: before_nul l
  end.
Definition source_string (w : world) (src : source) : option (list Z) :=
  match source_all w src, src with
  | Some l, Buf _ _ => if existsb (Z.eqb 0) l then Some (before_nul l) else None
  | Some l, Own _ _ => Some (before_nul l)
  | None, _ => None
  end.

(** The array at place [k] of the world replaced. *)
Definition set_slot (w : world) (k : nat) (s : option sarr) : world :=
  World (upd (arrs w) k s) (bufs w).
(** The array asked to hold [n] bytes, and to contain [l] after that. *)
Definition hold (s : sarr) (n : Z) (l : list Z) : sarr :=
  Sarr l (limit s) (owners s) (Z.max (reached s) n).

(** The room an array has without moving: 128 bytes or its limit at first, then
    the power of two that was needed (less one byte at the end of memory). *)
Definition room (s : sarr) : Z :=
  if reached s <? 128 then Z.min 128 (limit s)
  else Z.min (2 ^ 64 - 1) (2 ^ Z.log2_up (reached s + 1)).

(** [d] appended or copied to [pos]; the answer of the function. *)
Definition do_append (s : sarr) (d : list Z) : sarr * Z :=
  let n := zlen (content s) + zlen d in
  if n <? limit s then (hold s n (content s ++ d), 1) else (s, 0).
Definition do_copy (s : sarr) (pos : Z) (d : list Z) : sarr * Z :=
  let n := pos + zlen d in
  if (pos <=? zlen (content s)) && (n <? limit s)
  then (hold s n (firstn (Z.to_nat pos) (content s) ++ d ++ skipn (Z.to_nat n) (content s)), 1)
  else (s, 0).
Definition do_resize (s : sarr) (n c : Z) : sarr * Z :=
  if n <? limit s
  then (hold s n (firstn (Z.to_nat n) (content s) ++ repeat c (Z.to_nat (n - zlen (content s)))), 1)
  else (s, 0).
Definition do_stream (s : sarr) (cb : read_cb) (len : Z) : sarr * Z :=
  let n := ask (limit s) (content s) len in
  if (0 <? len) && (n =? 0) then (s, -1)
  else
    let '(w, count, _) := cb n in
    (hold s (zlen (content s) + n)
       (if count >? 0 then content s ++ firstn (Z.to_nat count) w else content s), count).

(** One command: the next world and the answer (0 for functions that return
    nothing or a pointer). None: the command makes no sense there. *)
Definition on (w : world) (k : nat) (f : sarr -> sarr * Z) : option (world * Z) :=
  match slot w k with
  | Some s => let '(s, r) := f s in Some (set_slot w k (Some s), r)
  | None => None
  end.
Definition wstep (w : world) (c : cmd) : option (world * Z) :=
  match c with
  | NewBuf l => Some (World (arrs w) (bufs w ++ [l]), 0)
  | Make m => Some (World (arrs w ++ [Some (Sarr [] m 1 0)]) (bufs w), 0)
  | Share k => on w k (fun s => (Sarr (content s) (limit s) (owners s + 1) (reached s), 0))
  | Drop k =>
      match slot w k with
      | Some s =>
          Some (set_slot w k (if owners s =? 1 then None
                              else Some (Sarr (content s) (limit s) (owners s - 1) (reached s))), 0)
      | None => None
      end
  | Append k src len =>
      match source_bytes w src len with Some d => on w k (fun s => do_append s d) | None => None end
  | AppendString k src =>
      match source_string w src with Some d => on w k (fun s => do_append s d) | None => None end
  | Copy k pos src len =>
      match source_bytes w src len with Some d => on w k (fun s => do_copy s pos d) | None => None end
  | CopyString k pos src =>
      match source_string w src with Some d => on w k (fun s => do_copy s pos d) | None => None end
  | Stream k cb len => on w k (fun s => do_stream s cb len)
  | Clear k => on w k (fun s => (hold s 0 [], 0))
  | Resize k n c => on w k (fun s => do_resize s n c)
  end.

(** Arguments in the range of their types, callbacks that behave, and no more
    than 2^32 - 1 references. *)
Definition args_ok (w : world) (c : cmd) : Prop :=
  match c with
  | NewBuf l => zlen l < 2 ^ 64
  | Make m => 1 <= m < 2 ^ 64
  | Share k => forall s, slot w k = Some s -> owners s < 2 ^ 32 - 1
  | Copy _ pos _ _ | CopyString _ pos _ => 0 <= pos < 2 ^ 64
  | Stream _ cb len => 0 <= len < 2 ^ 64 /\ cb_ok cb /\ cb_clean cb
  | Resize _ n _ => 0 <= n < 2 ^ 64
  | _ => True
  end.

(** The number of bytes the array has to hold for an append or a copy. *)
Definition holds_after (w : world) (c : cmd) (s : sarr) : option Z :=
  let len o := match o with Some d => zlen d | None => 0 end in
  match c with
  | Append _ src n => Some (zlen (content s) + n)
  | AppendString _ src => Some (zlen (content s) + len (source_string w src))
  | Copy _ pos src n => if pos <=? zlen (content s) then Some (pos + n) else None
  | CopyString _ pos src =>
      if pos <=? zlen (content s) then Some (pos + len (source_string w src)) else None
  | _ => None
  end.
Definition source_of (c : cmd) : option (nat * source) :=
  match c with
  | Append k src _ | AppendString k src | Copy k _ src _ | CopyString k _ src => Some (k, src)
  | _ => None
  end.
(** The command gives an array some of its own bytes ... *)
Definition from_itself (c : cmd) (k : nat) : Prop :=
  exists off, source_of c = Some (k, Own k off).
(** ... and the array has to move for them. *)
Definition moves (w : world) (c : cmd) (k : nat) : Prop :=
  exists s n, slot w k = Some s /\ holds_after w c s = Some n /\ room s <= n < limit s.

Definition no_moving_source (w : world) (c : cmd) : Prop :=
  forall k, from_itself c k -> ~ moves w c k.

(** A history: every command makes sense, has legal arguments and takes nothing
    from an array that has to move. *)
Inductive history : world -> list cmd -> world -> list Z -> Prop :=
| done w : history w [] w []
| then_ w c w1 r cs w2 rs :
    wstep w c = Some (w1, r) -> args_ok w c -> no_moving_source w c ->
    history w1 cs w2 rs -> history w (c :: cs) w2 (r :: rs).
Definition empty : world := World [] [].

(** * The program that carries out the commands *)

(** Its variables: the memory, the arrays and the buffers it has made. *)
Record state := State { memory : mem; made : list Z; buffers : list Z }.

Definition the {A} (l : list A) (k : nat) : res A :=
  match nth_error l k with Some x => Ok x | None => UB end.
Definition pointer (st : state) (src : source) : res ptr :=
  match src with
  | Buf k off => b <- the (buffers st) k ;; Ok (b, off)
  | Own k off =>
      x <- the (made st) k ;;
      p <- p_byte_array_data (memory st) x ;;
      Ok (fst p, snd p + off)
  end.
Definition b2z (b : bool) : Z := if b then 1 else 0.
Definition keep (st : state) (m : mem) : state := State m (made st) (buffers st).

Definition exec (junk : nat -> Z) (st : state) (c : cmd) : res (state * Z) :=
  let m := memory st in
  match c with
  | NewBuf l =>
      let '(b, m) := new_block m l in Ok (State m (made st) (buffers st ++ [b]), 0)
  | Make n =>
      '(x, m) <- p_make_byte_array junk m n ;; Ok (State m (made st ++ [x]) (buffers st), 0)
  | Share k => x <- the (made st) k ;; m <- p_share_byte_array m x ;; Ok (keep st m, 0)
  | Drop k => x <- the (made st) k ;; m <- p_destroy_byte_array m x ;; Ok (keep st m, 0)
  | Append k src len =>
      x <- the (made st) k ;; p <- pointer st src ;;
      '(b, m) <- p_byte_array_append junk m x p len ;; Ok (keep st m, b2z b)
  | AppendString k src =>
      x <- the (made st) k ;; p <- pointer st src ;;
      '(b, m) <- p_byte_array_append_string junk m x p ;; Ok (keep st m, b2z b)
  | Copy k pos src len =>
      x <- the (made st) k ;; p <- pointer st src ;;
      '(b, m) <- p_byte_array_copy junk m x pos p len ;; Ok (keep st m, b2z b)
  | CopyString k pos src =>
      x <- the (made st) k ;; p <- pointer st src ;;
      '(b, m) <- p_byte_array_copy_string junk m x pos p ;; Ok (keep st m, b2z b)
  | Stream k cb len =>
      x <- the (made st) k ;;
      '(n, m) <- p_byte_array_append_stream junk m x cb len ;; Ok (keep st m, n)
  | Clear k => x <- the (made st) k ;; m <- p_byte_array_clear m x ;; Ok (keep st m, 0)
  | Resize k n c =>
      x <- the (made st) k ;;
      '(b, m) <- p_byte_array_resize junk m x n c ;; Ok (keep st m, b2z b)
  end.
(** [junk] gives the content of newly allocated memory, differently for every
    command. *)
Fixpoint exec_all (junk : nat -> nat -> Z) (st : state) (cs : list cmd) : res (state * list Z) :=
  match cs with
  | [] => Ok (st, [])
  | c :: cs =>
      '(st, r) <- exec (junk O) st c ;;
      '(st, rs) <- exec_all (fun i => junk (S i)) st cs ;;
      Ok (st, r :: rs)
  end.

(** A memory in which nothing is beyond [next], and nothing has been. *)
Definition fresh (m : mem) : Prop :=
  (forall x, next m <= x -> arrays m x = None /\ blocks m x = None) /\
  Forall (fun e => fst e < next m) (moved m).
Definition begin (m : mem) : state := State m [] [].

(** * What can be seen of the world *)
Definition sees (w : world) (st : state) : Prop :=
  length (made st) = length (arrs w) /\ length (buffers st) = length (bufs w) /\
  (forall k x, nth_error (made st) k = Some x ->
     match slot w k with
     | Some s =>
         p_byte_array_size (memory st) x = Ok (zlen (content s)) /\
         exists p, p_byte_array_data (memory st) x = Ok p /\
           load (memory st) p (zlen (content s) + 1) = Ok (content s ++ [0])
     | None => arrays (memory st) x = None
     end) /\
  (forall k b l, nth_error (buffers st) k = Some b -> nth_error (bufs w) k = Some l ->
     blocks (memory st) b = Some l).

(** What was in the memory before is untouched. *)
Definition untouched (m m' : mem) : Prop :=
  (forall x a, arrays m x = Some a -> arrays m' x = Some a) /\
  (forall b l, blocks m b = Some l -> blocks m' b = Some l).

(** All that is allocated beyond what was before: the buffers, the arrays that
    have not been destroyed, and one block for each of them. *)
Definition no_leak (w : world) (m : mem) (st : state) : Prop :=
  (forall x, arrays (memory st) x <> None ->
     arrays m x <> None \/
     exists k s, nth_error (made st) k = Some x /\ slot w k = Some s) /\
  (forall b, blocks (memory st) b <> None ->
     blocks m b <> None \/ In b (buffers st) \/
     exists k s x, nth_error (made st) k = Some x /\ slot w k = Some s /\
       p_byte_array_data (memory st) x = Ok (b, 0)).

(** The reallocations made for the array at [x]: bytes before and after. *)
Definition moved_for (m : mem) (x : Z) : list (Z * Z) :=
  map snd (filter (fun e => fst e =? x) (moved m)).
Definition sum (l : list Z) : Z := fold_right Z.add 0 l.
