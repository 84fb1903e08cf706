(** Programs that use many integer sets, priority queues and byte arrays at once: what they should
    do, and how they are run. *)
From Verif Require Import Base CMem Heap ListSpec IntsetModel IntsetSpec PriorqModel PriorqSpec ObjModel ByteHeapModel OwnSpec.
From Verif Require ByteArrayModel ByteArraySpec.

(** The calls of the public functions. [k]: the k-th object made, counting from 0. Queues take a
    code pointer of a comparison function. *)
Inductive call : Type :=
| MakeSet (size : Z)
| SetFill (k : nat)
| SetAdd (k : nat) (elem : Z)
| SetRemove (k : nat) (elem : Z)
| SetHas (k : nat) (elem : Z)
| SetNext (k : nat) (elem : Z) (hit : bool)
| DestroySet (k : nat)
| MakeQueue (cmp : Z)
| Enqueue (k : nat) (value : Z)
| Dequeue (k : nat)
| Peek (k : nat)
| Pop (k : nat)
| Remove (k : nat) (loc : Z)
| Size (k : nat)
| DestroyQueue (k : nat)
| MakeBytes (max : Z)
| OnBytes (k : nat) (o : ByteArraySpec.op)       (* an operation with data of the caller, see ByteArraySpec.v *)
| AppendBytes (k j : nat) (i len : Z)            (* byte_array_append(k, byte_array_data(j) + i, len) *)
| ByteAt (k : nat) (i : Z)                       (* byte_array_data(k)[i] *)
| BytesSize (k : nat)
| ShareBytes (k : nat)
| DestroyBytes (k : nat).

(** What a program sees of a call: the value returned (0 for none), and the calls of the reloc
    callback, most recent first, or of the read callback of byte_array_append_stream (the number
    of bytes asked for, 0). *)
Definition seen : Type := Z * relocs.

(** * Objects as values: each one lives alone, only the calls for it matter *)

Inductive object : Type :=
| Gone
| Set_ (s : intset)
| Queue (cmp : Z) (q : priorq)
| Bytes (a : ByteArrayModel.byte_array).

Definition quiet (q : priorq) : priorq := Priorq (storage q) (capacity q) (max_capacity q) [].
Definition put_object (k : nat) (o : object) (os : list object) : list object := firstn k os ++ o :: skipn (S k) os.

Definition a_set (k : nat) (os : list object) : res intset :=
  match nth_error os k with Some (Set_ s) => Ok s | _ => UB end.
Definition a_queue (k : nat) (os : list object) : res (Z * priorq) :=
  match nth_error os k with Some (Queue f q) => Ok (f, q) | _ => UB end.
Definition a_bytes (k : nat) (os : list object) : res ByteArrayModel.byte_array :=
  match nth_error os k with Some (Bytes a) => Ok a | _ => UB end.

(** The operations of ByteArraySpec.v, with the value returned. *)
Definition asked (n : option Z) : relocs := match n with Some n => [(n, 0)] | None => [] end.
Definition bytes_step (junk : nat -> Z) (a : ByteArrayModel.byte_array) (o : ByteArraySpec.op) : res (ByteArrayModel.byte_array * seen) :=
  match o with
  | ByteArraySpec.Stream len cb =>
      ' (a, n, count) <- ByteArrayModel.byte_array_append_stream junk a cb len ;; Ok (a, (count, asked n))
  | ByteArraySpec.Clear => a <- ByteArrayModel.byte_array_clear a ;; Ok (a, (0, []))
  | o => ' (a, ok) <- ByteArraySpec.step junk a o ;; Ok (a, (Z.b2z ok, []))
  end.
(** The rest of a block, from byte [i] on. *)
Definition from (b : list Z) (i : Z) : res (list Z) :=
  if (0 <=? i) && (i <=? zlen b) then Ok (skipn (Z.to_nat i) b) else UB.

Definition alone (code : Z -> Z -> Z -> Z) (junk : nat -> Z) (c : call) (os : list object) : res (seen * list object) :=
  match c with
  | MakeSet size => Ok ((0, []), os ++ [Set_ (make_intset size)])
  | SetFill k => s <- a_set k os ;; s <- intset_fill s ;; Ok ((0, []), put_object k (Set_ s) os)
  | SetAdd k e => s <- a_set k os ;; s <- intset_add s e ;; Ok ((0, []), put_object k (Set_ s) os)
  | SetRemove k e => s <- a_set k os ;; s <- intset_remove s e ;; Ok ((0, []), put_object k (Set_ s) os)
  | SetHas k e => s <- a_set k os ;; b <- intset_has s e ;; Ok ((Z.b2z b, []), os)
  | SetNext k e hit => s <- a_set k os ;; z <- intset_find_next s e hit ;; Ok ((z, []), os)
  | DestroySet k => s <- a_set k os ;; Ok ((0, []), put_object k Gone os)
  | MakeQueue f => Ok ((0, []), os ++ [Queue f make_priority_queue])
  | Enqueue k v =>
      ' (f, q) <- a_queue k os ;; q <- priorq_enqueue (code f) junk q v ;;
      Ok ((0, calls q), put_object k (Queue f (quiet q)) os)
  | Dequeue k =>
      ' (f, q) <- a_queue k os ;; ' (q, v) <- priorq_dequeue (code f) q ;;
      Ok ((v, calls q), put_object k (Queue f (quiet q)) os)
  | Peek k => ' (f, q) <- a_queue k os ;; v <- priorq_peek q ;; Ok ((v, []), os)
  | Pop k => ' (f, q) <- a_queue k os ;; ' (q, v) <- priorq_pop q ;; Ok ((v, []), put_object k (Queue f (quiet q)) os)
  | Remove k loc =>
      ' (f, q) <- a_queue k os ;; ' (q, v) <- priorq_remove (code f) q loc ;;
      Ok ((v, calls q), put_object k (Queue f (quiet q)) os)
  | Size k => ' (f, q) <- a_queue k os ;; Ok ((priorq_size q, []), os)
  | DestroyQueue k => ' (f, q) <- a_queue k os ;; Ok ((0, []), put_object k Gone os)
  | MakeBytes m => a <- ByteArrayModel.make_byte_array junk m ;; Ok ((0, []), os ++ [Bytes a])
  | OnBytes k o => a <- a_bytes k os ;; ' (a, v) <- bytes_step junk a o ;; Ok (v, put_object k (Bytes a) os)
  | AppendBytes k j i len =>
      if Nat.eqb k j then UB
      else
        a <- a_bytes k os ;; b <- a_bytes j os ;; s <- from (ByteArrayModel.byte_array_data b) i ;;
        ' (a, ok) <- ByteArrayModel.byte_array_append junk a s len ;; Ok ((Z.b2z ok, []), put_object k (Bytes a) os)
  | ByteAt k i => a <- a_bytes k os ;; v <- rd (ByteArrayModel.byte_array_data a) i ;; Ok ((v, []), os)
  | BytesSize k => a <- a_bytes k os ;; Ok ((ByteArrayModel.byte_array_size a, []), os)
  | ShareBytes k => a <- a_bytes k os ;; Ok ((0, []), put_object k (Bytes (ByteArrayModel.share_byte_array a)) os)
  | DestroyBytes k =>
      a <- a_bytes k os ;;
      Ok ((0, []), put_object k (match ByteArrayModel.destroy_byte_array a with Some a => Bytes a | None => Gone end) os)
  end.
Fixpoint alone_all (code : Z -> Z -> Z -> Z) (junk : nat -> Z) (cs : list call) (os : list object) : res (list seen * list object) :=
  match cs with
  | [] => Ok ([], os)
  | c :: cs =>
      ' (v, os) <- alone code junk c os ;;
      ' (vs, os) <- alone_all code junk cs os ;;
      Ok (v :: vs, os)
  end.

(** * The same on one heap. The program keeps the pointers it got, [ps]. *)

Definition pointer (k : nat) (ps : list Z) : M Z := match nth_error ps k with Some p => ret p | None => fail end.
(** The k-th pointer is [p] from now on. *)
Definition put_pointer (k : nat) (p : Z) (ps : list Z) : list Z := firstn k ps ++ p :: skipn (S k) ps.
Definition nothing : seen := (0, []).
(** A buffer of the caller. *)
Definition caller (d : list Z) : source := ret d.
Definition h_bytes_step (junk : nat -> Z) (p : Z) (o : ByteArraySpec.op) : M seen :=
  match o with
  | ByteArraySpec.Append d => let! ok := h_byte_array_append junk p (caller d) (zlen d) in ret (Z.b2z ok, [])
  | ByteArraySpec.AppendString s => let! ok := h_byte_array_append_string junk p (caller (s ++ [0])) in ret (Z.b2z ok, [])
  | ByteArraySpec.Copy pos d => let! ok := h_byte_array_copy junk p pos (caller d) (zlen d) in ret (Z.b2z ok, [])
  | ByteArraySpec.CopyString pos s => let! ok := h_byte_array_copy_string junk p pos (caller (s ++ [0])) in ret (Z.b2z ok, [])
  | ByteArraySpec.Resize n c => let! ok := h_byte_array_resize junk p n c in ret (Z.b2z ok, [])
  | ByteArraySpec.Clear => do! h_byte_array_clear p in ret (0, [])
  | ByteArraySpec.Stream len cb => let! r := h_byte_array_append_stream junk p cb len in ret (snd r, asked (fst r))
  end.

Definition together (code : Z -> Z -> Z -> Z) (junk : nat -> Z) (c : call) (ps : list Z) : M (seen * list Z) :=
  match c with
  | MakeSet size => let! p := h_make_intset junk size in ret (nothing, ps ++ [p])
  | SetFill k => let! p := pointer k ps in do! h_intset_fill p in ret (nothing, ps)
  | SetAdd k e => let! p := pointer k ps in do! h_intset_add p e in ret (nothing, ps)
  | SetRemove k e => let! p := pointer k ps in do! h_intset_remove p e in ret (nothing, ps)
  | SetHas k e => let! p := pointer k ps in let! b := h_intset_has p e in ret ((Z.b2z b, []), ps)
  | SetNext k e hit => let! p := pointer k ps in let! z := h_intset_find_next p e hit in ret ((z, []), ps)
  | DestroySet k => let! p := pointer k ps in do! h_destroy_intset p in ret (nothing, ps)
  | MakeQueue f => let! p := h_make_priority_queue junk f in ret (nothing, ps ++ [p])
  | Enqueue k v => let! p := pointer k ps in let! l := h_priorq_enqueue code junk p v in ret ((0, l), ps)
  | Dequeue k => let! p := pointer k ps in let! r := h_priorq_dequeue code p in ret (r, ps)
  | Peek k => let! p := pointer k ps in let! v := h_priorq_peek p in ret ((v, []), ps)
  | Pop k => let! p := pointer k ps in let! v := h_priorq_pop p in ret ((v, []), ps)
  | Remove k loc => let! p := pointer k ps in let! r := h_priorq_remove code p loc in ret (r, ps)
  | Size k => let! p := pointer k ps in let! v := h_priorq_size p in ret ((v, []), ps)
  | DestroyQueue k => let! p := pointer k ps in do! h_destroy_priority_queue p in ret (nothing, ps)
  | MakeBytes m => let! p := h_make_byte_array junk m in ret (nothing, ps ++ [p])
  | OnBytes k o => let! p := pointer k ps in let! v := h_bytes_step junk p o in ret (v, ps)
  | AppendBytes k j i len =>
      let! p := pointer k ps in
      let! q := pointer j ps in
      let! d := h_byte_array_data q in
      let! ok := h_byte_array_append junk p (let! b := ld_slots d in lift (from b i)) len in
      ret ((Z.b2z ok, []), ps)
  | ByteAt k i => let! p := pointer k ps in let! d := h_byte_array_data p in let! v := field d i in ret ((v, []), ps)
  | BytesSize k => let! p := pointer k ps in let! n := h_byte_array_size p in ret ((n, []), ps)
  | ShareBytes k => let! p := pointer k ps in let! p := h_share_byte_array p in ret (nothing, put_pointer k p ps)
  | DestroyBytes k => let! p := pointer k ps in do! h_destroy_byte_array p in ret (nothing, ps)
  end.
Fixpoint together_all (code : Z -> Z -> Z -> Z) (junk : nat -> Z) (cs : list call) (ps : list Z) : M (list seen * list Z) :=
  match cs with
  | [] => ret ([], ps)
  | c :: cs =>
      let! r := together code junk c ps in
      let! rs := together_all code junk cs (snd r) in
      ret (fst r :: fst rs, snd rs)
  end.

(** The number of objects that have not been destroyed. *)
Definition live (os : list object) : nat := length (filter (fun o => match o with Gone => false | _ => true end) os).

(** * What the calls mean: sets of numbers (given by their histories), multisets, and sequences of
    bytes of limited length, with a number of references *)

Inductive meaning : Type :=
| Destroyed
| ASet (n : Z) (ops : list op)
| AQueue (cmp : Z) (m : list Z)
| ABytes (max refs : Z) (l : list Z).
Definition put_meaning (k : nat) (o : meaning) (os : list meaning) : list meaning := firstn k os ++ o :: skipn (S k) os.

(** The calls a program may make: a known live object of the right kind, arguments that are C
    unsigned ints, sets with ints as elements, lawful comparison functions, no more than 2^60
    elements in a queue, locators of queued elements; byte arrays with a positive maximum size,
    legal arguments, less than 2^32 references, and bytes of their content only. *)
Definition allowed (code : Z -> Z -> Z -> Z) (c : call) (os : list meaning) : Prop :=
  match c with
  | MakeSet n => 0 <= n <= INT_MAX + 1
  | SetFill k | DestroySet k => exists n ops, nth_error os k = Some (ASet n ops)
  | SetAdd k e | SetRemove k e | SetHas k e | SetNext k e _ => 0 <= e < 2 ^ 32 /\ exists n ops, nth_error os k = Some (ASet n ops)
  | MakeQueue f => comparator (code f)
  | Enqueue k v => exists f m, nth_error os k = Some (AQueue f m) /\ room m
  | Remove k loc => exists f m, nth_error os k = Some (AQueue f m) /\ 0 <= loc < zlen m
  | Dequeue k | Peek k | Pop k | Size k | DestroyQueue k => exists f m, nth_error os k = Some (AQueue f m)
  | MakeBytes m => 1 <= m < 2 ^ 64
  | OnBytes k o => ByteArraySpec.op_ok o /\ exists m r l, nth_error os k = Some (ABytes m r l)
  | AppendBytes k j i len => k <> j /\ (exists m r l, nth_error os k = Some (ABytes m r l)) /\
      exists m r l, nth_error os j = Some (ABytes m r l) /\ 0 <= i /\ 0 <= len /\ i + len <= zlen l
  | ByteAt k i => exists m r l, nth_error os k = Some (ABytes m r l) /\ 0 <= i < zlen l
  | ShareBytes k => exists m r l, nth_error os k = Some (ABytes m r l) /\ r + 1 < 2 ^ 32
  | BytesSize k | DestroyBytes k => exists m r l, nth_error os k = Some (ABytes m r l)
  end.

(** What an operation on a byte array of maximum size [m] with content [l] returns: success, or
    the number of bytes that the stream delivered. *)
Definition returns (m : Z) (l : list Z) (o : ByteArraySpec.op) : Z :=
  match o with
  | ByteArraySpec.Clear => 0
  | ByteArraySpec.Stream len cb =>
      if (0 <? len) && (ByteArraySpec.ask m l len =? 0) then -1 else snd (fst (cb (ByteArraySpec.ask m l len)))
  | o => Z.b2z (snd (ByteArraySpec.spec_step m l o))
  end.

(** [v]: the value returned, [os']: the objects afterwards. *)
Definition meant (code : Z -> Z -> Z -> Z) (c : call) (os : list meaning) (v : Z) (os' : list meaning) : Prop :=
  match c with
  | MakeSet n => os' = os ++ [ASet n []]
  | SetFill k => exists n ops, nth_error os k = Some (ASet n ops) /\ os' = put_meaning k (ASet n (ops ++ [Fill])) os
  | SetAdd k e => exists n ops, nth_error os k = Some (ASet n ops) /\ os' = put_meaning k (ASet n (ops ++ [Add e])) os
  | SetRemove k e => exists n ops, nth_error os k = Some (ASet n ops) /\ os' = put_meaning k (ASet n (ops ++ [IntsetSpec.Remove e])) os
  | SetHas k e => exists n ops, nth_error os k = Some (ASet n ops) /\ v = Z.b2z (member n ops e) /\ os' = os
  | SetNext k e hit => exists n ops, nth_error os k = Some (ASet n ops) /\ first_from (member n ops) hit e n v /\ os' = os
  | MakeQueue f => os' = os ++ [AQueue f []]
  | Enqueue k x => exists f m, nth_error os k = Some (AQueue f m) /\ os' = put_meaning k (AQueue f (x :: m)) os
  | Dequeue k => exists f m, nth_error os k = Some (AQueue f m) /\
      (m = [] /\ v = 0 /\ os' = os \/
       least (code f) v m /\ exists m', Permutation m (v :: m') /\ os' = put_meaning k (AQueue f m') os)
  | Peek k => exists f m, nth_error os k = Some (AQueue f m) /\ os' = os /\ (m = [] /\ v = 0 \/ least (code f) v m)
  | Pop k => exists f m, nth_error os k = Some (AQueue f m) /\
      (m = [] /\ v = 0 /\ os' = os \/ exists m', Permutation m (v :: m') /\ os' = put_meaning k (AQueue f m') os)
  | Remove k loc => exists f m, nth_error os k = Some (AQueue f m) /\
      exists m', Permutation m (v :: m') /\ os' = put_meaning k (AQueue f m') os
  | Size k => exists f m, nth_error os k = Some (AQueue f m) /\ v = zlen m /\ os' = os
  | DestroySet k | DestroyQueue k => os' = put_meaning k Destroyed os
  | MakeBytes m => os' = os ++ [ABytes m 1 []]
  | OnBytes k o => exists m r l, nth_error os k = Some (ABytes m r l) /\ v = returns m l o /\
      os' = put_meaning k (ABytes m r (fst (ByteArraySpec.spec_step m l o))) os
  | AppendBytes k j i len => exists m r l m' r' l', nth_error os k = Some (ABytes m r l) /\ nth_error os j = Some (ABytes m' r' l') /\
      (v = 1 /\ zlen l + len < m /\ os' = put_meaning k (ABytes m r (l ++ firstn (Z.to_nat len) (skipn (Z.to_nat i) l'))) os \/
       v = 0 /\ m <= zlen l + len /\ os' = os)
  | ByteAt k i => exists m r l, nth_error os k = Some (ABytes m r l) /\ nth_error l (Z.to_nat i) = Some v /\ os' = os
  | BytesSize k => exists m r l, nth_error os k = Some (ABytes m r l) /\ v = zlen l /\ os' = os
  | ShareBytes k => exists m r l, nth_error os k = Some (ABytes m r l) /\ os' = put_meaning k (ABytes m (r + 1) l) os
  | DestroyBytes k => exists m r l, nth_error os k = Some (ABytes m r l) /\
      os' = put_meaning k (if r =? 1 then Destroyed else ABytes m (r - 1) l) os
  end.

(** The programs that make allowed calls only: [h]: the memory, [ps]: the pointers, [os]: the
    objects as the values returned so far say. *)
Inductive reached (code : Z -> Z -> Z -> Z) (h0 : heap) : heap -> list Z -> list meaning -> Prop :=
| R_start : reached code h0 h0 [] []
| R_call h ps os c junk v l ps' h' os' :
    reached code h0 h ps os -> allowed code c os ->
    together code junk c ps h = Ok (((v, l), ps'), h') -> meant code c os v os' ->
    reached code h0 h' ps' os'.

(** The number of objects that have not been destroyed. *)
Definition undestroyed (ms : list meaning) : nat := length (filter (fun o => match o with Destroyed => false | _ => true end) ms).
