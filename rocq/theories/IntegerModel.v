(** Model of include/integer.h, src/integer.c, the hash functions of
    src/hashtable.c and fscalloc of src/fsalloc.c. Pointers are their 64-bit
    representation (0 .. 2^64-1). *)
From Verif Require Import Base.

(** include/integer.h:29-32, 38-41 *)
Definition as_integer (value : Z) : Z := u64 value.
Definition as_unsigned (value : Z) : Z := u64 value.
(** include/integer.h:47-50, 56-59 *)
Definition as_intptr (p : Z) : Z := s64 p.
Definition as_uintptr (p : Z) : Z := u64 p.

(** src/integer.c:4-11 integer_cmp *)
Definition integer_cmp (a b : Z) : Z :=
  if as_intptr a <? as_intptr b then -1
  else if as_intptr a >? as_intptr b then 1
  else 0.

(** src/integer.c:13-20 unsigned_cmp; in the first comparison the intptr_t
    operand is converted to uintptr_t by the usual arithmetic conversions. *)
Definition unsigned_cmp (a b : Z) : Z :=
  if u64 (as_intptr a) <? as_uintptr b then -1
  else if as_uintptr a >? as_uintptr b then 1
  else 0.

(** src/hashtable.c:203-209 hash_string; *s is a signed char. *)
Fixpoint hash_string_loop (fuel : nat) (s : list Z) (i hash : Z) : res Z :=
  match fuel with
  | O => NoFuel
  | S fuel =>
    c <- rd s i ;;
    if truth c then hash_string_loop fuel s (i + 1) (u64 (hash * 9973 + s8 c + 9999991))
    else Ok hash
  end.
Definition hash_string (s : list Z) : res Z := hash_string_loop (S (length s)) s 0 0.

(** src/hashtable.c:211-219 *)
Definition hash_integer (value : Z) : Z := u64 (as_intptr value).
Definition hash_unsigned (value : Z) : Z := as_uintptr value.

(** src/hashtable.c:221-228 hash_blob *)
Fixpoint hash_blob_loop (fuel : nat) (p : list Z) (i size hash : Z) : res Z :=
  match fuel with
  | O => NoFuel
  | S fuel =>
    if truth size then
      c <- rd p i ;;
      hash_blob_loop fuel p (i + 1) (size - 1) (u64 (hash * 9973 + c + 9999991))
    else Ok hash
  end.
Definition hash_blob (p : list Z) (size : Z) : res Z := hash_blob_loop (S (length p)) p 0 size 0.

(** src/fsalloc.c:70-77 fscalloc: the zeroed block (fsalloc succeeds or
    aborts, src/fsalloc.c:15). *)
Definition fscalloc (nmemb size : Z) : list Z :=
  let size := u64 (size * nmemb) in
  repeat 0 (Z.to_nat size).
