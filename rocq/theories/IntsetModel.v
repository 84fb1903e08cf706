(** Model of src/intset.c (LP64: LONG_BIT = 64, src/intset.c:7-9). *)
From Verif Require Import Base.

(** include/intset_imp.h: struct intset. [data]: the words of the block allocated
    by make_intset. *)
Record intset := Intset { size : Z; data : list Z }.

(** src/intset.c:10 BITS_TO_LONGS: size_t arithmetic. *)
Definition bits_to_longs (bits : Z) : Z := u64 (bits + 64 - 1) / 64.

(** src/intset.c:12-18 make_intset. fscalloc is assumed to succeed; the product
    of the word count and 8 does not overflow as the count is below 2^58. *)
Definition make_intset (size : Z) : intset :=
  Intset size (repeat 0 (Z.to_nat (bits_to_longs size))).

(** ~x on unsigned long. *)
Definition lnot64 (x : Z) : Z := 2 ^ 64 - 1 - x.

(** src/intset.c:26-31 intset_fill; [i] is a 32-bit unsigned. *)
Fixpoint fill_loop (fuel : nat) (n : Z) (b : list Z) (i : Z) : res (list Z) :=
  match fuel with
  | O => NoFuel
  | S fuel =>
      if i <? n then b <- wr b i (2 ^ 64 - 1) ;; fill_loop fuel n b (u32 (i + 1))
      else Ok b
  end.
Definition fill_within (fuel : nat) (s : intset) : res intset :=
  b <- fill_loop fuel (bits_to_longs (size s)) (data s) 0 ;;
  Ok (Intset (size s) b).
Definition intset_fill (s : intset) : res intset := fill_within (S (length (data s))) s.

(** src/intset.c:33-37 intset_add *)
Definition intset_add (s : intset) (elem : Z) : res intset :=
  if elem <? size s then
    x <- rd (data s) (elem / 64) ;;
    b <- wr (data s) (elem / 64) (Z.lor x (u64 (Z.shiftl 1 (elem mod 64)))) ;;
    Ok (Intset (size s) b)
  else Ok s.

(** src/intset.c:39-43 intset_remove *)
Definition intset_remove (s : intset) (elem : Z) : res intset :=
  if elem <? size s then
    x <- rd (data s) (elem / 64) ;;
    b <- wr (data s) (elem / 64) (Z.land x (lnot64 (u64 (Z.shiftl 1 (elem mod 64))))) ;;
    Ok (Intset (size s) b)
  else Ok s.

(** src/intset.c:45-51 intset_has *)
Definition intset_has (s : intset) (elem : Z) : res bool :=
  if elem <? size s then
    x <- rd (data s) (elem / 64) ;;
    Ok (truth (Z.land x (u64 (Z.shiftl 1 (elem mod 64)))))
  else Ok false.

(** __builtin_ctzl: undefined for 0. *)
Fixpoint ctz_pos (p : positive) : Z :=
  match p with
  | xO p => 1 + ctz_pos p
  | _ => 0
  end.
Definition ctzl (x : Z) : res Z :=
  match x with
  | Zpos p => Ok (ctz_pos p)
  | _ => UB
  end.

(** src/intset.c:64-71: the loop of intset_find_next; [elem] is a 32-bit
    unsigned. None: return -1. *)
Fixpoint find_loop (fuel : nat) (s : intset) (hit : bool) (x elem : Z) : res (option (Z * Z)) :=
  match fuel with
  | O => NoFuel
  | S fuel =>
      if negb (truth x) then
        let elem := u32 (elem + 64) in
        if elem >=? size s then Ok None
        else
          x <- rd (data s) (elem / 64) ;;
          find_loop fuel s hit (if negb hit then lnot64 x else x) elem
      else Ok (Some (x, elem))
  end.

(** src/intset.c:53-76 intset_find_next; [fuel] bounds the rounds of its loop.
    The result is converted to int. *)
Definition find_within (fuel : nat) (s : intset) (elem : Z) (hit : bool) : res Z :=
  if elem >=? size s then Ok (-1)
  else
    x <- rd (data s) (elem / 64) ;;
    let x := if negb hit then lnot64 x else x in
    let r := elem mod 64 in
    let x := Z.land x (u64 (Z.shiftl (2 ^ 64 - 1) r)) in
    let elem := u32 (elem - r) in
    o <- find_loop fuel s hit x elem ;;
    match o with
    | None => Ok (-1)
    | Some (x, elem) =>
        c <- ctzl x ;;
        let elem := u32 (elem + c) in
        if elem >=? size s then Ok (-1) else Ok (s32 elem)
    end.
Definition intset_find_next (s : intset) (elem : Z) (hit : bool) : res Z :=
  find_within (S (length (data s))) s elem hit.

(** src/intset.c:78-86 *)
Definition intset_find_next_hit (s : intset) (elem : Z) : res Z := intset_find_next s elem true.
Definition intset_find_next_miss (s : intset) (elem : Z) : res Z := intset_find_next s elem false.

(** include/intset.h:26-29 intset_empty *)
Definition intset_empty (s : intset) : res bool :=
  r <- intset_find_next_hit s 0 ;; Ok (r <? 0).
