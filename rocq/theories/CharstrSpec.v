(** What the string functions should do, on lists of bytes. A C string with
    content [s] is a block [s ++ 0 :: r], where [r] is the rest of the block. *)
From Verif Require Import Base.

(** Strings without NUL. *)
Definition text (s : list Z) : Prop := Forall (fun c => 0 < c < 256) s.

Definition ascii_lower (c : Z) : Z := if (65 <=? c) && (c <=? 90) then c + 32 else c.
Definition ascii_upper (c : Z) : Z := if (97 <=? c) && (c <=? 122) then c - 32 else c.

(** Lexicographic order: -1, 0, 1. *)
Fixpoint lex (a b : list Z) : Z :=
  match a, b with
  | [], [] => 0
  | [], _ => -1
  | _, [] => 1
  | x :: a, y :: b => if x <? y then -1 else if y <? x then 1 else lex a b
  end.

(** [block] holds a string whose first [n] characters are those of [a]: either
    it is [a] and it is terminated, or at least [n] characters are present. *)
Definition holds_upto (n : Z) (a block : list Z) : Prop :=
  text a /\ ((zlen a < n /\ exists r, block = a ++ 0 :: r) \/ (zlen a = n /\ exists r, block = a ++ r)).

(** The documented character classes (include/charstr.h:32-44). *)
Definition documented_classes : list (Z * (Z -> bool)) :=
  [ (0x0001, fun c => (c <=? 31) || (c =? 127));
    (0x0002, fun c => (48 <=? c) && (c <=? 57));
    (0x0004, fun c => (97 <=? c) && (c <=? 122));
    (0x0008, fun c => (65 <=? c) && (c <=? 90));
    (0x0010, fun c => c =? 9);
    (0x0020, fun c => c =? 10);
    (0x0040, fun c => c =? 12);
    (0x0080, fun c => c =? 13);
    (0x0100, fun c => c =? 32);
    (0x0200, fun c => (48 <=? c) && (c <=? 55));
    (0x0400, fun c => ((48 <=? c) && (c <=? 57)) || ((97 <=? c) && (c <=? 102)) || ((65 <=? c) && (c <=? 70)));
    (0x0800, fun c => c =? 95);
    (0x1000, fun c => (32 <=? c) && (c <=? 126)) ].

(** The value of a hexadecimal digit. *)
Inductive hex_value : Z -> Z -> Prop :=
| Hex_digit n : 0 <= n <= 9 -> hex_value (48 + n) n
| Hex_upper n : 10 <= n <= 15 -> hex_value (65 + (n - 10)) n
| Hex_lower n : 10 <= n <= 15 -> hex_value (97 + (n - 10)) n.

(** Joining parts with a separator. *)
Fixpoint join (sep : list Z) (parts : list (list Z)) : list Z :=
  match parts with
  | [] => []
  | [p] => p
  | p :: parts => p ++ sep ++ join sep parts
  end.

Fixpoint count (c : Z) (s : list Z) : Z :=
  match s with [] => 0 | d :: s => (if d =? c then 1 else 0) + count c s end.

(** [d] occurs in [s] at position [k]. *)
Definition occurs_at (d s : list Z) (k : Z) : Prop := exists a b, s = a ++ d ++ b /\ zlen a = k.

(** [p] is what comes before the leftmost occurrence of [d] in [p ++ d ++ ...] *)
Definition leftmost (d p : list Z) : Prop := forall k, occurs_at d (p ++ d) k -> zlen p <= k.

(** Maximal runs of characters that are not [white]. *)
Inductive atoms (white : Z -> Prop) : list Z -> list (list Z) -> Prop :=
| Atoms_end w : Forall white w -> atoms white w []
| Atoms_cons w a s l :
    Forall white w -> a <> [] -> Forall (fun c => ~ white c) a ->
    (s = [] \/ exists c s', s = c :: s' /\ white c) ->
    atoms white s l -> atoms white (w ++ a ++ s) (a :: l).

(** [m] is [s] without leading and trailing [white]. *)
Definition stripped (white : Z -> Prop) (s m : list Z) : Prop :=
  exists w1 w2, s = w1 ++ m ++ w2 /\ Forall white w1 /\ Forall white w2 /\
    (forall c m', m = c :: m' -> ~ white c) /\ (forall c m', m = m' ++ [c] -> ~ white c).

(** The documented whitespace: ' ', HT, LF, FF, CR. *)
Definition doc_white (c : Z) : Prop := c = 32 \/ c = 9 \/ c = 10 \/ c = 12 \/ c = 13.
(** What the code takes for whitespace. *)
Definition code_white (c : Z) : Prop := c = 32 \/ c = 8 \/ c = 9 \/ c = 10 \/ c = 11.

(** A NUL-terminated copy filling its block. *)
Definition as_block (s : list Z) : list Z := s ++ [0].

(** Splitting [s] at the leftmost non-overlapping occurrences of [d], at most
    [max] times. *)
Definition split_at_string (d : list Z) (max : Z) (s : list Z) (parts : list (list Z)) : Prop :=
  parts <> [] /\ join d parts = s /\ zlen parts - 1 <= max /\
  Forall (leftmost d) (removelast parts) /\
  (zlen parts - 1 = max \/ ~ exists k, occurs_at d (last parts []) k).

(** Splitting [s] at the first [max] occurrences of a character. *)
Definition split_at_char (delim max : Z) (s : list Z) (parts : list (list Z)) : Prop :=
  join [delim] parts = s /\ zlen parts = Z.min max (count delim s) + 1 /\
  Forall (fun p => ~ In delim p) (removelast parts).
