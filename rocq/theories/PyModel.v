(** The part of Python that the scripts in src/ use: strings (lists of codepoints),
    [str.split], [str.strip], [int] and reading a file by lines. An exception that ends the
    script is [Abort]. *)
From Verif Require Import Base.
From Coq Require Import String Ascii.
Open Scope list_scope.
Open Scope Z_scope.

(** A string literal. *)
Definition py (s : string) : list Z := map (fun c => Z.of_nat (nat_of_ascii c)) (list_ascii_of_string s).

(** [==] of strings *)
Fixpoint py_eq (a b : list Z) : bool :=
  match a, b with
  | [], [] => true
  | x :: a, y :: b => (x =? y) && py_eq a b
  | _, _ => false
  end.

(** [str.isspace] of one character *)
Definition py_space (c : Z) : bool :=
  ((9 <=? c) && (c <=? 13)) || ((28 <=? c) && (c <=? 32)) || (c =? 0x85) || (c =? 0xA0) || (c =? 0x1680)
  || ((0x2000 <=? c) && (c <=? 0x200A)) || (c =? 0x2028) || (c =? 0x2029) || (c =? 0x202F) || (c =? 0x205F)
  || (c =? 0x3000).

(** [str.strip()] *)
Fixpoint py_lstrip (s : list Z) : list Z :=
  match s with
  | [] => []
  | c :: s' => if py_space c then py_lstrip s' else s
  end.
Definition py_strip (s : list Z) : list Z := rev (py_lstrip (rev (py_lstrip s))).

(** Put a character before the first string of a list. *)
Definition push (c : Z) (l : list (list Z)) : list (list Z) :=
  match l with
  | [] => [[c]]
  | p :: l => (c :: p) :: l
  end.

(** [s.split(sep)] for a separator of one character *)
Fixpoint py_split (sep : Z) (s : list Z) : list (list Z) :=
  match s with
  | [] => [[]]
  | c :: s => if c =? sep then [] :: py_split sep s else push c (py_split sep s)
  end.
(** [s.split(sep, n)] *)
Fixpoint py_split_max (sep : Z) (n : nat) (s : list Z) : list (list Z) :=
  match n with
  | O => [s]
  | S m =>
      (fix go (s : list Z) : list (list Z) :=
         match s with
         | [] => [[]]
         | c :: s => if c =? sep then [] :: py_split_max sep m s else push c (go s)
         end) s
  end.
(** [s.split("..")] *)
Fixpoint py_split_dots (s : list Z) : list (list Z) :=
  match s with
  | [] => [[]]
  | c :: s' =>
      match s' with
      | d :: s'' => if (c =? 46) && (d =? 46) then [] :: py_split_dots s'' else push c (py_split_dots s')
      | [] => push c (py_split_dots s')
      end
  end.
(** [s.split()]; [word] is the word being read. *)
Fixpoint py_words (word : list Z) (s : list Z) : list (list Z) :=
  match s with
  | [] => match word with [] => [] | _ => [word] end
  | c :: s =>
      if py_space c then match word with [] => py_words [] s | _ => word :: py_words [] s end
      else py_words (word ++ [c]) s
  end.

(** [s.startswith(p)], [s.endswith(p)] *)
Fixpoint py_startswith (s p : list Z) : bool :=
  match p, s with
  | [], _ => true
  | x :: p, y :: s => (x =? y) && py_startswith s p
  | _, _ => false
  end.
Definition py_endswith (s p : list Z) : bool := py_startswith (rev s) (rev p).

(** [c in s] for a character; [".." in s] *)
Definition py_in (c : Z) (s : list Z) : bool := existsb (fun x => x =? c) s.
Fixpoint py_has_dots (s : list Z) : bool :=
  match s with
  | c :: ((d :: _) as s') => ((c =? 46) && (d =? 46)) || py_has_dots s'
  | _ => false
  end.

(** [int(s, base)]: blanks around it, a sign, the prefix 0x if the base is 16, digits and
    single underscores between them. [None] is ValueError. Simplification: of the decimal
    digits of Unicode only the ASCII ones count. *)
Definition py_digit (base c : Z) : option Z :=
  let v := if (48 <=? c) && (c <=? 57) then c - 48
           else if (65 <=? c) && (c <=? 90) then c - 55
           else if (97 <=? c) && (c <=? 122) then c - 87
           else base in
  if v <? base then Some v else None.
Fixpoint py_digits (base : Z) (s : list Z) (acc : Z) (fresh : bool) : option Z :=
  match s with
  | [] => if fresh then None else Some acc
  | c :: s =>
      if c =? 95 then if fresh then None else py_digits base s acc true
      else match py_digit base c with
           | Some v => py_digits base s (base * acc + v) false
           | None => None
           end
  end.
Definition py_prefix (base : Z) (s : list Z) : list Z :=
  match s with
  | z :: x :: s' =>
      if (base =? 16) && (z =? 48) && ((x =? 120) || (x =? 88)) then
        match s' with
        | u :: s'' => if u =? 95 then s'' else s'
        | [] => s'
        end
      else s
  | _ => s
  end.
Definition py_int (base : Z) (s : list Z) : option Z :=
  match py_strip s with
  | [] => None
  | c :: s =>
      if c =? 43 then py_digits base (py_prefix base s) 0 true
      else if c =? 45 then match py_digits base (py_prefix base s) 0 true with Some n => Some (- n) | None => None end
      else py_digits base (py_prefix base (c :: s)) 0 true
  end.

(** An exception that is not caught. *)
Definition or_raise {A} (o : option A) : res A := match o with Some a => Ok a | None => Abort end.

(** [for line in open(...)]: the lines with their newlines. Simplification: carriage returns,
    which Python takes for newlines, do not occur. *)
Fixpoint py_lines (s : list Z) : list (list Z) :=
  match s with
  | [] => []
  | c :: s => if c =? 10 then [c] :: py_lines s else push c (py_lines s)
  end.

(** [d[k] = v] for a dictionary, a list in the order of insertion; [d.get(k)] *)
Fixpoint dict_set {A} (k : Z) (v : A) (d : list (Z * A)) : list (Z * A) :=
  match d with
  | [] => [(k, v)]
  | (k', v') :: d => if k' =? k then (k, v) :: d else (k', v') :: dict_set k v d
  end.
Fixpoint dict_get {A} (k : Z) (d : list (Z * A)) : option A :=
  match d with
  | [] => None
  | (k', v) :: d => if k' =? k then Some v else dict_get k d
  end.
(** [sorted(d.items())]; the keys are different. *)
Fixpoint dict_insert {A} (e : Z * A) (d : list (Z * A)) : list (Z * A) :=
  match d with
  | [] => [e]
  | e' :: d' => if fst e <? fst e' then e :: d else e' :: dict_insert e d'
  end.
Definition dict_sorted {A} (d : list (Z * A)) : list (Z * A) := fold_right dict_insert [] d.
