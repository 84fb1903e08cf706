(** Model of src/categorize.py, which writes unicode_categories.c (the C function
    [charstr_unicode_category]) from unicode/UnicodeData.txt, and of the C code it
    writes. *)
From Verif Require Import Base.

(** include/charstr.h:135-166 *)
Inductive category :=
| Cn | Cc | Cf | Co | Cs | Ll | Lm | Lo | Lt | Lu | Mc | Me | Mn | Nd | Nl | No | Pc | Pd | Pe | Pf | Pi
| Po | Ps | Sc | Sk | Sm | So | Zl | Zp | Zs.

(** The values of the enumeration, include/charstr.h:135-166. *)
Definition enum (c : category) : Z :=
  match c with
  | Cn => 0 | Cc => 1 | Cf => 2 | Co => 3 | Cs => 4 | Ll => 5 | Lm => 6 | Lo => 7 | Lt => 8 | Lu => 9
  | Mc => 10 | Me => 11 | Mn => 12 | Nd => 13 | Nl => 14 | No => 15 | Pc => 16 | Pd => 17 | Pe => 18
  | Pf => 19 | Pi => 20 | Po => 21 | Ps => 22 | Sc => 23 | Sk => 24 | Sm => 25 | So => 26 | Zl => 27
  | Zp => 28 | Zs => 29
  end.

(** Comparison of the category strings, src/categorize.py:15,36. *)
Definition category_eqb (x y : category) : bool := enum x =? enum y.

(** The kind of a line of UnicodeData.txt, src/categorize.py:14,22: does its second
    field end in [, First>] or [, Last>]? *)
Inductive kind := Single | First | Last.

(** A line of UnicodeData.txt, src/categorize.py:12-13: its codepoint, its kind and its
    third field. The splitting and the reading of the hexadecimal number are modelled in
    UcdTextModel.v. *)
Definition row : Type := Z * kind * category.

(** src/categorize.py:5 *)
Definition N : Z := 0x110000.

(** src/categorize.py:10, the list [table]; Python's [None] is [None]. *)
Definition table : Type := Z -> option category.
Definition tset (t : table) (i : Z) (c : category) : table := fun n => if n =? i then Some c else t n.
Definition is_none (o : option category) : bool := match o with None => true | Some _ => false end.

(** src/categorize.py:17-19; [count] is the number of the passes that remain. A failed
    [assert] of the script is [Abort]. *)
Fixpoint fill (count : nat) (n : Z) (c : category) (t : table) : res table :=
  match count with
  | O => Ok t
  | S count =>
      _ <- assert (is_none (t n)) ;;
      fill count (n + 1) c (tset t n c)
  end.

(** src/categorize.py:11-26. An index outside [table] (an exception of the script) is
    [Abort] too. Simplification: Python takes a negative index from the end of the list,
    here it is [Abort]. *)
Fixpoint read_rows (rows : list row) (prev_cp : Z) (range_start : option category) (t : table) : res table :=
  match rows with
  | [] =>
      _ <- assert (is_none range_start) ;;
      Ok t
  | (codepoint, k, c) :: rows =>
      ' (range_start, t) <-
        (match k with
         | Last =>
             _ <- assert (match range_start with Some c' => category_eqb c' c | None => false end) ;;
             t <- fill (Z.to_nat (codepoint - (prev_cp + 1))) (prev_cp + 1) c t ;;
             Ok (None, t)
         | First =>
             _ <- assert (is_none range_start) ;;
             Ok (Some c, t)
         | Single =>
             _ <- assert (is_none range_start) ;;
             Ok (None, t)
         end) ;;
      _ <- assert ((0 <=? codepoint) && (codepoint <? N)) ;;
      read_rows rows codepoint range_start (tset t codepoint c)
  end.

(** src/categorize.py:30-31 *)
Fixpoint skip (fuel : nat) (t : table) (n : Z) : res Z :=
  match fuel with
  | O => NoFuel
  | S fuel => if (n <? N) && is_none (t n) then skip fuel t (n + 1) else Ok n
  end.

(** src/categorize.py:36-37 *)
Fixpoint extend (fuel : nat) (t : table) (c : category) (n : Z) : res Z :=
  match fuel with
  | O => NoFuel
  | S fuel =>
      if (n <? N) && (match t n with Some c' => category_eqb c' c | None => false end)
      then extend fuel t c (n + 1)
      else Ok n
  end.

(** src/categorize.py:27-38 *)
Definition range : Type := Z * Z * category.
Fixpoint ranges (fuel : nat) (t : table) (n : Z) : res (list range) :=
  match fuel with
  | O => NoFuel
  | S fuel =>
      if n <? N then
        n <- skip (S fuel) t n ;;
        if n >=? N then Ok []
        else
          match t n with
          | None => Abort
          | Some c =>
              e <- extend (S fuel) t c n ;;
              rs <- ranges fuel t e ;;
              Ok ((n, e, c) :: rs)
          end
      else Ok []
  end.

(** The C code that the script writes, followed by the code after it:
    [If_less b x y] is [if (codepoint < b) { x } y], [Return c] is [return c;] and
    [Return_from s c] is [return codepoint >= s ? c : UNICODE_CATEGORY_Cn;]. *)
Inductive code :=
| If_less (bound : Z) (body rest : code)
| Return (c : category)
| Return_from (start : Z) (c : category).

(** src/categorize.py:56-65 and 73-83: the return statement of one range. *)
Definition return_of (r : range) : code :=
  let '(start, end_, c) := r in
  if end_ =? start + 1 then Return c else Return_from start c.

(** src/categorize.py:50-84; [k] is the code that follows in the file. *)
Fixpoint emit_binary (fuel : nat) (rs : list range) (k : code) : res code :=
  match fuel with
  | O => NoFuel
  | S fuel =>
      _ <- assert (negb (zlen rs =? 0)) ;;
      let length := zlen rs in
      if length <? 5 then
        Ok (fold_right (fun '(start, end_, c) k => If_less end_ (return_of (start, end_, c)) k) k rs)
      else
        let middle := Z.to_nat (length / 5) in
        let '(start, end_, c) := nth middle rs (0, 0, Cn) in
        body <- emit_binary fuel (firstn middle rs) (return_of (start, end_, c)) ;;
        rest <- emit_binary fuel (skipn (S middle) rs) k ;;
        Ok (If_less end_ body rest)
  end.

(** src/categorize.py:7-48 *)
Definition categorize (rows : list row) : res code :=
  t <- read_rows rows (-1) None (fun _ => None) ;;
  rs <- ranges (S (Z.to_nat N)) t 0 ;;
  emit_binary (S (length rs)) rs (Return Cn).

(** The execution of the C code that the script writes, src/categorize.py:58-82. *)
Fixpoint run (p : code) (codepoint : Z) : category :=
  match p with
  | If_less bound body rest => if codepoint <? bound then run body codepoint else run rest codepoint
  | Return c => c
  | Return_from start c => if codepoint >=? start then c else Cn
  end.

(** [charstr_unicode_category], src/categorize.py:41-47, as written from the lines
    [rows] of the data file. *)
Definition unicode_category (rows : list row) (codepoint : Z) : res category :=
  p <- categorize rows ;;
  Ok (run p codepoint).
