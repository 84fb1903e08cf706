(** Model of the reading of idna/IdnaMappingTable.txt by src/gen_idna_table.c: the lines as
    text. What is done with the lines is in IdnaTabModel.v. *)
From Verif Require Import Base CharstrModel IdnaTabModel.
From Coq Require Import String Ascii.
Open Scope list_scope.
Open Scope Z_scope.

(** A string literal without its NUL. *)
Definition literal (s : string) : list Z := map (fun c => Z.of_nat (nat_of_ascii c)) (list_ascii_of_string s).

(** isspace(3) in the "C" locale *)
Definition isspace (c : Z) : bool := (c =? 32) || ((9 <=? c) && (c <=? 13)).
(** The value of a hexadecimal digit, -1 for another character. *)
Definition xvalue (c : Z) : Z :=
  if (48 <=? c) && (c <=? 57) then c - 48
  else if (65 <=? c) && (c <=? 70) then c - 55
  else if (97 <=? c) && (c <=? 102) then c - 87
  else -1.

(** strtol(3) with base 16: leading whitespace, a sign, "0x" before a digit, digits; the value
    is clamped to the range of long. *)
Fixpoint skip_space (s : list Z) : res (list Z) :=
  match s with
  | [] => UB
  | c :: s' => if isspace c then skip_space s' else Ok s
  end.
Fixpoint hex_digits (s : list Z) (acc : Z) : res Z :=
  match s with
  | [] => UB
  | c :: s => if xvalue c <? 0 then Ok acc else hex_digits s (16 * acc + xvalue c)
  end.
Definition skip_0x (s : list Z) : list Z :=
  match s with
  | z :: x :: c :: s' =>
      if (z =? 48) && ((x =? 120) || (x =? 88)) && (0 <=? xvalue c) then c :: s' else s
  | _ => s
  end.
Definition strtol16 (s : list Z) : res Z :=
  s <- skip_space s ;;
  match s with
  | [] => UB
  | c :: s' =>
      let s := if (c =? 43) || (c =? 45) then s' else s in
      n <- hex_digits (skip_0x s) 0 ;;
      Ok (if c =? 45 then Z.max (- n) (- 2 ^ 63) else Z.min n (2 ^ 63 - 1))
  end.

(** src/gen_idna_table.c:142-143: the codepoints of the mapping. *)
Fixpoint read_codepoints (l : list (list Z)) : res (list Z) :=
  match l with
  | [] => Ok []
  | e :: l =>
      n <- strtol16 e ;;
      r <- read_codepoints l ;;
      Ok (s32 n :: r)
  end.

(** A line with a status as it is read: first and last codepoint, status, mapping. *)
Definition raw_row : Type := Z * Z * list Z * option (list Z).

(** src/gen_idna_table.c:122-155: [line] is the block with the line and its NUL. [None] if
    the line has no status. Simplifications: the status is stripped once instead of once for
    every codepoint; the field idna2008, which is not used, and the release of the lists and
    strings are left out. *)
Definition read_line (junk : nat -> Z) (line : list Z) : res (option raw_row) :=
  parts <- charstr_split junk line 35 1 ;;
  match parts with
  | [] => UB
  | body :: _ =>
      fields <- charstr_split junk body 59 (u32 (-1)) ;;
      match fields with
      | [] => Abort
      | [_] => Ok None
      | cp_range :: status :: fields =>
          range <- charstr_split_str junk cp_range (literal ".." ++ [0]) (u32 (-1)) ;;
          match range with
          | [] => UB
          | first :: range =>
              let last := match range with [] => first | last :: _ => last end in
              mapping <- (match fields with
                          | [] => Ok None
                          | mapping :: _ =>
                              codepoints <- charstr_split_atoms junk mapping ;;
                              cps <- read_codepoints codepoints ;;
                              Ok (Some cps)
                          end) ;;
              start <- strtol16 first ;;
              finish <- strtol16 last ;;
              status <- charstr_strip junk (Some status) ;;
              match status with
              | None => UB
              | Some status =>
                  status <- c_string status ;;
                  Ok (Some (s32 start, s32 finish, status, mapping))
              end
          end
      end
  end.

(** getline(3): the next line with its newline, and the rest of the file. *)
Fixpoint getline (file : list Z) : list Z * list Z :=
  match file with
  | [] => ([], [])
  | c :: file =>
      if c =? 10 then ([c], file)
      else let '(line, file) := getline file in (c :: line, file)
  end.

(** src/gen_idna_table.c:121-174: the lines with a status. *)
Fixpoint read_text (junk : nat -> Z) (fuel : nat) (file : list Z) : res (list raw_row) :=
  match fuel with
  | O => NoFuel
  | S fuel =>
      let '(line, file) := getline file in
      match line with
      | [] => Ok []
      | _ =>
          r <- read_line junk (line ++ [0]) ;;
          rows <- read_text junk fuel file ;;
          Ok (match r with None => rows | Some row => row :: rows end)
      end
  end.

(** The statuses that main asks for, src/gen_idna_table.c:182-188. *)
Definition known_statuses : list (list Z * status) :=
  [(literal "deviation", Deviation); (literal "disallowed", Disallowed);
   (literal "disallowed_STD3_valid", Std3_valid); (literal "disallowed_STD3_mapped", Std3_mapped);
   (literal "ignored", Ignored); (literal "mapped", Mapped); (literal "valid", Valid)].
Definition status_of (s : list Z) : status :=
  match find (fun e => same_bytes s (fst e)) known_statuses with
  | Some (_, st) => st
  | None => Other s
  end.

(** The lines as [idna_row]s. *)
Definition row_of (row : raw_row) : idna_row := let '(start, finish, s, m) := row in (start, finish, status_of s, m).

(** src/gen_idna_table.c:116-191 main on the text of the file. Simplification: the lines
    are all read before the first is entered into the table. *)
Definition gen_idna_text (junk : nat -> Z) (buffer : list Z) (file : list Z) : res idna_code :=
  l <- read_text junk (S (List.length file)) file ;;
  gen_idna_table buffer (map row_of l).
