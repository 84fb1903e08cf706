(** Models of the Python scripts in src/ that write C code from the files in unicode/, from
    the text of the files on. *)
From Verif Require Import Base PyModel CategoryModel CaseModel NormModel.
From Coq Require Import String.
Open Scope list_scope.
Open Scope Z_scope.

(** The treatment of First and Last lines in four of the scripts:
    src/canonical_combining_classes.py:17-25, src/lower_case.py:17-25,
    src/upper_case.py:17-25; the new [range_start]. *)
Definition pairing (descr category : list Z) (range_start : option (list Z)) : res (option (list Z)) :=
  if py_endswith descr (py ", Last>") then
    _ <- assert (match range_start with Some c => py_eq c category | None => false end) ;;
    Ok None
  else
    _ <- assert (match range_start with Some _ => false | None => true end) ;;
    Ok (if py_endswith descr (py ", First>") then Some category else None).

(** [codepoint_str, descr, category, _ = line.split(";", 3)] and
    [codepoint = int(codepoint_str, 16)], e.g. src/categorize.py:12-13 *)
Definition line_start (line : list Z) : res (Z * list Z * list Z) :=
  match py_split_max 59 3 line with
  | [codepoint_str; descr; category; _] =>
      codepoint <- or_raise (py_int 16 codepoint_str) ;;
      Ok (codepoint, descr, category)
  | _ => Abort
  end.

(** [line.split(";")[i]] *)
Definition field (i : nat) (line : list Z) : res (list Z) := or_raise (nth_error (py_split 59 line) i).

(** src/canonical_combining_classes.py:14-29: the cases of the switch statement. *)
Fixpoint class_cases (lines : list (list Z)) (range_start : option (list Z)) : res (list (Z * Z)) :=
  match lines with
  | [] =>
      _ <- assert (match range_start with Some _ => false | None => true end) ;;
      Ok []
  | line :: lines =>
      ' (codepoint, descr, category) <- line_start line ;;
      range_start <- pairing descr category range_start ;;
      f <- field 3 line ;;
      c <- or_raise (py_int 10 f) ;;
      r <- class_cases lines range_start ;;
      Ok ((codepoint, c) :: r)
  end.
(** src/canonical_combining_classes.py:5-33 *)
Definition canonical_combining_classes (file : list Z) : res (list (Z * Z)) := class_cases (py_lines file) None.
(** The function that it writes, src/canonical_combining_classes.py:8-33. *)
Definition run_class (cases : list (Z * Z)) (codepoint : Z) : Z :=
  match NormModel.switch cases codepoint with Some c => c | None => 0 end.

(** src/lower_case.py:14-34 ([i] = 13, [letter] = Lu) and src/upper_case.py:14-34 ([i] = 12,
    [letter] = Ll): the cases of the switch statement. *)
Fixpoint case_cases (letter : list Z) (i : nat) (lines : list (list Z)) (range_start : option (list Z)) : res (list (Z * Z)) :=
  match lines with
  | [] =>
      _ <- assert (match range_start with Some _ => false | None => true end) ;;
      Ok []
  | line :: lines =>
      ' (codepoint, descr, category) <- line_start line ;;
      range_start <- pairing descr category range_start ;;
      case <- (if py_eq category letter then
                 f <- field i line ;;
                 Ok (match py_int 16 f with Some n => [(codepoint, n)] | None => [] end)
               else Ok []) ;;
      r <- case_cases letter i lines range_start ;;
      Ok (case ++ r)
  end.
(** src/lower_case.py:5-38, src/upper_case.py:5-38; the functions that they write are
    [CaseModel.switch]. *)
Definition lower_case (file : list Z) : res (list (Z * Z)) := case_cases (py "Lu") 13 (py_lines file) None.
Definition upper_case (file : list Z) : res (list (Z * Z)) := case_cases (py "Ll") 12 (py_lines file) None.

(** The names of the categories, include/charstr.h:135-166. *)
Definition categories : list (list Z * category) :=
  [(py "Cn", Cn); (py "Cc", Cc); (py "Cf", Cf); (py "Co", Co); (py "Cs", Cs); (py "Ll", Ll); (py "Lm", Lm); (py "Lo", Lo);
   (py "Lt", Lt); (py "Lu", Lu); (py "Mc", Mc); (py "Me", Me); (py "Mn", Mn); (py "Nd", Nd); (py "Nl", Nl); (py "No", No);
   (py "Pc", Pc); (py "Pd", Pd); (py "Pe", Pe); (py "Pf", Pf); (py "Pi", Pi); (py "Po", Po); (py "Ps", Ps); (py "Sc", Sc);
   (py "Sk", Sk); (py "Sm", Sm); (py "So", So); (py "Zl", Zl); (py "Zp", Zp); (py "Zs", Zs)].
Definition category_of (s : list Z) : option category :=
  match find (fun e => py_eq s (fst e)) categories with
  | Some (_, c) => Some c
  | None => None
  end.
(** src/categorize.py:11-14,22: a line as a [row]. A category that is not in the enumeration (an
    error of the C compiler) is [Abort]. *)
Fixpoint category_rows (lines : list (list Z)) : res (list row) :=
  match lines with
  | [] => Ok []
  | line :: lines =>
      ' (codepoint, descr, category) <- line_start line ;;
      c <- or_raise (category_of category) ;;
      r <- category_rows lines ;;
      Ok ((codepoint, if py_endswith descr (py ", Last>") then Last else if py_endswith descr (py ", First>") then First else Single, c) :: r)
  end.
(** src/categorize.py:7-48. Simplification: all lines are read before the first is entered into
    the table. *)
Definition categorize_text (file : list Z) : res code :=
  rows <- category_rows (py_lines file) ;;
  categorize rows.

(** [[ int(dc, 16) for dc in ... ]], src/decomposition.py:24-25, src/recomposition.py:23 *)
Fixpoint ints (l : list (list Z)) : res (list Z) :=
  match l with
  | [] => Ok []
  | s :: l =>
      n <- or_raise (py_int 16 s) ;;
      r <- ints l ;;
      Ok (n :: r)
  end.
(** src/decomposition.py:11-20, src/recomposition.py:14-23: the codepoint and the canonical
    decomposition of a line, [None] if it has none. *)
Definition decomposition_line (line : list Z) : res (Z * option (list Z)) :=
  hex_cp <- field 0 line ;;
  codepoint <- or_raise (py_int 16 hex_cp) ;;
  raw_decomposition <- field 5 line ;;
  match raw_decomposition with
  | [] => Ok (codepoint, None)
  | _ =>
      if py_startswith raw_decomposition (py "<") then Ok (codepoint, None)
      else
        d <- ints (py_words [] raw_decomposition) ;;
        Ok (codepoint, Some d)
  end.
(** src/decomposition.py:10-27: the arrays that are written. *)
Fixpoint arrays (lines : list (list Z)) : res (list (Z * list Z)) :=
  match lines with
  | [] => Ok []
  | line :: lines =>
      ' (codepoint, d) <- decomposition_line line ;;
      r <- arrays lines ;;
      Ok (match d with Some d => (codepoint, d ++ [0]) :: r | None => r end)
  end.
(** src/decomposition.py:33-37: the codepoints of the cases. *)
Definition decomposition_cases (l : list (Z * list Z)) : list Z :=
  filter (fun codepoint => existsb (fun e => fst e =? codepoint) l) (map Z.of_nat (seq 0 (Z.to_nat 0x110000))).
(** src/decomposition.py:5-41: the arrays and the cases. *)
Definition decomposition (file : list Z) : res (list (Z * list Z) * list Z) :=
  l <- arrays (py_lines file) ;;
  Ok (l, decomposition_cases l).
(** The function that it writes, src/decomposition.py:28-41. *)
Definition run_decomposition (c : list (Z * list Z) * list Z) (codepoint : Z) : option (list Z) :=
  if existsb (fun x => x =? codepoint) (snd c) then NormModel.switch (fst c) codepoint else None.

(** src/recomposition.py:8-12: the set [exclusions]. *)
Fixpoint exclusions (lines : list (list Z)) : res (list Z) :=
  match lines with
  | [] => Ok []
  | line :: lines =>
      let line := py_strip line in
      if (match line with [] => true | _ => false end) || py_startswith line (py "#") then exclusions lines
      else
        w <- or_raise (hd_error (py_words [] line)) ;;
        n <- or_raise (py_int 16 w) ;;
        r <- exclusions lines ;;
        Ok (n :: r)
  end.
(** src/recomposition.py:13-30: the dictionary [recompositions]. *)
Fixpoint recomposition_lines (excluded : list Z) (lines : list (list Z)) (d : list (Z * list (Z * Z))) : res (list (Z * list (Z * Z))) :=
  match lines with
  | [] => Ok d
  | line :: lines =>
      ' (codepoint, o) <- decomposition_line line ;;
      match o with
      | None | Some [] | Some [_] => recomposition_lines excluded lines d
      | Some [starter; cc] =>
          if existsb (fun x => x =? codepoint) excluded then recomposition_lines excluded lines d
          else
            let inner := match dict_get cc d with Some i => i | None => [] end in
            recomposition_lines excluded lines (dict_set cc (dict_set starter codepoint inner) d)
      | Some _ => Abort
      end
  end.
(** src/recomposition.py:5-67; [file2] is CompositionExclusions.txt. The functions that are
    written, in their order, with their cases. *)
Definition recomposition (file file2 : list Z) : res (list (Z * list (Z * Z))) :=
  excluded <- exclusions (py_lines file2) ;;
  d <- recomposition_lines excluded (py_lines file) [] ;;
  Ok (map (fun '(cc, i) => (cc, dict_sorted i)) (dict_sorted d)).
(** src/recomposition.py:36-63: the functions that it writes. *)
Definition run_recomposition (c : list (Z * list (Z * Z))) (starter cc : Z) : Z :=
  match NormModel.switch c cc with
  | None => -1
  | Some i => match NormModel.switch i starter with Some codepoint => codepoint | None => -1 end
  end.

(** src/allowed_in_normal_form.py:8 *)
Inductive qc_type := NFC_QC | NFD_QC | NFKC_QC | NFKD_QC.
Definition qc_types : list (list Z * qc_type) :=
  [(py "NFC_QC", NFC_QC); (py "NFD_QC", NFD_QC); (py "NFKC_QC", NFKC_QC); (py "NFKD_QC", NFKD_QC)].
Definition qc_type_eqb (a b : qc_type) : bool :=
  match a, b with
  | NFC_QC, NFC_QC | NFD_QC, NFD_QC | NFKC_QC, NFKC_QC | NFKD_QC, NFKD_QC => true
  | _, _ => false
  end.
(** src/allowed_in_normal_form.py:16-34: the range, the type and the value of a line; [None] if
    it is skipped. *)
Definition qc_line (line : list Z) : res (option (Z * Z * qc_type * list Z)) :=
  let line := if py_in 35 line then hd [] (py_split_max 35 1 line) else line in
  match py_strip line with
  | [] => Ok None
  | line =>
      match py_split 59 line with
      | [cp_range; t; qc_value] =>
          match find (fun e => py_eq (py_strip t) (fst e)) qc_types with
          | None => Ok None
          | Some (_, t) =>
              ' (cp_low, cp_high) <-
                (if py_has_dots cp_range then
                   match py_split_dots cp_range with
                   | [cp_low; cp_high] =>
                       l <- or_raise (py_int 16 cp_low) ;;
                       h <- or_raise (py_int 16 cp_high) ;;
                       Ok (l, h)
                   | _ => Abort
                   end
                 else
                   n <- or_raise (py_int 16 cp_range) ;;
                   Ok (n, n)) ;;
              Ok (Some (cp_low, cp_high, t, py_strip qc_value))
          end
      | _ => Ok None
      end
  end.
(** src/allowed_in_normal_form.py:9-36: the list [qc]. An index outside of it is [Abort].
    Simplification: Python takes a negative index from the end of the list, here it is
    [Abort]. *)
Definition qc_table : Type := Z -> qc_type -> list Z.
Fixpoint qc_lines (lines : list (list Z)) (t : qc_table) : res qc_table :=
  match lines with
  | [] => Ok t
  | line :: lines =>
      o <- qc_line line ;;
      match o with
      | None => qc_lines lines t
      | Some (cp_low, cp_high, ty, v) =>
          _ <- assert ((cp_high <? cp_low) || ((0 <=? cp_low) && (cp_high <? 0x110000))) ;;
          qc_lines lines (fun cp ty' => if (cp_low <=? cp) && (cp <=? cp_high) && qc_type_eqb ty' ty then v else t cp ty')
      end
  end.
(** src/allowed_in_normal_form.py:44-52: the flag of one type, 0 if there is none. *)
Definition qc_flag (v : list Z) (disallowed maybe : Z) : res Z :=
  if py_eq v (py "N") then Ok disallowed
  else if py_eq v (py "M") then Ok maybe
  else
    _ <- assert (py_eq v (py "Y")) ;;
    Ok 0.
(** src/allowed_in_normal_form.py:43-55: the cases; [count] is the number of the passes that
    remain. *)
Fixpoint qc_cases (count : nat) (codepoint : Z) (t : qc_table) : res (list (Z * Z)) :=
  match count with
  | O => Ok []
  | S count =>
      a <- qc_flag (t codepoint NFC_QC) UNICODE_NFC_DISALLOWED UNICODE_NFC_MAYBE ;;
      b <- qc_flag (t codepoint NFD_QC) UNICODE_NFD_DISALLOWED UNICODE_NFD_MAYBE ;;
      c <- qc_flag (t codepoint NFKC_QC) UNICODE_NFKC_DISALLOWED UNICODE_NFKC_MAYBE ;;
      d <- qc_flag (t codepoint NFKD_QC) UNICODE_NFKD_DISALLOWED UNICODE_NFKD_MAYBE ;;
      r <- qc_cases count (codepoint + 1) t ;;
      let flags := Z.lor (Z.lor (Z.lor a b) c) d in
      Ok (if flags =? 0 then r else (codepoint, flags) :: r)
  end.
(** src/allowed_in_normal_form.py:7-59 *)
Definition allowed_in_normal_form (file : list Z) : res (list (Z * Z)) :=
  t <- qc_lines (py_lines file) (fun _ _ => py "Y") ;;
  qc_cases (Z.to_nat 0x110000) 0 t.
(** The function that it writes, src/allowed_in_normal_form.py:37-59. *)
Definition run_allowed (cases : list (Z * Z)) (codepoint : Z) : Z :=
  match NormModel.switch cases codepoint with Some f => f | None => 0 end.
