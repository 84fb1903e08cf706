(** Model of src/gen_idna_table.c, which writes idna_table.c from
    idna/IdnaMappingTable.txt, and of the C code it writes. *)
From Verif Require Import Base Utf8Model.

(** The statuses in the file, the second field of its lines: the ones that
    src/gen_idna_table.c:182-188 asks for, and any other string. *)
Inductive status := Valid | Ignored | Mapped | Deviation | Disallowed | Std3_valid | Std3_mapped | Other (name : list Z).

(** [!strcmp(a, b)], the strings without their NULs *)
Fixpoint same_bytes (a b : list Z) : bool :=
  match a, b with
  | [], [] => true
  | x :: a, y :: b => (x =? y) && same_bytes a b
  | _, _ => false
  end.

(** [!strcmp(table[cp].status, status)], src/gen_idna_table.c:27,44,52 *)
Definition status_eqb (x y : status) : bool :=
  match x, y with
  | Valid, Valid | Ignored, Ignored | Mapped, Mapped | Deviation, Deviation | Disallowed, Disallowed
  | Std3_valid, Std3_valid | Std3_mapped, Std3_mapped => true
  | Other a, Other b => same_bytes a b
  | _, _ => false
  end.

(** src/gen_idna_table.c:10-12 *)
Definition N_CP : Z := 0x110000.

(** A line with a status, src/gen_idna_table.c:121-152: first and last codepoint, status,
    and the codepoints of the third field if there is one. The splitting
    of the line and the reading of the numbers are in IdnaTextModel.v. Simplification: the
    field idna2008, which is not used, is left out. *)
Definition idna_row : Type := Z * Z * status * option (list Z).

(** src/gen_idna_table.c:14-16: status and mapping (without the NUL); [None] if the
    status is NULL. *)
Definition entry : Type := status * option (list Z).
Definition itable : Type := Z -> option entry.

(** src/gen_idna_table.c:142-146: the loop over the codepoints of the mapping;
    [end_] is 99. *)
Fixpoint put_mapping (cps : list Z) (buffer : list Z) (q : Z) : res (list Z * Z) :=
  match cps with
  | [] => Ok (buffer, q)
  | codepoint :: cps =>
      ' (buffer, q') <- charstr_encode_utf8_codepoint codepoint buffer (Some q) (Some 99) ;;
      match q' with
      | None => Abort
      | Some q' => put_mapping cps buffer q'
      end
  end.

(** The bytes before the first NUL of a block, for [charstr_dupstr(buffer)],
    src/gen_idna_table.c:157. *)
Fixpoint c_string (b : list Z) : res (list Z) :=
  match b with
  | [] => UB
  | c :: b => if c =? 0 then Ok [] else r <- c_string b ;; Ok (c :: r)
  end.

(** src/gen_idna_table.c:138-150 and 156-157: the mapping of the line; the content of the
    local variable [buffer] is arbitrary before. *)
Definition mapping_bytes (junk : list Z) (mapping : option (list Z)) : res (option (list Z)) :=
  match mapping with
  | None => Ok None
  | Some cps =>
      ' (buffer, q) <- put_mapping cps junk 0 ;;
      buffer <- wr buffer q 0 ;;
      m <- c_string buffer ;;
      Ok (Some m)
  end.

(** src/gen_idna_table.c:153-160; [count] is the number of the passes that remain. *)
Fixpoint fill_range (count : nat) (cp : Z) (e : entry) (t : itable) : res itable :=
  match count with
  | O => Ok t
  | S count =>
      if (0 <=? cp) && (cp <? N_CP) then
        _ <- assert (match t cp with None => true | Some _ => false end) ;;
        fill_range count (cp + 1) e (fun n => if n =? cp then Some e else t n)
      else UB
  end.

(** src/gen_idna_table.c:121-174. *)
Fixpoint read_lines (junk : list Z) (rows : list idna_row) (t : itable) : res itable :=
  match rows with
  | [] => Ok t
  | (start, finish, st, mapping) :: rows =>
      m <- mapping_bytes junk mapping ;;
      t <- fill_range (Z.to_nat (finish - start + 1)) start (st, m) t ;;
      read_lines junk rows t
  end.

(** src/gen_idna_table.c:176-177 *)
Fixpoint check_all (count : nat) (cp : Z) (t : itable) : res unit :=
  match count with
  | O => Ok tt
  | S count =>
      _ <- assert (match t cp with None => false | Some _ => true end) ;;
      check_all count (cp + 1) t
  end.

(** [table[cp].status] *)
Definition status_at (t : itable) (cp : Z) : res status :=
  match t cp with Some (s, _) => Ok s | None => UB end.

(** src/gen_idna_table.c:26-35: the tests that are written. [(hi, lo)] stands for
    [if (codepoint < hi) return codepoint >= lo;]. *)
Fixpoint tests (count : nat) (cp prev_cp : Z) (st : status) (t : itable) : res (list (Z * Z)) :=
  match count with
  | O => Ok []
  | S count =>
      s <- status_at t cp ;;
      if negb (status_eqb s st) then
        if prev_cp >=? 0 then
          r <- tests count (cp + 1) (-1) st t ;;
          Ok ((cp, prev_cp) :: r)
        else tests count (cp + 1) prev_cp st t
      else if prev_cp <? 0 then tests count (cp + 1) cp st t
      else tests count (cp + 1) prev_cp st t
  end.
(** src/gen_idna_table.c:19-38 generate_test *)
Definition generate_test (st : status) (t : itable) : res (list (Z * Z)) := tests (Z.to_nat N_CP) 0 (-1) st t.

(** The function that [generate_test] writes, src/gen_idna_table.c:22-37. *)
Fixpoint run_test (l : list (Z * Z)) (codepoint : Z) : bool :=
  match l with
  | [] => false
  | (hi, lo) :: l => if codepoint <? hi then codepoint >=? lo else run_test l codepoint
  end.

(** src/gen_idna_table.c:42-45 *)
Fixpoint find_max (count : nat) (cp max_on : Z) (st : status) (t : itable) : res Z :=
  match count with
  | O => Ok max_on
  | S count =>
      s <- status_at t cp ;;
      find_max count (cp + 1) (if status_eqb s st then cp else max_on) st t
  end.
(** src/gen_idna_table.c:51-53 *)
Fixpoint fill_set (count : nat) (cp : Z) (st : status) (t : itable) (set : list Z) : res (list Z) :=
  match count with
  | O => Ok set
  | S count =>
      s <- status_at t cp ;;
      set <- (if status_eqb s st then
                w <- rd set (cp / 64) ;;
                wr set (cp / 64) (Z.lor w (Z.shiftl 1 (cp mod 64)))
              else Ok set) ;;
      fill_set count (cp + 1) st t set
  end.
(** src/gen_idna_table.c:40-72 generate_set: the number and the array in the function that
    is written. The array is written with its last element apart, so an empty array means
    a read before its beginning (line 70). *)
Definition generate_set (st : status) (t : itable) : res (Z * list Z) :=
  max_on <- find_max (Z.to_nat N_CP) 0 (-1) st t ;;
  let set_size := Z.quot (max_on + 63) 64 in
  set <- fill_set (Z.to_nat max_on) 0 st t (repeat 0 (Z.to_nat set_size)) ;;
  _ <- rd set (set_size - 1) ;;
  Ok (max_on, set).

(** The function that [generate_set] writes, src/gen_idna_table.c:63-69. A shift by a
    negative number is undefined. *)
Definition run_set (c : Z * list Z) (codepoint : Z) : res bool :=
  let '(max_on, set) := c in
  if codepoint >? max_on then Ok false
  else
    w <- rd set (Z.quot codepoint 64) ;;
    if Z.rem codepoint 64 <? 0 then UB
    else Ok (truth (Z.land w (Z.shiftl 1 (Z.rem codepoint 64)))).

(** src/gen_idna_table.c:76-83 and 89-95: the entries of [idna_mappings]. *)
Fixpoint mapping_entries (count : nat) (cp : Z) (t : itable) : list (Z * list Z) :=
  match count with
  | O => []
  | S count =>
      match t cp with
      | Some (_, Some (c :: m)) => (cp, c :: m) :: mapping_entries count (cp + 1) t
      | _ => mapping_entries count (cp + 1) t
      end
  end.
(** src/gen_idna_table.c:74-114 generate_mappings: [min_cp], [max_cp] and [idna_mappings].
    Here [min_cp] and [max_cp] are read off the entries instead of kept in variables. *)
Definition generate_mappings (t : itable) : Z * Z * list (Z * list Z) :=
  let l := mapping_entries (Z.to_nat N_CP) 0 t in
  (hd (-1) (map fst l), last (map fst l) (-1), l).

(** src/gen_idna_table.c:105,110 [idna_mappings[i]] *)
Definition mapping_at (l : list (Z * list Z)) (i : Z) : res (Z * list Z) :=
  if inb l i then Ok (nth (Z.to_nat i) l (0, [])) else UB.

(** src/gen_idna_table.c:103-109 *)
Fixpoint search (fuel : nat) (l : list (Z * list Z)) (codepoint low high : Z) : res Z :=
  match fuel with
  | O => NoFuel
  | S fuel =>
      if low <? high then
        let middle := Z.quot (4 * low + high) 5 in
        ' (from, _) <- mapping_at l middle ;;
        if from <? codepoint then search fuel l codepoint (middle + 1) high
        else search fuel l codepoint low middle
      else Ok high
  end.

(** The function that [generate_mappings] writes, src/gen_idna_table.c:98-113. *)
Definition run_mapping (c : Z * Z * list (Z * list Z)) (codepoint : Z) : res (option (list Z)) :=
  let '(min_cp, max_cp, l) := c in
  if (codepoint <? min_cp) || (codepoint >? max_cp) then Ok None
  else
    high <- search (S (length l)) l codepoint 0 (zlen l - 1) ;;
    ' (from, to) <- mapping_at l high ;;
    if negb (from =? codepoint) then Ok None
    else Ok (Some to).

(** The file that is written, src/gen_idna_table.c:178-190. *)
Record idna_code := Code {
  code_deviation : list (Z * Z);
  code_disallowed : list (Z * Z);
  code_std3_valid : list (Z * Z);
  code_std3_mapped : list (Z * Z);
  code_ignored : list (Z * Z);
  code_mapped : Z * list Z;
  code_valid : Z * list Z;
  code_mappings : Z * Z * list (Z * list Z) }.

(** src/gen_idna_table.c:116-191 main *)
Definition gen_idna_table (junk : list Z) (rows : list idna_row) : res idna_code :=
  t <- read_lines junk rows (fun _ => None) ;;
  _ <- check_all (Z.to_nat N_CP) 0 t ;;
  deviation <- generate_test Deviation t ;;
  disallowed <- generate_test Disallowed t ;;
  std3_valid <- generate_test Std3_valid t ;;
  std3_mapped <- generate_test Std3_mapped t ;;
  ignored <- generate_test Ignored t ;;
  mapped <- generate_set Mapped t ;;
  valid <- generate_set Valid t ;;
  Ok (Code deviation disallowed std3_valid std3_mapped ignored mapped valid (generate_mappings t)).
