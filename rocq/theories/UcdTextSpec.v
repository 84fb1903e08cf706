(** The formats of UnicodeData.txt, CompositionExclusions.txt and
    DerivedNormalizationProps.txt, https://www.unicode.org/reports/tr44/, and what the files
    say. Texts are lists of codepoints. *)
From Verif Require Import Base CharstrSpec CategoryModel CategorySpec CategoryData CaseModel CaseData UcdData IdnaTextSpec.
From Coq Require Import String Ascii List.
Open Scope list_scope.
Open Scope Z_scope.

Definition chars (s : string) : list Z := map (fun c => Z.of_nat (nat_of_ascii c)) (list_ascii_of_string s).

(** The file consists of the lines. *)
Inductive lines_of : list Z -> list (list Z) -> Prop :=
| Lines_end : lines_of [] []
| Lines_cons line file lines : whole_line line file -> lines_of file lines -> lines_of (line ++ file) (line :: lines).

(** * UnicodeData.txt *)
Definition category_name (c : category) : string :=
  match c with
  | Cn => "Cn" | Cc => "Cc" | Cf => "Cf" | Co => "Co" | Cs => "Cs" | Ll => "Ll" | Lm => "Lm" | Lo => "Lo" | Lt => "Lt"
  | Lu => "Lu" | Mc => "Mc" | Me => "Me" | Mn => "Mn" | Nd => "Nd" | Nl => "Nl" | No => "No" | Pc => "Pc" | Pd => "Pd"
  | Pe => "Pe" | Pf => "Pf" | Pi => "Pi" | Po => "Po" | Ps => "Ps" | Sc => "Sc" | Sk => "Sk" | Sm => "Sm" | So => "So"
  | Zl => "Zl" | Zp => "Zp" | Zs => "Zs"
  end.

(** The sixth field: nothing, a canonical decomposition or a compatibility decomposition. *)
Inductive mapping := Unmapped | Canonical (cps : list Z) | Compatibility.

(** What a line says; case conversions are single codepoints, if there are any. *)
Record ucd_row := Ucd {
  u_cp : Z;
  u_kind : kind;
  u_category : category;
  u_class : Z;
  u_mapping : mapping;
  u_upper : option Z;
  u_lower : option Z }.

Inductive dec_number : list Z -> Z -> Prop :=
| Dec_digit v : 0 <= v <= 9 -> dec_number [48 + v] v
| Dec_more ds n v : dec_number ds n -> 0 <= v <= 9 -> dec_number (ds ++ [48 + v]) (10 * n + v).

Definition name_kind (name : list Z) (k : kind) : Prop :=
  match k with
  | First => exists p, name = p ++ chars ", First>"
  | Last => exists p, name = p ++ chars ", Last>"
  | Single => (forall p, name <> p ++ chars ", First>") /\ forall p, name <> p ++ chars ", Last>"
  end.

Definition decomposition_field (f : list Z) (m : mapping) : Prop :=
  match m with
  | Unmapped => f = []
  | Canonical cps => cps <> [] /\ exists numbers, f = join [32] numbers /\ Forall2 hex_number numbers cps
  | Compatibility => exists t, f = chars "<" ++ t
  end.

Definition optional_number (f : list Z) (o : option Z) : Prop :=
  match o with
  | None => f = []
  | Some n => hex_number f n
  end.

(** A line has fifteen fields. *)
Definition ucd_line (line : list Z) (r : ucd_row) : Prop :=
  exists fields newline,
    line = join [59] fields ++ newline /\ length fields = 15%nat /\ (newline = [10] \/ newline = []) /\
    Forall (Forall (fun c => c <> 59 /\ c <> 10 /\ c <> 13)) fields /\
    hex_number (nth 0 fields []) (u_cp r) /\
    name_kind (nth 1 fields []) (u_kind r) /\
    nth 2 fields [] = chars (category_name (u_category r)) /\
    dec_number (nth 3 fields []) (u_class r) /\
    decomposition_field (nth 5 fields []) (u_mapping r) /\
    optional_number (nth 12 fields []) (u_upper r) /\
    optional_number (nth 13 fields []) (u_lower r).

(** A file in ascending order of the codepoints, with pairs of First and Last lines. *)
Definition simple (r : ucd_row) : row := (u_cp r, u_kind r, u_category r).
Definition ucd_text (file : list Z) (rows : list ucd_row) : Prop :=
  (exists lines, lines_of file lines /\ Forall2 ucd_line lines rows) /\ ucd_file 0 (map simple rows).

(** * CompositionExclusions.txt *)

(** A line with a codepoint, and another one. *)
Definition exclusion_line (line : list Z) (o : option Z) : Prop :=
  match o with
  | Some n => exists ds rest, line = ds ++ rest /\ hex_number ds n /\
                (rest = [] \/ exists c t, rest = c :: t /\ blank c)
  | None => Forall blank line \/ exists w t, line = w ++ chars "#" ++ t /\ Forall blank w
  end.
Definition exclusion_text (file : list Z) (excluded : list Z) : Prop :=
  exists lines os, lines_of file lines /\ Forall2 exclusion_line lines os /\
    excluded = flat_map (fun o => match o with Some n => [n] | None => [] end) os.

(** The codepoint is the primary composite of the two, by the last line that says so. *)
Definition composite (rows : list ucd_row) (excluded : list Z) (starter cc cp : Z) : Prop :=
  exists before r after, rows = before ++ r :: after /\ u_mapping r = Canonical [starter; cc] /\ u_cp r = cp /\
    ~ In cp excluded /\
    forall r', In r' after -> u_mapping r' = Canonical [starter; cc] -> In (u_cp r') excluded.

(** * DerivedNormalizationProps.txt *)
Inductive form := NFC | NFD | NFKC | NFKD.
Inductive verdict := No_ | Maybe_.
Definition form_name (f : form) : string :=
  match f with NFC => "NFC_QC" | NFD => "NFD_QC" | NFKC => "NFKC_QC" | NFKD => "NFKD_QC" end.
Definition verdict_name (v : verdict) : string := match v with No_ => "N" | Maybe_ => "M" end.
(** include/charstr.h:178-185 *)
Definition bit (f : form) (v : verdict) : Z :=
  match f, v with
  | NFC, No_ => 0x01 | NFC, Maybe_ => 0x02 | NFD, No_ => 0x04 | NFD, Maybe_ => 0x08
  | NFKC, No_ => 0x10 | NFKC, Maybe_ => 0x20 | NFKD, No_ => 0x40 | NFKD, Maybe_ => 0x80
  end.
Definition qc_row : Type := Z * Z * form * verdict.

(** A line of a quick check property, and another one: it does not have three fields, or its
    second field is something else. *)
Definition qc_row_line (line : list Z) (o : option qc_row) : Prop :=
  exists fields rest, line = join [59] fields ++ rest /\ comment rest /\ fields <> [] /\
    Forall (fun f => ~ In 35 f /\ ~ In 59 f) fields /\
    match o with
    | Some (lo, hi, f, v) => exists f1 f2 f3, fields = [f1; f2; f3] /\ range_field f1 lo hi /\ hi <= 0x10FFFF /\
        padded (chars (form_name f)) f2 /\ padded (chars (verdict_name v)) f3
    | None => length fields <> 3%nat \/
        exists f1 f2 f3 s, fields = [f1; f2; f3] /\ padded s f2 /\ (forall f, s <> chars (form_name f)) /\
          (forall c, In c s -> 33 <= c <= 126)
    end.
Definition qc_text (file : list Z) (rows : list qc_row) : Prop :=
  exists lines os, lines_of file lines /\ Forall2 qc_row_line lines os /\
    rows = flat_map (fun o => match o with Some r => [r] | None => [] end) os.

(** The last line that concerns the codepoint gives it the verdict. *)
Definition qc_says (rows : list qc_row) (cp : Z) (f : form) (v : verdict) : Prop :=
  exists before lo hi after, rows = before ++ (lo, hi, f, v) :: after /\ lo <= cp <= hi /\
    forall lo' hi' v', In (lo', hi', f, v') after -> ~ lo' <= cp <= hi'.

(** * The files of the repository *)

(** The rows of UnicodeData.txt, of CompositionExclusions.txt and of
    DerivedNormalizationProps.txt say what the tables in UcdData.v, CategoryData.v and
    CaseData.v say. *)
Definition class_row (r : ucd_row) : list (Z * Z) := if u_class r =? 0 then [] else [(u_cp r, u_class r)].
Definition mapping_row (r : ucd_row) : list (Z * list Z) :=
  match u_mapping r with Canonical cps => [(u_cp r, cps)] | _ => [] end.
Definition case_row_of (r : ucd_row) : list case_row :=
  match u_upper r, u_lower r with
  | None, None => []
  | _, _ => [(u_cp r, u_category r, u_upper r, u_lower r)]
  end.
Definition unicode_data (rows : list ucd_row) : Prop :=
  flat_map class_row rows = ccc_data /\
  flat_map mapping_row rows = decomposition_data /\
  flat_map case_row_of rows = case_data /\
  forall cp c, assigned (map simple rows) cp c <-> assigned category_data cp c.
Definition qc_rows (f : form) (rows : list qc_row) : list (Z * Z * bool) :=
  flat_map (fun '(lo, hi, g, v) =>
    match f, g with
    | NFC, NFC | NFD, NFD | NFKC, NFKC | NFKD, NFKD => [(lo, hi, match v with No_ => true | Maybe_ => false end)]
    | _, _ => []
    end) rows.
Definition normalization_props (rows : list qc_row) : Prop :=
  qc_rows NFC rows = nfc_qc_data /\ qc_rows NFD rows = nfd_qc_data /\
  qc_rows NFKC rows = nfkc_qc_data /\ qc_rows NFKD rows = nfkd_qc_data.
