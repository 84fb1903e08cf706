(** C92: the scripts that write C code read the files of the Unicode Character Database. *)
From Verif Require Import Base CharstrSpec PyModel CategoryModel CategorySpec CategoryData CaseModel CaseData UcdData NormModel IdnaTextModel IdnaTextSpec IdnaTextProofs UcdTextModel UcdTextSpec PyProofs UcdTextProofs.
From Coq Require Import ZifyBool String List.
Open Scope list_scope.
Open Scope Z_scope.

(** For every file in the format of UnicodeData.txt the function of the combining classes
    returns the class of the line of the codepoint, and 0 for a codepoint without a line. *)
Theorem C92_combining_class file rows : ucd_text file rows ->
  exists cases, canonical_combining_classes file = Ok cases /\
    (forall r, In r rows -> run_class cases (u_cp r) = u_class r) /\
    forall cp, (forall r, In r rows -> u_cp r <> cp) -> run_class cases cp = 0.
Proof. exact (combining_class_ok file rows). Qed.
Print Assumptions C92_combining_class.

(** The script for general categories sees the codepoints, the kinds and the categories of
    the lines; C68 says what it makes of them. *)
Theorem C92_category file rows : ucd_text file rows ->
  categorize_text file = categorize (map (fun r => (u_cp r, u_kind r, u_category r)) rows).
Proof. exact (categorize_text_ok file rows). Qed.
Print Assumptions C92_category.

(** The functions for the case convert capital letters by the last but one field and small
    letters by the one before it; C75 says more. *)
Theorem C92_case file rows : ucd_text file rows ->
  lower_case file = Ok (lower_cases (map (fun r => (u_cp r, u_category r, u_upper r, u_lower r)) rows)) /\
  upper_case file = Ok (upper_cases (map (fun r => (u_cp r, u_category r, u_upper r, u_lower r)) rows)).
Proof. exact (fun U => conj (lower_case_ok file rows U) (upper_case_ok file rows U)). Qed.
Print Assumptions C92_case.

(** The decomposition of a codepoint is its canonical one, with a 0 at the end; without one
    it is NULL. *)
Theorem C92_decomposition file rows : ucd_text file rows ->
  exists c, decomposition file = Ok c /\
    (forall r cps, In r rows -> u_mapping r = Canonical cps -> run_decomposition c (u_cp r) = Some (cps ++ [0])) /\
    forall cp, (forall r cps, In r rows -> u_mapping r = Canonical cps -> u_cp r <> cp) -> run_decomposition c cp = None.
Proof. exact (decomposition_ok file rows). Qed.
Print Assumptions C92_decomposition.

(** Two codepoints have a composite if a line that is not excluded decomposes to them. *)
Theorem C92_composite file file2 rows excluded :
  ucd_text file rows -> exclusion_text file2 excluded ->
  (forall r cps, In r rows -> u_mapping r = Canonical cps -> (List.length cps <= 2)%nat) ->
  exists c, recomposition file file2 = Ok c /\
    (forall starter cc cp, composite rows excluded starter cc cp -> run_recomposition c starter cc = cp) /\
    forall starter cc, (forall cp, ~ composite rows excluded starter cc cp) -> run_recomposition c starter cc = -1.
Proof. exact (recomposition_ok file file2 rows excluded). Qed.
Print Assumptions C92_composite.

(** The flags of a codepoint are those of the lines of the quick check properties. *)
Theorem C92_quick_check file rows : qc_text file rows ->
  exists cases, allowed_in_normal_form file = Ok cases /\
    forall cp, 0 <= cp <= 0x10FFFF -> 0 <= run_allowed cases cp < 256 /\
      forall f v, Z.land (run_allowed cases cp) (bit f v) <> 0 <-> qc_says rows cp f v.
Proof. exact (quick_check_ok file rows). Qed.
Print Assumptions C92_quick_check.

(** If the files are those of the repository, then the functions are those that the other
    theorems are about. *)
Theorem C92_repository file file2 file3 rows rows3 :
  ucd_text file rows -> unicode_data rows -> exclusion_text file2 exclusion_data -> qc_text file3 rows3 -> normalization_props rows3 ->
  (exists c, canonical_combining_classes file = Ok c /\ forall cp, run_class c cp = charstr_unicode_canonical_combining_class cp) /\
  (exists c, decomposition file = Ok c /\ forall cp, run_decomposition c cp = _charstr_unicode_decomposition cp) /\
  (exists c, recomposition file file2 = Ok c /\ forall starter cc, run_recomposition c starter cc = _charstr_unicode_primary_composite starter cc) /\
  (exists c, allowed_in_normal_form file3 = Ok c /\
     forall cp, 0 <= cp <= 0x10FFFF -> run_allowed c cp = charstr_allowed_unicode_normal_forms cp) /\
  (exists c, lower_case file = Ok c /\ forall cp, CaseModel.switch c cp = naive_lcase_unicode case_data cp) /\
  (exists c, upper_case file = Ok c /\ forall cp, CaseModel.switch c cp = naive_ucase_unicode case_data cp) /\
  (exists c, categorize_text file = Ok c /\ forall cp, Ok (run c cp) = unicode_category category_data cp).
Proof.
  intros U (D1 & D2 & D3 & D4) X Q N. destruct (case_same _ _ U D3) as [L1 L2].
  split; [exact (class_same _ _ U D1)|]. split; [exact (decomposition_same _ _ U D2)|]. split; [exact (recomposition_same _ _ _ U X D2)|].
  split; [exact (qc_same _ _ Q N)|]. split; [exists (lower_cases case_data); auto|]. split; [exists (upper_cases case_data); auto|].
  exact (categories_same _ _ U D4).
Qed.
Print Assumptions C92_repository.

(** * Five lines of UnicodeData.txt, and some of the other files *)
Definition nl : list Z := [10].
Definition example_fields : list (list (list Z)) := map (map chars)
  [["0041"; "LATIN CAPITAL LETTER A"; "Lu"; "0"; "L"; ""; ""; ""; ""; "N"; ""; ""; ""; "0061"; ""];
   ["00C0"; "LATIN CAPITAL LETTER A WITH GRAVE"; "Lu"; "0"; "L"; "0041 0300"; ""; ""; ""; "N"; "LATIN CAPITAL LETTER A GRAVE"; ""; ""; "00E0"; ""];
   ["0300"; "COMBINING GRAVE ACCENT"; "Mn"; "230"; "NSM"; ""; ""; ""; ""; "N"; "NON-SPACING GRAVE"; ""; ""; ""; ""];
   ["4E00"; "<CJK Ideograph, First>"; "Lo"; "0"; "L"; ""; ""; ""; ""; "N"; ""; ""; ""; ""; ""];
   ["9FFC"; "<CJK Ideograph, Last>"; "Lo"; "0"; "L"; ""; ""; ""; ""; "N"; ""; ""; ""; ""; ""]]%string.
Definition example_rows : list ucd_row :=
  [Ucd 0x41 Single Lu 0 Unmapped None (Some 0x61); Ucd 0xC0 Single Lu 0 (Canonical [0x41; 0x300]) None (Some 0xE0);
   Ucd 0x300 Single Mn 230 Unmapped None None; Ucd 0x4E00 First Lo 0 Unmapped None None; Ucd 0x9FFC Last Lo 0 Unmapped None None].
Definition example_file : list Z := concat (map (fun fs => join [59] fs ++ nl) example_fields).
Lemma whole l file : forallb (fun c => negb (c =? 10)) l = true -> whole_line (l ++ nl) file.
Proof.
  intros H. left. exists l. split; [reflexivity|]. intros I. rewrite forallb_forall in H. specialize (H 10 I). discriminate H.
Qed.
Lemma lines_concat ls : forallb (forallb (fun c => negb (c =? 10))) ls = true ->
  lines_of (concat (map (fun l => l ++ nl) ls)) (map (fun l => l ++ nl) ls).
Proof.
  induction ls as [|l ls IH]; intros H; [constructor|]. cbn [forallb] in H. apply andb_prop in H. destruct H as [H1 H2].
  cbn [map concat]. constructor; [apply whole; assumption|apply IH; assumption].
Qed.
Lemma plain_fields fs : forallb (forallb (fun c => negb (c =? 59) && negb (c =? 10) && negb (c =? 13))) fs = true ->
  Forall (Forall (fun c => c <> 59 /\ c <> 10 /\ c <> 13)) fs.
Proof.
  intros H. rewrite forallb_forall in H. apply Forall_forall. intros f I. specialize (H f I). rewrite forallb_forall in H.
  apply Forall_forall. intros c J. specialize (H c J). lia.
Qed.
Lemma single_name n : py_endswith n (py ", First>") = false -> py_endswith n (py ", Last>") = false -> name_kind n Single.
Proof.
  intros H1 H2. split; intros p E.
  - rewrite (proj2 (endswith_ok n (py ", First>"))) in H1; [discriminate H1|]. exists p. exact E.
  - rewrite (proj2 (endswith_ok n (py ", Last>"))) in H2; [discriminate H2|]. exists p. exact E.
Qed.
Lemma hex_text ds n : ds <> [] -> forallb (fun c => 0 <=? xvalue c) ds = true -> number ds = n -> hex_number ds n.
Proof. intros Ne H <-. apply number_ok; assumption. Qed.
Ltac hex := apply hex_text; [discriminate|reflexivity|reflexivity].
Example C92_example_file : ucd_text example_file example_rows.
Proof.
  split.
  - exists (map (fun fs => join [59] fs ++ nl) example_fields). split.
    + unfold example_file. rewrite <- (map_map (join [59]) (fun l => l ++ nl)). apply lines_concat. vm_compute. reflexivity.
    + unfold example_fields, example_rows. cbn [map].
      repeat (apply Forall2_cons; [match goal with |- ucd_line (join [59] ?fs ++ nl) _ => exists fs, nl end|]); [..|constructor].
      all: split; [reflexivity|split; [reflexivity|split; [left; reflexivity|split; [apply plain_fields; vm_compute; reflexivity|]]]].
      all: cbn [nth u_cp u_kind u_category u_class u_mapping u_upper u_lower].
      all: split; [hex|split; [|split; [reflexivity|split; [|split; [|split]]]]].
      all: try reflexivity; try hex; try (apply single_name; vm_compute; reflexivity); try (apply (Dec_digit 0); lia).
      * split; [discriminate|]. exists [chars "0041"; chars "0300"]. split; [reflexivity|]. constructor; [hex|]. constructor; [hex|constructor].
      * change (chars "230") with (([48 + 2] ++ [48 + 3]) ++ [48 + 0]). apply (Dec_more _ 23 0); [|lia]. apply (Dec_more _ 2 3); [|lia]. apply Dec_digit. lia.
      * exists (chars "<CJK Ideograph"). reflexivity.
      * exists (chars "<CJK Ideograph"). reflexivity.
  - apply (CategoryProofs.ucd_fileb_ok 9); [cbn; lia|]. vm_compute. reflexivity.
Qed.
(** What the scripts make of it; U+00C0 is the composite of U+0041 and U+0300, and the
    codepoints inside of a range have no class. *)
Example C92_example_run :
  match canonical_combining_classes example_file with Ok c => run_class c 0x300 = 230 /\ run_class c 0x5000 = 0 | _ => False end /\
  lower_case example_file = Ok [(0x41, 0x61); (0xC0, 0xE0)] /\
  arrays (py_lines example_file) = Ok [(0xC0, [0x41; 0x300; 0])] /\
  match recomposition example_file (chars "# none") with Ok c => run_recomposition c 0x41 0x300 = 0xC0 /\ run_recomposition c 0x300 0x41 = -1 | _ => False end /\
  composite example_rows [] 0x41 0x300 0xC0.
Proof.
  split; [vm_compute; auto|]. split; [vm_compute; reflexivity|]. split; [vm_compute; reflexivity|]. split; [vm_compute; auto|].
  exists [Ucd 0x41 Single Lu 0 Unmapped None (Some 0x61)], (Ucd 0xC0 Single Lu 0 (Canonical [0x41; 0x300]) None (Some 0xE0)).
  eexists. split; [reflexivity|]. split; [reflexivity|]. split; [reflexivity|]. split; [intros []|].
  intros r [<- |[<- |[<- |[]]]] M; discriminate M.
Qed.
(** A codepoint that is excluded. *)
Definition example_exclusions : list Z := concat (map (fun l => l ++ nl) [chars "# Script Specifics"; []; chars "00C0    #  LATIN CAPITAL LETTER A WITH GRAVE"]).
Example C92_example_exclusions : exclusion_text example_exclusions [0xC0] /\
  match recomposition example_file example_exclusions with Ok c => run_recomposition c 0x41 0x300 = -1 | _ => False end.
Proof.
  split; [|vm_compute; reflexivity].
  exists (map (fun l => l ++ nl) [chars "# Script Specifics"; []; chars "00C0    #  LATIN CAPITAL LETTER A WITH GRAVE"]), [None; None; Some 0xC0].
  split; [apply lines_concat; vm_compute; reflexivity|]. split; [|reflexivity]. cbn [map].
  constructor; [|constructor; [|constructor; [|constructor]]].
  - right. exists [], (chars " Script Specifics" ++ nl). split; [reflexivity|constructor].
  - left. apply Forall_cons; [right; right; reflexivity|constructor].
  - exists (chars "00C0"), (chars "    #  LATIN CAPITAL LETTER A WITH GRAVE" ++ nl). split; [reflexivity|]. split; [hex|].
    right. exists 32, (chars "   #  LATIN CAPITAL LETTER A WITH GRAVE" ++ nl). split; [reflexivity|left; reflexivity].
Qed.
(** Lines of DerivedNormalizationProps.txt. *)
Definition example_qc : list Z := concat (map (fun l => l ++ nl)
  [chars "# Derived Property: NFD_QC"; chars "037A          ; FC_NFKC; 0020 03B9 # not a quick check";
   chars "00C0..00C5    ; NFD_QC; N # L& [6]"; chars "0300          ; NFC_QC; M # Mn"]).
Example C92_example_quick_check : qc_text example_qc [(0xC0, 0xC5, NFD, No_); (0x300, 0x300, NFC, Maybe_)].
Proof.
  exists (map (fun l => l ++ nl) [chars "# Derived Property: NFD_QC"; chars "037A          ; FC_NFKC; 0020 03B9 # not a quick check";
    chars "00C0..00C5    ; NFD_QC; N # L& [6]"; chars "0300          ; NFC_QC; M # Mn"]),
    [None; None; Some (0xC0, 0xC5, NFD, No_); Some (0x300, 0x300, NFC, Maybe_)].
  split; [apply lines_concat; vm_compute; reflexivity|]. split; [|reflexivity]. cbn [map].
  assert (forall fs, forallb (forallb (fun c => negb (c =? 35) && negb (c =? 59))) fs = true -> Forall (fun f => ~ In 35 f /\ ~ In 59 f) fs) as Free.
  { intros fs H. rewrite forallb_forall in H. apply Forall_forall. intros f I. specialize (H f I). rewrite forallb_forall in H.
    split; intros J; specialize (H _ J); discriminate H. }
  assert (forall s l r, Forall blank l -> Forall blank r -> padded s (l ++ s ++ r)) as Pad by (intros s l r Hl Hr; exists l, r; auto).
  assert (blank 32) as B by (left; reflexivity).
  constructor; [|constructor; [|constructor; [|constructor; [|constructor]]]].
  - exists [[]], (chars "# Derived Property: NFD_QC" ++ nl). split; [reflexivity|]. split; [right; eexists; reflexivity|]. split; [discriminate|].
    split; [apply Free; reflexivity|]. left. discriminate.
  - exists [chars "037A          "; chars " FC_NFKC"; chars " 0020 03B9 "], (chars "# not a quick check" ++ nl). split; [reflexivity|].
    split; [right; eexists; reflexivity|]. split; [discriminate|]. split; [apply Free; vm_compute; reflexivity|]. right.
    eexists _, _, _, (chars "FC_NFKC"). split; [reflexivity|]. split; [apply (Pad (chars "FC_NFKC") [32] []); [apply Forall_cons; [assumption|constructor]|constructor]|].
    split; [intros [| | |]; vm_compute; discriminate|]. intros c I.
    assert (forallb (fun c => (33 <=? c) && (c <=? 126)) (chars "FC_NFKC") = true) as H by (vm_compute; reflexivity).
    rewrite forallb_forall in H. specialize (H c I). lia.
  - exists [chars "00C0..00C5    "; chars " NFD_QC"; chars " N "], (chars "# L& [6]" ++ nl). split; [reflexivity|].
    split; [right; eexists; reflexivity|]. split; [discriminate|]. split; [apply Free; vm_compute; reflexivity|].
    eexists _, _, _. split; [reflexivity|]. split; [|split; [lia|split]].
    + change (chars "00C0..00C5    ") with (chars "00C0" ++ [46; 46] ++ chars "00C5    ").
      apply (Range_two (chars "00C0") (chars "00C5")); [hex|lia|exists [], []; repeat split; constructor|hex|lia|].
      apply (Pad (chars "00C5") [] [32; 32; 32; 32]); [constructor|]. repeat (apply Forall_cons; [assumption|]). constructor.
    + apply (Pad (chars "NFD_QC") [32] []); [apply Forall_cons; [assumption|constructor]|constructor].
    + apply (Pad (chars "N") [32] [32]); (apply Forall_cons; [assumption|constructor]).
  - exists [chars "0300          "; chars " NFC_QC"; chars " M "], (chars "# Mn" ++ nl). split; [reflexivity|].
    split; [right; eexists; reflexivity|]. split; [discriminate|]. split; [apply Free; vm_compute; reflexivity|].
    eexists _, _, _. split; [reflexivity|]. split; [|split; [lia|split]].
    + apply (Range_one (chars "0300")); [hex|lia|]. apply (Pad (chars "0300") [] (chars "          ")); [constructor|].
      repeat (apply Forall_cons; [assumption|]). constructor.
    + apply (Pad (chars "NFC_QC") [32] []); [apply Forall_cons; [assumption|constructor]|constructor].
    + apply (Pad (chars "M") [32] [32]); (apply Forall_cons; [assumption|constructor]).
Qed.
Example C92_example_flags :
  qc_says [(0xC0, 0xC5, NFD, No_); (0x300, 0x300, NFC, Maybe_)] 0xC5 NFD No_ /\
  match qc_lines (py_lines example_qc) (fun _ _ => py "Y") with
  | Ok t => qc_cases 2 0xC5 t = Ok [(0xC5, 4)] /\ qc_cases 1 0x300 t = Ok [(0x300, 2)]
  | _ => False
  end.
Proof.
  split; [|vm_compute; auto]. exists [], 0xC0, 0xC5, [(0x300, 0x300, NFC, Maybe_)]. split; [reflexivity|]. split; [lia|].
  intros lo hi v [I|[]]. discriminate I.
Qed.
