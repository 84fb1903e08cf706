(** C118: the memory of the table generator. *)
From Verif Require Import Base CMem Heap ListSpec CharstrSpec Utf8Spec NormSpec IdnaTabModel IdnaTabSpec IdnaTabProofs IdnaTextModel IdnaTextSpec IdnaTextProofs IdnaTextProps.
From Verif Require Import OwnModel OwnSpec GenMemModel GenMemSpec GenMem GenMemFile.

(** A line with a status, for codepoints that have none yet: the entries of the table get new
    strings, and everything else that was allocated is freed again. *)
Theorem C118_line : forall junk h table dots la line buffer pre post lo hi st m,
  text line -> zlen line < 2 ^ 32 - 1 -> row_line line (lo, hi, st, m) -> fine_mapping m -> zlen buffer = 100 -> 0 <= lo ->
  get h table = Some (CSlots (pre ++ repeat 0 (3 * Z.to_nat (hi - lo + 1)) ++ post)) -> zlen pre = 3 * lo ->
  get h dots = Some (CSlots [46; 46; 0]) -> get h la = Some (CSlots (line ++ [0])) -> NoDup [table; dots; la] ->
  exists h' rows, h_line junk table dots buffer la h = Ok (tt, h') /\ zlen rows = Z.max 0 (hi - lo + 1) /\
    get h' table = Some (CSlots (pre ++ concat rows ++ post)) /\
    only_new_entries h h' table (pointers (concat rows)) /\
    Forall (fun row => exists p1 p2 p3, row = [p1; p2; p3] /\ string_or_null h' p1 (Some (name_bytes st)) /\
      string_or_null h' p2 (option_map encoding m) /\ some_string h' p3) rows.
Proof.
  intros junk h table dots la line buffer pre post lo hi st m T L RL FM LB P Gt K Gd Gl ND.
  pose proof (line_memory junk h table dots la line buffer pre _ post _ T ltac:(lia) LB Gt Gd Gl ND (row_line_ok junk line lo hi st m [] T L RL)) as H.
  cbn beta iota in H. destruct (H _ (mapping_bytes_ok buffer m LB FM) P K eq_refl) as (ib & h' & rows & _ & E & L2 & G2 & O2 & F2).
  exists h', rows. split; [exact E|]. split; [exact L2|]. split; [exact G2|]. split; [exact O2|].
  eapply Forall_impl; [|exact F2]. intros row (a & b & c & -> & A & B & C). exists a, b, c. split; [reflexivity|]. split; [exact A|]. split; [exact B|exists ib; exact C].
Qed.
Print Assumptions C118_line.

(** A line without a status leaves the memory as it was. *)
Theorem C118_other_line : forall junk h table dots la line buffer t,
  text line -> zlen line < 2 ^ 32 - 1 -> other_line line -> zlen buffer = 100 -> get h table = Some (CSlots t) ->
  get h dots = Some (CSlots [46; 46; 0]) -> get h la = Some (CSlots (line ++ [0])) -> NoDup [table; dots; la] ->
  exists h', h_line junk table dots buffer la h = Ok (tt, h') /\ same_memory h h'.
Proof.
  intros junk h table dots la line buffer t T L OL LB Gt Gd Gl ND.
  exact (line_memory junk h table dots la line buffer [] [] t None T ltac:(lia) LB Gt Gd Gl ND (other_line_ok junk line [] T L OL)).
Qed.
Print Assumptions C118_other_line.

(** Any line at all that the model of the reading, [read_line], accepts; the third pointer of
    an entry is that of the field idna2008. *)
Theorem C118_any_line : forall junk h table dots la line buffer pre old post o,
  text line -> zlen line < 2 ^ 58 -> zlen buffer = 100 ->
  get h table = Some (CSlots (pre ++ old ++ post)) -> get h dots = Some (CSlots [46; 46; 0]) -> get h la = Some (CSlots (line ++ [0])) ->
  NoDup [table; dots; la] -> read_line junk (line ++ [0]) = Ok o ->
  match o with
  | None => exists h', h_line junk table dots buffer la h = Ok (tt, h') /\ same_memory h h'
  | Some (start, finish, s, m) => forall mb, mapping_bytes buffer m = Ok mb ->
      0 <= start -> zlen pre = 3 * start -> old = repeat 0 (3 * Z.to_nat (finish - start + 1)) ->
      exists ib h' rows, idna2008_of junk (line ++ [0]) = Ok ib /\
        h_line junk table dots buffer la h = Ok (tt, h') /\ zlen rows = Z.max 0 (finish - start + 1) /\
        get h' table = Some (CSlots (pre ++ concat rows ++ post)) /\
        only_new_entries h h' table (pointers (concat rows)) /\
        Forall (fun row => exists p1 p2 p3, row = [p1; p2; p3] /\
          string_or_null h' p1 (Some s) /\ string_or_null h' p2 mb /\ string_or_null h' p3 ib) rows
  end.
Proof. exact line_memory. Qed.
Print Assumptions C118_any_line.

(** A whole file, with a table of any size that its rows fit in: at the end nothing is allocated
    but the strings of the table. *)
Theorem C118_file : forall junk h table dots buffer n file rows,
  text file -> zlen file < 2 ^ 32 - 1 -> idna_text file rows -> zlen buffer = 100 -> 0 <= n -> rows_within n rows ->
  get h table = Some (CSlots (repeat 0 (3 * Z.to_nat n))) -> get h dots = Some (CSlots [46; 46; 0]) -> dots <> table ->
  exists h' t, h_read_text junk (S (length file)) table dots buffer 0 file h = Ok (tt, h') /\
    get h' table = Some (CSlots t) /\ zlen t = 3 * n /\ only_new_entries h h' table (pointers t) /\
    (forall cp st m, 0 <= cp < n -> says rows cp st m ->
       exists p1 p2 p3, entry_of t cp = [p1; p2; p3] /\ string_or_null h' p1 (Some (name_bytes st)) /\
         string_or_null h' p2 (option_map encoding m) /\ some_string h' p3) /\
    (forall cp, 0 <= cp < n -> (forall st m, ~ says rows cp st m) -> entry_of t cp = [0; 0; 0]).
Proof. exact file_memory. Qed.
Print Assumptions C118_file.

(** The files of C67 and C91 fit in the table of the generator. *)
Theorem C118_fits : forall rows, idna_file 0 rows -> rows_within 0x110000 rows.
Proof.
  assert (H : forall lo rows, idna_file lo rows -> 0 <= lo -> rows_within 0x110000 rows /\
    Forall (fun r => forall cp, covers r cp -> lo <= cp) rows).
  { induction 1 as [|lo hi st m rows R FM _ IH]; intros P.
    - split; [split; constructor|constructor].
    - destruct (IH ltac:(lia)) as ((A & B) & C). split; [split|].
      + constructor; [cbn beta iota; split; [lia|]; split; [lia|exact FM]|exact A].
      + constructor; [|exact B]. eapply Forall_impl; [|exact C]. intros r Hr cp H1 H2. pose proof (Hr cp H2). cbn in H1. lia.
      + constructor; [intros cp H1; cbn in H1; lia|]. eapply Forall_impl; [|exact C]. intros r Hr cp H2. pose proof (Hr cp H2). lia. }
  intros rows F. exact (proj1 (H 0 rows F ltac:(lia))).
Qed.
Print Assumptions C118_fits.

(** Four lines with a table for five codepoints: [0..1; valid ; ;NV8 # x], an empty line,
    [3;mapped;61 62] and a comment. Of the memory is left: the two blocks of the start, and
    the strings of three entries. *)
Definition c118_file : list Z :=
  [48; 46; 46; 49; 59; 32; 118; 97; 108; 105; 100; 32; 59; 32; 59; 78; 86; 56; 32; 35; 32; 120; 10;
   10; 51; 59; 109; 97; 112; 112; 101; 100; 59; 54; 49; 32; 54; 50; 10; 35; 32; 99].
Definition c118_heap : heap := put_cell (put_cell heap0 8 (CSlots (repeat 0 15))) 9 (CSlots [46; 46; 0]).
Definition c118_view : M (list (list (option (list Z))) * Z) :=
  do! h_read_text (fun _ => 9) (S (length c118_file)) 8 9 (repeat 7 100) 0 c118_file in
  let! t := ld_slots 8 in
  fun h => Ok ((map (fun cp => map (fun p => match get h p with Some (CSlots b) => Some b | _ => None end) (entry_of t cp)) [0; 1; 2; 3; 4],
                zlen (mem h)), h).
Example C118_example : result (c118_view c118_heap) =
  Some ([[Some [118; 97; 108; 105; 100; 0]; Some [0]; Some [78; 86; 56; 0]];
         [Some [118; 97; 108; 105; 100; 0]; Some [0]; Some [78; 86; 56; 0]];
         [None; None; None];
         [Some [109; 97; 112; 112; 101; 100; 0]; Some [97; 98; 0]; None];
         [None; None; None]], 10).
Proof. vm_compute. reflexivity. Qed.
Example C118_example_file : exists file rows, idna_text file rows /\ text file /\ zlen file < 2 ^ 32 - 1 /\ rows <> [] /\ rows_within 0x110000 rows.
Proof.
  exists small_file. eexists. destruct C91_example_file as (T & I). split; [exact I|]. split; [exact T|]. split; [vm_compute; reflexivity|].
  split; [discriminate|]. apply C118_fits. repeat (constructor; [lia| |]); try (cbn; auto; fail); [|constructor].
  split; [constructor; [|constructor]|vm_compute; discriminate]. unfold scalar. lia.
Qed.
