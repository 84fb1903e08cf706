(** C91: the table generator reads every file of the format of IdnaMappingTable.txt. *)
From Verif Require Import Base CharstrSpec CharstrProofs Utf8Spec NormSpec IdnaTabModel IdnaTabSpec IdnaTabProofs IdnaTextModel IdnaTextSpec IdnaTextProofs IdnaCheck IdnaOther.
From Coq Require Import String List.
Open Scope list_scope.
Open Scope Z_scope.

(** Of a line with a status the codepoints, the status and the mapping are read, whatever the
    blanks, the further fields and the comment are. *)
Theorem C91_line junk line r lo hi st m : text line -> zlen line < 2 ^ 32 - 1 -> row_line line (lo, hi, st, m) ->
  read_line junk (line ++ 0 :: r) = Ok (Some (lo, hi, name_bytes st, m)).
Proof. exact (row_line_ok junk line lo hi st m r). Qed.
Print Assumptions C91_line.

(** Other lines are ignored. *)
Theorem C91_other_line junk line r : text line -> zlen line < 2 ^ 32 - 1 -> other_line line ->
  read_line junk (line ++ 0 :: r) = Ok None.
Proof. exact (other_line_ok junk line r). Qed.
Print Assumptions C91_other_line.

(** A line means one row only. *)
Theorem C91_unambiguous file rows rows' : text file -> zlen file < 2 ^ 32 - 1 ->
  idna_text file rows -> idna_text file rows' -> rows = rows'.
Proof.
  intros T L H H'. pose proof (text_ok (fun _ => 0) file rows H T L (S (List.length file)) ltac:(lia)) as E.
  rewrite (text_ok (fun _ => 0) file rows' H' T L (S (List.length file)) ltac:(lia)) in E.
  injection E as E. apply (f_equal (map row_of)) in E.
  rewrite (rows_of_raw rows (text_fine _ _ H)), (rows_of_raw rows' (text_fine _ _ H')) in E. symmetry. exact E.
Qed.
Print Assumptions C91_unambiguous.

(** The functions that are written depend only on what the lines say. *)
Theorem C91_file junk buffer file rows : text file -> zlen file < 2 ^ 32 - 1 -> idna_text file rows ->
  gen_idna_text junk buffer file = gen_idna_table buffer rows.
Proof. exact (gen_text_ok junk buffer file rows). Qed.
Print Assumptions C91_file.

(** From the text of the file to the functions: the mappings and the statuses mapped and
    valid, as in [C67_generator]. *)
Theorem C91_end_to_end junk buffer file rows mv mm : text file -> zlen file < 2 ^ 32 - 1 -> idna_text file rows ->
  zlen buffer = 100 -> idna_file 0 rows -> largest rows Valid mv -> 1 <= mv -> largest rows Mapped mm -> 1 <= mm ->
  exists c, gen_idna_text junk buffer file = Ok c /\
    (forall st f, In (st, f) [(Deviation, code_deviation c); (Disallowed, code_disallowed c);
         (Std3_valid, code_std3_valid c); (Std3_mapped, code_std3_mapped c); (Ignored, code_ignored c)] ->
       forall cp, run_test f cp = true <-> exists m, says rows cp st m /\ ~ to_the_end rows cp st) /\
    (forall st f mx, In (st, f, mx) [(Mapped, code_mapped c, mm); (Valid, code_valid c, mv)] ->
       forall cp, 0 <= cp -> cp <> mx -> exists b, run_set f cp = Ok b /\ (b = true <-> exists m, says rows cp st m)) /\
    ((exists cp st m, says rows cp st m /\ mapping_of m <> None) ->
       forall cp st m, says rows cp st m -> run_mapping (code_mappings c) cp = Ok (mapping_of m)).
Proof.
  intros T L H1 H2 H3 H4 H5 H6 H7. rewrite (gen_text_ok junk buffer file rows T L H1).
  destruct (gen_ok _ _ _ _ H2 H3 H4 H5 H6 H7) as (c & G & R1 & R2 & R3 & R4 & R5 & R6 & R7 & R8).
  exists c. split; [exact G|]. split; [|split].
  - intros st f I. destruct I as [I|[I|[I|[I|[I|[]]]]]]; injection I as <- <-; assumption.
  - intros st f mx I cp P N. destruct I as [I|[I|[]]]; injection I as <- <- <-; [apply (R6 mm H6 H7 cp P), N|apply (R7 mv H4 H5 cp P), N].
  - intros E cp st m S. exact (proj1 (R8 E cp) st m S).
Qed.
Print Assumptions C91_end_to_end.

(** A status other than the seven: [C91_line] holds for it too, and the seven functions are false
    for the codepoints of the line. *)
Theorem C91_other_status junk buffer file rows mv mm cp name m : text file -> zlen file < 2 ^ 32 - 1 -> idna_text file rows ->
  zlen buffer = 100 -> idna_file 0 rows -> largest rows Valid mv -> 1 <= mv -> largest rows Mapped mm -> 1 <= mm -> says rows cp (Other name) m ->
  exists c, gen_idna_text junk buffer file = Ok c /\
    run_test (code_deviation c) cp = false /\ run_test (code_disallowed c) cp = false /\ run_test (code_std3_valid c) cp = false /\
    run_test (code_std3_mapped c) cp = false /\ run_test (code_ignored c) cp = false /\
    run_set (code_mapped c) cp = Ok false /\ run_set (code_valid c) cp = Ok false.
Proof. exact (other_status junk buffer file rows mv mm cp name m). Qed.
Print Assumptions C91_other_status.

(** In a file whose lines end with carriage return and newline the carriage return is part of
    the status of a line that ends after it: the line means another status. *)
Theorem C91_carriage_return f1 lo hi w st : range_field f1 lo hi -> Forall blank w ->
  In st [Valid; Ignored; Mapped; Deviation; Disallowed; Std3_valid; Std3_mapped] ->
  row_line (f1 ++ 59 :: w ++ name_bytes st ++ [13; 10]) (lo, hi, Other (name_bytes st ++ [13]), None).
Proof. exact (carriage_return f1 lo hi w st). Qed.
Print Assumptions C91_carriage_return.

(** Before a number all whitespace of the C locale is skipped (strtol). *)
Theorem C91_whitespace w s : Forall (fun c => In c [32; 9; 10; 11; 12; 13]) w -> strtol16 (w ++ s) = strtol16 s.
Proof. exact (strtol_spaces w s). Qed.
Print Assumptions C91_whitespace.

(** If a codepoint is covered by no line, or by several, the generator stops at an assertion:
    no functions are written. [times rows cp] is the number of rows that cover [cp]; the rows are
    in any order. *)
Theorem C91_checked : forall buffer rows cp, zlen buffer = 100 -> Forall row_ok rows -> 0 <= cp <= 0x10FFFF ->
  times rows cp <> 1%nat -> gen_idna_table buffer rows = Abort.
Proof. exact gen_stops. Qed.
Print Assumptions C91_checked.

(** A codepoint is given twice; U+10FFFF is missing. *)
Example C91_checked_example :
  Forall row_ok [(0, 0x61, Valid, None); (0x61, 0x10FFFF, Mapped, Some [0x73; 0x73])] /\
  times [(0, 0x61, Valid, None); (0x61, 0x10FFFF, Mapped, Some [0x73; 0x73])] 0x61 = 2%nat /\
  Forall row_ok [(0x62, 0x10FFFE, Valid, None); (0, 0x61, Mapped, Some [])] /\
  times [(0x62, 0x10FFFE, Valid, None); (0, 0x61, Mapped, Some [])] 0x10FFFF = 0%nat /\
  times [(0x62, 0x10FFFE, Valid, None); (0, 0x61, Mapped, Some [])] 0x61 = 1%nat.
Proof.
  assert (S : scalar 0x73 /\ 0x73 <> 0) by (unfold scalar; lia). assert (E : encoding [0x73; 0x73] = [0x73; 0x73]) by reflexivity.
  split; [|split; [reflexivity|split; [|split; reflexivity]]]; (constructor; [|constructor; [|constructor]]); cbn [row_ok fine_mapping];
    (split; [lia|]); (split; [lia|]); try exact I; (split; [|vm_compute; discriminate]); repeat (apply Forall_cons; [exact S|]); apply Forall_nil.
Qed.

(** Two lines of the file, and what they say. *)
Definition line_1 : string := "1F600..1F64F  ; valid                  ;      ; NV8    # 6.1  FACES".
Definition line_2 : string := "00DF          ; deviation              ; 0073 0073     # 1.1".
Example C91_example_other : row_line (literal "A;Valid") (10, 10, Other (literal "Valid"), None).
Proof.
  change (literal "A;Valid") with (join [59] [literal "A"; literal "Valid"] ++ []).
  assert (P : forall s, padded s s) by (intros s; exists [], []; rewrite app_nil_r; repeat split; constructor).
  constructor; [| |apply P|exact I|constructor|left; reflexivity].
  - apply (Range_one (literal "A")); [|lia|apply P]. apply Num_digit. apply (Hex_upper 10). lia.
  - split; [discriminate|]. split; [repeat (apply Forall_cons; [unfold code_white; cbn; lia|]); apply Forall_nil|].
    intros st I. cbn [In] in I. repeat (destruct I as [<-|I]; [discriminate|]). destruct I.
Qed.
Example C91_example_1 : row_line (literal line_1) (0x1F600, 0x1F64F, Valid, Some []).
Proof.
  change (literal line_1) with
    (join [59] [literal "1F600" ++ [46; 46] ++ literal "1F64F  "; literal " valid                  "; literal "      "; literal " NV8    "]
     ++ literal "# 6.1  FACES").
  assert (forall s n, hex_number s n -> padded s s) as P.
  { intros s n _. exists [], []. rewrite app_nil_r. repeat split; constructor. }
  assert (hex_number (literal "1F600") 0x1F600) as N1.
  { change 0x1F600 with (16 * (16 * (16 * (16 * 1 + 15) + 6) + 0) + 0). change (literal "1F600") with (((([49] ++ [70]) ++ [54]) ++ [48]) ++ [48]).
    repeat apply Num_more; try apply Num_digit; try (apply (Hex_digit 1); lia); try (apply (Hex_digit 6); lia);
      try (apply (Hex_digit 0); lia); apply (Hex_upper 15); lia. }
  assert (hex_number (literal "1F64F") 0x1F64F) as N2.
  { change 0x1F64F with (16 * (16 * (16 * (16 * 1 + 15) + 6) + 4) + 15). change (literal "1F64F") with (((([49] ++ [70]) ++ [54]) ++ [52]) ++ [70]).
    repeat apply Num_more; try apply Num_digit; try (apply (Hex_digit 1); lia); try (apply (Hex_digit 6); lia);
      try (apply (Hex_digit 4); lia); apply (Hex_upper 15); lia. }
  constructor.
  - apply (Range_two (literal "1F600") (literal "1F64F")); try assumption; try lia; [apply (P _ _ N1)|].
    exists [], [32; 32]. split; [reflexivity|]. split; [constructor|]. repeat constructor.
  - exact I.
  - exists [32], (repeat 32 18). split; [reflexivity|]. split; repeat constructor.
  - exists []. split; [|constructor]. constructor. repeat constructor.
  - repeat constructor; cbn; intuition discriminate.
  - right. eexists. reflexivity.
Qed.
Example C91_example_2 : row_line (literal line_2) (0xDF, 0xDF, Deviation, Some [0x73; 0x73]) /\
  text (literal line_2 ++ [10]) /\ other_line (literal "# Version: 13.0.0").
Proof.
  split; [|split].
  - change (literal line_2) with
      (join [59] [literal "00DF          "; literal " deviation              "; literal " 0073 0073     "] ++ literal "# 1.1").
    assert (hex_number (literal "00DF") 0xDF) as N1.
    { change 0xDF with (16 * (16 * (16 * 0 + 0) + 13) + 15). change (literal "00DF") with ((([48] ++ [48]) ++ [68]) ++ [70]).
      repeat apply Num_more; try apply Num_digit; try (apply (Hex_digit 0); lia); try (apply (Hex_upper 13); lia); apply (Hex_upper 15); lia. }
    assert (hex_number (literal "0073") 0x73) as N2.
    { change 0x73 with (16 * (16 * (16 * 0 + 0) + 7) + 3). change (literal "0073") with ((([48] ++ [48]) ++ [55]) ++ [51]).
      repeat apply Num_more; try apply Num_digit; try (apply (Hex_digit 0); lia); try (apply (Hex_digit 7); lia); apply (Hex_digit 3); lia. }
    constructor.
    + apply (Range_one (literal "00DF")); [assumption|lia|]. exists [], (repeat 32 10). split; [reflexivity|]. split; repeat constructor.
    + exact I.
    + exists [32], (repeat 32 14). split; [reflexivity|]. split; repeat constructor.
    + exists [literal "0073"; literal "0073"]. split; [|repeat constructor; assumption].
      assert (Forall (fun c => ~ blank c) (literal "0073")) as B by (change (literal "0073") with [48; 48; 55; 51]; repeat (apply Forall_cons; [unfold blank; lia|]); apply Forall_nil).
      apply (Atoms_cons blank [32] (literal "0073") (literal " 0073     ")); try assumption; try discriminate; [repeat constructor| |].
      { right. exists 32, (literal "0073     "). split; [reflexivity|]. left. reflexivity. }
      apply (Atoms_cons blank [32] (literal "0073") (literal "     ")); try assumption; try discriminate; [repeat constructor| |].
      { right. exists 32, (literal "    "). split; [reflexivity|]. left. reflexivity. }
      constructor. repeat constructor.
    + repeat constructor; cbn; intuition discriminate.
    + right. eexists. reflexivity.
  - apply Forall_forall. intros c I. assert (forallb (fun c => (0 <? c) && (c <? 256)) (literal line_2 ++ [10]) = true) as H by (vm_compute; reflexivity).
    rewrite forallb_forall in H. specialize (H c I). lia.
  - exists [], (literal "# Version: 13.0.0"). split; [reflexivity|]. split; [intros []|]. split; [intros []|]. right. eexists. reflexivity.
Qed.

(** A whole file that meets the hypotheses of [C91_end_to_end], with the rows of
    [C67_example_generator]. *)
Definition small_file : list Z :=
  literal "# three lines" ++ [10] ++ literal "0000..0063; valid" ++ [10] ++
  literal "0064..00C8 ;mapped; 0061 # a" ++ [10] ++ literal "00C9..10FFFF ; deviation".
Example C91_example_file : text small_file /\
  idna_text small_file [(0, 99, Valid, None); (100, 200, Mapped, Some [0x61]); (201, 0x10FFFF, Deviation, None)].
Proof.
  split.
  { apply Forall_forall. intros c I. assert (forallb (fun c => (0 <? c) && (c <? 256)) small_file = true) as H by (vm_compute; reflexivity).
    rewrite forallb_forall in H. specialize (H c I). lia. }
  assert (forall s, s <> [] -> forallb (fun c => 0 <=? xvalue c) s = true -> hex_number s (number s)) as N by exact number_ok.
  assert (forall s, padded s s) as P. { intros s. exists [], []. rewrite app_nil_r. repeat split; constructor. }
  assert (forall l, forallb (fun c => negb (c =? 10)) l = true -> ~ In 10 l) as NL.
  { intros l H I. rewrite forallb_forall in H. specialize (H 10 I). discriminate H. }
  unfold small_file. rewrite !app_assoc. rewrite <- (app_assoc _ [10]). rewrite <- !app_assoc.
  rewrite (app_assoc _ [10] (literal "0000..0063; valid" ++ _)).
  apply Text_other; [left; eexists; split; [reflexivity|apply NL; reflexivity]| |].
  { exists [], (literal "# three lines" ++ [10]). split; [reflexivity|]. split; [intros []|]. split; [intros []|]. right. eexists. reflexivity. }
  rewrite (app_assoc _ [10] (literal "0064..00C8 ;mapped; 0061 # a" ++ _)).
  apply Text_row; [left; eexists; split; [reflexivity|apply NL; reflexivity]| |].
  { change (literal "0000..0063; valid" ++ [10]) with (join [59] [literal "0000" ++ [46; 46] ++ literal "0063"; literal " valid" ++ [10]] ++ []).
    constructor.
    - apply (Range_two (literal "0000") (literal "0063")); try lia; try apply P; apply N; reflexivity || discriminate.
    - exact I.
    - exists [32], [10]. split; [reflexivity|]. split; (apply Forall_cons; [unfold blank; lia|constructor]).
    - exact I.
    - constructor.
    - left. reflexivity. }
  rewrite (app_assoc _ [10] (literal "00C9..10FFFF ; deviation")).
  apply Text_row; [left; eexists; split; [reflexivity|apply NL; reflexivity]| |].
  { change (literal "0064..00C8 ;mapped; 0061 # a" ++ [10]) with
      (join [59] [literal "0064" ++ [46; 46] ++ literal "00C8 "; literal "mapped"; literal " 0061 "] ++ literal "# a" ++ [10]).
    constructor.
    - apply (Range_two (literal "0064") (literal "00C8")); try lia; try apply P; try (apply N; reflexivity || discriminate).
      exists [], [32]. split; [reflexivity|]. split; [constructor|]. apply Forall_cons; [unfold blank; lia|constructor].
    - exact I.
    - apply P.
    - exists [literal "0061"]. split.
      + apply (Atoms_cons blank [32] (literal "0061") [32]); try discriminate.
        * apply Forall_cons; [unfold blank; lia|constructor].
        * change (literal "0061") with [48; 48; 54; 49]. repeat (apply Forall_cons; [unfold blank; lia|]). apply Forall_nil.
        * right. exists 32, []. split; [reflexivity|]. unfold blank. lia.
        * constructor. apply Forall_cons; [unfold blank; lia|constructor].
      + constructor; [|constructor]. split; [|lia]. apply N; reflexivity || discriminate.
    - repeat constructor; cbn; intuition discriminate.
    - right. eexists. reflexivity. }
  rewrite <- (app_nil_r (literal "00C9..10FFFF ; deviation")).
  apply Text_row; [right; split; [discriminate|split; [apply NL; reflexivity|reflexivity]]| |constructor].
  change (literal "00C9..10FFFF ; deviation") with (join [59] [literal "00C9" ++ [46; 46] ++ literal "10FFFF "; literal " deviation"] ++ []).
  constructor.
  - apply (Range_two (literal "00C9") (literal "10FFFF")); try lia; try apply P; try (apply N; reflexivity || discriminate).
    exists [], [32]. split; [reflexivity|]. split; [constructor|]. apply Forall_cons; [unfold blank; lia|constructor].
  - exact I.
  - exists [32], []. rewrite app_nil_r. split; [reflexivity|]. split; [apply Forall_cons; [unfold blank; lia|constructor]|constructor].
  - exact I.
  - constructor.
  - left. reflexivity.
Qed.
