(** Property C132: test/charstr_idna_test.c. *)
From Verif Require Import Base CMem Heap CharstrSpec NormModel IdnaEncodeModel IdnaEncodeSpec OwnSpec GenMem TestIdnaModel TestIdnaSpec TestIdna.
From Verif Require Import IdnaEncodeProps.

(** Whatever the file says, test/charstr_idna_test.c accepts it exactly if every line has too few fields, or has a first field
    that charstr_idna_encode refuses or encodes as expected. All memory is freed again. *)
Theorem C132_idna_test : forall junk r hr errno h file, zlen (r_ccs r) = 100 ->
  text file -> zlen file < 2 ^ 58 -> encodes_file junk r hr errno file ->
  exists v h', idna_main junk r hr errno (S (length file)) 0 true file h = Ok (v, h') /\ same_memory h h' /\
    file_says (encode junk r hr errno) file v.
Proof. intros junk r hr errno h file Rs. exact (idna_file_ok junk r hr errno Rs h file). Qed.
Print Assumptions C132_idna_test.

(** Files of ASCII need no condition. *)
Theorem C132_idna_test_ascii : forall junk r hr errno h file, zlen (r_ccs r) = 100 ->
  text file -> ascii file -> zlen file < 2 ^ 58 ->
  exists v h', idna_main junk r hr errno (S (length file)) 0 true file h = Ok (v, h') /\ same_memory h h' /\
    file_says (encode junk r hr errno) file v.
Proof.
  intros junk r hr errno h file Rs T A L. exact (idna_file_ok junk r hr errno Rs h file T L (ascii_encodes junk r hr errno file T A L)).
Qed.
Print Assumptions C132_idna_test_ascii.

(** No file is both accepted and refused. *)
Theorem C132_idna_one_verdict : forall junk r hr errno file, file_says (encode junk r hr errno) file true -> ~ file_says (encode junk r hr errno) file false.
Proof. exact file_verdict. Qed.
Print Assumptions C132_idna_one_verdict.

(** The lines [ A ;;; a # x], an empty one and [B;b;;], and these with another line [b;;;c]. *)
Definition c132_file : list Z := [32; 65; 32; 59; 59; 59; 32; 97; 32; 35; 32; 120; 10; 10; 66; 59; 98; 59; 59; 10].
Example C132_idna_example :
  text c132_file /\ ascii c132_file /\ zlen (r_ccs r1) = 100 /\
  match idna_main junk1 r1 h1 0 21 0 true c132_file heap0 with Ok (v, h) => v = true /\ mem h = [] | _ => False end /\
  match idna_main junk1 r1 h1 0 27 0 true (c132_file ++ [98; 59; 59; 59; 99; 10]) heap0 with Ok (v, h) => v = false /\ mem h = [] | _ => False end.
Proof.
  split; [repeat (constructor; [lia|]); constructor|]. split; [repeat (constructor; [lia|]); constructor|]. split; [reflexivity|].
  split; lazy; split; reflexivity.
Qed.
