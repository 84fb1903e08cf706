(** Property C132: test/charstr_normalization_test.c. *)
From Verif Require Import Base CMem Heap CharstrSpec Utf8Spec NormModel NormSpec OwnSpec IdnaTextSpec TestMoreModel TestSpec TestProps TestNormModel TestNormSpec TestNorm.

(** test/charstr_normalization_test.c accepts a file with lines like those of NormalizationTest.txt exactly if the columns of
    all lines are the normal forms of each other. All memory is freed again. *)
Theorem C132_normalization_file : forall junk l h file rows, sound l -> text file -> zlen file < 2 ^ 32 - 1 -> norm_text file rows ->
  exists error h', norm_main junk l file h = Ok (error, h') /\ same_memory h h' /\ (error = false <-> Forall right rows).
Proof. exact norm_main_ok. Qed.
Print Assumptions C132_normalization_file.

(** The lines [#], [1E0A;1E0A;44 307;1E0A;44 307; # D] and [@], and these with another line [41;41;41;41;42;]. *)
Definition c132_lines : list Z :=
  [35; 10] ++ [49; 69; 48; 65; 59; 49; 69; 48; 65; 59; 52; 52; 32; 51; 48; 55; 59; 49; 69; 48; 65; 59; 52; 52; 32; 51; 48; 55; 59; 32; 35; 32; 68; 10] ++ [64; 10].
Definition c132_leftovers : leftovers := mk_leftovers (repeat 5 1000) (repeat 6 1000) (mk_recomposer RECOMPOSER_TERMINATED 5 (repeat 8 100) 6 7) (mk_hangul HANGUL_RECOMPOSER_STARTED 5) 0.
Example C132_norm_text_example :
  sound c132_leftovers /\ text c132_lines /\ norm_text c132_lines [[[0x1E0A]; [0x1E0A]; [0x44; 0x307]; [0x1E0A]; [0x44; 0x307]]] /\
  right [[0x1E0A]; [0x1E0A]; [0x44; 0x307]; [0x1E0A]; [0x44; 0x307]].
Proof.
  split; [repeat split|]. split; [repeat (constructor; [lia|]); constructor|].
  destruct C132_line_example as (A & B).
  assert (D : forall n, 0 <= n <= 9 -> hex_value (48 + n) n) by (intros n; apply Hex_digit).
  assert (U : forall n, 10 <= n <= 15 -> hex_value (65 + (n - 10)) n) by (intros n; apply Hex_upper).
  assert (N1 : hex_number [49; 69; 48; 65] 0x1E0A).
  { apply (Num_more [49; 69; 48] 0x1E0 65 10); [|apply (U 10); lia]. apply (Num_more [49; 69] 0x1E 48 0); [|apply (D 0); lia]. apply (Num_more [49] 1 69 14); [apply Num_digit, (D 1); lia|apply (U 14); lia]. }
  assert (N2 : hex_number [52; 52] 0x44) by (apply (Num_more [52] 4 52 4); [apply Num_digit|]; apply (D 4); lia).
  assert (N3 : hex_number [51; 48; 55] 0x307).
  { apply (Num_more [51; 48] 0x30 55 7); [apply (Num_more [51] 3 48 0); [apply Num_digit, (D 3); lia|apply (D 0); lia]|apply (D 7); lia]. }
  assert (C1 : column [49; 69; 48; 65] [0x1E0A]).
  { exists [[49; 69; 48; 65]]. split; [discriminate|]. split; [reflexivity|]. split; [repeat (constructor; [assumption|]); constructor|]. inversion B; assumption. }
  assert (C2 : column [52; 52; 32; 51; 48; 55] [0x44; 0x307]).
  { exists [[52; 52]; [51; 48; 55]]. split; [discriminate|]. split; [reflexivity|]. split; [repeat (constructor; [assumption|]); constructor|]. rewrite Forall_forall in B. apply B. cbn. tauto. }
  split.
  - apply (Norm_other [35; 10]); [left; exists [35]; split; [reflexivity|cbn; lia]|exists [10]; auto|].
    apply (Norm_data [49; 69; 48; 65; 59; 49; 69; 48; 65; 59; 52; 52; 32; 51; 48; 55; 59; 49; 69; 48; 65; 59; 52; 52; 32; 51; 48; 55; 59; 32; 35; 32; 68; 10] [64; 10]).
    + left. exists [49; 69; 48; 65; 59; 49; 69; 48; 65; 59; 52; 52; 32; 51; 48; 55; 59; 49; 69; 48; 65; 59; 52; 52; 32; 51; 48; 55; 59; 32; 35; 32; 68]. split; [reflexivity|cbn; lia].
    + exists [[49; 69; 48; 65]; [49; 69; 48; 65]; [52; 52; 32; 51; 48; 55]; [49; 69; 48; 65]; [52; 52; 32; 51; 48; 55]], [32; 35; 32; 68; 10].
      split; [reflexivity|]. split; [reflexivity|]. repeat (constructor; [assumption|]). constructor.
    + apply (Norm_other [64; 10] []); [left; exists [64]; split; [reflexivity|cbn; lia]|exists [10]; auto|constructor].
  - split; [exact A|]. intros c I. apply A. cbn in I |- *. tauto.
Qed.
Example C132_norm_file_example :
  match norm_main (fun _ => 7) c132_leftovers c132_lines heap0 with Ok (error, h) => error = false /\ mem h = [] | _ => False end /\
  match norm_main (fun _ => 7) c132_leftovers (c132_lines ++ [52; 49; 59; 52; 49; 59; 52; 49; 59; 52; 49; 59; 52; 50; 59; 10]) heap0 with Ok (error, h) => error = true /\ mem h = [] | _ => False end /\
  match norm_main (fun _ => 7) c132_leftovers (c132_lines ++ [52; 49; 59; 52; 49; 10]) heap0 with Abort => True | _ => False end.
Proof. vm_compute. repeat split. Qed.
