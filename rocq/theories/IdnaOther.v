(** Statuses other than the seven that src/gen_idna_table.c asks for (C91). *)
From Verif Require Import Base CharstrSpec IdnaTabModel IdnaTabSpec IdnaTabProofs IdnaTextModel IdnaTextSpec IdnaTextProofs.
Open Scope Z_scope.

Lemma other_status junk buffer file rows mv mm cp name m : text file -> zlen file < 2 ^ 32 - 1 -> idna_text file rows ->
  zlen buffer = 100 -> idna_file 0 rows -> largest rows Valid mv -> 1 <= mv -> largest rows Mapped mm -> 1 <= mm -> says rows cp (Other name) m ->
  exists c, gen_idna_text junk buffer file = Ok c /\
    run_test (code_deviation c) cp = false /\ run_test (code_disallowed c) cp = false /\ run_test (code_std3_valid c) cp = false /\
    run_test (code_std3_mapped c) cp = false /\ run_test (code_ignored c) cp = false /\
    run_set (code_mapped c) cp = Ok false /\ run_set (code_valid c) cp = Ok false.
Proof.
  intros T L H1 H2 H3 H4 H5 H6 H7 S. rewrite (gen_text_ok junk buffer file rows T L H1).
  destruct (gen_ok _ _ _ _ H2 H3 H4 H5 H6 H7) as (c & G & R1 & R2 & R3 & R4 & R5 & R6 & R7 & _).
  exists c. split; [exact G|].
  assert (U : forall st m', says rows cp st m' -> st = Other name).
  { intros st m' S'. apply (says_lookup _ _ H3) in S, S'. congruence. }
  assert (P : 0 <= cp).
  { apply (says_range _ _ H3 _ _ _ S). }
  assert (RT : forall st l, right_test rows st l -> (forall n, st <> Other n) -> run_test l cp = false).
  { intros st l R N. destruct (run_test l cp) eqn:E; [|reflexivity]. apply R in E. destruct E as (m' & S' & _). destruct (N name (U _ _ S')). }
  assert (RS : forall st l mx, right_set rows st l -> largest rows st mx -> 1 <= mx -> (forall n, st <> Other n) -> run_set l cp = Ok false).
  { intros st l mx R La M N. destruct (Z.eq_dec cp mx) as [->|D].
    - destruct La as [(m' & S') _]. destruct (N name (U _ _ S')).
    - destruct (proj1 (R mx La M cp P) D) as (b & -> & B). destruct b; [|reflexivity]. destruct (proj1 B eq_refl) as (m' & S'). destruct (N name (U _ _ S')). }
  repeat split; try (eapply RT; [eassumption|discriminate]).
  - eapply RS; [exact R6|exact H6|exact H7|discriminate].
  - eapply RS; [exact R7|exact H4|exact H5|discriminate].
Qed.

(** strtol(3) skips what isspace(3) accepts: space, \t, \n, \v, \f and \r. *)
Lemma skip_space_all w s : Forall (fun c => In c [32; 9; 10; 11; 12; 13]) w -> skip_space (w ++ s) = skip_space s.
Proof.
  induction 1 as [|c w I _ IH]; [reflexivity|]. cbn [app skip_space].
  cbn [In] in I. destruct I as [<-|[<-|[<-|[<-|[<-|[<-|[]]]]]]]; exact IH.
Qed.
Lemma strtol_spaces w s : Forall (fun c => In c [32; 9; 10; 11; 12; 13]) w -> strtol16 (w ++ s) = strtol16 s.
Proof. intros H. unfold strtol16. rewrite skip_space_all by exact H. reflexivity. Qed.
