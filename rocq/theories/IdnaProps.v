(** C67: the IDNA status and mapping functions. *)
From Verif Require Import Base Utf8Spec NormSpec IdnaTabModel IdnaTabSpec IdnaTabProofs IdnaData IdnaModel IdnaProofs.
From Coq Require Import String.
Open Scope list_scope.
Open Scope Z_scope.
#[local] Opaque idna_data gen_idna_table.

(** The function whose name belongs to the status; there is none for another status. *)
Definition is_status (st : status) (cp : Z) : res bool :=
  match st with
  | Valid => charstr_idna_status_is_valid cp
  | Ignored => charstr_idna_status_is_ignored cp
  | Mapped => charstr_idna_status_is_mapped cp
  | Deviation => charstr_idna_status_is_deviation cp
  | Disallowed => charstr_idna_status_is_disallowed cp
  | Std3_valid => charstr_idna_status_is_disallowed_STD3_valid cp
  | Std3_mapped => charstr_idna_status_is_disallowed_STD3_mapped cp
  | Other _ => Ok false
  end.

(** The file gives every codepoint exactly one status and mapping. *)
Theorem C67_file cp : 0 <= cp <= 0x10FFFF ->
  exists st m, says idna_data cp st m /\ forall st' m', says idna_data cp st' m' -> st' = st /\ m' = m.
Proof.
  intros H. destruct (says_some cp H) as (st & m & S). exists st, m. split; [exact S|].
  intros st' m' S'. exact (says_unique _ _ _ _ _ S' S).
Qed.
Print Assumptions C67_file.

(** Exactly one function returns true, the one of the status in the file, and its name
    is returned by charstr_idna_status. Missing: the codepoints U+2FA1D, U+3134A and
    those from U+E01F0 on, for which the claim is false. *)
Theorem C67_status_partial cp st m : says idna_data cp st m ->
  cp <> 0x2FA1D -> cp <> 0x3134A -> cp < 0xE01F0 ->
  (forall st', is_status st' cp = Ok (status_eqb st' st)) /\ charstr_idna_status cp = Ok (status_name st).
Proof.
  intros S H1 H2 H3. assert (lost cp = false) as L by (unfold lost; lia).
  split.
  - intros st'. change (is_status st' cp) with (flag st' cp). rewrite (flag_ok _ _ _ _ S), L, andb_true_r.
    f_equal. destruct st, st'; try reflexivity. pose proof (says_bound _ _ _ S) as (_ & _ & []).
  - rewrite (status_ok _ _ _ S), L. reflexivity.
Qed.
Print Assumptions C67_status_partial.

(** For the other codepoints every function returns false, though the first of them is
    mapped, the second valid and the rest disallowed. *)
Theorem C67_status_refuted cp : cp = 0x2FA1D \/ cp = 0x3134A \/ 0xE01F0 <= cp <= 0x10FFFF ->
  exists m, says idna_data cp (if cp =? 0x2FA1D then Mapped else if cp =? 0x3134A then Valid else Disallowed) m /\
  (forall st', is_status st' cp = Ok false) /\ charstr_idna_status cp = Ok "?"%string.
Proof.
  intros H. assert (lost cp = true) as L by (unfold lost; lia).
  assert (exists m, says idna_data cp (if cp =? 0x2FA1D then Mapped else if cp =? 0x3134A then Valid else Disallowed) m) as [m S].
  { destruct (Z.eqb_spec cp 0x2FA1D) as [->|]; [apply last_mapped|].
    destruct (Z.eqb_spec cp 0x3134A) as [->|]; [apply last_valid|].
    destruct (says_some cp ltac:(lia)) as (st & m & S). exists m.
    pose proof (end_disallowed 0xE01F0 ltac:(lia) cp st m ltac:(lia) S) as E. rewrite E in S. exact S. }
  exists m. split; [exact S|]. split.
  - intros st'. change (is_status st' cp) with (flag st' cp). rewrite (flag_ok _ _ _ _ S), L, andb_false_r. reflexivity.
  - rewrite (status_ok _ _ _ S), L. reflexivity.
Qed.
Print Assumptions C67_status_refuted.

(** The mapping is right for every codepoint. *)
Theorem C67_mapping cp st m : says idna_data cp st m ->
  charstr_idna_mapping cp =
  Ok (match m with Some (c :: cps) => Some (encoding (c :: cps)) | _ => None end).
Proof. exact (mapping_ok cp st m). Qed.
Print Assumptions C67_mapping.
Theorem C67_mapping_outside cp : ~ 0 <= cp <= 0x10FFFF -> charstr_idna_mapping cp = Ok None.
Proof. exact (mapping_none cp). Qed.
Print Assumptions C67_mapping_outside.

(** A codepoint with status mapped has a mapping. *)
Theorem C67_mapped cp m : says idna_data cp Mapped m ->
  exists c cps, m = Some (c :: cps) /\ charstr_idna_mapping cp = Ok (Some (encoding (c :: cps))).
Proof.
  intros S. pose proof (says_bound _ _ _ S) as (_ & (c & l & E) & _). exists c, l. split; [exact E|].
  rewrite (mapping_ok _ _ _ S), E. reflexivity.
Qed.
Print Assumptions C67_mapped.

(** The generator, for every file: the functions it writes with generate_test are right
    except for the codepoints from which all following ones have the same status; those it
    writes with generate_set are right except for the largest codepoint of the status. *)
Theorem C67_generator junk rows mv mm : zlen junk = 100 -> idna_file 0 rows ->
  largest rows Valid mv -> 1 <= mv -> largest rows Mapped mm -> 1 <= mm ->
  exists c, gen_idna_table junk rows = Ok c /\
    (forall st f, In (st, f) [(Deviation, code_deviation c); (Disallowed, code_disallowed c);
         (Std3_valid, code_std3_valid c); (Std3_mapped, code_std3_mapped c); (Ignored, code_ignored c)] ->
       forall cp, run_test f cp = true <-> exists m, says rows cp st m /\ ~ to_the_end rows cp st) /\
    (forall st f mx, In (st, f, mx) [(Mapped, code_mapped c, mm); (Valid, code_valid c, mv)] ->
       forall cp, 0 <= cp ->
       (cp <> mx -> exists b, run_set f cp = Ok b /\ (b = true <-> exists m, says rows cp st m)) /\
       (cp = mx -> run_set f cp = if mx mod 64 =? 0 then UB else Ok false)) /\
    ((exists cp st m, says rows cp st m /\ mapping_of m <> None) -> forall cp,
       (forall st m, says rows cp st m -> run_mapping (code_mappings c) cp = Ok (mapping_of m)) /\
       (~ 0 <= cp <= 0x10FFFF -> run_mapping (code_mappings c) cp = Ok None)).
Proof.
  intros H1 H2 H3 H4 H5 H6.
  destruct (gen_ok _ _ _ _ H1 H2 H3 H4 H5 H6) as (c & T & R1 & R2 & R3 & R4 & R5 & R6 & R7 & R8).
  exists c. split; [exact T|]. split; [|split; [|exact R8]].
  - intros st f I. destruct I as [I|[I|[I|[I|[I|[]]]]]]; injection I as <- <-; assumption.
  - intros st f mx I. destruct I as [I|[I|[]]]; injection I as <- <- <-; [exact (R6 mm H5 H6)|exact (R7 mv H3 H4)].
Qed.
Print Assumptions C67_generator.

(** The hypotheses are met: codepoints of several statuses. *)
Example C67_example : says idna_data 0x61 Valid None /\ says idna_data 0x41 Mapped (Some [0x61]) /\
  says idna_data 0xAD Ignored None /\ says idna_data 0xDF Deviation (Some [0x73; 0x73]) /\
  says idna_data 0x80 Disallowed None /\ says idna_data 0x24 Std3_valid None /\ says idna_data 0x20 Std3_valid None.
Proof.
  pose proof (the_idna_file) as F.
  repeat apply conj; apply (says_lookup _ _ F); vm_compute; reflexivity.
Qed.
(** A file of three lines that meets the hypotheses of [C67_generator]; its deviations
    reach the end, so the function that tests for them is wrong. *)
Example C67_example_generator : exists rows, idna_file 0 rows /\ largest rows Valid 99 /\ largest rows Mapped 200 /\
  to_the_end rows 500 Deviation /\ exists cp st m, says rows cp st m /\ mapping_of m <> None.
Proof.
  exists [(0, 99, Valid, None); (100, 200, Mapped, Some [0x61]); (201, 0x10FFFF, Deviation, None)].
  assert (forall cp st m, says [(0, 99, Valid, None); (100, 200, Mapped, Some [0x61]); (201, 0x10FFFF, Deviation, None)] cp st m ->
    (st = Valid /\ cp <= 99) \/ (st = Mapped /\ cp <= 200) \/ (st = Deviation /\ 201 <= cp)) as A.
  { intros cp st m (lo & hi & I & B). destruct I as [I|[I|[I|[]]]]; injection I as <- <- <- <-; lia || (split; [reflexivity|lia]) || auto.
    - left. split; [reflexivity|lia].
    - right. left. split; [reflexivity|lia].
    - right. right. split; [reflexivity|lia]. }
  split; [|split; [|split; [|split]]].
  - repeat constructor; try lia; unfold scalar; try lia. vm_compute. discriminate.
  - split; [exists None, 0, 99; split; [left; reflexivity|lia]|].
    intros n m S. destruct (A _ _ _ S) as [B|[B|B]]; destruct B; try discriminate; lia.
  - split; [exists (Some [0x61]), 100, 200; split; [right; left; reflexivity|lia]|].
    intros n m S. destruct (A _ _ _ S) as [B|[B|B]]; destruct B; try discriminate; lia.
  - intros n st m L S. destruct (A _ _ _ S) as [B|[B|B]]; destruct B; try lia; auto.
  - exists 150, Mapped, (Some [0x61]). split; [|discriminate]. exists 100, 200. split; [right; left; reflexivity|lia].
Qed.
