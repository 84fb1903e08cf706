(** The facts about idna/IdnaMappingTable.txt, and the functions of the generated file. *)
From Verif Require Import Base Utf8Spec NormSpec IdnaTabModel IdnaTabSpec IdnaTabProofs IdnaData IdnaModel.
From Coq Require Import String.
Open Scope list_scope.
Open Scope Z_scope.

Definition fine_b (m : option (list Z)) : bool :=
  match m with
  | None => true
  | Some cps => forallb (fun cp => (0 <? cp) && (cp <=? 0x10FFFF) && negb ((0xD800 <=? cp) && (cp <=? 0xDFFF))) cps &&
                (4 * zlen cps <=? 99)
  end.
Fixpoint file_b (lo : Z) (rows : list idna_row) : bool :=
  match rows with
  | [] => lo =? 0x110000
  | (a, b, st, m) :: rows =>
      (a =? lo) && (lo <=? b) && (b <=? 0x10FFFF) && fine_b m &&
      match st, m with Mapped, Some (_ :: _) => true | Mapped, _ => false | _, _ => true end &&
      match st with Valid => b <=? 0x3134A | Mapped => b <=? 0x2FA1D | Disallowed => true | Other _ => false | _ => b <=? 0xE01EF end &&
      file_b (b + 1) rows
  end.
Lemma data_b : file_b 0 idna_data = true.
Proof. vm_compute. reflexivity. Qed.
#[local] Opaque idna_data gen_idna_table.

Lemma fine_b_ok m : fine_b m = true -> fine_mapping m.
Proof.
  destruct m as [cps|]; cbn [fine_b fine_mapping]; [|auto].
  rewrite andb_true_iff. intros [A B]. rewrite forallb_forall in A.
  assert (Forall (fun cp => scalar cp /\ cp <> 0) cps) as F.
  { apply Forall_forall. intros x I. specialize (A x I). unfold scalar. lia. }
  split; [exact F|]. apply Z.leb_le in B.
  enough (zlen (encoding cps) <= 4 * zlen cps) by lia. clear.
  induction cps as [|c cps IH]; [reflexivity|].
  unfold encoding in *. cbn [flat_map]. rewrite zlen_app, zlen_cons.
  assert (zlen (utf8 c) <= 4) by (unfold utf8, zlen; destruct (c <? 0x80), (c <? 0x800), (c <? 0x10000); cbn; lia). lia.
Qed.

Lemma file_b_ok rows : forall lo, file_b lo rows = true -> idna_file lo rows /\
  Forall (fun r => match r with
                   | (_, b, st, m) =>
                       match st with Mapped => exists c l, m = Some (c :: l) | _ => True end /\
                       match st with Valid => b <= 0x3134A | Mapped => b <= 0x2FA1D | Disallowed => True | Other _ => False | _ => b <= 0xE01EF end
                   end) rows.
Proof.
  induction rows as [|[[[a b] st] m] rows IH]; intros lo H; cbn [file_b] in H.
  - apply Z.eqb_eq in H. subst lo. split; constructor.
  - rewrite !andb_true_iff in H. destruct H as [[[[[[H1 H2] H3] H4] H5] H6] H7].
    apply Z.eqb_eq in H1. subst a. destruct (IH _ H7) as [F G].
    split.
    + constructor; [lia|apply fine_b_ok; exact H4|exact F].
    + constructor; [|exact G]. split.
      * destruct st; auto. destruct m as [[|c l]|]; try discriminate. eauto.
      * destruct st; auto; try discriminate; lia.
Qed.

Lemma the_idna_file : idna_file 0 idna_data.
Proof. exact (proj1 (file_b_ok _ _ data_b)). Qed.

Lemma says_bound cp st m : says idna_data cp st m ->
  0 <= cp <= 0x10FFFF /\
  match st with Mapped => exists c l, m = Some (c :: l) | _ => True end /\
  match st with Valid => cp <= 0x3134A | Mapped => cp <= 0x2FA1D | Disallowed => True | Other _ => False | _ => cp <= 0xE01EF end.
Proof.
  intros S. pose proof (says_range _ _ the_idna_file _ _ _ S) as R. unfold N_CP in R. split; [lia|].
  destruct S as (a & b & I & H). pose proof (proj2 (file_b_ok _ _ data_b)) as F.
  rewrite Forall_forall in F. specialize (F _ I). cbn in F. destruct F as [F1 F2].
  split; [exact F1|]. destruct st; auto; lia.
Qed.

Lemma says_data cp e : lookup idna_data cp = Some e -> says idna_data cp (fst e) (snd e).
Proof. intros H. apply (says_lookup _ _ the_idna_file). destruct e. exact H. Qed.

Lemma last_valid : largest idna_data Valid 0x3134A.
Proof.
  split.
  - eexists. apply (says_data 0x3134A (Valid, None)). vm_compute. reflexivity.
  - intros n m S. apply says_bound in S. apply S.
Qed.
Lemma last_mapped : largest idna_data Mapped 0x2FA1D.
Proof.
  split.
  - eexists. eapply (says_data 0x2FA1D (_, _)). vm_compute. reflexivity.
  - intros n m S. apply says_bound in S. apply S.
Qed.

Lemma says_some cp : 0 <= cp <= 0x10FFFF -> exists st m, says idna_data cp st m.
Proof.
  intros H. destruct (lookup_total _ _ the_idna_file cp) as [[st m] L]; [unfold N_CP; lia|].
  exists st, m. apply (says_lookup _ _ the_idna_file). exact L.
Qed.
Lemma says_unique cp st m st' m' : says idna_data cp st m -> says idna_data cp st' m' -> st = st' /\ m = m'.
Proof.
  rewrite !(says_lookup _ _ the_idna_file). intros A B. rewrite A in B. injection B as -> ->. auto.
Qed.
Lemma end_disallowed cp : 0xE01F0 <= cp -> to_the_end idna_data cp Disallowed.
Proof. intros H n st m L S. apply says_bound in S. destruct S as (R & _ & B). destruct st; auto; lia. Qed.
Lemma last_ignored : says idna_data 0xE01EF Ignored None.
Proof. apply (says_data 0xE01EF (Ignored, None)). vm_compute. reflexivity. Qed.
Lemma last_disallowed : says idna_data 0x10FFFF Disallowed None.
Proof. apply (says_data 0x10FFFF (Disallowed, None)). vm_compute. reflexivity. Qed.
Lemma not_end cp st : cp <= 0xE01EF -> ~ to_the_end idna_data cp st.
Proof.
  intros H E. pose proof (E _ _ _ H last_ignored) as A.
  assert (cp <= 0x10FFFF) as B by lia. pose proof (E _ _ _ B last_disallowed) as A'. congruence.
Qed.

(** What the functions return for the codepoint [cp] of status [st]. *)
Definition flag (st : status) (cp : Z) : res bool :=
  match st with
  | Valid => charstr_idna_status_is_valid cp
  | Ignored => charstr_idna_status_is_ignored cp
  | Mapped => charstr_idna_status_is_mapped cp
  | Deviation => charstr_idna_status_is_deviation cp
  | Disallowed => charstr_idna_status_is_disallowed cp
  | Std3_valid => charstr_idna_status_is_disallowed_STD3_valid cp
  | Std3_mapped => charstr_idna_status_is_disallowed_STD3_mapped cp
  | Other _ => Ok false
  end.
(** The codepoints for which the function that belongs to their status says no. *)
Definition lost (cp : Z) : bool := (cp =? 0x3134A) || (cp =? 0x2FA1D) || (0xE01F0 <=? cp).

Lemma table_ok : exists c, idna_table = Ok c /\
    right_test idna_data Deviation (code_deviation c) /\ right_test idna_data Disallowed (code_disallowed c) /\
    right_test idna_data Std3_valid (code_std3_valid c) /\ right_test idna_data Std3_mapped (code_std3_mapped c) /\
    right_test idna_data Ignored (code_ignored c) /\
    right_set idna_data Mapped (code_mapped c) /\ right_set idna_data Valid (code_valid c) /\
    right_mapping idna_data (code_mappings c).
Proof.
  unfold idna_table.
  assert (zlen (repeat 0 100) = 100) as H0 by reflexivity.
  assert (1 <= 0x3134A) as H1 by lia. assert (1 <= 0x2FA1D) as H2 by lia.
  exact (gen_ok (repeat 0 100) idna_data 0x3134A 0x2FA1D H0 the_idna_file last_valid H1 last_mapped H2).
Qed.

Lemma test_value c st st' cp m : right_test idna_data st' c -> says idna_data cp st m ->
  st' <> Valid -> st' <> Mapped ->
  run_test c cp = status_eqb st st' && negb (lost cp).
Proof.
  intros R S N1 N2. specialize (R cp).
  pose proof (says_bound _ _ _ S) as (B1 & B2 & B3).
  destruct (status_eqb st st') eqn:E.
  - apply status_eqb_eq in E. subst st'. cbn [andb].
    unfold lost. destruct (0xE01F0 <=? cp) eqn:Hc.
    + rewrite orb_true_r. cbn. apply not_true_is_false. intros K. apply R in K. destruct K as (m' & S' & K).
      apply K. apply Z.leb_le in Hc. destruct st; try lia; try congruence. apply end_disallowed. exact Hc.
    + apply Z.leb_gt in Hc. destruct (cp =? 0x3134A) eqn:H1.
      { apply Z.eqb_eq in H1. subst cp. destruct last_valid as [[m' L] _].
        destruct (says_unique _ _ _ _ _ S L) as [-> _]. congruence. }
      destruct (cp =? 0x2FA1D) eqn:H2.
      { apply Z.eqb_eq in H2. subst cp. destruct last_mapped as [[m' L] _].
        destruct (says_unique _ _ _ _ _ S L) as [-> _]. congruence. }
      cbn. apply R. exists m. split; [exact S|]. apply not_end. lia.
  - cbn. apply not_true_is_false. intros K. apply R in K. destruct K as (m' & S' & K).
    destruct (says_unique _ _ _ _ _ S S') as [-> _]. rewrite status_eqb_refl in E. discriminate.
Qed.

Lemma lost_in cp st m : says idna_data cp st m -> lost cp =
  match st with Valid => cp =? 0x3134A | Mapped => cp =? 0x2FA1D | Disallowed => 0xE01F0 <=? cp | _ => false end.
Proof.
  intros S. pose proof (says_bound _ _ _ S) as (B1 & _ & B3).
  destruct last_valid as [[m1 L1] _]. destruct last_mapped as [[m2 L2] _].
  assert (cp = 0x3134A -> st = Valid) as A1.
  { intros ->. exact (proj1 (says_unique _ _ _ _ _ S L1)). }
  assert (cp = 0x2FA1D -> st = Mapped) as A2.
  { intros ->. exact (proj1 (says_unique _ _ _ _ _ S L2)). }
  clear S L1 L2. unfold lost.
  destruct (Z.eqb_spec cp 0x3134A) as [E1|E1]; [rewrite (A1 E1); reflexivity|].
  destruct (Z.eqb_spec cp 0x2FA1D) as [E2|E2]; [rewrite (A2 E2); reflexivity|].
  destruct st; cbn [orb]; try reflexivity; apply Z.leb_gt; lia.
Qed.

Lemma set_value c st st' cp m mx : right_set idna_data st' c -> largest idna_data st' mx -> 1 <= mx ->
  (mx mod 64 =? 0) = false -> says idna_data cp st m ->
  run_set c cp = Ok (status_eqb st st' && negb (cp =? mx)).
Proof.
  intros R L H1 H2 S. pose proof (says_bound _ _ _ S) as (B1 & _ & _).
  destruct (R _ L H1 cp (proj1 B1)) as [A B].
  destruct (Z.eqb_spec cp mx) as [E|E].
  - rewrite (B E), H2, andb_false_r. reflexivity.
  - destruct (A E) as (b & Eb & Ib). rewrite Eb, andb_true_r. f_equal.
    destruct (status_eqb st st') eqn:Es.
    + apply status_eqb_eq in Es. subst st'. apply Ib. exists m. exact S.
    + apply not_true_is_false. intros K. apply Ib in K. destruct K as (m' & S').
      destruct (says_unique _ _ _ _ _ S S') as [-> _]. rewrite status_eqb_refl in Es. discriminate.
Qed.

Lemma flag_ok cp st m st' : says idna_data cp st m -> flag st' cp = Ok (status_eqb st st' && negb (lost cp)).
Proof.
  intros S. destruct table_ok as (c & T & R1 & R2 & R3 & R4 & R5 & R6 & R7 & R8).
  assert (1 <= 0x3134A) as H1 by lia. assert (1 <= 0x2FA1D) as H2 by lia.
  destruct st'; cbn [flag].
  - unfold charstr_idna_status_is_valid. rewrite T. cbn [bind].
    rewrite (set_value _ _ _ _ _ _ R7 last_valid H1 eq_refl S), (lost_in _ _ _ S). destruct st; reflexivity.
  - unfold charstr_idna_status_is_ignored. rewrite T. cbn [bind]. f_equal. eapply test_value; [exact R5|exact S|discriminate|discriminate].
  - unfold charstr_idna_status_is_mapped. rewrite T. cbn [bind].
    rewrite (set_value _ _ _ _ _ _ R6 last_mapped H2 eq_refl S), (lost_in _ _ _ S). destruct st; reflexivity.
  - unfold charstr_idna_status_is_deviation. rewrite T. cbn [bind]. f_equal. eapply test_value; [exact R1|exact S|discriminate|discriminate].
  - unfold charstr_idna_status_is_disallowed. rewrite T. cbn [bind]. f_equal. eapply test_value; [exact R2|exact S|discriminate|discriminate].
  - unfold charstr_idna_status_is_disallowed_STD3_valid. rewrite T. cbn [bind]. f_equal. eapply test_value; [exact R3|exact S|discriminate|discriminate].
  - unfold charstr_idna_status_is_disallowed_STD3_mapped. rewrite T. cbn [bind]. f_equal. eapply test_value; [exact R4|exact S|discriminate|discriminate].
  - pose proof (says_bound _ _ _ S) as (_ & _ & B). destruct st; try reflexivity. destruct B.
Qed.

Lemma mapping_ok cp st m : says idna_data cp st m -> charstr_idna_mapping cp = Ok (mapping_of m).
Proof.
  intros S. destruct table_ok as (c & T & R1 & R2 & R3 & R4 & R5 & R6 & R7 & R8).
  unfold charstr_idna_mapping. rewrite T. cbn [bind].
  apply (proj1 (R8 ltac:(destruct last_mapped as [[m' L] _]; exists 0x2FA1D, Mapped, m'; split; [exact L|];
     apply says_bound in L; destruct L as (_ & (a & l & ->) & _); discriminate) cp) _ _ S).
Qed.
Lemma mapping_none cp : ~ 0 <= cp <= 0x10FFFF -> charstr_idna_mapping cp = Ok None.
Proof.
  intros S. destruct table_ok as (c & T & R1 & R2 & R3 & R4 & R5 & R6 & R7 & R8).
  unfold charstr_idna_mapping. rewrite T. cbn [bind].
  apply (proj2 (R8 ltac:(destruct last_mapped as [[m' L] _]; exists 0x2FA1D, Mapped, m'; split; [exact L|];
     apply says_bound in L; destruct L as (_ & (a & l & ->) & _); discriminate) cp) S).
Qed.

Lemma status_ok cp st m : says idna_data cp st m ->
  charstr_idna_status cp = Ok (if lost cp then "?"%string else status_name st).
Proof.
  intros S. pose proof (fun st' => flag_ok cp st m st' S) as F. unfold charstr_idna_status.
  pose proof (F Valid) as F1. pose proof (F Mapped) as F2. pose proof (F Ignored) as F3. pose proof (F Deviation) as F4.
  pose proof (F Disallowed) as F5. pose proof (F Std3_valid) as F6. pose proof (F Std3_mapped) as F7. clear F.
  cbn [flag] in *. rewrite F1. cbn [bind]. rewrite F2. cbn [bind]. rewrite F3. cbn [bind]. rewrite F4. cbn [bind].
  rewrite F5. cbn [bind]. rewrite F6. cbn [bind]. rewrite F7. cbn [bind].
  destruct (lost cp); destruct st; reflexivity.
Qed.
