(** C110: charstr_detect_unicode_normal_form is the quick check of UAX #15, for each of the
    four forms (src/charstr_unicode.c). *)
From Verif Require Import Base CMem CharstrModel CharstrSpec Utf8Model Utf8Spec UcdData NormModel NormSpec.
From Verif Require Import NormTables NormFacts NormOrder NormBytes NormMain NormDetect NormFitSpec NormFit NormQuickSpec NormQuick.

(** The verdict of the standard on a valid string. *)
Theorem C110_valid : forall d m rows, In (d, m, rows) forms -> forall s q e, input s q e -> forall cps, encodes s cps ->
  exists v, charstr_detect_unicode_normal_form (s ++ q) e d m = Ok v /\
    (v = d <-> says_no rows cps) /\
    (v = m <-> ~ says_no rows cps /\ has_maybe rows cps) /\
    (v = 0 <-> ~ says_no rows cps /\ ~ has_maybe rows cps) /\ v <> -1.
Proof.
  intros d m rows F s q e I cps E. destruct (quick_exact d m rows F s q e I) as (v & V & H1 & H2 & H3 & H4). exists v. split; [exact V|].
  assert (N : forall c, breaks s c -> False).
  { intros c B. apply scanned_breaks in B. apply (scanned_valid _ _ B). eauto. }
  split; [|split; [|split]].
  - rewrite H1. split; [intros (c & [K|K] & G); [rewrite (encodes_det _ _ _ E K); exact G|destruct (N c K)]|]. intros K. exists cps. auto.
  - rewrite H3. split; [intros (c & K & G); rewrite (encodes_det _ _ _ E K); exact G|]. intros K. exists cps. auto.
  - rewrite H4. split; [intros (c & K & G); rewrite (encodes_det _ _ _ E K); exact G|]. intros K. exists cps. auto.
  - rewrite H2. intros (c & K & _). exact (N c K).
Qed.
Print Assumptions C110_valid.

(** On any string: "disallowed" if and only if the codepoints up to the end or up to the first
    error are refused, -1 if and only if there is an error and they are not. *)
Theorem C110_any : forall d m rows, In (d, m, rows) forms -> forall s q e, input s q e ->
  exists v, charstr_detect_unicode_normal_form (s ++ q) e d m = Ok v /\
    (v = d <-> exists cps, (encodes s cps \/ breaks s cps) /\ says_no rows cps) /\
    (v = -1 <-> exists cps, breaks s cps /\ ~ says_no rows cps) /\
    (v = m <-> exists cps, encodes s cps /\ ~ says_no rows cps /\ has_maybe rows cps) /\
    (v = 0 <-> exists cps, encodes s cps /\ ~ says_no rows cps /\ ~ has_maybe rows cps).
Proof. exact quick_exact. Qed.
Print Assumptions C110_any.

(** charstr_allowed_unicode_normal_forms has the flags of the rows, never both for a form. *)
Theorem C110_flags : forall d m rows, In (d, m, rows) forms -> forall cp,
  (Z.land (charstr_allowed_unicode_normal_forms cp) d <> 0 <-> row rows cp true) /\
  (Z.land (charstr_allowed_unicode_normal_forms cp) m <> 0 <-> row rows cp false) /\
  ~ (row rows cp true /\ row rows cp false).
Proof.
  intros d m rows F cp. pose proof (form_d d m rows F cp) as D. pose proof (form_m d m rows F cp) as M. unfold dis, truth in D, M.
  rewrite Bool.negb_true_iff, Z.eqb_neq in D, M. split; [exact D|split; [exact M|]].
  intros [A B]. exact (row_apart rows cp (form_apart d m rows F) A B).
Qed.
Print Assumptions C110_flags.

(** The combining class is that of the row of UnicodeData.txt, 0 without one, and between 0
    and 240. *)
Theorem C110_class : forall cp,
  0 <= charstr_unicode_canonical_combining_class cp <= 240 /\
  forall c, charstr_unicode_canonical_combining_class cp = c <-> In (cp, c) ccc_data \/ (c = 0 /\ forall c', ~ In (cp, c') ccc_data).
Proof. exact class_exact. Qed.
Print Assumptions C110_class.

(** An NFC check: composed, maybe, disallowed, out of order, broken after, broken before. *)
Example C110_example :
  charstr_detect_unicode_normal_form [0xc3; 0xa9] (Some 0) UNICODE_NFC_DISALLOWED UNICODE_NFC_MAYBE = Ok 0 /\
  charstr_detect_unicode_normal_form [0x65; 0xcc; 0x81] (Some 0) UNICODE_NFC_DISALLOWED UNICODE_NFC_MAYBE = Ok UNICODE_NFC_MAYBE /\
  charstr_detect_unicode_normal_form [0xe2; 0x84; 0xab] (Some 0) UNICODE_NFC_DISALLOWED UNICODE_NFC_MAYBE = Ok UNICODE_NFC_DISALLOWED /\
  charstr_detect_unicode_normal_form [0x65; 0xcc; 0x81; 0xcc; 0xa7] (Some 0) UNICODE_NFC_DISALLOWED UNICODE_NFC_MAYBE = Ok UNICODE_NFC_DISALLOWED /\
  charstr_detect_unicode_normal_form [0xe2; 0x84; 0xab; 0xff] (Some 0) UNICODE_NFC_DISALLOWED UNICODE_NFC_MAYBE = Ok UNICODE_NFC_DISALLOWED /\
  charstr_detect_unicode_normal_form [0xff; 0xe2; 0x84; 0xab] (Some 0) UNICODE_NFC_DISALLOWED UNICODE_NFC_MAYBE = Ok (-1) /\
  charstr_detect_unicode_normal_form [0xef; 0xac; 0x81] (Some 0) UNICODE_NFKC_DISALLOWED UNICODE_NFKC_MAYBE = Ok UNICODE_NFKC_DISALLOWED.
Proof. vm_compute. repeat split. Qed.
(** Hypotheses met: the ligature fi is refused by NFKC and accepted by NFC. *)
Example C110_example_rows : row nfkc_qc_data 0xfb01 true /\ (forall v, ~ row nfc_qc_data 0xfb01 v) /\ row nfc_qc_data 0x301 false.
Proof.
  split; [|split].
  - apply (row_value nfkc_qc_data); [exact (proj1 (forallb_forall _ _) apart_check (_, _, nfkc_qc_data) ltac:(cbn; auto))|vm_compute; reflexivity].
  - intros v R. apply (row_value nfc_qc_data) in R; [|exact (proj1 (forallb_forall _ _) apart_check (_, _, nfc_qc_data) ltac:(cbn; auto))].
    assert (qc_value nfc_qc_data 0xfb01 = None) by (vm_compute; reflexivity). congruence.
  - apply (row_value nfc_qc_data); [exact (proj1 (forallb_forall _ _) apart_check (_, _, nfc_qc_data) ltac:(cbn; auto))|vm_compute; reflexivity].
Qed.
