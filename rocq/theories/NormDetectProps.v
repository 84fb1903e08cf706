(** C84: the verdicts of charstr_detect_unicode_normal_form (src/charstr_unicode.c). *)
From Verif Require Import Base CMem CharstrModel CharstrSpec Utf8Model Utf8Spec UcdData NormModel NormSpec.
From Verif Require Import NormFacts NormOrder NormBytes NormMain NormDetect.

(** 0: the string is in NFC; "disallowed": it is not; "maybe": it is valid UTF-8; -1: it is
    not valid. A string that is neither valid nor allowed so far counts as disallowed. *)
Theorem C84_nfc_verdict : forall s q e, input s q e ->
  exists v, charstr_detect_unicode_normal_form (s ++ q) e UNICODE_NFC_DISALLOWED UNICODE_NFC_MAYBE = Ok v /\
  ((v = 0 /\ exists cps, encodes s cps /\ nfc cps cps) \/
   (v = UNICODE_NFC_DISALLOWED /\ ~ exists cps, encodes s cps /\ nfc cps cps) \/
   (v = UNICODE_NFC_MAYBE /\ exists cps, encodes s cps) \/
   (v = -1 /\ ~ exists cps, encodes s cps)).
Proof. exact verdict_nfc. Qed.
Print Assumptions C84_nfc_verdict.

(** For NFD there is no "maybe". *)
Theorem C84_nfd_verdict : forall s q e, input s q e ->
  exists v, charstr_detect_unicode_normal_form (s ++ q) e UNICODE_NFD_DISALLOWED UNICODE_NFD_MAYBE = Ok v /\
  ((v = 0 /\ exists cps, encodes s cps /\ nfd cps cps) \/
   (v = UNICODE_NFD_DISALLOWED /\ ~ exists cps, encodes s cps /\ nfd cps cps) \/
   (v = -1 /\ ~ exists cps, encodes s cps)).
Proof. exact verdict_nfd. Qed.
Print Assumptions C84_nfd_verdict.

(** Therefore the check for NFD is exact. *)
Theorem C84_decomposed_exact : forall s q e, input s q e ->
  exists b, charstr_unicode_canonically_decomposed (s ++ q) e = Ok b /\ (b = true <-> exists cps, encodes s cps /\ nfd cps cps).
Proof.
  intros s q e I. destruct (verdict_nfd s q e I) as (v & V & K). unfold charstr_unicode_canonically_decomposed. rewrite V. cbn [bind]. eexists. split; [reflexivity|].
  destruct K as [[-> K]|[[-> K]|[-> K]]].
  - split; [intros _; exact K|reflexivity].
  - split; [discriminate|contradiction].
  - split; [discriminate|]. intros (cps & E & _). exfalso. apply K. eauto.
Qed.
Print Assumptions C84_decomposed_exact.

(** All verdicts occur; "maybe" for strings in NFC (U+0300 alone) and others (e, U+0301). *)
Example C84_example :
  charstr_detect_unicode_normal_form [0xC3; 0xA9; 0] None 1 2 = Ok 0 /\
  charstr_detect_unicode_normal_form [0x65; 0xCC; 0x81; 0xCC; 0xA3; 0] None 1 2 = Ok 1 /\
  charstr_detect_unicode_normal_form [0xCC; 0x80; 0] None 1 2 = Ok 2 /\ nfc [0x300] [0x300] /\
  charstr_detect_unicode_normal_form [0x65; 0xCC; 0x81; 0] None 1 2 = Ok 2 /\ nfc [0x65; 0x301] [0xE9] /\
  charstr_detect_unicode_normal_form [0x65; 0xCC; 0] None 1 2 = Ok (-1) /\
  charstr_detect_unicode_normal_form [0xC3; 0xA9; 0] None 4 8 = Ok 4.
Proof. repeat split; try (vm_compute; reflexivity); apply nfc_iff; vm_compute; reflexivity. Qed.
