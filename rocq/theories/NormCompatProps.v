(** C85: the verdicts of charstr_detect_unicode_normal_form (src/charstr_unicode.c) on the
    compatibility forms. *)
From Verif Require Import Base CMem CharstrModel CharstrSpec Utf8Model Utf8Spec UcdData CompatData NormModel NormSpec NormCompatSpec.
From Verif Require Import NormTables NormFacts NormOrder NormCompat.

(** As C84_nfc_verdict, for NFKC *)
Theorem C85_nfkc_verdict : forall s q e, input s q e ->
  exists v, charstr_detect_unicode_normal_form (s ++ q) e UNICODE_NFKC_DISALLOWED UNICODE_NFKC_MAYBE = Ok v /\
  ((v = 0 /\ exists cps, encodes s cps /\ nfkc cps cps) \/
   (v = UNICODE_NFKC_DISALLOWED /\ ~ exists cps, encodes s cps /\ nfkc cps cps) \/
   (v = UNICODE_NFKC_MAYBE /\ exists cps, encodes s cps) \/
   (v = -1 /\ ~ exists cps, encodes s cps)).
Proof. exact verdict_nfkc. Qed.
Print Assumptions C85_nfkc_verdict.

(** For NFKD there is no "maybe". *)
Theorem C85_nfkd_verdict : forall s q e, input s q e ->
  exists v, charstr_detect_unicode_normal_form (s ++ q) e UNICODE_NFKD_DISALLOWED UNICODE_NFKD_MAYBE = Ok v /\
  ((v = 0 /\ exists cps, encodes s cps /\ nfkd cps cps) \/
   (v = UNICODE_NFKD_DISALLOWED /\ ~ exists cps, encodes s cps /\ nfkd cps cps) \/
   (v = -1 /\ ~ exists cps, encodes s cps)).
Proof. exact verdict_nfkd. Qed.
Print Assumptions C85_nfkd_verdict.

(** All verdicts occur. U+1E9B is in NFC, but not in NFKC: its canonical decomposition
    contains U+017F, which has a compatibility mapping. *)
Example C85_example :
  charstr_detect_unicode_normal_form [0xC3; 0xA9; 0] None 0x10 0x20 = Ok 0 /\
  charstr_detect_unicode_normal_form [0xE1; 0xBA; 0x9B; 0] None 1 2 = Ok 0 /\
  charstr_detect_unicode_normal_form [0xE1; 0xBA; 0x9B; 0] None 0x10 0x20 = Ok 0x10 /\
  charstr_detect_unicode_normal_form [0xEF; 0xAC; 0x81; 0] None 0x10 0x20 = Ok 0x10 /\
  charstr_detect_unicode_normal_form [0xCC; 0x80; 0] None 0x10 0x20 = Ok 0x20 /\
  charstr_detect_unicode_normal_form [0x65; 0xCC; 0] None 0x10 0x20 = Ok (-1) /\
  charstr_detect_unicode_normal_form [0x66; 0x69; 0] None 0x40 0x80 = Ok 0 /\
  charstr_detect_unicode_normal_form [0xEF; 0xAC; 0x81; 0] None 0x40 0x80 = Ok 0x40 /\
  charstr_detect_unicode_normal_form [0xC3; 0xA9; 0] None 0x40 0x80 = Ok 0x40.
Proof. repeat split; vm_compute; reflexivity. Qed.

(** The specification tells the ligature U+FB01 from its letters. *)
Example C85_ligature : nfkd [0xFB01] [0x66; 0x69] /\ ~ nfkd [0xFB01] [0xFB01] /\ nfkd [0x66; 0x69] [0x66; 0x69].
Proof.
  assert (P : Forall (fun x => kplain x = true) [0x66; 0x69]) by (repeat constructor; vm_compute; reflexivity).
  assert (O : ordered [0x66; 0x69]).
  { apply ordered_cons. split; [vm_compute; intros [H _]; discriminate H|]. apply ordered_cons. split; [exact I|apply ordered_nil]. }
  split; [|split].
  - exists [0x66; 0x69]. split; [|split; [constructor|exact O]]. change [0x66; 0x69] with ([0x66; 0x69] ++ []). constructor; [|constructor].
    apply KD_mapped with [0x66; 0x69]; [right; apply switch_in; vm_compute; reflexivity|apply kplain_all; exact P].
  - rewrite nfkd_self_iff. intros [H _]. inversion_clear H as [|? ? K _]. vm_compute in K. discriminate K.
  - apply nfkd_self_iff. auto.
Qed.
