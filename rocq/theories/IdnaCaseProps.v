(** Property C141: the case of ASCII letters in host names. *)
From Verif Require Import Base CMem CharstrModel CharstrSpec CharstrProofs Utf8Model Utf8Spec Utf8Proofs UcdData NormModel NormSpec NormOrder NormBytes NormMain.
From Verif Require Import CategoryModel CategorySpec CategoryProofs CategoryData CategoryProps IdnaTabModel IdnaTabSpec IdnaData IdnaModel IdnaProofs.
From Verif Require Import PunyModel PunySpec PunyPass PunyHost PunyName PunyNfc PunyTop IdnaEncodeModel IdnaEncodeSpec IdnaEncodeProofs IdnaEncodeProps IdnaEncodeMore IdnaCase.
From Coq Require Import ZifyBool ZifyNat.

(** It does not matter in ASCII names. *)
Theorem C141_ascii : forall junk r h errno s q junk' r' h' errno' s' q', text s -> text s' -> ascii s -> ascii s' -> zlen s + 1 < 2 ^ 64 ->
  charstr_case_cmp (s ++ 0 :: q) (s' ++ 0 :: q') = Ok 0 ->
  charstr_idna_encode junk r h errno (s ++ 0 :: q) = charstr_idna_encode junk' r' h' errno' (s' ++ 0 :: q').
Proof.
  intros junk r h errno s q junk' r' h' errno' s' q' T T' A A' L E. rewrite case_cmp_ok in E by assumption. injection E as E. apply lex_zero in E.
  assert (zlen s' = zlen s) by (apply (f_equal zlen) in E; unfold zlen in *; rewrite !map_length in E; lia).
  rewrite !C66_ascii by (assumption || lia). rewrite E. reflexivity.
Qed.
Print Assumptions C141_ascii.

(** It does matter in others: H with U+0331 (line below) is xn--h-oeb, h with U+0331 is xn--ckg. The latter are composed to U+1E96, but
    there is no capital letter to compose, and the name is not normalized again when the capital letter has been mapped to a small
    one. *)
Definition letters5 : few := [(0x48, (Mapped, Some [0x68], Lu)); (0x68, (Valid, None, Ll)); (0x331, (Valid, None, Mn)); (0x1E96, (Valid, None, Ll))].
Lemma letters5_right : few_right letters5.
Proof.
  unfold few_right, letters5.
  repeat (constructor; [apply few_row; [vm_compute; reflexivity|vm_compute; reflexivity|apply (assigned_cat _ _ (proj1 the_file)); vm_compute; reflexivity]|]).
  constructor.
Qed.
Theorem C141_refuted :
  charstr_case_cmp [0x48; 0xCC; 0xB1; 0] [0x68; 0xCC; 0xB1; 0] = Ok 0 /\
  charstr_idna_encode junk1 r1 h1 0 [0x48; 0xCC; 0xB1; 0] = Ok (Some [120; 110; 45; 45; 104; 45; 111; 101; 98; 0]) /\
  charstr_idna_encode junk1 r1 h1 0 [0x68; 0xCC; 0xB1; 0] = Ok (Some [120; 110; 45; 45; 99; 107; 103; 0]).
Proof.
  split; [reflexivity|]. split; (apply (few_encode letters5); [exact letters5_right|vm_compute; reflexivity|discriminate]).
Qed.
Print Assumptions C141_refuted.

(** It does not matter if the normal forms [t] and [t'] of the two names differ in the case of ASCII letters only, in particular if both
    names are in normal form. Missing, as in C79: overlong NULs, names that grow too much when decomposed, and those with more than 100
    combining characters in succession. *)
Theorem C141_other_partial : forall junk r h errno junk' r' h' errno' s q cps u t s' q' cps' u' t',
  text s -> ~ ascii s -> 3 * zlen s + 1 < 2 ^ 64 -> zlen (r_ccs r) = 100 ->
  text s' -> ~ ascii s' -> 3 * zlen s' + 1 < 2 ^ 64 -> zlen (r_ccs r') = 100 ->
  encodes s cps -> encodes s' cps' -> ~ In 0 cps -> ~ In 0 cps' ->
  nfd cps u -> nfd cps' u' -> zlen (encoding u) < 3 * zlen s -> zlen (encoding u') < 3 * zlen s' ->
  nfc cps t -> nfc cps' t' -> ~ crowded t -> ~ crowded t' -> map ascii_lower t = map ascii_lower t' ->
  charstr_idna_encode junk r h errno (s ++ 0 :: q) = charstr_idna_encode junk' r' h' errno' (s' ++ 0 :: q').
Proof.
  intros junk r h errno junk' r' h' errno' s q cps u t s' q' cps' u' t' T A L Rs T' A' L' Rs' E E' Z Z' Nd Nd' Lu Lu' N N' C C' M.
  exact (same_case t t' _ _ M (real_complete junk r h errno Rs s q cps t u T A L E Z N C Nd Lu) (real_complete junk' r' h' errno' Rs' s' q' cps' t' u' T' A' L' E' Z' N' C' Nd' Lu')).
Qed.
Print Assumptions C141_other_partial.
(** A U+00E4 and a U+00E4. *)
Example C141_example :
  encodes [0x41; 0xC3; 0xA4] [0x41; 0xE4] /\ encodes [0x61; 0xC3; 0xA4] [0x61; 0xE4] /\
  nfc [0x41; 0xE4] [0x41; 0xE4] /\ nfc [0x61; 0xE4] [0x61; 0xE4] /\
  nfd [0x41; 0xE4] [0x41; 0x61; 0x308] /\ zlen (encoding [0x41; 0x61; 0x308]) < 3 * zlen [0x41; 0xC3; 0xA4] /\ ~ crowded [0x41; 0xE4] /\
  map ascii_lower [0x41; 0xE4] = map ascii_lower [0x61; 0xE4].
Proof.
  split; [apply (encodes_encs [0x41; 0xE4]); repeat constructor; unfold scalar; lia|].
  split; [apply (encodes_encs [0x61; 0xE4]); repeat constructor; unfold scalar; lia|].
  split; [apply nfc_iff; vm_compute; reflexivity|]. split; [apply nfc_iff; vm_compute; reflexivity|]. split; [apply nfd_iff; vm_compute; reflexivity|].
  split; [reflexivity|]. split; [apply short_not_crowded; cbn; lia|]. reflexivity.
Qed.

(** It does not matter if charstr_unicode_canonically_composed says of one of the names that it is composed; it says the same of the
    other. Missing: names of which it does not say so. *)
Theorem C141_composed_partial : forall junk r h errno s q junk' r' h' errno' s' q', zlen (r_ccs r) = 100 -> zlen (r_ccs r') = 100 ->
  text s -> text s' -> 3 * zlen s + 1 < 2 ^ 64 -> charstr_case_cmp (s ++ 0 :: q) (s' ++ 0 :: q') = Ok 0 ->
  charstr_unicode_canonically_composed (s ++ 0 :: q) None = Ok true ->
  charstr_idna_encode junk r h errno (s ++ 0 :: q) = charstr_idna_encode junk' r' h' errno' (s' ++ 0 :: q') /\
  charstr_unicode_canonically_composed (s' ++ 0 :: q') None = Ok true.
Proof.
  intros junk r h errno s q junk' r' h' errno' s' q' R R' T T' L E C. rewrite case_cmp_ok in E by assumption. injection E as E. apply lex_zero in E.
  exact (composed_case junk r h errno s q junk' r' h' errno' s' q' R R' T T' L E C).
Qed.
Print Assumptions C141_composed_partial.
(** A U+00E4 and a U+00E4 again; H with U+0331 is not found to be composed, though it is. *)
Example C141_composed_example :
  zlen (r_ccs r1) = 100 /\ text [0x41; 0xC3; 0xA4] /\ text [0x61; 0xC3; 0xA4] /\ charstr_case_cmp [0x41; 0xC3; 0xA4; 0] [0x61; 0xC3; 0xA4; 0] = Ok 0 /\
  charstr_unicode_canonically_composed [0x41; 0xC3; 0xA4; 0] None = Ok true /\ charstr_unicode_canonically_composed [0x48; 0xCC; 0xB1; 0] None = Ok false.
Proof.
  split; [reflexivity|]. split; [is_text|]. split; [is_text|]. split; [reflexivity|]. split; vm_compute; reflexivity.
Qed.
