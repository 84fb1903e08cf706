(** The quick check of UAX #15 (Detecting Normalization Forms). *)
From Verif Require Import Base CharstrSpec Utf8Spec UcdData NormModel NormSpec NormFitSpec.

(** A row of DerivedNormalizationProps.txt gives [cp] the value N ([no]) or M. *)
Definition row (rows : list (Z * Z * bool)) (cp : Z) (no : bool) : Prop := exists a b, In (a, b, no) rows /\ a <= cp <= b.

(** The four normal forms: the two flags, and the rows of the property. *)
Definition forms : list (Z * Z * list (Z * Z * bool)) :=
  [(UNICODE_NFC_DISALLOWED, UNICODE_NFC_MAYBE, nfc_qc_data); (UNICODE_NFD_DISALLOWED, UNICODE_NFD_MAYBE, nfd_qc_data);
   (UNICODE_NFKC_DISALLOWED, UNICODE_NFKC_MAYBE, nfkc_qc_data); (UNICODE_NFKD_DISALLOWED, UNICODE_NFKD_MAYBE, nfkd_qc_data)].

(** The standard says no: two combining characters are out of order, or a codepoint has the
    value N. *)
Definition says_no (rows : list (Z * Z * bool)) (cps : list Z) : Prop := ~ ordered cps \/ exists cp, In cp cps /\ row rows cp true.
(** Some codepoint has the value M. *)
Definition has_maybe (rows : list (Z * Z * bool)) (cps : list Z) : Prop := exists cp, In cp cps /\ row rows cp false.
