(** What charstr_idna_encode returns for a name that is not ASCII. *)
From Verif Require Import Base CharstrSpec Utf8Spec UcdData NormSpec PunySpec IdnaEncodeSpec.

(** The quick check of UAX #15 with these rows of DerivedNormalizationProps.txt says yes. *)
Definition listed (rows : list (Z * Z * bool)) (cp : Z) : Prop := exists a b v, In (a, b, v) rows /\ a <= cp <= b.
Definition quick_yes (rows : list (Z * Z * bool)) (cps : list Z) : Prop :=
  ordered cps /\ forall cp, In cp cps -> ~ listed rows cp.

(** The first step, normalization, succeeds and gives [t]: the quick check says yes for NFC,
    or else there are at most 100 combining characters in succession, and the decomposition
    takes less than three times the space of the name. An overlong NUL is an error unless it
    is cut off together with what follows, which is done if both quick checks fail. *)
Definition prepared (s t : list Z) : Prop :=
  normalized s t /\ exists cps u, encodes s cps /\ nfd cps u /\
    (In 0 cps -> ~ quick_yes nfc_qc_data cps /\ ~ quick_yes nfd_qc_data cps) /\
    (quick_yes nfc_qc_data cps \/ (~ crowded t /\ zlen (encoding u) < 3 * zlen s)).

(** The second step, mapping, succeeds and gives [m]; the tables lack two codepoints. *)
Definition prepared_name (s m : list Z) : Prop :=
  exists t, prepared s t /\ mapped_name t m /\ ~ In 0x3134A t /\ ~ In 0x2FA1D t.

(** The third step gives [out]: labels have at most 63 characters, and the name at most 252, or
    253 with a final dot; also [m] must have at most 254 bytes, and not end in a hyphen. *)
Definition encoded_name (m out : list Z) : Prop :=
  m <> [] /\ zlen (encoding m) <= 254 /\ last m 0 <> 45 /\
  exists ls es, labels m ls /\ Forall accepted_label ls /\ Forall2 encoded_label ls es /\ Forall (fun e => zlen e <= 63) es /\
    out = join_dots es /\ zlen out <= 253 /\ (last out 0 <> 46 -> zlen out <= 252).

(** The third step calls abort: an ASCII label that is otherwise acceptable has more than 63
    characters, and there is nothing wrong with the labels before it. *)
Definition long_label (m : list Z) : Prop :=
  zlen (encoding m) <= 254 /\ last m 0 <> 45 /\
  exists ls before l after es, labels m ls /\ ls = before ++ l :: after /\
    Forall accepted_label before /\ Forall2 encoded_label before es /\ Forall (fun e => zlen e <= 63) es /\ zlen (join_dots es) <= 252 /\
    ascii l /\ accepted_label l /\ zlen l > 63.
