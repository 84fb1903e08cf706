(** What the encoding of a host name is: UTS 46 mapping by the file IdnaMappingTable.txt, and
    RFC 3492. *)
From Verif Require Import Base CharstrSpec NormSpec Utf8Spec CategoryModel CategorySpec CategoryData IdnaTabModel IdnaTabSpec IdnaData PunySpec.

Definition ascii (s : list Z) : Prop := Forall (fun c => c < 128) s.

(** [t] is the NFC form of the codepoints encoded in [s]. If some of them are NUL (in an
    overlong form), only those before the first one count. *)
Definition normalized (s t : list Z) : Prop :=
  exists cps a, encodes s cps /\ nfc a t /\ ~ In 0 a /\ (cps = a \/ exists b, cps = a ++ 0 :: b).

(** [r] replaces the codepoint [cp]. *)
Inductive replaced (cp : Z) : list Z -> Prop :=
| replaced_valid m : says idna_data cp Valid m -> replaced cp [cp]
| replaced_deviation m : says idna_data cp Deviation m -> replaced cp [cp]
| replaced_ignored m : says idna_data cp Ignored m -> replaced cp []
| replaced_mapped l : says idna_data cp Mapped (Some l) -> replaced cp l.
Definition mapped_name (t m : list Z) : Prop := exists parts, Forall2 replaced t parts /\ m = concat parts.

(** a-z, 0-9, hyphen *)
Definition host_char (c : Z) : Prop := 97 <= c <= 122 \/ 48 <= c <= 57 \/ c = 45.

(** [e] encodes the label [l]: an ASCII label is not changed, the others get a prefix and are
    encoded in lower case so that the decoder of RFC 3492 gives them back. *)
Definition encoded_label (l e : list Z) : Prop :=
  (ascii l /\ e = l) \/
  (~ ascii l /\ exists p, e = [120; 110; 45; 45] ++ p /\ Forall host_char p /\ punycode_decode p = Some l).

(** A label the encoder accepts: no forbidden ASCII character, no hyphen or spacing mark at
    the beginning. *)
Definition accepted_label (l : list Z) : Prop :=
  Forall (fun c => c < 128 -> host_char c) l /\
  match l with
  | [] => True
  | c :: _ => c <> 45 /\ exists k, assigned category_data c k /\ k <> Mc
  end.

(** [m] is the name that is encoded for the argument [s]. *)
Definition name_of (s m : list Z) : Prop :=
  (ascii s /\ m = map ascii_lower s) \/ (~ ascii s /\ exists t, normalized s t /\ mapped_name t m).
