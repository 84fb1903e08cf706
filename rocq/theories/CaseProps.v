(** C75: simple case conversion of Unicode codepoints. *)
From Verif Require Import Base CategoryModel CaseModel CaseData CaseProofs CharstrModel.

(** In every file whose lines have different codepoints: a capital letter (Lu) with a
    lower case field is turned to the codepoint in the field, and every other codepoint
    stays as it is; likewise for small letters (Ll). *)
Theorem C75_lower rows cp :
  NoDup (map (fun '(cp, _, _, _) => cp) rows) ->
  (forall u l, In (cp, Lu, u, Some l) rows -> naive_lcase_unicode rows cp = l) /\
  ((forall u l, ~ In (cp, Lu, u, Some l) rows) -> naive_lcase_unicode rows cp = cp).
Proof. exact (fun D => conj (fun u l => lcase_row rows cp u l D) (lcase_other rows cp)). Qed.
Print Assumptions C75_lower.

Theorem C75_upper rows cp :
  NoDup (map (fun '(cp, _, _, _) => cp) rows) ->
  (forall u l, In (cp, Ll, Some u, l) rows -> naive_ucase_unicode rows cp = u) /\
  ((forall u l, ~ In (cp, Ll, Some u, l) rows) -> naive_ucase_unicode rows cp = cp).
Proof. exact (fun D => conj (fun u l => ucase_row rows cp u l D) (ucase_other rows cp)). Qed.
Print Assumptions C75_upper.

(** The file of the repository has different codepoints on its lines. *)
Example C75_example_file : NoDup (map (fun '(cp, _, _, _) => cp) case_data).
Proof. exact case_data_nodup. Qed.

(** A second conversion changes nothing, for every int. *)
Theorem C75_idempotent cp :
  naive_lcase_unicode case_data (naive_lcase_unicode case_data cp) = naive_lcase_unicode case_data cp /\
  naive_ucase_unicode case_data (naive_ucase_unicode case_data cp) = naive_ucase_unicode case_data cp.
Proof. exact (conj (lcase_twice cp) (ucase_twice cp)). Qed.
Print Assumptions C75_idempotent.

(** A codepoint becomes a codepoint. *)
Theorem C75_range cp : 0 <= cp <= 0x10FFFF ->
  0 <= naive_lcase_unicode case_data cp <= 0x10FFFF /\ 0 <= naive_ucase_unicode case_data cp <= 0x10FFFF.
Proof. exact (fun R => conj (lcase_range cp R) (ucase_range cp R)). Qed.
Print Assumptions C75_range.

(** Below U+0080 the functions agree with charstr_lcase_char and charstr_ucase_char. *)
Theorem C75_ascii cp : 0 <= cp < 128 ->
  naive_lcase_unicode case_data cp = charstr_lcase_char cp /\
  naive_ucase_unicode case_data cp = charstr_ucase_char cp.
Proof. exact (ascii_agrees cp). Qed.
Print Assumptions C75_ascii.

(** A capital letter comes back after both conversions, with six exceptions. *)
Theorem C75_round_trip cp u l :
  In (cp, Lu, u, Some l) case_data -> ~ In cp [0x130; 0x3f4; 0x1e9e; 0x2126; 0x212a; 0x212b] ->
  naive_ucase_unicode case_data (naive_lcase_unicode case_data cp) = cp.
Proof. exact (case_round_trip cp u l). Qed.
Print Assumptions C75_round_trip.

Example C75_example :
  In (0xc4, Lu, None, Some 0xe4) case_data /\ naive_lcase_unicode case_data 0xc4 = 0xe4 /\
  naive_ucase_unicode case_data 0xe4 = 0xc4 /\ naive_lcase_unicode case_data 0x4e00 = 0x4e00.
Proof.
  split; [apply row_in; vm_compute; reflexivity|]. split; [|split]; vm_compute; reflexivity.
Qed.
