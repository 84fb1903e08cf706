(** Properties of the public tables of include/base64.h (C120) *)
From Verif Require Import Base Base64Model Base64Spec.

(** C120: base64_bitfield_encoding is the alphabet of RFC 4648. *)
Theorem C120_encoding : zlen base64_bitfield_encoding = 64 /\
  forall v, 0 <= v < 64 -> rd base64_bitfield_encoding v = Ok (alphabet 43 47 v).
Proof.
  split; [reflexivity|]. intros v H.
  assert (A : forall n, (n < 64)%nat -> rd base64_bitfield_encoding (Z.of_nat n) = Ok (alphabet 43 47 (Z.of_nat n))).
  { intros n L. do 64 (destruct n as [|n]; [reflexivity|]). lia. }
  rewrite <- (Z2Nat.id v) by lia. apply A. lia.
Qed.
Print Assumptions C120_encoding.

(** What include/base64.h says about base64_bitfield_decoding: Base64 characters are mapped
    to their values, and others to the negative values of the enumeration. *)
Definition documented_entry (c : Z) : Z :=
  match std_value 43 47 c with
  | Some v => v
  | None => if std_wsp c then BASE64_ILLEGAL_WHITESPACE else if c =? 61 then BASE64_ILLEGAL_TRAILER
            else if c =? 0 then BASE64_ILLEGAL_NUL else BASE64_ILLEGAL_OTHER
  end.
(** Two entries of the table are wrong: DEL is a white space, and the byte 0xFF is an A. *)
Theorem C120_refuted : rd base64_bitfield_decoding 127 = Ok BASE64_ILLEGAL_WHITESPACE /\ documented_entry 127 = BASE64_ILLEGAL_OTHER /\
  rd base64_bitfield_decoding 255 = Ok 0 /\ documented_entry 255 = BASE64_ILLEGAL_OTHER.
Proof. repeat split. Qed.
Print Assumptions C120_refuted.
(** All others are right. *)
Theorem C120_decoding_partial : zlen base64_bitfield_decoding = 256 /\
  forall c, 0 <= c < 256 -> c <> 127 -> c <> 255 -> rd base64_bitfield_decoding c = Ok (documented_entry c).
Proof.
  split; [reflexivity|]. intros c H N1 N2.
  assert (A : forallb (fun n => match rd base64_bitfield_decoding (Z.of_nat n) with Ok v => (v =? documented_entry (Z.of_nat n)) || (Z.of_nat n =? 127) || (Z.of_nat n =? 255) | _ => false end) (seq 0 256) = true)
    by reflexivity.
  rewrite forallb_forall in A. specialize (A (Z.to_nat c)). rewrite Z2Nat.id in A by lia.
  assert (I : In (Z.to_nat c) (seq 0 256)) by (apply in_seq; lia). apply A in I. destruct (rd base64_bitfield_decoding c) as [v| | |]; try discriminate.
  f_equal. lia.
Qed.
Print Assumptions C120_decoding_partial.
(** The tables are inverse to each other, but for these two entries. *)
Theorem C120_inverse_partial : forall c v, 0 <= c < 255 -> 0 <= v < 64 ->
  (rd base64_bitfield_encoding v = Ok c <-> rd base64_bitfield_decoding c = Ok v).
Proof.
  intros c v C V.
  assert (A : forallb (fun n => match rd base64_bitfield_decoding (Z.of_nat n) with
    | Ok v => (v <? 0) || (match rd base64_bitfield_encoding v with Ok d => d =? Z.of_nat n | _ => false end) | _ => false end) (seq 0 255) = true) by reflexivity.
  assert (B : forallb (fun n => match rd base64_bitfield_encoding (Z.of_nat n) with
    | Ok c => match rd base64_bitfield_decoding c with Ok w => w =? Z.of_nat n | _ => false end | _ => false end) (seq 0 64) = true) by reflexivity.
  rewrite forallb_forall in A, B. specialize (A (Z.to_nat c)). specialize (B (Z.to_nat v)). rewrite Z2Nat.id in A, B by lia.
  assert (Ia : In (Z.to_nat c) (seq 0 255)) by (apply in_seq; lia). assert (Ib : In (Z.to_nat v) (seq 0 64)) by (apply in_seq; lia).
  apply A in Ia. apply B in Ib. split; intros R; rewrite R in *.
  - destruct (rd base64_bitfield_decoding c) as [w| | |]; try discriminate. f_equal. lia.
  - destruct (rd base64_bitfield_encoding v) as [w| | |]; try discriminate. f_equal. lia.
Qed.
Print Assumptions C120_inverse_partial.
Example C120_example : rd base64_bitfield_decoding 97 = Ok 26 /\ rd base64_bitfield_encoding 26 = Ok 97 /\ documented_entry 61 = -3 /\
  rd base64_bitfield_decoding 61 = Ok (-3) /\ rd base64_bitfield_decoding 0 = Ok (-4) /\ rd base64_bitfield_decoding 10 = Ok (-2).
Proof. repeat split. Qed.
