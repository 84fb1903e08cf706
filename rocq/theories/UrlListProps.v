(** Property C140: lists of strings as URL-encoded strings with delimiters. *)
From Verif Require Import Base CMem CharstrModel CharstrSpec UrlModel UrlSpec UrlProofs UrlListSpec UrlList.

(** Strings of any content, encoded one by one and joined by a character the encoder never emits, come back by splitting and
    decoding: as many, and each the same. *)
Theorem C140_fields : forall junk junk' junk'' reserve unreserve r1 r2 t delim fields r max,
  text reserve -> text unreserve -> ~ In 37 unreserve -> ~ In 43 unreserve ->
  charstr_create_url_encoder (reserve ++ 0 :: r1) (unreserve ++ 0 :: r2) = Ok t ->
  0 < delim < 256 -> never_emitted t delim -> fields <> [] -> Forall text fields ->
  3 * zlen (join [delim] fields) + 1 < 2 ^ 64 -> zlen fields <= max + 1 ->
  exists codes, Forall2 (there_and_back junk junk' t) fields codes /\
    charstr_split junk'' (join [delim] codes ++ 0 :: r) delim max = Ok (map as_block codes).
Proof.
  intros junk junk' junk'' reserve unreserve r1 r2 t delim fields r max Hr Hu U1 U2 Et D N E T L M.
  destruct (create_ok reserve unreserve r1 r2 Hr Hu) as (t' & Et' & H). rewrite Et in Et'. injection Et' as <-. exists (map (enc t) fields). split.
  - exact (back_all reserve unreserve t H U1 U2 junk junk' delim fields T L).
  - exact (fields_ok reserve unreserve t H junk'' delim fields r max D N E T L M).
Qed.
Print Assumptions C140_fields.

(** Records of fields, as key=value&key=value: split at the first delimiter, then each part at the second. *)
Theorem C140_records : forall junk junk' junk'' reserve unreserve r1 r2 t d1 d2 records r max1 max2,
  text reserve -> text unreserve -> ~ In 37 unreserve -> ~ In 43 unreserve ->
  charstr_create_url_encoder (reserve ++ 0 :: r1) (unreserve ++ 0 :: r2) = Ok t ->
  0 < d1 < 256 -> 0 < d2 < 256 -> d1 <> d2 -> never_emitted t d1 -> never_emitted t d2 ->
  records <> [] -> Forall (fun fields => fields <> [] /\ Forall text fields /\ zlen fields <= max2 + 1) records ->
  3 * zlen (join [d1] (map (join [d2]) records)) + 1 < 2 ^ 64 -> zlen records <= max1 + 1 ->
  exists codes, Forall2 (Forall2 (there_and_back junk junk' t)) records codes /\
    charstr_split junk'' (join [d1] (map (join [d2]) codes) ++ 0 :: r) d1 max1 = Ok (map as_block (map (join [d2]) codes)) /\
    Forall (fun fields => charstr_split junk'' (as_block (join [d2] fields)) d2 max2 = Ok (map as_block fields)) codes.
Proof.
  intros junk junk' junk'' reserve unreserve r1 r2 t d1 d2 records r max1 max2 Hr Hu U1 U2 Et D1 D2 N N1 N2 E F L M.
  destruct (create_ok reserve unreserve r1 r2 Hr Hu) as (t' & Et' & H). rewrite Et in Et'. injection Et' as <-. exists (map (map (enc t)) records).
  exact (records_ok reserve unreserve t H U1 U2 junk junk' junk'' d1 d2 records r max1 max2 D1 D2 N N1 N2 E F L M).
Qed.
Print Assumptions C140_records.

(** Characters an encoder never emits: those it was told to reserve, but for '%', '+', the digits and the letters A to F, which are
    part of other encodings. *)
Theorem C140_reserved : forall reserve unreserve r1 r2 t d, text reserve -> text unreserve ->
  charstr_create_url_encoder (reserve ++ 0 :: r1) (unreserve ++ 0 :: r2) = Ok t ->
  In d reserve -> ~ In d unreserve -> d <> 37 -> d <> 43 -> ~ (48 <= d <= 57) -> ~ (65 <= d <= 70) -> never_emitted t d.
Proof.
  intros reserve unreserve r1 r2 t d Hr Hu Et. destruct (create_ok reserve unreserve r1 r2 Hr Hu) as (t' & Et' & H). rewrite Et in Et'. injection Et' as <-.
  exact (reserved_free reserve unreserve t d H).
Qed.
Print Assumptions C140_reserved.
(** charstr_url_encode never emits these: ! # $ & ' ( ) * , : ; = ? @ [, the newline and the space. *)
Theorem C140_default : forall d, In d [33; 35; 36; 38; 39; 40; 41; 42; 44; 58; 59; 61; 63; 64; 91; 10; 32] ->
  charstr_create_url_encoder [0] [0] = Ok default_encoder /\ never_emitted default_encoder d /\
  forall junk s, charstr_url_encode junk s = charstr_url_custom_encode junk default_encoder s.
Proof. intros d D. split; [reflexivity|]. split; [exact (default_free d D)|reflexivity]. Qed.
Print Assumptions C140_default.

(** "a&b=" = "c d" and "" = "%": a%26b%3D=c+d&=%25. Without the encoding, '&' and '=' would be taken for delimiters. *)
Example C140_example :
  let records := [[[97; 38; 98; 61]; [99; 32; 100]]; [[]; [37]]] in
  let codes := [[[97; 37; 50; 54; 98; 37; 51; 68]; [99; 43; 100]]; [[]; [37; 50; 53]]] in
  Forall2 (Forall2 (there_and_back (fun _ => 1) (fun _ => 2) default_encoder)) records codes /\
  charstr_split (fun _ => 3) (as_block (join [38] (map (join [61]) codes))) 38 9 = Ok (map as_block (map (join [61]) codes)) /\
  charstr_split (fun _ => 3) (as_block (join [38] (map (join [61]) records))) 38 9 = Ok [[97; 0]; [98; 61; 61; 99; 32; 100; 0]; [61; 37; 0]].
Proof.
  cbv zeta. split; [|split; vm_compute; reflexivity].
  repeat constructor; vm_compute; reflexivity.
Qed.
