(** Properties C47-C51: UTF-8 (src/charstr.c:451-564). *)
From Verif Require Import Base CMem CharstrModel CharstrSpec Utf8Model Utf8Spec Utf8Proofs.

(** C47: the encoder writes the encoding and returns the position right after
    it; the decoder returns the codepoint and the position right after it,
    whatever follows. [e]: NULL or any end not before that position. *)
Theorem C47_encode : forall cp pre old post e, scalar cp -> zlen old = zlen (utf8 cp) ->
  match e with Some n => zlen pre + zlen (utf8 cp) <= n | None => True end ->
  charstr_encode_utf8_codepoint cp (pre ++ old ++ post) (Some (zlen pre)) e =
    Ok (pre ++ utf8 cp ++ post, Some (zlen pre + zlen (utf8 cp))).
Proof.
  intros cp pre old post e Hs Hl He. rewrite encode_puts. rewrite enc_utf8 by (unfold scalar in Hs; lia).
  apply puts_fits; [assumption|]. intros n ->. exact He.
Qed.
Print Assumptions C47_encode.

Theorem C47_decode : forall cp rest e, scalar cp -> bytes rest ->
  match e with Some n => 0 <= n <= zlen rest | None => True end ->
  charstr_decode_utf8_codepoint (Some (utf8 cp ++ rest)) e = Ok (Some (rest, cp)).
Proof.
  intros cp rest e Hs Hr He. pose proof (utf8_accepted cp Hs) as A.
  apply decode_one; try assumption. exact (pattern_bytes _ _ (proj1 A)).
Qed.
Print Assumptions C47_decode.

Example C47_example :
  charstr_encode_utf8_codepoint 0x20AC [1; 2; 3; 4; 5] (Some 1) (Some 4) = Ok ([1; 0xE2; 0x82; 0xAC; 5], Some 4) /\
  charstr_decode_utf8_codepoint (Some [0xF0; 0x9F; 0x98; 0x80; 7]) None = Ok (Some ([7], 0x1F600)).
Proof. split; reflexivity. Qed.

(** C48 is false: overlong forms are accepted, such as C0 80 for U+0000, C1 81
    for 'A', E0 82 A9 for U+00A9 and F0 82 82 AC for U+20AC. *)
Theorem C48_refuted :
  charstr_decode_utf8_codepoint (Some [0xC0; 0x80; 0]) None = Ok (Some ([0], 0)) /\ utf8 0 <> [0xC0; 0x80] /\
  charstr_decode_utf8_codepoint (Some [0xC1; 0x81; 0]) None = Ok (Some ([0], 65)) /\
  charstr_decode_utf8_codepoint (Some [0xE0; 0x82; 0xA9; 0]) None = Ok (Some ([0], 0xA9)) /\
  charstr_decode_utf8_codepoint (Some [0xF0; 0x82; 0x82; 0xAC; 0]) None = Ok (Some ([0], 0x20AC)).
Proof. repeat split; vm_compute; congruence. Qed.
Print Assumptions C48_refuted.

(** What holds: between the start and the end of the readable bytes [p] (up to
    [end], [q] being what follows; or up to and including the terminator),
    only patterns of scalar values are accepted, and all of them. So surrogates, values above 10FFFF,
    stray continuation bytes and truncated sequences are rejected. *)
Theorem C48_accepts_partial : forall p q e, bytes p ->
  (e = Some (zlen q) \/ (e = None /\ exists s, p = s ++ [0])) ->
  exists o, charstr_decode_utf8_codepoint (Some (p ++ q)) e = Ok o /\
    match o with
    | Some (t, cp) => exists bs u, p = bs ++ u /\ t = u ++ q /\ scalar cp /\ pattern bs cp
    | None => ~ exists bs cp u, p = bs ++ u /\ scalar cp /\ pattern bs cp
    end.
Proof.
  intros p q e Hp Hv. destruct (decode_spec p q e Hp Hv) as (o & E & Ho). exists o. split; [exact E|].
  destruct o as [[t cp]|].
  - destruct Ho as (bs & u & A & B & C & D). exists bs, u. auto.
  - intros (bs & cp & u & A & B & C). apply Ho. exists bs, cp, u. split; [assumption|]. split; assumption.
Qed.
Print Assumptions C48_accepts_partial.

(** The only patterns that are not the encoding are longer than it. *)
Theorem C48_pattern : forall bs cp, pattern bs cp -> bs = utf8 cp \/ zlen (utf8 cp) < zlen bs.
Proof.
  intros bs cp H. destruct (utf8_shortest bs cp H) as [A B].
  destruct (Z.eq_dec (zlen (utf8 cp)) (zlen bs)) as [E|E]; [left; auto|right; lia].
Qed.
Print Assumptions C48_pattern.

Theorem C48_null : forall e, charstr_decode_utf8_codepoint None e = Ok None.
Proof. reflexivity. Qed.
Print Assumptions C48_null.

Example C48_example :
  charstr_decode_utf8_codepoint (Some [0xED; 0xA0; 0x80; 0]) None = Ok None /\
  charstr_decode_utf8_codepoint (Some [0xF4; 0x90; 0x80; 0x80; 0]) None = Ok None /\
  charstr_decode_utf8_codepoint (Some [0xE2; 0x82; 0]) None = Ok None /\
  charstr_decode_utf8_codepoint (Some [0xE2; 0x82; 0xAC]) (Some 1) = Ok None.
Proof. repeat split. Qed.

(** C49: [valid] is a concatenation of encodings the decoder accepts. *)
Theorem C49_bounded : forall p q, bytes p ->
  exists b, charstr_valid_utf8_bounded (Some (p ++ q)) (Some (zlen q)) = Ok b /\ (b = true <-> valid p).
Proof. exact valid_bounded_ok. Qed.
Print Assumptions C49_bounded.

Theorem C49_string : forall s r, text s ->
  exists b, charstr_valid_utf8 (Some (s ++ 0 :: r)) = Ok b /\ (b = true <-> valid s).
Proof. exact valid_ok. Qed.
Print Assumptions C49_string.

Theorem C49_encodings_valid : forall cps, Forall scalar cps -> valid (concat (map utf8 cps)).
Proof.
  intros cps H. exists (map utf8 cps). split; [reflexivity|]. induction H as [|cp cps Hc H IH]; cbn [map]; constructor; auto.
  exists cp. apply utf8_accepted. assumption.
Qed.
Print Assumptions C49_encodings_valid.

(** NULL is no valid string. *)
Theorem C49_null : forall e, charstr_valid_utf8 None = Ok false /\ charstr_valid_utf8_bounded None e = Ok false.
Proof. split; reflexivity. Qed.
Print Assumptions C49_null.

Example C49_example :
  charstr_valid_utf8 (Some [65; 0xC3; 0xA9; 0; 0xFF]) = Ok true /\ charstr_valid_utf8 (Some [65; 0xC3; 0]) = Ok false /\
  charstr_valid_utf8_bounded (Some [0; 0xC3; 0xA9]) (Some 0) = Ok true /\
  charstr_valid_utf8_bounded (Some [0; 0xC3; 0xA9]) (Some 1) = Ok false.
Proof. repeat split. Qed.

(** C50: the block returned has exactly the length of the string and its NUL. *)
Theorem C50_sanitize : forall junk s r, text s -> 3 * zlen s + 1 < 2 ^ 64 ->
  exists t, charstr_sanitize_utf8 junk (s ++ 0 :: r) = Ok (t ++ [0]) /\ sane s t /\ valid t /\ (valid s -> t = s).
Proof.
  intros junk s r Hs Hl. destruct (sanitize_ok junk s r Hs Hl) as (t & E & A). exists t.
  split; [exact E|]. split; [exact A|]. split; [exact (sane_valid s t A)|exact (sane_same s t A)].
Qed.
Print Assumptions C50_sanitize.

Theorem C50_unique : forall s t t', sane s t -> sane s t' -> t = t'.
Proof. exact (fun s t t' H H' => sane_det s t H t' H'). Qed.
Print Assumptions C50_unique.

Example C50_example :
  charstr_sanitize_utf8 (fun _ => 9) [65; 0xC3; 0xA9; 0xE2; 0x82; 66; 0] =
    Ok [65; 0xC3; 0xA9; 0xEF; 0xBF; 0xBD; 0xEF; 0xBF; 0xBD; 66; 0].
Proof. reflexivity. Qed.

(** C51: for every int. [mid] is what lies between the position and the end. *)
Theorem C51_bounded : forall cp, exists bs,
  (0 <= cp < 0x200000 -> bs = utf8 cp) /\
  zlen bs = (if cp <? 0x80 then 1 else if cp <? 0x800 then 2 else if cp <? 0x10000 then 3 else 4) /\
  forall pre mid post,
    (zlen bs <= zlen mid ->
      charstr_encode_utf8_codepoint cp (pre ++ mid ++ post) (Some (zlen pre)) (Some (zlen pre + zlen mid)) =
        Ok (pre ++ bs ++ skipn (length bs) mid ++ post, Some (zlen pre + zlen bs))) /\
    (zlen mid < zlen bs ->
      exists mid', zlen mid' = zlen mid /\
        charstr_encode_utf8_codepoint cp (pre ++ mid ++ post) (Some (zlen pre)) (Some (zlen pre + zlen mid)) =
          Ok (pre ++ mid' ++ post, None)).
Proof.
  intros cp. exists (enc cp). split; [apply enc_utf8|]. split; [apply enc_length|].
  intros pre mid post. rewrite encode_puts. split; intros H.
  - rewrite <- (firstn_skipn (length (enc cp)) mid) at 1. rewrite <- app_assoc. apply puts_fits.
    + unfold zlen in *. rewrite firstn_length. lia.
    + intros n E. inversion E. lia.
  - exists (firstn (length mid) (enc cp)). split; [unfold zlen in *; rewrite firstn_length; lia|]. apply puts_full. assumption.
Qed.
Print Assumptions C51_bounded.

Theorem C51_null : forall cp b e, charstr_encode_utf8_codepoint cp b None e = Ok (b, None).
Proof. reflexivity. Qed.
Print Assumptions C51_null.

Example C51_example :
  charstr_encode_utf8_codepoint 0x20AC [1; 2; 3; 4] (Some 1) (Some 3) = Ok ([1; 0xE2; 0x82; 4], None) /\
  charstr_encode_utf8_codepoint 0x20AC [1; 2; 3; 4] (Some 1) (Some 4) = Ok ([1; 0xE2; 0x82; 0xAC], Some 4).
Proof. split; reflexivity. Qed.
