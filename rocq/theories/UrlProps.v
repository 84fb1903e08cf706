(** Properties C52-C55: URL encoding (src/charstr.c:566-712). *)
From Verif Require Import Base CMem CharstrModel CharstrSpec UrlModel UrlSpec UrlProofs.

(** C52 *)
Theorem C52_round_trip : forall junk junk' s r, text s -> 3 * zlen s + 1 < 2 ^ 64 ->
  exists e, charstr_url_encode junk (s ++ 0 :: r) = Ok (e ++ [0]) /\ Forall (fun c => 32 < c < 127) e /\
    charstr_url_decode junk' (e ++ [0]) true = Ok (Some (s ++ [0], zlen s)).
Proof.
  intros junk junk' s r Hs Hl.
  destruct (round_trip junk junk' [] [] _ s r default_for (fun H => H) (fun H => H) Hs Hl) as (e & E & D).
  exists e. split; [exact E|]. split; [|exact D].
  destruct (encode_ok junk [] [] _ s r default_for Hs Hl) as (slack & E' & Sl). rewrite (Sl (fun H => H)) in E'.
  rewrite E in E'. inversion E' as [E2]. apply app_inj_tail in E2. destruct E2 as [-> _].
  clear - Hs. induction s as [|c s IH]; [constructor|]. inversion Hs as [|? ? Hc Hs']. subst. cbn [map concat].
  apply Forall_app. split; [apply default_printable; assumption|apply IH; assumption].
Qed.
Print Assumptions C52_round_trip.

Example C52_example :
  charstr_url_encode (fun _ => 9) [97; 32; 37; 0xE9; 0] = Ok [97; 43; 37; 50; 53; 37; 69; 57; 0] /\
  charstr_url_decode (fun _ => 9) [97; 43; 37; 50; 53; 37; 69; 57; 0] true = Ok (Some ([97; 32; 37; 0xE9; 0], 4)).
Proof. split; reflexivity. Qed.

(** C53: the encoder made from [reserve] and [unreserve]. *)
Theorem C53_encoder : forall reserve unreserve r1 r2, text reserve -> text unreserve ->
  exists t, charstr_create_url_encoder (reserve ++ 0 :: r1) (unreserve ++ 0 :: r2) = Ok t /\
    forall c, 0 <= c < 256 ->
      (In c unreserve -> charstr_url_custom_encode_byte t c = [c]) /\
      (~ In c unreserve -> In c reserve -> charstr_url_custom_encode_byte t c = percent_encoding c) /\
      (~ In c unreserve -> ~ In c reserve -> charstr_url_custom_encode_byte t c = charstr_url_encode_byte c).
Proof.
  intros reserve unreserve r1 r2 Hr Hu. destruct (create_ok reserve unreserve r1 r2 Hr Hu) as (t & E & H).
  exists t. split; [exact E|]. intros c Hc. rewrite (H c Hc).
  pose proof (mem_ok c unreserve) as M1. pose proof (mem_ok c reserve) as M2.
  destruct (mem c unreserve), (mem c reserve); split; try split; intros; try reflexivity; exfalso; intuition congruence.
Qed.
Print Assumptions C53_encoder.

(** The result is the concatenation of the codes and a NUL; memory beyond that
    ([slack]) is allocated only if '%' is unreserved. *)
Theorem C53_encode : forall junk reserve unreserve r1 r2 t s r, text reserve -> text unreserve ->
  charstr_create_url_encoder (reserve ++ 0 :: r1) (unreserve ++ 0 :: r2) = Ok t ->
  text s -> 3 * zlen s + 1 < 2 ^ 64 ->
  exists slack, charstr_url_custom_encode junk t (s ++ 0 :: r) =
      Ok (concat (map (charstr_url_custom_encode_byte t) s) ++ 0 :: slack) /\
    (~ In 37 unreserve -> slack = []).
Proof.
  intros junk reserve unreserve r1 r2 t s r Hr Hu Et Hs Hl.
  destruct (create_ok reserve unreserve r1 r2 Hr Hu) as (t' & E & H). rewrite Et in E. inversion E. subst t'.
  exact (encode_ok junk reserve unreserve t s r H Hs Hl).
Qed.
Print Assumptions C53_encode.

Theorem C53_inverse : forall junk junk' reserve unreserve r1 r2 t s r, text reserve -> text unreserve ->
  ~ In 37 unreserve -> ~ In 43 unreserve ->
  charstr_create_url_encoder (reserve ++ 0 :: r1) (unreserve ++ 0 :: r2) = Ok t ->
  text s -> 3 * zlen s + 1 < 2 ^ 64 ->
  exists e, charstr_url_custom_encode junk t (s ++ 0 :: r) = Ok (e ++ [0]) /\
    charstr_url_decode junk' (e ++ [0]) true = Ok (Some (s ++ [0], zlen s)).
Proof.
  intros junk junk' reserve unreserve r1 r2 t s r Hr Hu H1 H2 Et Hs Hl.
  destruct (create_ok reserve unreserve r1 r2 Hr Hu) as (t' & E & H). rewrite Et in E. inversion E. subst t'.
  exact (round_trip junk junk' reserve unreserve t s r H H1 H2 Hs Hl).
Qed.
Print Assumptions C53_inverse.

Example C53_example : exists t,
  charstr_create_url_encoder [97; 32; 0] [33; 32; 0] = Ok t /\
  charstr_url_custom_encode (fun _ => 9) t [97; 98; 33; 32; 34; 0] = Ok [37; 54; 49; 98; 33; 32; 34; 0].
Proof. eexists. split; [vm_compute; reflexivity|reflexivity]. Qed.

(** C54: [decodes] and [illegal] are in UrlSpec.v. *)
Theorem C54_decode : forall junk plus e r, text e -> zlen e + 1 < 2 ^ 64 ->
  exists o, charstr_url_decode junk (e ++ 0 :: r) plus = Ok o /\
    match o with
    | None => illegal e
    | Some (b, size) => exists d, decodes plus e d /\ b = d ++ [0] /\ size = zlen d /\ ~ illegal e
    end.
Proof.
  intros junk plus e r He Hl. destruct (decode_ok junk plus e r He Hl) as [[E I]|(d & D & E)].
  - exists None. auto.
  - eexists. split; [exact E|]. exists d. split; [assumption|]. split; [reflexivity|]. split; [reflexivity|].
    exact (decodes_legal plus e d D).
Qed.
Print Assumptions C54_decode.

Theorem C54_unique : forall plus e d d', decodes plus e d -> decodes plus e d' -> d = d'.
Proof. exact (fun plus e d d' H H' => decodes_det plus e d H d' H'). Qed.
Print Assumptions C54_unique.

Example C54_example :
  charstr_url_decode (fun _ => 9) [43; 37; 48; 48; 97; 0] false = Ok (Some ([43; 0; 97; 0], 3)) /\
  charstr_url_decode (fun _ => 9) [97; 37; 52; 0] true = Ok None /\ charstr_url_decode (fun _ => 9) [37; 0] true = Ok None.
Proof. repeat split. Qed.

(** C55 is false: by the documentation, 34 (the double quote) and 125 (the closing brace) are
    percent-encoded and 93 (the closing bracket) is not; the table has it the other way round. *)
Theorem C55_refuted :
  charstr_url_encode_byte 34 = [34] /\ documented_encoding 34 = [37; 50; 50] /\
  charstr_url_encode_byte 93 = [37; 53; 68] /\ documented_encoding 93 = [93] /\
  charstr_url_encode_byte 125 = [125] /\ documented_encoding 125 = [37; 55; 68].
Proof. repeat split. Qed.
Print Assumptions C55_refuted.

Theorem C55_table_partial : forall c, 0 <= c < 256 -> c <> 34 -> c <> 93 -> c <> 125 ->
  charstr_url_encode_byte c = documented_encoding c.
Proof. exact table_doc. Qed.
Print Assumptions C55_table_partial.

Example C55_example : charstr_url_encode_byte 32 = [43] /\ charstr_url_encode_byte 43 = [37; 50; 66] /\ charstr_url_encode_byte 126 = [126].
Proof. repeat split. Qed.
