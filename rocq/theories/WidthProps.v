(** C129: sizes on platforms where size_t or unsigned long does not have 64 bits. A function
    with the suffix [_on] is the function of the same name where size_t has [w] bits (and
    unsigned long [lb] bits). *)
From Verif Require Import Base CMem CharstrModel CharstrSpec UrlModel UrlSpec UrlProofs Utf8Model Utf8Spec Base64Model IntsetModel IntsetSpec
  ByteArrayModel WidthModel WidthSpec WidthInt Width WidthMore Width64.

(** With 64 bits they are the functions of the other claims. *)
Theorem C129_64_bits :
  (forall junk t s, charstr_url_custom_encode_on 64 junk t s = charstr_url_custom_encode junk t s) /\
  (forall junk s p, charstr_url_decode_on 64 junk s p = charstr_url_decode junk s p) /\
  (forall junk s, charstr_sanitize_utf8_on 64 junk s = charstr_sanitize_utf8 junk s) /\
  (forall n, base64_encoding_size_on 64 n = base64_encoding_size n) /\
  (forall n ops, run_on 64 64 (make_intset_on 64 64 n) ops = run (make_intset n) ops) /\
  (forall s e, intset_has_on 64 s e = intset_has s e) /\
  (forall junk a d len, byte_array_append_on 64 junk a d len = byte_array_append junk a d len).
Proof.
  repeat split; intros; first [exact (encode_64 _ _ _) | exact (decode_64 _ _ _) | exact (sanitize_64 _ _) | exact (run_64 _ _) | exact (append_64 _ _ _ _) | reflexivity].
Qed.
Print Assumptions C129_64_bits.

(** URL encoding, with the default encoder or one made from [reserve] and [unreserve]: right if
    the size of the result with its NUL can be represented, otherwise there is a write beyond the
    end of the block. *)
Theorem C129_url_encode : forall w junk reserve unreserve r1 r2 t s r, 0 <= w -> text reserve -> text unreserve -> ~ In 37 unreserve ->
  charstr_create_url_encoder (reserve ++ 0 :: r1) (unreserve ++ 0 :: r2) = Ok t -> text s ->
  charstr_url_custom_encode_on w junk t (s ++ 0 :: r) =
    let e := concat (map (charstr_url_custom_encode_byte t) s) in
    if zlen e + 1 <? 2 ^ w then Ok (e ++ [0]) else UB.
Proof.
  intros w junk reserve unreserve r1 r2 t s r Hw Hr Hu N Et Hs.
  destruct (create_ok reserve unreserve r1 r2 Hr Hu) as (t' & E & H). rewrite Et in E. injection E as <-.
  exact (encode_on w junk reserve unreserve t s r Hw H N Hs).
Qed.
Print Assumptions C129_url_encode.
Theorem C129_url_encode_default : forall w junk s r, 0 <= w -> text s ->
  charstr_url_encode_on w junk (s ++ 0 :: r) =
    let e := concat (map charstr_url_encode_byte s) in
    if zlen e + 1 <? 2 ^ w then Ok (e ++ [0]) else UB.
Proof. exact url_encode_on. Qed.
Print Assumptions C129_url_encode_default.

(** "Every string is encoded" is false: a string of a third of the address space. *)
Theorem C129_url_encode_refuted : forall w, 4 <= w ->
  exists s, text s /\ zlen s + 1 < 2 ^ (w - 1) /\ forall junk rest, charstr_url_encode_on w junk (s ++ 0 :: rest) = UB.
Proof. exact url_too_long. Qed.
Print Assumptions C129_url_encode_refuted.

(** Sanitizing: likewise. *)
Theorem C129_sanitize : forall w junk s r, 0 <= w -> text s ->
  exists t, sane s t /\ charstr_sanitize_utf8_on w junk (s ++ 0 :: r) = if zlen t + 1 <? 2 ^ w then Ok (t ++ [0]) else UB.
Proof. exact sanitize_on. Qed.
Print Assumptions C129_sanitize.
Theorem C129_sanitize_refuted : forall w, 4 <= w ->
  exists s, text s /\ zlen s + 1 < 2 ^ (w - 1) /\ forall junk rest, charstr_sanitize_utf8_on w junk (s ++ 0 :: rest) = UB.
Proof. exact sanitize_too_long. Qed.
Print Assumptions C129_sanitize_refuted.

(** URL decoding is right for every block that fits in memory. *)
Theorem C129_url_decode : forall w junk e p, 0 <= w <= 64 -> zlen e < 2 ^ w -> charstr_url_decode_on w junk e p = charstr_url_decode junk e p.
Proof. exact decode_on. Qed.
Print Assumptions C129_url_decode.

(** The size of a Base64 encoding is the right one, or SIZE_MAX if it cannot be represented;
    then one more byte can be represented too. *)
Theorem C129_base64_size : forall w n, 3 <= w -> 0 <= n < 2 ^ w ->
  base64_encoding_size_on w n = (if (n + 2) / 3 * 4 <? 2 ^ w then (n + 2) / 3 * 4 else 2 ^ w - 1) /\
  (base64_encoding_size_on w n <> 2 ^ w - 1 -> base64_encoding_size_on w n + 1 < 2 ^ w).
Proof.
  intros w n Hw Hn. rewrite base64_size_on by assumption. split; [reflexivity|].
  destruct (Z.ltb_spec ((n + 2) / 3 * 4) (2 ^ w)); lia.
Qed.
Print Assumptions C129_base64_size.

(** An integer set is a set, if the size is at most SIZE_MAX + 1 - LONG_BIT ... *)
Theorem C129_intset_partial : forall w lb n ops, 0 < lb -> 0 <= n -> n + lb - 1 < 2 ^ w -> n <= lb * (2 ^ 32 - 1) -> Forall op_ok ops ->
  exists s, run_on w lb (make_intset_on w lb n) ops = Ok s /\ forall e, 0 <= e < 2 ^ 32 -> intset_has_on lb s e = Ok (member n ops e).
Proof. exact (fun w lb n ops Hlb => set_on lb Hlb w n ops). Qed.
Print Assumptions C129_intset_partial.

(** ... and otherwise its block is empty, and each operation on an element accesses memory
    outside it. On a platform with 32-bit size_t that is so for [make_intset(UINT_MAX)]. *)
Theorem C129_intset_refuted : forall w lb n e, 0 < lb <= 2 ^ w -> n < 2 ^ w -> 2 ^ w <= n + lb - 1 -> 0 <= e < n ->
  intset_add_on lb (make_intset_on w lb n) e = UB /\ intset_remove_on lb (make_intset_on w lb n) e = UB /\
  intset_has_on lb (make_intset_on w lb n) e = UB.
Proof. exact (fun w lb n e H1 H2 H3 H4 => no_room lb (proj1 H1) w n e H2 H3 (proj2 H1) H4). Qed.
Print Assumptions C129_intset_refuted.
Example C129_intset_example : (0 < 32 <= 2 ^ 32) /\ 2 ^ 32 - 1 < 2 ^ 32 /\ 2 ^ 32 <= 2 ^ 32 - 1 + 32 - 1 /\ 0 <= 5 < 2 ^ 32 - 1 /\
  (s <- run_on 32 32 (make_intset_on 32 32 70) [Add 69; Add 3; Remove 3; Add 31] ;;
   a <- intset_has_on 32 s 69 ;; b <- intset_has_on 32 s 3 ;; c <- intset_has_on 32 s 31 ;; Ok (IntsetModel.data s, a, b, c)) =
  Ok ([2 ^ 31; 0; 32], true, false, true).
Proof. split; [lia|]. split; [lia|]. split; [lia|]. split; [lia|]. reflexivity. Qed.

(** Byte arrays: appending works up to every limit. *)
Theorem C129_byte_array : forall w junk junk' m ds, 1 <= w -> 0 < m < 2 ^ w -> Forall (fun d => zlen d < 2 ^ w) ds ->
  exists a rest, (a <- make_byte_array junk m ;; append_all_on w junk' a ds) = Ok a /\
    ByteArrayModel.data a = appended m [] ds ++ 0 :: rest /\ cursor a = zlen (appended m [] ds).
Proof. exact appends_on. Qed.
Print Assumptions C129_byte_array.

(** size_t of 8 bits: the capacity goes from 128 to 255. *)
Example C129_byte_array_example :
  (a <- make_byte_array (fun _ => 9) 255 ;; a <- append_all_on 8 (fun _ => 9) a [repeat 1 127; repeat 2 127; [3]; []] ;;
   Ok (cursor a, ByteArrayModel.size a, nth 253 (ByteArrayModel.data a) 0, nth 254 (ByteArrayModel.data a) 9)) = Ok (254, 255, 2, 0).
Proof. reflexivity. Qed.

(** size_t of 8 bits: 84 bytes that need encoding are encoded; 85 are not. *)
Example C129_url_example :
  (e <- charstr_url_encode_on 8 (fun _ => 9) (repeat 37 84 ++ [0]) ;; Ok (zlen e)) = Ok 253 /\
  charstr_url_encode_on 8 (fun _ => 9) (repeat 37 85 ++ [0]) = UB /\ text (repeat 37 85).
Proof. split; [reflexivity|]. split; [reflexivity|]. apply text_repeat. lia. Qed.
Example C129_sanitize_example :
  (e <- charstr_sanitize_utf8_on 8 (fun _ => 9) (repeat 128 84 ++ [0]) ;; Ok (zlen e)) = Ok 253 /\
  charstr_sanitize_utf8_on 8 (fun _ => 9) (repeat 128 85 ++ [0]) = UB.
Proof. split; reflexivity. Qed.
