(** Properties C56-C61: Unicode normalization (src/charstr_decompose.c,
    src/charstr_recompose.c, src/charstr_unicode.c). *)
From Verif Require Import Base CMem CharstrModel CharstrSpec Utf8Model Utf8Spec UcdData NormModel NormSpec.
From Verif Require Import NormFacts NormOrder NormBytes NormDecompose NormRecompose NormMain.

#[local] Ltac scalars := repeat (constructor; [unfold scalar; lia|]); constructor.
#[local] Ltac small := repeat (constructor; [unfold byte; lia|]); constructor.

(** The specification gives every string exactly one NFD and one NFC. *)
Theorem C56_nfd_unique : forall cps, exists t, nfd cps t /\ forall u, nfd cps u -> u = t.
Proof. exact nfd_exists. Qed.
Print Assumptions C56_nfd_unique.

Theorem C59_nfc_unique : forall cps, exists t, nfc cps t /\ forall u, nfc cps u -> u = t.
Proof. exact nfc_exists. Qed.
Print Assumptions C59_nfc_unique.

(** e with acute, dot below: the decomposition is reordered. *)
Example C56_nfd_example : nfd [0xE9; 0x323; 0xAC01] [0x65; 0x323; 0x301; 0x1100; 0x1161; 0x11A8].
Proof. apply nfd_iff. vm_compute. reflexivity. Qed.

(** C56 is false: the Hangul syllable U+AC00 is returned as it is when there is
    room for it but not for its decomposition. The C57 claim that lack of space
    is reported fails too. *)
Theorem C56_refuted :
  charstr_unicode_decompose [0xEA; 0xB0; 0x80; 0] None [9; 9; 9; 9; 9] 0 5 = Ok ([0xEA; 0xB0; 0x80; 0; 0x85], inl 3) /\
  encodes [0xEA; 0xB0; 0x80] [0xAC00] /\ ~ nfd [0xAC00] [0xAC00] /\ nfd [0xAC00] [0x1100; 0x1161].
Proof.
  split; [vm_compute; reflexivity|]. split.
  - exists [[0xEA; 0xB0; 0x80]]. split; [reflexivity|]. constructor; [|constructor]. apply (Utf8Proofs.utf8_accepted 0xAC00). unfold scalar. lia.
  - assert (E : nfd [0xAC00] [0x1100; 0x1161]) by (apply nfd_iff; vm_compute; reflexivity). split; [|exact E].
    intros N. apply nfd_iff in N. apply nfd_iff in E. congruence.
Qed.
Print Assumptions C56_refuted.

(** What holds: when there is room for it, the NFD of the string and a NUL are
    written, nothing outside [free] is changed, and the position of the NUL is
    returned. *)
Theorem C56_decompose_partial : forall s cps t q e pre free post,
  input s q e -> encodes s cps -> nfd cps t -> zlen (encoding t) < zlen free ->
  exists rest, charstr_unicode_decompose (s ++ q) e (pre ++ free ++ post) (zlen pre) (zlen pre + zlen free) =
      Ok (pre ++ encoding t ++ 0 :: rest ++ post, inl (zlen pre + zlen (encoding t))) /\
    zlen (encoding t) + 1 + zlen rest = zlen free.
Proof. exact decompose_fits. Qed.
Print Assumptions C56_decompose_partial.

(** Whenever something is returned: the string was valid, a NUL-terminated string
    in canonical order was written within [free], and it comes from full
    decompositions, except that Hangul syllables may have been left alone. *)
Theorem C56_success_partial : forall s q e pre free post b n, input s q e ->
  charstr_unicode_decompose (s ++ q) e (pre ++ free ++ post) (zlen pre) (zlen pre + zlen free) = Ok (b, inl n) ->
  exists cps rs t rest, encodes s cps /\
    Forall2 (fun cp r => decomposed cp r \/ (r = [cp] /\ exists l v t, syllable l v t cp)) cps rs /\
    exchanges (concat rs) t /\ ordered t /\
    b = pre ++ encoding t ++ 0 :: rest ++ post /\ n = zlen pre + zlen (encoding t) /\ zlen (encoding t) + 1 + zlen rest = zlen free.
Proof.
  intros s q e pre free post b n I E. destruct (scanned_total s (CharstrProofs.text_bytes _ (proj1 I))) as (cps & ok & S).
  destruct (decompose_success s cps ok q e pre free post b n I S E) as (-> & rs & t & rest & V & R). exists cps, rs, t, rest.
  split; [apply encodes_scanned; exact S|]. split; [|exact R]. clear - V. induction V as [|cp r cps rs H _ IH]; [constructor|]. constructor; [|exact IH]. apply variant_piece. exact H.
Qed.
Print Assumptions C56_success_partial.

(** Without Hangul syllables it is the NFD. *)
Theorem C56_no_syllable : forall s cps q e pre free post b n, input s q e -> encodes s cps -> no_syllable cps ->
  charstr_unicode_decompose (s ++ q) e (pre ++ free ++ post) (zlen pre) (zlen pre + zlen free) = Ok (b, inl n) ->
  exists t rest, nfd cps t /\ b = pre ++ encoding t ++ 0 :: rest ++ post /\ n = zlen pre + zlen (encoding t).
Proof.
  intros s cps q e pre free post b n I E NS R. apply encodes_scanned in E. destruct (decompose_success s cps true q e pre free post b n I E R) as (_ & rs & t & rest & V & X & O & Eb & En & _).
  exists t, rest. split; [|auto]. exists (concat rs). split; [|auto]. rewrite (variant_plain _ _ NS V). apply decomposed_all_iff. reflexivity.
Qed.
Print Assumptions C56_no_syllable.

Example C56_example :
  charstr_unicode_decompose [0xC3; 0xA9; 0xCC; 0xA3; 0; 7] None [1; 9; 9; 9; 9; 9; 9; 9; 2] 1 8 =
    Ok ([1; 0x65; 0xCC; 0xA3; 0xCC; 0x81; 0; 9; 2], inl 6) /\
  input [0xC3; 0xA9; 0xCC; 0xA3] [0; 7] None /\ encodes [0xC3; 0xA9; 0xCC; 0xA3] [0xE9; 0x323] /\ nfd [0xE9; 0x323] [0x65; 0x323; 0x301].
Proof.
  split; [vm_compute; reflexivity|]. split.
  - split; [small|]. right. exists [], [7]. split; [reflexivity|]. split; [constructor|auto].
  - split; [|apply nfd_iff; vm_compute; reflexivity]. apply (encodes_encs [0xE9; 0x323]). scalars.
Qed.

(** C57: if there is no room the result is NULL with EOVERFLOW, unless syllables
    could be left alone (see [C56_refuted] and [C56_success_partial]). *)
Theorem C57_refuted : exists s cps t b n, input s [0] None /\ encodes s cps /\ nfd cps t /\ zlen (encoding t) >= 5 /\
  charstr_unicode_decompose (s ++ [0]) None [9; 9; 9; 9; 9] 0 5 = Ok (b, inl n).
Proof.
  exists [0xEA; 0xB0; 0x80], [0xAC00], [0x1100; 0x1161]. destruct C56_refuted as (E & H & _ & N). eexists _, _. split; [|split; [exact H|split; [exact N|]]].
  - split; [small|]. right. exists [], []. split; [reflexivity|]. split; [constructor|auto].
  - split; [|exact E]. vm_compute. congruence.
Qed.
Print Assumptions C57_refuted.

Theorem C57_overflow_partial : forall s cps t q e pre free post,
  input s q e -> encodes s cps -> nfd cps t -> no_syllable cps -> zlen (encoding t) >= zlen free ->
  exists free', charstr_unicode_decompose (s ++ q) e (pre ++ free ++ post) (zlen pre) (zlen pre + zlen free) =
      Ok (pre ++ free' ++ post, inr EOVERFLOW) /\ zlen free' = zlen free.
Proof. exact decompose_tight. Qed.
Print Assumptions C57_overflow_partial.

(** NULL for a valid string only for lack of space *)
Theorem C57_only_overflow : forall s cps q e pre free post b err, input s q e -> encodes s cps ->
  charstr_unicode_decompose (s ++ q) e (pre ++ free ++ post) (zlen pre) (zlen pre + zlen free) = Ok (b, inr err) ->
  err = EOVERFLOW /\ forall t, nfd cps t -> zlen (encoding t) >= zlen free.
Proof. exact decompose_errors. Qed.
Print Assumptions C57_only_overflow.

(** Bad UTF-8 always gives NULL, and EILSEQ if there is space. *)
Theorem C57_invalid : forall s q e pre free post, input s q e -> (~ exists cps, encodes s cps) ->
  exists free' err, charstr_unicode_decompose (s ++ q) e (pre ++ free ++ post) (zlen pre) (zlen pre + zlen free) = Ok (pre ++ free' ++ post, inr err) /\
    zlen free' = zlen free /\ (err = EILSEQ \/ err = EOVERFLOW) /\ (3 * zlen s <= zlen free -> err = EILSEQ).
Proof. exact decompose_bad. Qed.
Print Assumptions C57_invalid.

Example C57_example :
  charstr_unicode_decompose [0xC3; 0xA9; 0] None [9; 9; 9] 0 3 = Ok ([0x65; 0xCC; 0x81], inr EOVERFLOW) /\
  charstr_unicode_decompose [0xC3; 0xA9; 0] None [9; 9; 9; 9] 0 4 = Ok ([0x65; 0xCC; 0x81; 0], inl 3) /\
  charstr_unicode_decompose [0x65; 0xA9; 0] None [9; 9; 9; 9] 0 4 = Ok ([0x65; 9; 9; 9], inr EILSEQ) /\
  no_syllable [0xE9].
Proof. do 3 (split; [vm_compute; reflexivity|]). intros cp l v t [<-|[]] (H1 & H2 & H3 & H). lia. Qed.

(** C58: three bytes for each byte, and the NUL, are always enough. *)
Theorem C58_space : forall s cps q e pre free post, input s q e -> encodes s cps -> zlen free > 3 * zlen s ->
  exists t rest, nfd cps t /\
    charstr_unicode_decompose (s ++ q) e (pre ++ free ++ post) (zlen pre) (zlen pre + zlen free) =
      Ok (pre ++ encoding t ++ 0 :: rest ++ post, inl (zlen pre + zlen (encoding t))).
Proof.
  intros s cps q e pre free post I E L. destruct (nfd_exists cps) as (t & N & _). pose proof (nfd_three s cps t E N).
  destruct (decompose_fits s cps t q e pre free post I E N) as (rest & R & _); [lia|]. exists t, rest. auto.
Qed.
Print Assumptions C58_space.

(** The factor 3 is needed: U+1D160 (and U+0390). *)
Example C58_example : exists t, nfd [0x1D160] t /\ zlen (encoding t) = 3 * zlen (encoding [0x1D160]) /\ encodes (encoding [0x1D160]) [0x1D160].
Proof.
  exists [0x1D158; 0x1D165; 0x1D16E]. split; [apply nfd_iff; vm_compute; reflexivity|]. split; [reflexivity|].
  apply (encodes_encs [0x1D160]). constructor; [unfold scalar; lia|constructor].
Qed.

(** C59: the canonical composition algorithm. [r] and [h] are the uninitialized
    local variables. *)
Theorem C59_recompose : forall s cps t q e pre free post r h errno,
  input s q e -> encodes s cps -> compose [] cps t -> zlen (r_ccs r) = 100 ->
  exists free' o, charstr_unicode_recompose r h (s ++ q) e (pre ++ free ++ post) (zlen pre) (zlen pre + zlen free) errno = Ok (pre ++ free' ++ post, o) /\
    zlen free' = zlen free /\
    match o with
    | inl n => ~ crowded t /\ zlen (encoding t) < zlen free /\ n = zlen pre + zlen (encoding t) /\ exists rest, free' = encoding t ++ 0 :: rest
    | inr err => (err = EOVERFLOW /\ zlen (encoding t) >= zlen free) \/ (err = ENOBUFS /\ crowded t)
    end.
Proof. exact recompose_result. Qed.
Print Assumptions C59_recompose.

(** In particular NFD becomes NFC, and as many bytes as the input has, and a NUL,
    are enough. *)
Theorem C59_nfc : forall s cps q e pre free post r h errno,
  input s q e -> encodes s cps -> nfd cps cps -> zlen (r_ccs r) = 100 -> zlen free > zlen s ->
  exists t, nfc cps t /\ zlen (encoding t) <= zlen s /\ (~ crowded t ->
    exists rest, charstr_unicode_recompose r h (s ++ q) e (pre ++ free ++ post) (zlen pre) (zlen pre + zlen free) errno =
      Ok (pre ++ encoding t ++ 0 :: rest ++ post, inl (zlen pre + zlen (encoding t)))).
Proof.
  intros s cps q e pre free post r h errno I E N R L. destruct (compose_exists cps) as (t & C & _). exists t. split; [exists cps; auto|].
  pose proof (compose_shrinks s cps t E C). split; [assumption|]. intros NC.
  destruct (recompose_result s cps t q e pre free post r h errno I E C R) as (free' & o & -> & L' & O). destruct o as [n|err].
  - destruct O as (_ & _ & -> & rest & ->). exists rest. rewrite <- app_assoc. reflexivity.
  - destruct O as [[_ O]|[_ O]]; [lia|tauto].
Qed.
Print Assumptions C59_nfc.

Theorem C59_invalid : forall s q e pre free post r h errno, input s q e -> (~ exists cps, encodes s cps) -> zlen (r_ccs r) = 100 ->
  exists free' err, charstr_unicode_recompose r h (s ++ q) e (pre ++ free ++ post) (zlen pre) (zlen pre + zlen free) errno = Ok (pre ++ free' ++ post, inr err) /\
    zlen free' = zlen free /\ (err = EILSEQ \/ err = EOVERFLOW \/ err = ENOBUFS).
Proof. exact recompose_bad. Qed.
Print Assumptions C59_invalid.

Example C59_example :
  let r := mk_recomposer RECOMPOSER_TERMINATED 5 (repeat 8 100) 6 7 in
  charstr_unicode_recompose r (mk_hangul HANGUL_RECOMPOSER_STARTED 5) [0x65; 0xCC; 0xA3; 0xCC; 0x81; 0] None [9; 9; 9; 9; 9; 9; 9] 0 7 0 =
    Ok ([0xE1; 0xBA; 0xB9; 0xCC; 0x81; 0; 9], inl 5) /\
  zlen (r_ccs r) = 100 /\ nfd [0x65; 0x323; 0x301] [0x65; 0x323; 0x301] /\ nfc [0x65; 0x323; 0x301] [0x1EB9; 0x301] /\ ~ crowded [0x1EB9; 0x301].
Proof.
  split; [vm_compute; reflexivity|]. split; [reflexivity|]. split; [apply nfd_iff; vm_compute; reflexivity|]. split; [apply nfc_iff; vm_compute; reflexivity|].
  intros (pre & l & mid & post & E & _ & _ & L). apply (f_equal zlen) in E. change (zlen [0x1EB9; 0x301]) with 2 in E. rewrite zlen_app, zlen_cons, zlen_app in E.
  pose proof (zlen_nonneg pre). pose proof (zlen_nonneg post). lia.
Qed.
(** Hangul, and a combining character without a starter *)
Example C59_example_hangul :
  charstr_unicode_recompose (mk_recomposer RECOMPOSER_TERMINATED 5 (repeat 8 100) 6 7) (mk_hangul HANGUL_RECOMPOSER_STARTED 5)
    (encoding [0x301; 0x1100; 0x1161; 0x11A8]) (Some 0) [9; 9; 9; 9; 9; 9; 9; 9] 0 8 0 =
    Ok (encoding [0x301; 0xAC01] ++ [0; 9; 9], inl 5).
Proof. vm_compute. reflexivity. Qed.

(** C60 is false for strings with an overlong NUL (C0 80), which is written as a
    NUL: decomposing the result again stops there. *)
Theorem C60_refuted :
  charstr_unicode_decompose [0xC0; 0x80; 0x61; 0] None [9; 9; 9; 9] 0 4 = Ok ([0; 0x61; 0; 9], inl 2) /\
  charstr_unicode_decompose [0; 0x61; 0; 9] None [9; 9; 9; 9] 0 4 = Ok ([0; 9; 9; 9], inl 0) /\
  charstr_unicode_decompose [0; 0x61; 0; 9] (Some 2) [9; 9; 9; 9] 0 4 = Ok ([0; 9; 9; 9], inl 0).
Proof. repeat (split; [vm_compute; reflexivity|]). vm_compute. reflexivity. Qed.
Print Assumptions C60_refuted.

(** Without it, decomposing again changes nothing... *)
Theorem C60_idempotent_partial : forall s cps q e pre free post, input s q e -> encodes s cps -> ~ In 0 cps -> zlen free > 3 * zlen s ->
  exists out rest, charstr_unicode_decompose (s ++ q) e (pre ++ free ++ post) (zlen pre) (zlen pre + zlen free) =
      Ok (pre ++ out ++ 0 :: rest ++ post, inl (zlen pre + zlen out)) /\
    forall r pre2 free2 post2, zlen free2 > zlen out ->
      exists rest2, charstr_unicode_decompose (out ++ 0 :: r) None (pre2 ++ free2 ++ post2) (zlen pre2) (zlen pre2 + zlen free2) =
        Ok (pre2 ++ out ++ 0 :: rest2 ++ post2, inl (zlen pre2 + zlen out)).
Proof.
  intros s cps q e pre free post I E N L. destruct (C58_space s cps q e pre free post I E L) as (t & rest & H & R). exists (encoding t), rest. split; [exact R|].
  intros r pre2 free2 post2 L2. apply (decompose_again cps); try assumption; [eapply encodes_scalar; exact E|lia].
Qed.
Print Assumptions C60_idempotent_partial.

(** ... and an NFD string comes back when it is recomposed and decomposed. *)
Theorem C60_round_trip_partial : forall s u q e pre free post r h errno,
  input s q e -> encodes s u -> nfd u u -> ~ In 0 u -> ~ (exists t, nfc u t /\ crowded t) -> zlen (r_ccs r) = 100 -> zlen free > zlen s ->
  exists out rest, charstr_unicode_recompose r h (s ++ q) e (pre ++ free ++ post) (zlen pre) (zlen pre + zlen free) errno =
      Ok (pre ++ out ++ 0 :: rest ++ post, inl (zlen pre + zlen out)) /\
    forall r2 pre2 free2 post2, zlen free2 > zlen s ->
      exists rest2, charstr_unicode_decompose (out ++ 0 :: r2) None (pre2 ++ free2 ++ post2) (zlen pre2) (zlen pre2 + zlen free2) =
        Ok (pre2 ++ encoding u ++ 0 :: rest2 ++ post2, inl (zlen pre2 + zlen (encoding u))).
Proof.
  intros s u q e pre free post r h errno I E N NZ NC R L. destruct (C59_nfc s u q e pre free post r h errno I E N R L) as (t & H & G & K).
  destruct K as (rest & K); [intros C; apply NC; exists t; auto|]. exists (encoding t), rest. split; [exact K|].
  intros r2 pre2 free2 post2 L2. pose proof (encodes_scalar _ _ E) as F. destruct H as (u' & N' & C). apply nfd_iff in N' as E'. apply nfd_iff in N as E''. rewrite <- E'' in E'. subst u'.
  apply (decompose_composed u); try assumption. rewrite encs_zlen by exact F. apply encodes_scanned, scanned_width in E. lia.
Qed.
Print Assumptions C60_round_trip_partial.

Example C60_example :
  charstr_unicode_decompose [0x65; 0xCC; 0xA3; 0xCC; 0x81; 0] None [9; 9; 9; 9; 9; 9] 0 6 = Ok ([0x65; 0xCC; 0xA3; 0xCC; 0x81; 0], inl 5) /\
  charstr_unicode_decompose [0xE1; 0xBA; 0xB9; 0xCC; 0x81; 0; 9] None [9; 9; 9; 9; 9; 9] 0 6 = Ok ([0x65; 0xCC; 0xA3; 0xCC; 0x81; 0], inl 5).
Proof. split; vm_compute; reflexivity. Qed.

(** C61 *)
Theorem C61_decomposed : forall s q e, input s q e -> exists b, charstr_unicode_canonically_decomposed (s ++ q) e = Ok b /\
  (b = true -> exists cps, encodes s cps /\ nfd cps cps).
Proof. exact detect_nfd. Qed.
Print Assumptions C61_decomposed.

Theorem C61_composed : forall s q e, input s q e -> exists b, charstr_unicode_canonically_composed (s ++ q) e = Ok b /\
  (b = true -> exists cps, encodes s cps /\ nfc cps cps).
Proof. exact detect_nfc. Qed.
Print Assumptions C61_composed.

Example C61_example :
  charstr_unicode_canonically_decomposed [0x65; 0xCC; 0xA3; 0xCC; 0x81; 0] None = Ok true /\
  charstr_unicode_canonically_decomposed [0x65; 0xCC; 0x81; 0xCC; 0xA3; 0] None = Ok false /\
  charstr_unicode_canonically_decomposed [0xC3; 0xA9; 0] None = Ok false /\
  charstr_unicode_canonically_composed [0xC3; 0xA9; 0] None = Ok true /\
  charstr_unicode_canonically_composed [0x65; 0xCC; 0x81; 0] None = Ok false.
Proof. repeat (split; [vm_compute; reflexivity|]). vm_compute. reflexivity. Qed.
