(** More properties of host name encoding (C76-C83) *)
From Verif Require Import Base CMem CharstrModel CharstrSpec CharstrProofs Utf8Model Utf8Spec Utf8Proofs UcdData NormModel NormSpec NormOrder NormBytes NormMain.
From Verif Require Import CategoryModel CategorySpec CategoryProofs CategoryData CategoryProps IdnaTabModel IdnaTabSpec IdnaData IdnaModel IdnaProofs.
From Verif Require Import PunyModel PunySpec PunyPass PunyHost PunyName PunyNfc PunyTop IdnaEncodeModel IdnaEncodeSpec IdnaEncodeProofs IdnaEncodeProps IdnaEncodeMore IdnaEncodeFate.
From Coq Require Import ZifyBool ZifyNat.

(** More codepoints for examples. *)
Definition letters2 : few :=
  [(0x4B, (Mapped, Some [0x6B], Lu)); (0x5F, (Std3_valid, None, Pc)); (0x2E, (Valid, None, Po)); (0x4E00, (Valid, None, Lo));
   (0x1D158, (Valid, Some [], So)); (0x1D165, (Valid, Some [], Mc)); (0x1D16E, (Valid, Some [], Mc))].
Lemma letters2_right : few_right letters2.
Proof.
  unfold few_right, letters2.
  repeat (constructor; [apply few_row; [vm_compute; reflexivity|vm_compute; reflexivity|apply (assigned_cat _ _ (proj1 the_file)); vm_compute; reflexivity]|]).
  constructor.
Qed.
Ltac encode2 := apply (few_encode letters2); [exact letters2_right|vm_compute; reflexivity|discriminate].

Ltac hosts := repeat (apply Forall_cons; [unfold host_char; lia|]); apply Forall_nil.

(** * C76: names that follow the rules are encoded *)

(** U+1D160, which is mapped to U+1D158 U+1D165 U+1D16E, is rejected: its decomposition takes
    exactly three times as many bytes, and there is no room for the NUL. *)
Definition eighth_note : list Z := [0xF0; 0x9D; 0x85; 0xA0].
Definition note_parts : list Z := [0xF0; 0x9D; 0x85; 0x98; 0xF0; 0x9D; 0x85; 0xA5; 0xF0; 0x9D; 0x85; 0xAE].
Theorem C76_refuted_room :
  charstr_idna_encode junk1 r1 h1 0 (eighth_note ++ [0]) = Ok None /\
  encodes eighth_note [0x1D160] /\ nfc [0x1D160] [0x1D158; 0x1D165; 0x1D16E] /\
  mapped_name [0x1D158; 0x1D165; 0x1D16E] [0x1D158; 0x1D165; 0x1D16E] /\ accepted_label [0x1D158; 0x1D165; 0x1D16E] /\
  encoded_label [0x1D158; 0x1D165; 0x1D16E] [0x78; 0x6E; 0x2D; 0x2D; 0x39; 0x65; 0x31; 0x68; 0x30; 0x61; 0x31; 0x61].
Proof.
  split; [encode2|]. split; [apply (encodes_encs [0x1D160]); repeat constructor; unfold scalar; lia|].
  split; [apply nfc_iff; vm_compute; reflexivity|]. split; [|split].
  - destruct (find_few_right letters2 0x1D158 _ letters2_right eq_refl) as (S1 & _). destruct (find_few_right letters2 0x1D165 _ letters2_right eq_refl) as (S2 & _).
    destruct (find_few_right letters2 0x1D16E _ letters2_right eq_refl) as (S3 & _). exists [[0x1D158]; [0x1D165]; [0x1D16E]]. split; [|reflexivity].
    constructor; [exact (replaced_valid _ _ S1)|]. constructor; [exact (replaced_valid _ _ S2)|]. constructor; [exact (replaced_valid _ _ S3)|constructor].
  - split; [repeat constructor; lia|]. split; [lia|]. exists So. split; [|discriminate]. apply (assigned_cat _ _ (proj1 the_file)); vm_compute; reflexivity.
  - right. split; [intros K; inversion K; lia|]. exists [0x39; 0x65; 0x31; 0x68; 0x30; 0x61; 0x31; 0x61]. split; [reflexivity|]. split; [hosts|].
    vm_compute. reflexivity.
Qed.
Print Assumptions C76_refuted_room.

(** A name of four labels, each of them 25 times U+4E00, is rejected, because it takes 303
    bytes in UTF-8, although its encoding has only 127 characters. *)
Definition ones : list Z := repeat 0x4E00 25.
Definition encoded_ones : list Z := [0x78; 0x6E; 0x2D; 0x2D; 0x34; 0x67; 0x71] ++ repeat 0x61 24.
Theorem C76_refuted_long :
  charstr_idna_encode junk1 r1 h1 0 (encoding (join_dots [ones; ones; ones; ones]) ++ [0]) = Ok None /\
  nfc (join_dots [ones; ones; ones; ones]) (join_dots [ones; ones; ones; ones]) /\
  mapped_name (join_dots [ones; ones; ones; ones]) (join_dots [ones; ones; ones; ones]) /\
  accepted_label ones /\ encoded_label ones encoded_ones /\
  zlen (join_dots [encoded_ones; encoded_ones; encoded_ones; encoded_ones]) = 127.
Proof.
  split; [encode2|]. split; [apply nfc_iff; vm_compute; reflexivity|]. split; [|split; [|split]].
  - destruct (find_few_right letters2 0x2E _ letters2_right eq_refl) as (S1 & _). destruct (find_few_right letters2 0x4E00 _ letters2_right eq_refl) as (S2 & _).
    exists (map (fun c => [c]) (join_dots [ones; ones; ones; ones])). split; [|reflexivity].
    repeat (constructor; [first [exact (replaced_valid _ _ S2)|exact (replaced_valid _ _ S1)]|]). constructor.
  - split; [repeat constructor; lia|]. split; [lia|]. exists Lo. split; [|discriminate]. apply (assigned_cat _ _ (proj1 the_file)); vm_compute; reflexivity.
  - right. split; [intros K; inversion K; lia|]. exists ([0x34; 0x67; 0x71] ++ repeat 0x61 24). split; [reflexivity|].
    split; [|vm_compute; reflexivity]. apply Forall_app. split; [hosts|]. apply Forall_forall. intros x I. apply repeat_spec in I. subst x. unfold host_char. lia.
  - reflexivity.
Qed.
Print Assumptions C76_refuted_long.

(** All names that follow the rules and are not affected by these limits are encoded:
    decomposition must take less than three times the space, and no starter may be followed
    by more than 100 combining characters; the mapped name must have at most 254 bytes;
    U+3134A and U+2FA1D are wrongly missing from the tables (see C67); a name without final
    dot must have at most 252 characters. *)
Theorem C76_complete_partial : forall junk r h errno s q cps t u m ls es,
  text s -> ~ ascii s -> 3 * zlen s + 1 < 2 ^ 64 -> zlen (r_ccs r) = 100 ->
  encodes s cps -> ~ In 0 cps -> nfc cps t -> mapped_name t m -> labels m ls -> m <> [] ->
  Forall accepted_label ls -> last m 0 <> 45 -> Forall2 encoded_label ls es -> Forall (fun e => zlen e <= 63) es ->
  nfd cps u -> zlen (encoding u) < 3 * zlen s -> ~ crowded t -> zlen (encoding m) <= 254 -> ~ In 0x3134A t -> ~ In 0x2FA1D t ->
  zlen (join_dots es) <= 253 -> (last (join_dots es) 0 <> 46 -> zlen (join_dots es) <= 252) ->
  charstr_idna_encode junk r h errno (s ++ 0 :: q) = Ok (Some (join_dots es ++ [0])).
Proof.
  intros junk r h errno s q cps t u m ls es T A L Rs E Nz N M Lb Nm Ac Lh En L63 Nd Lu NC L8 N1 N2 L1 L2.
  exact (real_accepts junk r h errno Rs s q cps t u m ls es T A L E Nz N NC Nd Lu M N1 N2 Nm L8 Lb Ac Lh En L63 L1 L2).
Qed.
Print Assumptions C76_complete_partial.
(** Labels such as those in [C62_example] are accepted. *)
Example C76_example : accepted_label [0xE4] /\ encoded_label [0xE4] [0x78; 0x6E; 0x2D; 0x2D; 0x34; 0x63; 0x61] /\
  nfd [0xC4] [0x41; 0x308] /\ zlen (encoding [0x41; 0x308]) < 3 * zlen (encoding [0xC4]) /\ ~ crowded [0xC4].
Proof.
  split; [|split; [|split; [apply nfd_iff; vm_compute; reflexivity|split; [reflexivity|apply short_not_crowded; discriminate]]]].
  - split; [repeat constructor; lia|]. split; [lia|]. exists Ll. split; [|discriminate]. apply (assigned_cat _ _ (proj1 the_file)); vm_compute; reflexivity.
  - right. split; [intros K; inversion K; lia|]. exists [0x34; 0x63; 0x61]. split; [reflexivity|]. split; [hosts|]. vm_compute. reflexivity.
Qed.

(** * C77: bytes that are not UTF-8 *)

(** Overlong forms are accepted: C1 A1 is taken for the letter a. *)
Theorem C77_refuted :
  charstr_idna_encode junk1 r1 h1 0 [0xC1; 0xA1; 0xC3; 0xA4; 0] = Ok (Some [0x78; 0x6E; 0x2D; 0x2D; 0x61; 0x2D; 0x30; 0x66; 0x61; 0]) /\
  ~ exists cps, Forall scalar cps /\ [0xC1; 0xA1; 0xC3; 0xA4] = encoding cps.
Proof.
  split; [encode|]. intros (cps & F & E). destruct cps as [|c cps]; [discriminate|]. inversion_clear F as [|? ? S _]. unfold scalar in S.
  cbn [encoding flat_map] in E. unfold utf8 in E. destruct (c <? 0x80) eqn:E1; [apply (f_equal (hd 0)) in E; cbn [app hd] in E; lia|].
  destruct (c <? 0x800) eqn:E2; [apply (f_equal (hd 0)) in E; cbn [app hd] in E; Z.to_euclidean_division_equations; lia|].
  destruct (c <? 0x10000) eqn:E3; apply (f_equal (hd 0)) in E; cbn [app hd] in E; Z.to_euclidean_division_equations; lia.
Qed.
Print Assumptions C77_refuted.
(** Everything else that is not UTF-8 is rejected. [encodes] allows overlong forms only. *)
Theorem C77_invalid_partial : forall junk r h errno s q, text s -> 3 * zlen s + 1 < 2 ^ 64 -> zlen (r_ccs r) = 100 ->
  (~ exists cps, encodes s cps) -> charstr_idna_encode junk r h errno (s ++ 0 :: q) = Ok None.
Proof. intros junk r h errno s q T L Rs N. exact (real_bad junk r h errno Rs s q T L N). Qed.
Print Assumptions C77_invalid_partial.
Example C77_example : ~ exists cps, encodes [0xC3; 0xA4; 0xE4] cps.
Proof.
  apply (scanned_valid [0xC3; 0xA4; 0xE4] [0xE4]). apply (Sc_cons [0xC3; 0xA4] 0xE4 [0xE4] [] false).
  - split; [exact (Pattern2 3 0x24 ltac:(lia) ltac:(lia))|unfold scalar; lia].
  - apply Sc_bad. intros (bs & cp & u & E & P & _). destruct P as [a H|a b H|a b c H|a b c d H]; cbn [app] in E; [injection E as E _; lia|discriminate..].
Qed.

(** * C78: marks at the beginning of a label *)

(** Nonspacing marks are accepted: U+0300 alone is encoded. *)
Theorem C78_refuted :
  charstr_idna_encode junk1 r1 h1 0 [0xCC; 0x80; 0] = Ok (Some [0x78; 0x6E; 0x2D; 0x2D; 0x6B; 0x73; 0x61; 0]) /\
  encodes [0xCC; 0x80] [0x300] /\ assigned category_data 0x300 Mn.
Proof.
  split; [encode|]. split; [apply (encodes_encs [0x300]); repeat constructor; unfold scalar; lia|].
  apply (assigned_cat _ _ (proj1 the_file)). vm_compute. reflexivity.
Qed.
Print Assumptions C78_refuted.
(** No label begins with a spacing mark. Missing: the categories Mn and Me. *)
Theorem C78_mark_partial : forall junk r h errno s q out,
  text s -> ~ ascii s -> 3 * zlen s + 1 < 2 ^ 64 -> zlen (r_ccs r) = 100 ->
  charstr_idna_encode junk r h errno (s ++ 0 :: q) = Ok (Some out) ->
  exists t m ls, normalized s t /\ mapped_name t m /\ labels m ls /\
    Forall (fun l => match l with [] => True | c :: _ => ~ assigned category_data c Mc end) ls.
Proof.
  intros junk r h errno s q out T A L Rs R.
  destruct (real_success junk r h errno Rs s q out T A L R) as (t & m & ls & es & N & M & Lb & _ & _ & _ & _ & _ & F & _).
  exists t, m, ls. split; [exact N|]. split; [exact M|]. split; [exact Lb|].
  assert (Forall (Forall scalar) ls) as Sc.
  { apply join_sub. rewrite <- (proj2 (proj2 Lb)). exact (mapped_scalar t m (normalized_scalar s t N) M). }
  rewrite Forall_forall in *. intros [|c l] I; [exact Logic.I|]. exact (fine_not_mark (c :: l) (Sc _ I) (F _ I)).
Qed.
Print Assumptions C78_mark_partial.
(** The hypotheses are met: see [C62_example]. *)

(** * C79: canonically equivalent names *)

(** U+1D160 is canonically equivalent to U+1D158 U+1D165 U+1D16E; the latter is encoded, the
    former rejected (compare [C76_refuted_room]). *)
Theorem C79_refuted :
  charstr_idna_encode junk1 r1 h1 0 (eighth_note ++ [0]) = Ok None /\
  charstr_idna_encode junk1 r1 h1 0 (note_parts ++ [0]) = Ok (Some [0x78; 0x6E; 0x2D; 0x2D; 0x39; 0x65; 0x31; 0x68; 0x30; 0x61; 0x31; 0x61; 0]) /\
  encodes eighth_note [0x1D160] /\ encodes note_parts [0x1D158; 0x1D165; 0x1D16E] /\
  nfd [0x1D160] [0x1D158; 0x1D165; 0x1D16E] /\ nfd [0x1D158; 0x1D165; 0x1D16E] [0x1D158; 0x1D165; 0x1D16E].
Proof.
  split; [encode2|]. split; [encode2|]. split; [apply (encodes_encs [0x1D160]); repeat constructor; unfold scalar; lia|].
  split; [apply (encodes_encs [0x1D158; 0x1D165; 0x1D16E]); repeat constructor; unfold scalar; lia|].
  split; apply nfd_iff; vm_compute; reflexivity.
Qed.
Print Assumptions C79_refuted.
(** K (U+004B) and the Kelvin sign (U+212A) are canonically equivalent; followed by an
    underscore, the one is accepted and the other is not. *)
Theorem C79_refuted_ascii :
  charstr_idna_encode junk1 r1 h1 0 [0x4B; 0x5F; 0] = Ok (Some [0x6B; 0x5F; 0]) /\
  charstr_idna_encode junk1 r1 h1 0 [0xE2; 0x84; 0xAA; 0x5F; 0] = Ok None /\
  encodes [0x4B; 0x5F] [0x4B; 0x5F] /\ encodes [0xE2; 0x84; 0xAA; 0x5F] [0x212A; 0x5F] /\
  nfd [0x4B; 0x5F] [0x4B; 0x5F] /\ nfd [0x212A; 0x5F] [0x4B; 0x5F].
Proof.
  split; [apply (C66_ascii junk1 r1 h1 0 [0x4B; 0x5F] []); [is_text|repeat constructor; lia|reflexivity]|]. split; [encode2|].
  split; [apply (encodes_encs [0x4B; 0x5F]); repeat constructor; unfold scalar; lia|].
  split; [apply (encodes_encs [0x212A; 0x5F]); repeat constructor; unfold scalar; lia|].
  split; apply nfd_iff; vm_compute; reflexivity.
Qed.
Print Assumptions C79_refuted_ascii.
(** Otherwise the results are the same. Missing: ASCII names (which are not checked, C66),
    overlong NULs, names that grow too much when decomposed, and those with more than 100
    combining characters in succession. *)
Theorem C79_equivalent_partial : forall junk r h errno junk' r' h' errno' s q cps s' q' cps' u t,
  text s -> ~ ascii s -> 3 * zlen s + 1 < 2 ^ 64 -> zlen (r_ccs r) = 100 ->
  text s' -> ~ ascii s' -> 3 * zlen s' + 1 < 2 ^ 64 -> zlen (r_ccs r') = 100 ->
  encodes s cps -> encodes s' cps' -> ~ In 0 cps -> ~ In 0 cps' ->
  nfd cps u -> nfd cps' u -> zlen (encoding u) < 3 * zlen s -> zlen (encoding u) < 3 * zlen s' -> nfc cps t -> ~ crowded t ->
  charstr_idna_encode junk r h errno (s ++ 0 :: q) = charstr_idna_encode junk' r' h' errno' (s' ++ 0 :: q').
Proof.
  intros junk r h errno junk' r' h' errno' s q cps s' q' cps' u t T A L Rs T' A' L' Rs' E E' Z Z' Nd Nd' Lu Lu' N C.
  assert (nfc cps' t) as N'.
  { destruct N as (v & V & W). exists v. split; [|exact W]. destruct (nfd_exists cps) as (x & _ & U). rewrite (U v V), <- (U u Nd). exact Nd'. }
  exact (outcome_unique t _ _ (real_complete junk r h errno Rs s q cps t u T A L E Z N C Nd Lu) (real_complete junk' r' h' errno' Rs' s' q' cps' t u T' A' L' E' Z' N' C Nd' Lu')).
Qed.
Print Assumptions C79_equivalent_partial.
(** U+00C4 and U+0041 U+0308 *)
Example C79_example : encodes [0xC3; 0x84] [0xC4] /\ encodes [0x41; 0xCC; 0x88] [0x41; 0x308] /\
  nfd [0xC4] [0x41; 0x308] /\ nfd [0x41; 0x308] [0x41; 0x308] /\ nfc [0xC4] [0xC4] /\ ~ crowded [0xC4] /\
  zlen (encoding [0x41; 0x308]) < 3 * zlen [0xC3; 0x84].
Proof.
  split; [apply (encodes_encs [0xC4]); repeat constructor; unfold scalar; lia|].
  split; [apply (encodes_encs [0x41; 0x308]); repeat constructor; unfold scalar; lia|].
  split; [apply nfd_iff; vm_compute; reflexivity|]. split; [apply nfd_iff; vm_compute; reflexivity|]. split; [apply nfc_iff; vm_compute; reflexivity|].
  split; [apply short_not_crowded; discriminate|reflexivity].
Qed.

(** * C80: the result is a fixed point *)

Theorem C80_fixed : forall junk r h errno s q name, text s -> 3 * zlen s + 1 < 2 ^ 64 -> zlen (r_ccs r) = 100 ->
  charstr_idna_encode junk r h errno (s ++ 0 :: q) = Ok (Some (name ++ [0])) ->
  forall junk' r' h' errno' q', charstr_idna_encode junk' r' h' errno' (name ++ 0 :: q') = Ok (Some (name ++ [0])).
Proof. exact fixed_point. Qed.
Print Assumptions C80_fixed.
(** All results are of this form, see C63 and C66. *)

(** * C81: different names have different encodings *)

Definition letters3 : few :=
  [(0x2D, (Valid, None, Pd)); (0x2E, (Valid, None, Po)); (0x34, (Valid, None, Nd)); (0x61, (Valid, None, Ll)); (0x63, (Valid, None, Ll));
   (0x6E, (Valid, None, Ll)); (0x78, (Valid, None, Ll)); (0xE4, (Valid, None, Ll))].
Lemma letters3_right : few_right letters3.
Proof.
  unfold few_right, letters3.
  repeat (constructor; [apply few_row; [vm_compute; reflexivity|vm_compute; reflexivity|apply (assigned_cat _ _ (proj1 the_file)); vm_compute; reflexivity]|]).
  constructor.
Qed.
Ltac encode3 := apply (few_encode letters3); [exact letters3_right|vm_compute; reflexivity|discriminate].

Definition valid3_b (c : Z) : bool := match find_few letters3 c with Some (Valid, None, _) => true | _ => false end.
Lemma valid3 t : forallb valid3_b t = true -> mapped_name t t.
Proof.
  intros H. exists (map (fun c => [c]) t). split; [|clear; induction t as [|c t IH]; [reflexivity|]; cbn [map concat app]; f_equal; exact IH].
  induction t as [|c t IH]; [constructor|]. cbn [forallb] in H. apply andb_true_iff in H as [H1 H2]. cbn [map]. constructor; [|exact (IH H2)].
  unfold valid3_b in H1. destruct (find_few letters3 c) as [[[[] [?|]] k]|] eqn:E; try discriminate.
  destruct (find_few_right letters3 c _ letters3_right E) as (S & _). exact (replaced_valid _ _ S).
Qed.
Lemma ascii_b_ok s : forallb (fun c => c <? 128) s = true <-> ascii s.
Proof. unfold ascii. rewrite forallb_forall, Forall_forall. split; intros H x I; specialize (H x I); cbv beta in *; lia. Qed.

(** It is possible that a name contains an encoded label already. *)
Theorem C81_refuted :
  charstr_idna_encode junk1 r1 h1 0 [0xC3; 0xA4; 0x2E; 0xC3; 0xA4; 0] =
    Ok (Some [0x78; 0x6E; 0x2D; 0x2D; 0x34; 0x63; 0x61; 0x2E; 0x78; 0x6E; 0x2D; 0x2D; 0x34; 0x63; 0x61; 0]) /\
  charstr_idna_encode junk1 r1 h1 0 [0x78; 0x6E; 0x2D; 0x2D; 0x34; 0x63; 0x61; 0x2E; 0xC3; 0xA4; 0] =
    Ok (Some [0x78; 0x6E; 0x2D; 0x2D; 0x34; 0x63; 0x61; 0x2E; 0x78; 0x6E; 0x2D; 0x2D; 0x34; 0x63; 0x61; 0]) /\
  name_of [0xC3; 0xA4; 0x2E; 0xC3; 0xA4] [0xE4; 0x2E; 0xE4] /\
  name_of [0x78; 0x6E; 0x2D; 0x2D; 0x34; 0x63; 0x61; 0x2E; 0xC3; 0xA4] [0x78; 0x6E; 0x2D; 0x2D; 0x34; 0x63; 0x61; 0x2E; 0xE4].
Proof.
  split; [encode3|]. split; [encode3|]. split; right; (split; [intros K; rewrite <- ascii_b_ok in K; vm_compute in K; discriminate|]).
  - exists [0xE4; 0x2E; 0xE4]. split; [|apply valid3; vm_compute; reflexivity]. exists [0xE4; 0x2E; 0xE4], [0xE4; 0x2E; 0xE4].
    split; [apply (encodes_encs [0xE4; 0x2E; 0xE4]); repeat constructor; unfold scalar; lia|]. split; [apply nfc_iff; vm_compute; reflexivity|]. split; [cbn; lia|auto].
  - exists [0x78; 0x6E; 0x2D; 0x2D; 0x34; 0x63; 0x61; 0x2E; 0xE4]. split; [|apply valid3; vm_compute; reflexivity].
    exists [0x78; 0x6E; 0x2D; 0x2D; 0x34; 0x63; 0x61; 0x2E; 0xE4], [0x78; 0x6E; 0x2D; 0x2D; 0x34; 0x63; 0x61; 0x2E; 0xE4].
    split; [apply (encodes_encs [0x78; 0x6E; 0x2D; 0x2D; 0x34; 0x63; 0x61; 0x2E; 0xE4]); repeat (apply Forall_cons; [unfold scalar; lia|]); apply Forall_nil|].
    split; [apply nfc_iff; vm_compute; reflexivity|]. split; [cbn; lia|auto].
Qed.
Print Assumptions C81_refuted.
(** Otherwise two names with the same encoding have been the same after normalization and
    mapping. *)
Theorem C81_injective_partial : forall junk r h errno junk' r' h' errno' s q s' q' out m ls m' ls',
  text s -> 3 * zlen s + 1 < 2 ^ 64 -> zlen (r_ccs r) = 100 -> text s' -> 3 * zlen s' + 1 < 2 ^ 64 -> zlen (r_ccs r') = 100 ->
  charstr_idna_encode junk r h errno (s ++ 0 :: q) = Ok (Some out) -> charstr_idna_encode junk' r' h' errno' (s' ++ 0 :: q') = Ok (Some out) ->
  name_of s m -> labels m ls -> name_of s' m' -> labels m' ls' ->
  Forall (fun l => firstn 4 l <> [120; 110; 45; 45]) ls -> Forall (fun l => firstn 4 l <> [120; 110; 45; 45]) ls' -> m = m'.
Proof. exact same_encoding. Qed.
Print Assumptions C81_injective_partial.
(** The names in [C81_refuted] are examples, except for their prefix xn--. *)
Example C81_example : labels [0xE4; 0x2E; 0xE4] [[0xE4]; [0xE4]] /\ Forall (fun l => firstn 4 l <> [120; 110; 45; 45]) [[0xE4]; [0xE4]].
Proof. split; [split; [discriminate|]; split; [|reflexivity]; repeat constructor; cbn; lia|]. repeat constructor; discriminate. Qed.

(** * C82: the encoded name is normalized *)

(** The letter U+FF21 (full-width A) followed by U+030A (ring above) is mapped to a, U+030A,
    which is encoded although its NFC form is U+00E5. *)
Theorem C82_refuted :
  charstr_idna_encode junk1 r1 h1 0 [0xEF; 0xBC; 0xA1; 0xCC; 0x8A; 0] = Ok (Some [0x78; 0x6E; 0x2D; 0x2D; 0x61; 0x2D; 0x67; 0x63; 0x62; 0]) /\
  punycode_decode [0x61; 0x2D; 0x67; 0x63; 0x62] = Some [0x61; 0x30A] /\ nfc [0x61; 0x30A] [0xE5].
Proof. split; [encode|]. split; [vm_compute; reflexivity|apply nfc_iff; vm_compute; reflexivity]. Qed.
Print Assumptions C82_refuted.
(** The name is normalized before the mapping, so it is in NFC if no character is changed by
    the mapping. *)
Theorem C82_normalized_partial : forall junk r h errno s q out t,
  text s -> ~ ascii s -> 3 * zlen s + 1 < 2 ^ 64 -> zlen (r_ccs r) = 100 ->
  charstr_idna_encode junk r h errno (s ++ 0 :: q) = Ok (Some out) ->
  normalized s t -> mapped_name t t ->
  exists ls es, out = join_dots es ++ [0] /\ Forall2 encoded_label ls es /\ labels t ls /\ nfc t t.
Proof.
  intros junk r h errno s q out t T A L Rs R N M.
  destruct (real_success junk r h errno Rs s q out T A L R) as (t' & m & ls & es & N' & M' & Lb & F & O & _).
  rewrite (normalized_unique s t' t N' N) in M'. rewrite (mapped_unique t m t M' M) in Lb. exists ls, es. split; [exact O|]. split; [exact F|]. split; [exact Lb|].
  destruct N as (cps & a & _ & C & _). exact (nfc_idem a t C).
Qed.
Print Assumptions C82_normalized_partial.
Example C82_example : normalized [0xC3; 0xA4; 0x2E; 0xC3; 0xA4] [0xE4; 0x2E; 0xE4] /\ mapped_name [0xE4; 0x2E; 0xE4] [0xE4; 0x2E; 0xE4].
Proof.
  split; [|apply valid3; vm_compute; reflexivity]. exists [0xE4; 0x2E; 0xE4], [0xE4; 0x2E; 0xE4].
  split; [apply (encodes_encs [0xE4; 0x2E; 0xE4]); repeat constructor; unfold scalar; lia|]. split; [apply nfc_iff; vm_compute; reflexivity|]. split; [cbn; lia|auto].
Qed.

(** * C83: the result depends on the string only *)

(** ... and not on uninitialized memory (the arguments [junk], [r] and [h] of the model),
    errno or the bytes after the NUL. *)
Theorem C83_deterministic : forall junk r h errno q junk' r' h' errno' q' s,
  text s -> 3 * zlen s + 1 < 2 ^ 64 -> zlen (r_ccs r) = 100 -> zlen (r_ccs r') = 100 ->
  charstr_idna_encode junk r h errno (s ++ 0 :: q) = charstr_idna_encode junk' r' h' errno' (s ++ 0 :: q').
Proof. exact independent. Qed.
Print Assumptions C83_deterministic.
