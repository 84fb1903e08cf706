(** Properties of host name encoding (C62-C66) *)
From Verif Require Import Base CMem CharstrModel CharstrSpec CharstrProofs Utf8Model Utf8Spec Utf8Proofs UcdData NormModel NormSpec NormOrder NormBytes NormMain.
From Verif Require Import CategoryModel CategorySpec CategoryProofs CategoryData CategoryProps IdnaTabModel IdnaTabSpec IdnaData IdnaModel IdnaProofs.
From Verif Require Import PunyModel PunySpec PunyPass PunyHost PunyNfc PunyTop IdnaEncodeModel IdnaEncodeSpec IdnaEncodeProofs.
From Coq Require Import ZifyBool ZifyNat.

(** In all theorems [junk], [r] and [h] are the contents of memory that the code allocates
    without initializing it, [s] is the argument of charstr_idna_encode up to its NUL and [q]
    is what follows it in memory. The result contains the final NUL.

    For examples: some uninitialized memory, and the rows of a few codepoints. *)
Definition junk1 (n : nat) : Z := 200 + Z.of_nat n mod 50.
Definition r1 : recomposer := mk_recomposer RECOMPOSER_TERMINATED 5 (repeat 8 100) 6 7.
Definition h1 : hangul_recomposer := mk_hangul HANGUL_RECOMPOSER_STARTED 5.
Definition letters : few :=
  [(0x2D, (Valid, None, Pd)); (0x2E, (Valid, None, Po)); (0x41, (Mapped, Some [0x61], Lu)); (0x61, (Valid, None, Ll));
   (0x62, (Valid, None, Ll)); (0xC4, (Mapped, Some [0xE4], Lu)); (0xDF, (Deviation, Some [0x73; 0x73], Ll)); (0xE4, (Valid, None, Ll));
   (0x300, (Valid, None, Mn)); (0x903, (Valid, None, Mc)); (0xFF21, (Mapped, Some [0x61], Lu)); (0x30A, (Valid, None, Mn))].
Lemma letters_right : few_right letters.
Proof.
  unfold few_right, letters.
  repeat (constructor; [apply few_row; [vm_compute; reflexivity|vm_compute; reflexivity|apply (assigned_cat _ _ (proj1 the_file)); vm_compute; reflexivity]|]).
  constructor.
Qed.
Ltac encode := apply (few_encode letters); [exact letters_right|vm_compute; reflexivity|discriminate].

Ltac is_text := repeat constructor; lia.

(** C62: the labels of the result are the labels of the mapped name, Punycode encoded: the
    RFC 3492 decoder gives them back. The mapped name is the NFC form of the argument with
    every codepoint mapped as IdnaMappingTable.txt says. *)
Theorem C62_punycode : forall junk r h errno s q cps t out,
  text s -> ~ ascii s -> 3 * zlen s + 1 < 2 ^ 64 -> zlen (r_ccs r) = 100 ->
  encodes s cps -> ~ In 0 cps -> nfc cps t ->
  charstr_idna_encode junk r h errno (s ++ 0 :: q) = Ok (Some out) ->
  exists m ls es, mapped_name t m /\ labels m ls /\ Forall2 encoded_label ls es /\ out = join_dots es ++ [0].
Proof.
  intros junk r h errno s q cps t out T A L Rs E Nz N R.
  destruct (real_success junk r h errno Rs s q out T A L R) as (t' & m & ls & es & (cps' & a & E' & N' & _ & C) & M & Lb & F & O & _).
  rewrite (encodes_det _ _ _ E' E) in C. destruct C as [<-|(b & ->)]; [|destruct Nz; apply in_or_app; right; left; reflexivity].
  apply nfc_iff in N, N'. exists m, ls, es. split; [congruence|auto].
Qed.
Print Assumptions C62_punycode.
(** As above, for any argument: an overlong NUL ends the name. *)
Theorem C62_punycode_general : forall junk r h errno s q out,
  text s -> ~ ascii s -> 3 * zlen s + 1 < 2 ^ 64 -> zlen (r_ccs r) = 100 ->
  charstr_idna_encode junk r h errno (s ++ 0 :: q) = Ok (Some out) ->
  exists t m ls es, normalized s t /\ mapped_name t m /\ labels m ls /\ Forall2 encoded_label ls es /\ out = join_dots es ++ [0].
Proof.
  intros junk r h errno s q out T A L Rs R.
  destruct (real_success junk r h errno Rs s q out T A L R) as (t & m & ls & es & N & M & Lb & F & O & _). exists t, m, ls, es. auto.
Qed.
Print Assumptions C62_punycode_general.
(** Ä.ß is encoded as xn--4ca.xn--zca. *)
Example C62_example :
  charstr_idna_encode junk1 r1 h1 0 [0xC3; 0x84; 0x2E; 0xC3; 0x9F; 0; 1] =
    Ok (Some [0x78; 0x6E; 0x2D; 0x2D; 0x34; 0x63; 0x61; 0x2E; 0x78; 0x6E; 0x2D; 0x2D; 0x7A; 0x63; 0x61; 0]) /\
  encodes [0xC3; 0x84; 0x2E; 0xC3; 0x9F] [0xC4; 0x2E; 0xDF] /\ nfc [0xC4; 0x2E; 0xDF] [0xC4; 0x2E; 0xDF] /\
  mapped_name [0xC4; 0x2E; 0xDF] [0xE4; 0x2E; 0xDF] /\ labels [0xE4; 0x2E; 0xDF] [[0xE4]; [0xDF]] /\
  punycode_decode [0x34; 0x63; 0x61] = Some [0xE4] /\ punycode_decode [0x7A; 0x63; 0x61] = Some [0xDF] /\ zlen (r_ccs r1) = 100.
Proof.
  split; [encode|]. split; [apply (encodes_encs [0xC4; 0x2E; 0xDF]); repeat constructor; unfold scalar; lia|].
  split; [apply nfc_iff; vm_compute; reflexivity|]. split; [|split; [|vm_compute; auto]].
  - destruct (find_few_right letters 0xC4 _ letters_right eq_refl) as (S1 & _). destruct (find_few_right letters 0x2E _ letters_right eq_refl) as (S2 & _).
    destruct (find_few_right letters 0xDF _ letters_right eq_refl) as (S3 & _). exists [[0xE4]; [0x2E]; [0xDF]]. split; [|reflexivity].
    constructor; [exact (replaced_mapped _ _ S1)|]. constructor; [exact (replaced_valid _ _ S2)|]. constructor; [exact (replaced_deviation _ _ S3)|constructor].
  - split; [discriminate|]. split; [|reflexivity]. repeat constructor; cbn; lia.
Qed.
(** The decomposed form A, U+0308 gives the same. *)
Example C62_example_decomposed :
  charstr_idna_encode junk1 r1 h1 0 [0x41; 0xCC; 0x88; 0] = Ok (Some [0x78; 0x6E; 0x2D; 0x2D; 0x34; 0x63; 0x61; 0]).
Proof. encode. Qed.

(** C63 is false: empty labels are accepted. *)
Theorem C63_refuted :
  charstr_idna_encode junk1 r1 h1 0 [0xC3; 0xA4; 0x2E; 0x2E; 0x62; 0] =
    Ok (Some [0x78; 0x6E; 0x2D; 0x2D; 0x34; 0x63; 0x61; 0x2E; 0x2E; 0x62; 0]) /\
  labels [0x78; 0x6E; 0x2D; 0x2D; 0x34; 0x63; 0x61; 0x2E; 0x2E; 0x62] [[0x78; 0x6E; 0x2D; 0x2D; 0x34; 0x63; 0x61]; []; [0x62]].
Proof. split; [encode|]. split; [discriminate|]. split; [|reflexivity]. repeat constructor; cbn; lia. Qed.
Print Assumptions C63_refuted.
(** The rest of C63: the characters and the lengths. The limit for the name is even one less
    than claimed. Missing: labels may be empty. *)
Theorem C63_wellformed_partial : forall junk r h errno s q out,
  text s -> ~ ascii s -> 3 * zlen s + 1 < 2 ^ 64 -> zlen (r_ccs r) = 100 ->
  charstr_idna_encode junk r h errno (s ++ 0 :: q) = Ok (Some out) ->
  exists name es, out = name ++ [0] /\ labels name es /\
    Forall (fun e => Forall host_char e /\ zlen e <= 63) es /\
    zlen name <= 253 /\ (last name 0 <> 46 -> zlen name <= 252).
Proof.
  intros junk r h errno s q out T A L Rs R.
  destruct (real_success junk r h errno Rs s q out T A L R) as (t & m & ls & es & _ & _ & _ & _ & O & Lb & _ & _ & _ & C & L1 & L2).
  exists (join_dots es), es. auto.
Qed.
Print Assumptions C63_wellformed_partial.

(** C64 is false: a name that consists of ignored codepoints, such as U+00AD, leads to an
    array of length 0, which is undefined, and an ASCII label of 64 characters together with
    a non-ASCII label leads to a failing assertion. *)
Theorem C64_refuted_undefined : charstr_idna_encode junk1 r1 h1 0 [0xC2; 0xAD; 0] = UB.
Proof.
  assert (encodes [0xC2; 0xAD] [0xAD]) as E by (apply (encodes_encs [0xAD]); repeat constructor; unfold scalar; lia).
  assert (nfd [0xAD] [0xAD]) as U by (apply nfd_iff; vm_compute; reflexivity).
  assert (nfc [0xAD] [0xAD]) as N by (apply nfc_iff; vm_compute; reflexivity).
  assert (text [0xC2; 0xAD]) as T by is_text.
  assert (~ ascii [0xC2; 0xAD]) as A by (intros K; inversion K; lia).
  assert (images image [0xAD] = Some []) as I by (vm_compute; reflexivity).
  pose proof (real_complete junk1 r1 h1 0 eq_refl [0xC2; 0xAD] [] [0xAD] [0xAD] [0xAD] T A ltac:(reflexivity) E ltac:(cbn; lia) N
    (short_not_crowded [0xAD] ltac:(discriminate)) U ltac:(reflexivity)) as H.
  unfold outcome in H. rewrite I in H. exact H.
Qed.
Print Assumptions C64_refuted_undefined.
Theorem C64_refuted_abort : charstr_idna_encode junk1 r1 h1 0 (repeat 0x61 64 ++ [0x2E; 0xC3; 0xA4; 0]) = Abort.
Proof. encode. Qed.
Print Assumptions C64_refuted_abort.
(** The exact extent: these are the only cases. In all others the result is a string or NULL;
    there is no access out of bounds, and all loops end. *)
Theorem C64_safe_partial : forall junk r h errno s q, text s -> 3 * zlen s + 1 < 2 ^ 64 -> zlen (r_ccs r) = 100 ->
  (exists o, charstr_idna_encode junk r h errno (s ++ 0 :: q) = Ok o) \/
  ~ ascii s /\ exists t m, normalized s t /\ mapped_name t m /\
    ((m = [] /\ charstr_idna_encode junk r h errno (s ++ 0 :: q) = UB) \/
     (charstr_idna_encode junk r h errno (s ++ 0 :: q) = Abort /\
      exists ls l, labels m ls /\ In l ls /\ ascii l /\ zlen l > 63)).
Proof. intros junk r h errno s q T L Rs. exact (real_safe junk r h errno Rs s q T L). Qed.
Print Assumptions C64_safe_partial.

(** C65 is false: a label that is not the last one may end with a hyphen ([a-.ä]). *)
Theorem C65_refuted :
  charstr_idna_encode junk1 r1 h1 0 [0x61; 0x2D; 0x2E; 0xC3; 0xA4; 0] =
    Ok (Some [0x61; 0x2D; 0x2E; 0x78; 0x6E; 0x2D; 0x2D; 0x34; 0x63; 0x61; 0]).
Proof. encode. Qed.
Print Assumptions C65_refuted.
(** No label begins with a hyphen, and the last one does not end with a hyphen. Missing: the
    ends of the other labels. *)
Theorem C65_hyphens_partial : forall junk r h errno s q out,
  text s -> ~ ascii s -> 3 * zlen s + 1 < 2 ^ 64 -> zlen (r_ccs r) = 100 ->
  charstr_idna_encode junk r h errno (s ++ 0 :: q) = Ok (Some out) ->
  exists t m ls, normalized s t /\ mapped_name t m /\ labels m ls /\ Forall (fun l => hd 0 l <> 45) ls /\ last m 0 <> 45.
Proof.
  intros junk r h errno s q out T A L Rs R.
  destruct (real_success junk r h errno Rs s q out T A L R) as (t & m & ls & es & N & M & Lb & _ & _ & _ & Sh & Eh & _).
  exists t, m, ls. split; [exact N|]. split; [exact M|]. split; [exact Lb|]. split.
  - eapply Forall_impl; [|exact Sh]. intros [|c l]; unfold starts_hyphen; cbn [hd]; lia.
  - unfold ends_hyphen in Eh. lia.
Qed.
Print Assumptions C65_hyphens_partial.
(** The names -ä and ä- are rejected. *)
Example C65_example :
  charstr_idna_encode junk1 r1 h1 0 [0x2D; 0xC3; 0xA4; 0] = Ok None /\ charstr_idna_encode junk1 r1 h1 0 [0xC3; 0xA4; 0x2D; 0] = Ok None.
Proof. split; encode. Qed.

(** C66: an ASCII name is copied, in lower case. *)
Theorem C66_ascii : forall junk r h errno s q, text s -> ascii s -> zlen s + 1 < 2 ^ 64 ->
  charstr_idna_encode junk r h errno (s ++ 0 :: q) = Ok (Some (map ascii_lower s ++ [0])).
Proof.
  intros junk r h errno s q T A L. exact (idna_ascii idna_library spacing_mark real_category junk image image_ok r h errno s q T A L).
Qed.
Print Assumptions C66_ascii.
Example C66_example : text [0x41; 0x2D; 0x7A] /\ ascii [0x41; 0x2D; 0x7A] /\ map ascii_lower [0x41; 0x2D; 0x7A] = [0x61; 0x2D; 0x7A].
Proof. split; [is_text|]. split; [repeat constructor; lia|reflexivity]. Qed.
