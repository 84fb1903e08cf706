(** Properties of the use of the stack (C119) *)
From Verif Require Import Base CMem CharstrModel CharstrSpec Utf8Model Utf8Spec UcdData NormModel NormSpec PunyModel IdnaEncodeModel.
From Verif Require Import IdnaEncodeSpec IdnaEncodeProofs IdnaEncodeProps StackModel Stack.
Open Scope list_scope.
Open Scope Z_scope.

(** C119: charstr_unicode_decompose needs no local array of more than four bytes, and its
    recursion is at most four deep, whatever its arguments are. *)
Theorem C119_decompose : forall limit depth s e b output output_end, 4 <= limit -> (4 <= depth)%nat ->
  charstr_unicode_decompose_limited limit depth s e b output output_end = charstr_unicode_decompose s e b output output_end.
Proof. exact decompose_same. Qed.
Print Assumptions C119_decompose.
(** Nothing less is enough: U+1F82 needs four nested calls, and U+1D165 after U+0301 an array
    of four bytes. *)
Theorem C119_decompose_tight :
  charstr_unicode_decompose_limited 4 3 [0xE1; 0xBE; 0x82; 0] None (repeat 9 12) 0 12 = NoFuel /\
  charstr_unicode_decompose_limited 4 4 [0xE1; 0xBE; 0x82; 0] None (repeat 9 12) 0 12 =
    Ok ([0xCE; 0xB1; 0xCC; 0x93; 0xCC; 0x80; 0xCD; 0x85; 0; 9; 9; 9], inl 8) /\
  charstr_unicode_decompose_limited 3 4 [0x61; 0xCC; 0x81; 0xF0; 0x9D; 0x85; 0xA5; 0] None (repeat 9 9) 0 9 = NoFuel /\
  charstr_unicode_decompose_limited 4 4 [0x61; 0xCC; 0x81; 0xF0; 0x9D; 0x85; 0xA5; 0] None (repeat 9 9) 0 9 =
    Ok ([0x61; 0xF0; 0x9D; 0x85; 0xA5; 0xCC; 0x81; 0; 9], inl 7).
Proof. split; [|split; [|split]]; vm_compute; reflexivity. Qed.
Print Assumptions C119_decompose_tight.

(** charstr_idna_encode needs no local array of more than 254 elements, however long the host
    name is. *)
Theorem C119_idna_encode : forall limit snippet_limit depth junk r h errno hostname,
  254 <= limit -> 4 <= snippet_limit -> (4 <= depth)%nat ->
  charstr_idna_encode_limited limit snippet_limit depth junk r h errno hostname = charstr_idna_encode junk r h errno hostname.
Proof.
  intros limit snippet_limit depth junk r h errno hostname L S D.
  exact (idna_encode_same limit snippet_limit depth idna_library junk L S D r h errno hostname).
Qed.
Print Assumptions C119_idna_encode.
(** The stack is not exhausted. *)
Theorem C119_idna_encode_fits : forall limit snippet_limit depth junk r h errno s q,
  254 <= limit -> 4 <= snippet_limit -> (4 <= depth)%nat -> text s -> 3 * zlen s + 1 < 2 ^ 64 -> zlen (r_ccs r) = 100 ->
  charstr_idna_encode_limited limit snippet_limit depth junk r h errno (s ++ 0 :: q) <> NoFuel.
Proof.
  intros limit snippet_limit depth junk r h errno s q L S D T Z Rs. rewrite C119_idna_encode by assumption.
  destruct (C64_safe_partial junk r h errno s q T Z Rs) as [[o ->]|(_ & t & m & _ & _ & [[_ ->]|[-> _]])]; discriminate.
Qed.
Print Assumptions C119_idna_encode_fits.
(** Nothing less is enough: the host name of 127 letters U+00E4 needs an array of 254. *)
Theorem C119_idna_encode_tight :
  charstr_idna_encode_limited 253 4 4 junk1 r1 h1 0 (concat (repeat [0xC3; 0xA4] 127) ++ [0]) = NoFuel.
Proof. apply (few_encode_limited letters); [exact letters_right|vm_compute; reflexivity|discriminate]. Qed.
Print Assumptions C119_idna_encode_tight.
Example C119_example :
  charstr_idna_encode_limited 254 4 4 junk1 r1 h1 0 [0xC3; 0xA4; 0] = Ok (Some [0x78; 0x6E; 0x2D; 0x2D; 0x34; 0x63; 0x61; 0]) /\
  charstr_idna_encode_limited 1 4 4 junk1 r1 h1 0 [0xC3; 0xA4; 0] = NoFuel /\ text [0xC3; 0xA4] /\ zlen (r_ccs r1) = 100.
Proof.
  split; [apply (few_encode_limited letters); [exact letters_right|vm_compute; reflexivity|discriminate]|].
  split; [apply (few_encode_limited letters); [exact letters_right|vm_compute; reflexivity|discriminate]|].
  split; [is_text|reflexivity].
Qed.
