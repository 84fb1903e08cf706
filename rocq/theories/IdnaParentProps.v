(** Property C142: the encoding of a host name and that of its parent domain. *)
From Verif Require Import Base CMem CharstrModel CharstrSpec CharstrProofs Utf8Model Utf8Spec Utf8Proofs UcdData NormModel NormSpec NormOrder NormBytes NormMain.
From Verif Require Import CategoryModel CategorySpec CategoryProofs CategoryData CategoryProps IdnaTabModel IdnaTabSpec IdnaData IdnaModel IdnaProofs.
From Verif Require Import PunyModel PunySpec PunyPass PunyHost PunyName PunyNfc PunyTop IdnaEncodeModel IdnaEncodeSpec IdnaEncodeProofs IdnaEncodeProps IdnaEncodeMore IdnaEncodeMoreProps IdnaParent.
From Coq Require Import ZifyBool ZifyNat.

(** U+4E00 . U+1D160 is encoded, U+1D160 is not: the decomposition takes twelve bytes in either case, but the space is three times the
    size of the whole name. *)
Theorem C142_refuted :
  charstr_idna_encode junk1 r1 h1 0 [0xE4; 0xB8; 0x80; 0x2E; 0xF0; 0x9D; 0x85; 0xA0; 0] =
    Ok (Some ([0x78; 0x6E; 0x2D; 0x2D; 0x34; 0x67; 0x71] ++ 0x2E :: [0x78; 0x6E; 0x2D; 0x2D; 0x39; 0x65; 0x31; 0x68; 0x30; 0x61; 0x31; 0x61; 0])) /\
  charstr_idna_encode junk1 r1 h1 0 [0xF0; 0x9D; 0x85; 0xA0; 0] = Ok None.
Proof. split; encode2. Qed.
Print Assumptions C142_refuted.

(** If the parts [a] and [b] of a name a.b are found to be composed, and a.b is encoded, then so is the parent domain [b], and the name
    of the whole ends with a dot and the name of [b]. Missing: names that are not found to be composed, and those whose encoding ends
    in a dot. *)
Theorem C142_parent_partial : forall junk r h errno a b q junk' r' h' errno' q' name,
  zlen (r_ccs r) = 100 -> zlen (r_ccs r') = 100 -> text a -> text b -> ~ ascii (a ++ 46 :: b) -> 3 * zlen (a ++ 46 :: b) + 1 < 2 ^ 64 ->
  charstr_unicode_canonically_composed (a ++ [0]) None = Ok true -> charstr_unicode_canonically_composed (b ++ [0]) None = Ok true ->
  charstr_idna_encode junk r h errno ((a ++ 46 :: b) ++ 0 :: q) = Ok (Some (name ++ [0])) -> last name 0 <> 46 ->
  exists host parent, name = host ++ 46 :: parent /\ charstr_idna_encode junk' r' h' errno' (b ++ 0 :: q') = Ok (Some (parent ++ [0])).
Proof. exact parent_ok. Qed.
Print Assumptions C142_parent_partial.

(** Conversely, if both parts are encoded, so is a.b, provided that the name is short enough: 252 characters, and 254 bytes before it is
    encoded. Missing: names that are not found to be composed, and parts in ASCII, which are not examined if they stand
    alone (but see below). *)
Theorem C142_joined_partial : forall junk r h errno a b q junk1 r1 h1 errno1 q1 x junk2 r2 h2 errno2 q2 y,
  zlen (r_ccs r) = 100 -> zlen (r_ccs r1) = 100 -> zlen (r_ccs r2) = 100 -> text a -> text b -> ~ ascii a -> ~ ascii b -> 3 * zlen (a ++ 46 :: b) + 1 < 2 ^ 64 ->
  charstr_unicode_canonically_composed (a ++ [0]) None = Ok true -> charstr_unicode_canonically_composed (b ++ [0]) None = Ok true ->
  charstr_idna_encode junk1 r1 h1 errno1 (a ++ 0 :: q1) = Ok (Some (x ++ [0])) -> charstr_idna_encode junk2 r2 h2 errno2 (b ++ 0 :: q2) = Ok (Some (y ++ [0])) ->
  zlen (x ++ 46 :: y) <= 252 -> (forall cps m, encodes (a ++ 46 :: b) cps -> mapped_name cps m -> zlen (encoding m) <= 254) ->
  charstr_idna_encode junk r h errno ((a ++ 46 :: b) ++ 0 :: q) = Ok (Some ((x ++ 46 :: y) ++ [0])).
Proof. exact joined_ok. Qed.
Print Assumptions C142_joined_partial.

(** The same for an ASCII part [a] whose labels [ls] (in lower case) are letters, digits and hyphens, do not begin with a hyphen and have
    at most 63 characters. *)
Theorem C142_host_partial : forall junk r h errno a ls b q junk2 r2 h2 errno2 q2 y,
  zlen (r_ccs r) = 100 -> zlen (r_ccs r2) = 100 -> text a -> text b -> ascii a ->
  labels (map ascii_lower a) ls -> Forall (fun l => Forall host_char l /\ hd 0 l <> 45 /\ zlen l <= 63) ls -> ~ ascii b -> 3 * zlen (a ++ 46 :: b) + 1 < 2 ^ 64 ->
  charstr_unicode_canonically_composed (b ++ [0]) None = Ok true ->
  charstr_idna_encode junk2 r2 h2 errno2 (b ++ 0 :: q2) = Ok (Some (y ++ [0])) ->
  zlen (a ++ 46 :: y) <= 252 -> (forall cps m, encodes (a ++ 46 :: b) cps -> mapped_name cps m -> zlen (encoding m) <= 254) ->
  charstr_idna_encode junk r h errno ((a ++ 46 :: b) ++ 0 :: q) = Ok (Some ((map ascii_lower a ++ 46 :: y) ++ [0])).
Proof. exact host_ok. Qed.
Print Assumptions C142_host_partial.

(** In an ASCII name, nothing is missing. *)
Theorem C142_ascii : forall junk r h errno a b q junk' r' h' errno' q', text a -> text b -> ascii (a ++ 46 :: b) -> zlen (a ++ 46 :: b) + 1 < 2 ^ 64 ->
  exists host parent, charstr_idna_encode junk r h errno ((a ++ 46 :: b) ++ 0 :: q) = Ok (Some ((host ++ 46 :: parent) ++ [0])) /\
    charstr_idna_encode junk' r' h' errno' (b ++ 0 :: q') = Ok (Some (parent ++ [0])).
Proof.
  intros junk r h errno a b q junk' r' h' errno' q' Ta Tb A L. assert (T : text (a ++ 46 :: b)) by (apply Forall_app; split; [exact Ta|constructor; [lia|exact Tb]]).
  pose proof (Forall_inv_tail (proj2 (proj1 (Forall_app _ _ _) A))) as Ab. assert (zlen b + 1 < 2 ^ 64) by (rewrite zlen_app, zlen_cons in L; pose proof (zlen_nonneg a); lia).
  exists (map ascii_lower a), (map ascii_lower b). rewrite !C66_ascii by assumption. rewrite map_app. split; reflexivity.
Qed.
Print Assumptions C142_ascii.

(** K U+4E00 . U+4E00: k U+4E00 is a host in the domain U+4E00. *)
Example C142_example :
  zlen (r_ccs r1) = 100 /\ text [0x4B; 0xE4; 0xB8; 0x80] /\ text [0xE4; 0xB8; 0x80] /\
  charstr_unicode_canonically_composed ([0x4B; 0xE4; 0xB8; 0x80] ++ [0]) None = Ok true /\
  charstr_unicode_canonically_composed ([0xE4; 0xB8; 0x80] ++ [0]) None = Ok true /\
  charstr_idna_encode junk1 r1 h1 0 (([0x4B; 0xE4; 0xB8; 0x80] ++ 46 :: [0xE4; 0xB8; 0x80]) ++ 0 :: []) =
    Ok (Some (([0x78; 0x6E; 0x2D; 0x2D; 0x6B; 0x2D; 0x30; 0x6E; 0x36; 0x61] ++ 46 :: [0x78; 0x6E; 0x2D; 0x2D; 0x34; 0x67; 0x71]) ++ [0])) /\
  charstr_idna_encode junk1 r1 h1 0 ([0xE4; 0xB8; 0x80] ++ 0 :: []) = Ok (Some ([0x78; 0x6E; 0x2D; 0x2D; 0x34; 0x67; 0x71] ++ [0])).
Proof.
  split; [reflexivity|]. split; [is_text|]. split; [is_text|]. split; [vm_compute; reflexivity|]. split; [vm_compute; reflexivity|]. split; encode2.
Qed.
(** Nor is the mapped name too long. *)
Example C142_joined_example : forall cps m, encodes ([0x4B; 0xE4; 0xB8; 0x80] ++ 46 :: [0xE4; 0xB8; 0x80]) cps -> mapped_name cps m -> zlen (encoding m) <= 254.
Proof.
  intros cps m E M. assert (K : encodes ([0x4B; 0xE4; 0xB8; 0x80] ++ 46 :: [0xE4; 0xB8; 0x80]) [0x4B; 0x4E00; 0x2E; 0x4E00]).
  { apply (encodes_encs [0x4B; 0x4E00; 0x2E; 0x4E00]). repeat constructor; unfold scalar; lia. }
  rewrite (encodes_det _ _ _ E K) in M. clear E K. apply mapped_found in M; [|cbn [In]; lia..].
  assert (K : images image [0x4B; 0x4E00; 0x2E; 0x4E00] = Some [0x6B; 0x4E00; 0x2E; 0x4E00]) by (vm_compute; reflexivity).
  rewrite K in M. injection M as <-. vm_compute. discriminate.
Qed.
(** K-1 . U+4E00: the labels are k-1, and the mapped name is short. *)
Example C142_host_example :
  ascii [0x4B; 0x2D; 0x31] /\ labels (map ascii_lower [0x4B; 0x2D; 0x31]) [[0x6B; 0x2D; 0x31]] /\
  Forall (fun l => Forall host_char l /\ hd 0 l <> 45 /\ zlen l <= 63) [[0x6B; 0x2D; 0x31]] /\ ~ ascii [0xE4; 0xB8; 0x80] /\
  forall cps m, encodes ([0x4B; 0x2D; 0x31] ++ 46 :: [0xE4; 0xB8; 0x80]) cps -> mapped_name cps m -> zlen (encoding m) <= 254.
Proof.
  split; [repeat constructor; lia|]. split; [split; [discriminate|]; split; [repeat constructor; cbn [In]; lia|reflexivity]|].
  split; [constructor; [|constructor]; split; [hosts|]; split; [discriminate|]; unfold zlen; cbn; lia|]. split; [intros K; inversion K; lia|].
  intros cps m E M. assert (K : encodes ([0x4B; 0x2D; 0x31] ++ 46 :: [0xE4; 0xB8; 0x80]) [0x4B; 0x2D; 0x31; 0x2E; 0x4E00]).
  { apply (encodes_encs [0x4B; 0x2D; 0x31; 0x2E; 0x4E00]). repeat constructor; unfold scalar; lia. }
  rewrite (encodes_det _ _ _ E K) in M. clear E K. apply mapped_found in M; [|cbn [In]; lia..].
  assert (K : images image [0x4B; 0x2D; 0x31; 0x2E; 0x4E00] = Some [0x6B; 0x2D; 0x31; 0x2E; 0x4E00]) by (vm_compute; reflexivity).
  rewrite K in M. injection M as <-. vm_compute. discriminate.
Qed.
