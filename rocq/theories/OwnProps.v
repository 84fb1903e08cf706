(** Properties of memory ownership: the strings made by the split functions (C100) and by
    charstr_idna_encode (C101). *)
From Verif Require Import Base CMem Heap ListModel ListSpec CharstrModel CharstrSpec CharstrProofs NormModel PunyModel PunySpec IdnaEncodeModel IdnaEncodeSpec IdnaEncodeProofs.
From Verif Require Import CategoryModel CategorySpec CategoryProofs CategoryData CategoryProps IdnaTabModel IdnaTabSpec IdnaData IdnaModel IdnaProofs.
From Verif Require Import OwnModel OwnSpec OwnProofs.
From Verif Require Import IdnaEncodeProps.
From Coq Require Import ZifyBool ZifyNat.

(** C100: the argument is the string [s] in the block [a], behind [pre]; the heap [h] holds
    anything else. The functions make a list of new strings, and change nothing else. *)
Theorem C100_split : forall junk h a pre s r delim max,
  get h a = Some (CSlots (pre ++ s ++ 0 :: r)) -> zlen (pre ++ s ++ 0 :: r) < 2 ^ 59 ->
  text s -> 0 < delim < 256 -> 0 <= max ->
  exists parts l h' es, h_charstr_split junk a (zlen pre) delim max h = Ok (l, h') /\
    split_at_char delim max s parts /\ new_string_list h h' l es (map as_block parts).
Proof.
  intros junk h a pre s r delim max Ha Hb Hs Hd Hm. pose proof (zlen_nonneg pre) as P. pose proof (zlen_nonneg r) as P2.
  rewrite !zlen_app, zlen_cons in Hb. destruct (split_ok junk s r delim max Hs Hd Hm ltac:(lia)) as (parts & E & S).
  destruct (split_own junk h a (pre ++ s ++ 0 :: r) (zlen pre) delim max (map as_block parts) Ha) as (l & h' & es & E' & O).
  - rewrite !zlen_app, zlen_cons. lia.
  - rewrite suffix_pre. exact E.
  - exists parts, l, h', es. auto.
Qed.
Print Assumptions C100_split.

Theorem C100_atoms : forall junk h a pre s r,
  get h a = Some (CSlots (pre ++ s ++ 0 :: r)) -> zlen (pre ++ s ++ 0 :: r) < 2 ^ 59 -> text s ->
  exists parts l h' es, h_charstr_split_atoms junk a (zlen pre) h = Ok (l, h') /\
    atoms code_white s parts /\ new_string_list h h' l es (map as_block parts).
Proof.
  intros junk h a pre s r Ha Hb Hs. pose proof (zlen_nonneg pre) as P. pose proof (zlen_nonneg r) as P2.
  rewrite !zlen_app, zlen_cons in Hb. destruct (split_atoms_ok junk s r Hs ltac:(lia)) as (parts & E & S).
  destruct (split_atoms_own junk h a (pre ++ s ++ 0 :: r) (zlen pre) (map as_block parts) Ha) as (l & h' & es & E' & O).
  - rewrite !zlen_app, zlen_cons. lia.
  - rewrite suffix_pre. exact E.
  - exists parts, l, h', es. auto.
Qed.
Print Assumptions C100_atoms.

(** The delimiter is a string in the block [b], possibly the same one. *)
Theorem C100_split_str : forall junk h a pre s r b pre2 d r2 max,
  get h a = Some (CSlots (pre ++ s ++ 0 :: r)) -> zlen (pre ++ s ++ 0 :: r) < 2 ^ 59 ->
  get h b = Some (CSlots (pre2 ++ d ++ 0 :: r2)) -> text s -> text d -> d <> [] -> 0 <= max < 2 ^ 32 ->
  exists parts l h' es, h_charstr_split_str junk a (zlen pre) b (zlen pre2) max h = Ok (l, h') /\
    split_at_string d max s parts /\ new_string_list h h' l es (map as_block parts).
Proof.
  intros junk h a pre s r b pre2 d r2 max Ha Hz Hb Hs Hd Nd Hm. pose proof (zlen_nonneg pre) as P. pose proof (zlen_nonneg r) as P2.
  rewrite !zlen_app, zlen_cons in Hz. destruct (split_str_ok junk s r d r2 max Hs Hd Nd ltac:(lia) ltac:(lia)) as (parts & E & S).
  destruct (split_str_own junk h a (pre ++ s ++ 0 :: r) (zlen pre) b (pre2 ++ d ++ 0 :: r2) (zlen pre2) max (map as_block parts) Ha Hb) as (l & h' & es & E' & O).
  - rewrite !zlen_app, zlen_cons. lia.
  - lia.
  - rewrite !suffix_pre. exact E.
  - exists parts, l, h', es. auto.
Qed.
Print Assumptions C100_split_str.

(** An empty delimiter: also then nothing is lost. *)
Theorem C100_split_str_empty : forall junk h a pre s r b pre2 r2 max,
  get h a = Some (CSlots (pre ++ s ++ 0 :: r)) -> zlen (pre ++ s ++ 0 :: r) < 2 ^ 59 ->
  get h b = Some (CSlots (pre2 ++ 0 :: r2)) -> text s -> 0 <= max < 2 ^ 32 ->
  exists l h' es, h_charstr_split_str junk a (zlen pre) b (zlen pre2) max h = Ok (l, h') /\
    new_string_list h h' l es (map as_block (repeat [] (Z.to_nat max) ++ [s])).
Proof.
  intros junk h a pre s r b pre2 r2 max Ha Hz Hb Hs Hm. pose proof (zlen_nonneg pre) as P. pose proof (zlen_nonneg r) as P2.
  rewrite !zlen_app, zlen_cons in Hz. pose proof (split_str_empty junk s r r2 max Hs ltac:(lia) ltac:(lia)) as E.
  destruct (split_str_own junk h a (pre ++ s ++ 0 :: r) (zlen pre) b (pre2 ++ 0 :: r2) (zlen pre2) max
    (map as_block (repeat [] (Z.to_nat max) ++ [s])) Ha Hb) as (l & h' & es & E' & O).
  - rewrite !zlen_app, zlen_cons. lia.
  - lia.
  - rewrite !suffix_pre. exact E.
  - exists l, h', es. auto.
Qed.
Print Assumptions C100_split_str_empty.

(** The variant with an array: room for max + 1 pointers. *)
Theorem C100_into_array : forall junk h a pre s r delim array old max,
  get h a = Some (CSlots (pre ++ s ++ 0 :: r)) -> zlen s + 1 < 2 ^ 64 -> text s -> 0 < delim < 256 -> 0 <= max < 2 ^ 32 ->
  get h array = Some (CSlots old) -> a <> array -> max + 1 <= zlen old ->
  exists parts h' ps, h_charstr_split_into_array junk a (zlen pre) delim array max h = Ok (zlen parts - 1, h') /\
    split_at_char delim max s parts /\ new_string_array h h' array old ps (map as_block parts).
Proof.
  intros junk h a pre s r delim array old max Ha Hl Hs Hd Hm Harr Haa Hsz.
  destruct (split_into_array_own junk h a pre s r delim array old max Hs Hd Hm Hl Ha Haa Harr Hsz) as (parts & h' & ps & E & E' & O).
  exists parts, h', ps. split; [exact E'|]. split; [|exact O].
  destruct (split_ok junk s r delim max Hs Hd ltac:(lia) Hl) as (parts' & E2 & S). rewrite E in E2.
  assert (X : map as_block parts = map as_block parts') by congruence.
  assert (parts = parts') as ->; [|exact S]. clear - X. revert parts' X. induction parts as [|p parts IH]; intros [|q qs] X; try discriminate; [reflexivity|].
  cbn [map] in X. unfold as_block in X at 1 3. f_equal; [|apply IH; congruence]. assert (Y : p ++ [0] = q ++ [0]) by congruence. apply app_inv_tail in Y. exact Y.
Qed.
Print Assumptions C100_into_array.

(** Freeing the strings with list_foreach and then the list gives everything back: no block is
    freed twice and none is left. *)
Theorem C100_release : forall h h' l es blocks, new_string_list h h' l es blocks ->
  exists h'', free_strings l h' = Ok (tt, h'') /\ same_memory h h''.
Proof. exact free_strings_ok. Qed.
Print Assumptions C100_release.

(** For examples: block 1 is a string, and block 2 an array of pointers. *)
Definition own_heap : heap :=
  mk_heap [(1, CSlots [120; 97; 47; 47; 98; 0; 5]); (2, CSlots [7; 7; 7; 7])] (fun n => 10 + Z.of_nat n) 0.
Example C100_example :
  get own_heap 1 = Some (CSlots ([120] ++ [97; 47; 47; 98] ++ 0 :: [5])) /\ text [97; 47; 47; 98] /\
  (exists h1, h_charstr_split (fun _ => 9) 1 1 47 5 own_heap = Ok (10, h1) /\
     result (traverse_forward 10 9 h1) = Some [(12, 11); (14, 13); (16, 15)] /\
     get h1 11 = Some (CSlots [97; 0]) /\ get h1 13 = Some (CSlots [0]) /\ get h1 15 = Some (CSlots [98; 0]) /\
     exists h2, free_strings 10 h1 = Ok (tt, h2) /\ mem h2 = mem own_heap) /\
  (exists h1, h_charstr_split_into_array (fun _ => 9) 1 1 47 2 1 own_heap = Ok (1, h1) /\
     get h1 2 = Some (CSlots [10; 11; 7; 7]) /\ get h1 11 = Some (CSlots [47; 98; 0])).
Proof.
  split; [reflexivity|]. split; [is_text|]. split.
  - eexists. split; [vm_compute; reflexivity|]. split; [vm_compute; reflexivity|]. split; [reflexivity|]. split; [reflexivity|]. split; [reflexivity|].
    eexists. split; [vm_compute; reflexivity|]. reflexivity.
  - eexists. split; [vm_compute; reflexivity|]. split; reflexivity.
Qed.

(** C101: charstr_idna_encode frees its work areas on every path. Either the result is NULL and
    the memory is as before, or it is a new block and the memory is otherwise as before. *)
Theorem C101_memory : forall junk r hr errno h a pre s q o,
  get h a = Some (CSlots (pre ++ s ++ 0 :: q)) ->
  charstr_idna_encode junk r hr errno (s ++ 0 :: q) = Ok o ->
  exists p h', h_charstr_idna_encode junk r hr errno a (zlen pre) h = Ok (p, h') /\
    match o with
    | None => p = 0 /\ same_memory h h'
    | Some d => one_new_block h h' p d
    end.
Proof.
  intros junk r hr errno h a pre s q o Ha H.
  apply (idna_encode_own idna_library junk r hr errno h a (pre ++ s ++ 0 :: q) (zlen pre) o Ha). rewrite suffix_pre. exact H.
Qed.
Print Assumptions C101_memory.

(** Freeing the result gives everything back. *)
Theorem C101_release : forall h h' p d, one_new_block h h' p d -> exists h'', free p h' = Ok (tt, h'') /\ same_memory h h''.
Proof. exact free_block_ok. Qed.
Print Assumptions C101_release.

(** All paths are taken: an ASCII name, names in NFC (U+00E4), in NFD (a, U+0300) and in neither form
    (U+00E0, a, U+0300), a name that is refused (with a leading hyphen) and one that is not UTF-8. *)
Definition letters3 : few := letters ++ [(0xE0, (Valid, None, Ll))].
Lemma letters3_right : few_right letters3.
Proof.
  apply Forall_app. split; [exact letters_right|].
  constructor; [apply few_row; [vm_compute; reflexivity|vm_compute; reflexivity|apply (assigned_cat _ _ (proj1 the_file)); vm_compute; reflexivity]|constructor].
Qed.
Ltac encode3 := apply (few_encode letters3); [exact letters3_right|vm_compute; reflexivity|discriminate].
Example C101_example :
  charstr_idna_encode junk1 r1 h1 0 [0x41; 0] = Ok (Some [0x61; 0]) /\
  charstr_idna_encode junk1 r1 h1 0 [0xC3; 0xA4; 0] = Ok (Some [0x78; 0x6E; 0x2D; 0x2D; 0x34; 0x63; 0x61; 0]) /\
  charstr_idna_encode junk1 r1 h1 0 [0x61; 0xCC; 0x80; 0] = Ok (Some [0x78; 0x6E; 0x2D; 0x2D; 0x30; 0x63; 0x61; 0]) /\
  charstr_idna_encode junk1 r1 h1 0 [0xC3; 0xA0; 0x61; 0xCC; 0x80; 0] = Ok (Some [0x78; 0x6E; 0x2D; 0x2D; 0x30; 0x63; 0x61; 0x61; 0]) /\
  charstr_idna_encode junk1 r1 h1 0 [0x2D; 0xC3; 0xA0; 0] = Ok None /\
  charstr_idna_encode junk1 r1 h1 0 [0xC3; 0x41; 0] = Ok None.
Proof. repeat (split; [encode3|]). encode3. Qed.
Example C101_heap_example : exists p h',
  h_charstr_idna_encode junk1 r1 h1 0 1 0 (mk_heap [(1, CSlots [0xC3; 0xA0; 0x61; 0xCC; 0x80; 0])] (fun n => 10 + Z.of_nat n) 0) = Ok (p, h') /\
  get h' p = Some (CSlots [0x78; 0x6E; 0x2D; 0x2D; 0x30; 0x63; 0x61; 0x61; 0]) /\ get h' 1 = Some (CSlots [0xC3; 0xA0; 0x61; 0xCC; 0x80; 0]).
Proof.
  destruct (C101_memory junk1 r1 h1 0 (mk_heap [(1, CSlots [0xC3; 0xA0; 0x61; 0xCC; 0x80; 0])] (fun n => 10 + Z.of_nat n) 0) 1 []
    [0xC3; 0xA0; 0x61; 0xCC; 0x80] [] _ eq_refl (proj1 (proj2 (proj2 (proj2 C101_example))))) as (p & h' & E & N & F & G & S).
  exists p, h'. split; [exact E|]. split; [exact G|]. rewrite S; [reflexivity|]. intros [X|[]]. rewrite X in F. discriminate.
Qed.
