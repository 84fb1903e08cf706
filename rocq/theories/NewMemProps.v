(** Property C117: the functions that return a new string or a new block of bytes. The argument
    is the string [s] in the block [a], behind [pre]; the heap [h] holds anything else. Either
    the result is one new block, of exactly the size of its content, or it is NULL; nothing else
    in memory changes. [one_new_block], [new_or_null] and [same_memory] are in OwnSpec.v. *)
From Verif Require Import Base CMem Heap ListModel ListSpec CharstrModel CharstrSpec CharstrProofs Utf8Model Utf8Spec Utf8Props UrlModel UrlSpec UrlProps.
From Verif Require Import Base64Model Base64Spec OwnModel OwnSpec OwnProofs NewMemModel NewMem CharstrProps.
From Coq Require Import ZifyBool ZifyNat.

Theorem C117_dupstr : forall junk h a pre s r, get h a = Some (CSlots (pre ++ s ++ 0 :: r)) -> text s -> zlen s + 1 < 2 ^ 64 ->
  exists p h', h_dupstr junk a (zlen pre) h = Ok (p, h') /\ one_new_block h h' p (s ++ [0]).
Proof.
  intros junk h a pre s r Ha Hs Hl. unfold h_dupstr. pose proof (get_nonnull _ _ _ Ha) as N. replace (a =? 0) with false by lia.
  rewrite (block_step _ _ _ _ _ Ha), suffix_pre. destruct (C71_dupstr junk s r Hs Hl) as (-> & _).
  exact (new_string_or_null_ok (Some (s ++ [0])) h).
Qed.
Print Assumptions C117_dupstr.

(** Any bytes up to the end. *)
Theorem C117_dupsubstr : forall junk h a pre s t, get h a = Some (CSlots (pre ++ s ++ t)) -> bytes s -> zlen s + 1 < 2 ^ 64 ->
  exists p h', h_dupsubstr junk a (zlen pre) (Some (zlen pre + zlen s)) h = Ok (p, h') /\ one_new_block h h' p (s ++ [0]).
Proof.
  intros junk h a pre s t Ha Hs Hl. unfold h_dupsubstr. pose proof (get_nonnull _ _ _ Ha) as N. replace (a =? 0) with false by lia.
  rewrite (block_step _ _ _ _ _ Ha), suffix_pre. cbn [option_map]. rewrite !zlen_app.
  replace (zlen pre + (zlen s + zlen t) - (zlen pre + zlen s)) with (zlen t) by lia.
  destruct (C71_dupsubstr junk s t Hs Hl) as (-> & _). exact (new_string_or_null_ok (Some (s ++ [0])) h).
Qed.
Print Assumptions C117_dupsubstr.

Theorem C117_strip : forall junk h a pre s r, get h a = Some (CSlots (pre ++ s ++ 0 :: r)) -> text s -> zlen s + 1 < 2 ^ 64 ->
  exists m p h', h_strip junk a (zlen pre) h = Ok (p, h') /\ stripped code_white s m /\ one_new_block h h' p (m ++ [0]).
Proof.
  intros junk h a pre s r Ha Hs Hl. unfold h_strip. pose proof (get_nonnull _ _ _ Ha) as N. replace (a =? 0) with false by lia.
  rewrite (block_step _ _ _ _ _ Ha), suffix_pre. destruct (C46_strip_code junk s r Hs Hl) as (m & -> & A). exists m.
  destruct (new_string_or_null_ok (Some (as_block m)) h) as (p & h' & E & O). exists p, h'. auto.
Qed.
Print Assumptions C117_strip.

(** NULL gives NULL. *)
Theorem C117_null : forall junk h s end_,
  h_dupstr junk 0 s h = Ok (0, h) /\ h_dupsubstr junk 0 s end_ h = Ok (0, h) /\ h_strip junk 0 s h = Ok (0, h).
Proof. intros junk h s end_. split; [|split]; reflexivity. Qed.
Print Assumptions C117_null.

Theorem C117_sanitize : forall junk h a pre s r, get h a = Some (CSlots (pre ++ s ++ 0 :: r)) -> text s -> 3 * zlen s + 1 < 2 ^ 64 ->
  exists t p h', h_sanitize_utf8 junk a (zlen pre) h = Ok (p, h') /\ sane s t /\ one_new_block h h' p (t ++ [0]).
Proof.
  intros junk h a pre s r Ha Hs Hl. unfold h_sanitize_utf8. rewrite (block_step _ _ _ _ _ Ha), suffix_pre.
  destruct (C50_sanitize junk s r Hs Hl) as (t & -> & A & _). exists t.
  destruct (new_string_ok (t ++ [0]) h) as (p & h' & E & O). exists p, h'. auto.
Qed.
Print Assumptions C117_sanitize.

Theorem C117_url_decode : forall junk h a pre e r plus,
  get h a = Some (CSlots (pre ++ e ++ 0 :: r)) -> text e -> zlen e + 1 < 2 ^ 64 ->
  (exists d p h', h_url_decode junk a (zlen pre) plus h = Ok ((p, Some (zlen d)), h') /\
     UrlSpec.decodes plus e d /\ one_new_block h h' p (d ++ [0])) \/
  (illegal e /\ h_url_decode junk a (zlen pre) plus h = Ok ((0, None), h)).
Proof.
  intros junk h a pre e r plus Ha He Hl. unfold h_url_decode. rewrite (block_step _ _ _ _ _ Ha), suffix_pre.
  destruct (C54_decode junk plus e r He Hl) as ([(b & n)|] & -> & H).
  - destruct H as (d & D & -> & -> & _). left. exists d. destruct (new_block_and_size_ok (d ++ [0]) (zlen d) h) as (p & h' & E & O).
    exists p, h'. auto.
  - right. split; [exact H|reflexivity].
Qed.
Print Assumptions C117_url_decode.

(** The first [zlen data] bytes at the pointer. *)
Theorem C117_base64_encode : forall junk h a pre data r, get h a = Some (CSlots (pre ++ data ++ r)) -> bytes data -> zlen data < 2 ^ 60 ->
  exists p h', h_base64_encode_simple junk a (zlen pre) (zlen data) h = Ok (p, h') /\ one_new_block h h' p (base64 43 47 data ++ [0]).
Proof.
  intros junk h a pre data r Ha Hd Hl. unfold h_base64_encode_simple. rewrite (block_step _ _ _ _ _ Ha), suffix_pre.
  rewrite encode_simple_ok by assumption. exact (new_string_or_null_ok (Some (base64 43 47 data ++ [0])) h).
Qed.
Print Assumptions C117_base64_encode.

(** Every string: [decodes (code_value 43 47) code_wsp] is the language of C04. *)
Theorem C117_base64_decode : forall junk h a pre t r, get h a = Some (CSlots (pre ++ t ++ 0 :: r)) -> text t -> zlen t < 2 ^ 62 ->
  (exists d p h', h_base64_decode_simple junk a (zlen pre) h = Ok ((p, Some (zlen d)), h') /\
     Base64Spec.decodes (code_value 43 47) code_wsp t d /\ one_new_block h h' p (d ++ [0])) \/
  ((forall d, ~ Base64Spec.decodes (code_value 43 47) code_wsp t d) /\ h_base64_decode_simple junk a (zlen pre) h = Ok ((0, None), h)).
Proof.
  intros junk h a pre t r Ha Ht Hl. unfold h_base64_decode_simple. rewrite (block_step _ _ _ _ _ Ha), suffix_pre.
  assert (Ht' : Forall (fun c => byte c /\ c <> 0) t). { eapply Forall_impl; [|exact Ht]. intros c Hc. unfold byte. cbn beta in Hc. lia. }
  destruct (decode_simple_ok junk t r Ht' Hl) as [(d & D & ->)|(N & ->)].
  - left. exists d. destruct (new_block_and_size_ok (d ++ [0]) (zlen d) h) as (p & h' & E & O). exists p, h'. auto.
  - right. split; [exact N|reflexivity].
Qed.
Print Assumptions C117_base64_decode.

(** Freeing the result leaves the memory as it was. *)
Theorem C117_release : forall h h' p d, one_new_block h h' p d -> exists h'', free p h' = Ok (tt, h'') /\ same_memory h h''.
Proof. exact free_block_ok. Qed.
Print Assumptions C117_release.

Definition c117_heap : heap := put_cell heap0 8 (CSlots [90; 109; 57; 118; 0; 37; 52; 49; 43; 0; 37; 52; 0; 255; 32; 0]).
Example C117_example :
  result (bnd (h_base64_decode_simple (fun _ => 9) 8 0) (fun r => bnd (ld_slots (fst r)) (fun d => ret (d, snd r))) c117_heap) = Some ([102; 111; 111; 0], Some 3) /\
  result (bnd (h_url_decode (fun _ => 9) 8 5 true) (fun r => bnd (ld_slots (fst r)) (fun d => ret (d, snd r))) c117_heap) = Some ([65; 32; 0], Some 2) /\
  result (h_url_decode (fun _ => 9) 8 10 true c117_heap) = Some (0, None) /\
  result (h_base64_decode_simple (fun _ => 9) 8 5 c117_heap) = Some (0, None) /\
  result (bnd (h_sanitize_utf8 (fun _ => 9) 8 12) ld_slots c117_heap) = Some [0] /\
  result (bnd (h_sanitize_utf8 (fun _ => 9) 8 13) ld_slots c117_heap) = Some [239; 191; 189; 32; 0] /\
  result (bnd (h_dupsubstr (fun _ => 9) 8 1 (Some 3)) ld_slots c117_heap) = Some [109; 57; 0] /\
  result (bnd (h_base64_encode_simple (fun _ => 9) 8 0 2) ld_slots c117_heap) = Some [87; 109; 48; 61; 0].
Proof. vm_compute. repeat split. Qed.
