(** Property C116: URL encoder objects (src/charstr.c:566-675) in memory. [encoders], [custom_code]
    and [string_at] are in UrlHeapSpec.v, [one_new_block] and [same_memory] in OwnSpec.v. *)
From Verif Require Import Base CMem Heap ListModel ListSpec CharstrSpec UrlModel UrlSpec OwnSpec UrlHeapModel UrlHeapSpec UrlHeap.
From Coq Require Import ZifyBool ZifyNat.

(** In every reachable state, an encoder can be made; it is one new block, and destroying it
    leaves the memory as it was. *)
Theorem C116_create : forall static h live junk a i r b j u,
  encoders static h live -> string_at h a i r -> string_at h b j u ->
  exists e h' T, h_create_url_encoder junk static a i b j h = Ok (e, h') /\ one_new_block h h' e T /\
    exists h'', h_destroy_url_encoder e h' = Ok (tt, h'') /\ same_memory h h''.
Proof.
  intros static h live junk a i r b j u H Ha Hb. destruct (encoders_ok static h live H) as (Gs & _ & _).
  destruct (create_heap_ok junk static h a i r b j u Gs Ha Hb) as (e & h' & T & E & O & _ & _). exists e, h', T.
  split; [exact E|]. split; [exact O|]. destruct O as (Ne & Fe & Ge & S). unfold h_destroy_url_encoder, free. rewrite Ge.
  eexists. split; [reflexivity|]. intros x. rewrite get_drop. destruct (Z.eqb_spec x e) as [->|N]; [symmetry; exact Fe|].
  apply S. intros [X|[]]. congruence.
Qed.
Print Assumptions C116_create.

(** Every encoder that exists encodes by the strings it was made from, whatever other encoders
    were made or destroyed since; encoding makes one new block and changes nothing else. *)
Theorem C116_encode : forall static h live junk e r u a i s,
  encoders static h live -> In (e, (r, u)) live -> string_at h a i s -> 3 * zlen s + 1 < 2 ^ 64 ->
  exists p h' slack, h_url_custom_encode junk e a i h = Ok (p, h') /\
    one_new_block h h' p (concat (map (custom_code r u) s) ++ 0 :: slack) /\ (~ In 37 u -> slack = []).
Proof.
  intros static h live junk e r u a i s H Hi Ha Hl. destruct (encoders_ok static h live H) as (_ & _ & L).
  destruct (L e r u Hi) as (T & Ge & Ht).
  destruct (custom_encode_ok junk h e (custom_code r u) T a i s (custom_wide_code r u) Ht Ge Ha Hl) as (p & h' & slack & E & O & Z).
  exists p, h', slack. split; [exact E|]. split; [exact O|]. intros N. destruct Ha as (_ & _ & _ & _ & Hs).
  rewrite (custom_tight r u N s Hs) in Z. apply zlen_0_nil. lia.
Qed.
Print Assumptions C116_encode.

(** charstr_url_encode is not affected by any encoder. *)
Theorem C116_static : forall static h live junk a i s,
  encoders static h live -> string_at h a i s -> 3 * zlen s + 1 < 2 ^ 64 ->
  exists p h', h_url_encode junk static a i h = Ok (p, h') /\
    one_new_block h h' p (concat (map standard_code s) ++ [0]).
Proof.
  intros static h live junk a i s H Ha Hl. destruct (encoders_ok static h live H) as (Gs & _ & _).
  destruct (custom_encode_ok junk h static (custom_code [] []) static_bytes a i s (custom_wide_code [] []) static_tbl Gs Ha Hl) as (p & h' & slack & E & O & Z).
  exists p, h'. split; [exact E|]. destruct Ha as (_ & _ & _ & _ & Hs).
  rewrite (custom_tight [] [] (fun X => X) s Hs) in Z.
  assert (X : slack = []) by (apply zlen_0_nil; lia). rewrite X in O. exact O.
Qed.
Print Assumptions C116_static.

(** The strings that charstr_url_custom_encode_byte and charstr_url_encode_byte point to. *)
Theorem C116_byte : forall static h live c, encoders static h live -> 0 <= c < 256 ->
  (forall e r u, In (e, (r, u)) live ->
     exists i, h_url_custom_encode_byte e c = (e, i) /\
       exists pre rest, get h e = Some (CSlots (pre ++ custom_code r u c ++ 0 :: rest)) /\ zlen pre = i) /\
  exists i, h_url_encode_byte static c = (static, i) /\
    exists pre rest, get h static = Some (CSlots (pre ++ standard_code c ++ 0 :: rest)) /\ zlen pre = i.
Proof.
  intros static h live c H Hc. destruct (encoders_ok static h live H) as (Gs & _ & L).
  assert (U : u8 c = c) by (apply u8_small; change (2 ^ 8) with 256; lia). split.
  - intros e r u Hi. destruct (L e r u Hi) as (T & Ge & Ht). exists (entry_offset c). unfold h_url_custom_encode_byte. rewrite U.
    split; [reflexivity|]. destruct (tbl_entry _ T c Ht Hc) as (pre & rest & E & Lp). exists pre, rest. rewrite <- E. auto.
  - exists (entry_offset c). unfold h_url_encode_byte, h_url_custom_encode_byte. rewrite U. split; [reflexivity|].
    destruct (tbl_entry _ static_bytes c static_tbl Hc) as (pre & rest & E & Lp). exists pre, rest. rewrite <- E. auto.
Qed.
Print Assumptions C116_byte.

(** An encoder is destroyed once; the others, and the static one, stay. *)
Theorem C116_destroy : forall static h before e ru after, encoders static h (before ++ (e, ru) :: after) ->
  exists h', h_destroy_url_encoder e h = Ok (tt, h') /\ get h' e = None /\ same_outside [e] h h' /\
    e <> static /\ ~ In e (map fst (before ++ after)) /\ h_destroy_url_encoder e h' = UB.
Proof.
  intros static h before e (r & u) after H. destruct (encoders_ok static h _ H) as (_ & ND & L).
  destruct (L e r u) as (T & Ge & _). { apply in_or_app. right; left; reflexivity. }
  unfold h_destroy_url_encoder, free. rewrite Ge. eexists. split; [reflexivity|].
  assert (G : get (drop_cell h e) e = None) by (rewrite get_drop, Z.eqb_refl; reflexivity).
  inversion ND as [|? ? N1 N2]. subst. rewrite map_app in N1, N2. cbn [map fst] in N1, N2. apply NoDup_remove in N2. destruct N2 as (_ & N3).
  split; [exact G|]. split; [|split; [|split]].
  - intros x Hx. rewrite get_drop. destruct (Z.eqb_spec x e) as [->|_]; [|reflexivity]. destruct Hx. left; reflexivity.
  - intros ->. apply N1. apply in_or_app. right; left; reflexivity.
  - rewrite map_app. exact N3.
  - rewrite G. reflexivity.
Qed.
Print Assumptions C116_destroy.

(** An encoder that reserves 'a' and unreserves '%', next to the static one. The heap holds the
    static encoder at 7 and a block of strings at 8. *)
Definition c116_heap : heap :=
  put_cell (put_cell heap0 7 (CSlots static_bytes)) 8 (CSlots [97; 0; 37; 0; 97; 37; 0]).
Definition c116_program : M (list Z * list Z * bool) :=
  let! e := h_create_url_encoder (fun _ => 9) 7 8 0 8 2 in
  let! p := h_url_custom_encode (fun _ => 9) e 8 4 in
  do! h_destroy_url_encoder e in
  let! q := h_url_encode (fun _ => 9) 7 8 4 in
  let! s := ld_slots p in
  let! t := ld_slots q in
  do! free p in
  do! free q in
  fun h => Ok ((s, t, Nat.eqb (length (mem h)) 2), h).
Example C116_example : result (c116_program c116_heap) = Some ([37; 54; 49; 37; 0; 9; 9], [97; 37; 50; 53; 0], true).
Proof. vm_compute. reflexivity. Qed.
Example C116_reachable : encoders 7 c116_heap [] /\ string_at c116_heap 8 0 [97] /\ string_at c116_heap 8 4 [97; 37].
Proof.
  split; [constructor; reflexivity|]. split.
  - exists [], [37; 0; 97; 37; 0]. split; [reflexivity|]. split; [reflexivity|]. repeat constructor; lia.
  - exists [97; 0; 37; 0], []. split; [reflexivity|]. split; [reflexivity|]. repeat constructor; lia.
Qed.
