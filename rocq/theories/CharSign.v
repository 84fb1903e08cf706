(** Proofs for C127: signed and unsigned char. *)
From Verif Require Import Base CMem Base64Model Base64Spec Base64Proofs Base64Decode Base64Round IntegerModel IntegerProofs.
From Verif Require Import CharstrTables CharstrModel Utf8Model UrlModel CharSignModel.
From Coq Require Import ZifyBool ZifyNat.

Lemma s8_byte c : byte c -> s8 c = if c <? 128 then c else c - 256.
Proof. unfold byte, s8, sgn. change (2 ^ 8) with 256. change (2 ^ (8 - 1)) with 128. intros H. rewrite Z.mod_small by lia. reflexivity. Qed.
Lemma u8_byte c : byte c -> u8 c = c.
Proof. unfold byte, u8. intros H. apply Z.mod_small. lia. Qed.
Lemma u8_range x : byte (u8 x).
Proof. unfold byte, u8. pose proof (Z.mod_pos_bound x 256). lia. Qed.
Lemma s8_u8 x : s8 (u8 x) = s8 x.
Proof. unfold s8, u8, sgn. change (2 ^ 8) with 256. rewrite Z.mod_mod by lia. reflexivity. Qed.
Lemma u8_s8 x : u8 (s8 x) = u8 x.
Proof.
  rewrite <- (s8_u8 x). pose proof (u8_range x) as B. rewrite s8_byte by exact B. revert B. generalize (u8 x) as c. unfold byte, u8.
  intros c B. destruct (c <? 128); [apply Z.mod_small; lia|]. replace (c - 256) with (c + (-1) * 256) by ring. rewrite Z.mod_add, Z.mod_small; lia.
Qed.
Lemma s8_range x : schar (s8 x).
Proof. rewrite <- s8_u8. pose proof (u8_range x) as B. rewrite s8_byte by exact B. unfold schar, byte in *. destruct (u8 x <? 128) eqn:E; lia. Qed.
Lemma s8_schar x : schar x -> s8 x = x.
Proof.
  unfold schar. intros H. rewrite <- s8_u8. rewrite s8_byte by apply u8_range. unfold u8.
  destruct (Z.lt_ge_cases x 0).
  - replace (x mod 256) with (x + 256) by (symmetry; replace x with (x + 256 + (-1) * 256) at 1 by ring; rewrite Z.mod_add, Z.mod_small; lia).
    destruct (_ <? _) eqn:E; lia.
  - rewrite Z.mod_small by lia. destruct (_ <? _) eqn:E; lia.
Qed.

Definition is_char (sg : bool) (p : Z) : Prop := char_of sg p = p.
Lemma is_char_of sg x : is_char sg (char_of sg x).
Proof. destruct sg; unfold is_char, char_of; [apply s8_schar, s8_range|apply u8_byte, u8_range]. Qed.
Lemma u8_char sg x : u8 (char_of sg x) = u8 x.
Proof. destruct sg; unfold char_of; [apply u8_s8|apply u8_byte, u8_range]. Qed.
Lemma s8_char sg x : s8 (char_of sg x) = s8 x.
Proof. destruct sg; unfold char_of; [apply s8_schar, s8_range|apply s8_u8]. Qed.
Lemma char_eqb sg c p : byte c -> is_char sg p -> (char_of sg c =? p) = (s8 c =? s8 p).
Proof.
  intros B I. destruct (Z.eqb_spec (s8 c) (s8 p)) as [E|N].
  - apply Z.eqb_eq. rewrite <- I. destruct sg; unfold char_of; [exact E|]. rewrite <- u8_s8, E, u8_s8. reflexivity.
  - apply Z.eqb_neq. intros E. apply N. rewrite <- E. symmetry. apply s8_char.
Qed.

Lemma get_bits_same sg c p q ign : byte c -> is_char sg p -> is_char sg q -> get_bits_on sg c p q ign = get_bits c (s8 p) (s8 q) ign.
Proof. intros B P Q. unfold get_bits_on, get_bits. rewrite !(char_eqb sg) by assumption. reflexivity. Qed.

Lemma rd_byte src i c : bytes src -> rd src i = Ok c -> byte c.
Proof.
  unfold rd. destruct (inb src i) eqn:B; [|discriminate]. intros F E. injection E as <-.
  unfold bytes in F. rewrite Forall_forall in F. apply F. apply nth_In. unfold inb, zlen in B. lia.
Qed.

Section loops.
Variables (sg : bool) (src : list Z) (n : Z) (p q : Z) (ign : bool).
Hypotheses (F : bytes src) (P : is_char sg p) (Q : is_char sg q).

Lemma store_same size fuel : forall st,
  decode_store_on sg fuel src n size p q ign st = decode_store fuel src n size (s8 p) (s8 q) ign st.
Proof.
  induction fuel as [|fuel IH]; intros [si pi bits count dest]; [reflexivity|]. cbn [decode_store_on decode_store].
  destruct ((pi <? size) && (si <? n)); [|reflexivity]. destruct (rd src si) as [c| | |] eqn:R; try reflexivity. cbn [bind].
  rewrite get_bits_same by (try assumption; exact (rd_byte _ _ _ F R)).
  destruct (truth c && negb (c =? 61)); [|reflexivity].
  destruct (get_bits c (s8 p) (s8 q) ign <? 0); [destruct (_ =? BASE64_ILLEGAL_WHITESPACE); [apply IH|reflexivity]|].
  destruct (count + 6 >=? 8); [|apply IH]. destruct (wr dest pi _) as [d'| | |]; try reflexivity. cbn [bind]. apply IH.
Qed.
Lemma count_same fuel : forall st,
  decode_count_on sg fuel src n p q ign st = decode_count fuel src n (s8 p) (s8 q) ign st.
Proof.
  induction fuel as [|fuel IH]; intros [si pi bits count dest]; [reflexivity|]. cbn [decode_count_on decode_count].
  destruct (si <? n); [|reflexivity]. destruct (rd src si) as [c| | |] eqn:R; try reflexivity. cbn [bind].
  rewrite get_bits_same by (try assumption; exact (rd_byte _ _ _ F R)).
  destruct (truth c && negb (c =? 61)); [|reflexivity].
  destruct (get_bits c (s8 p) (s8 q) ign <? 0); [destruct (_ =? BASE64_ILLEGAL_WHITESPACE); [apply IH|reflexivity]|].
  destruct (count + 6 >=? 8); apply IH.
Qed.
End loops.

(** The char that stands for the value 62 or 63 in the end. *)
Definition final (sg : bool) (p default : Z) : Z := if char_of sg p =? -1 then default else char_of sg p.

Lemma decode_same sg src n dest size p62 p63 ign : bytes src ->
  base64_decode_buffer_on sg src n dest size p62 p63 ign =
  decode_raw src n dest size (s8 (final sg p62 43)) (s8 (final sg p63 47)) ign.
Proof.
  intros F. unfold base64_decode_buffer_on. cbv zeta. fold (final sg p62 43) (final sg p63 47).
  assert (A : is_char sg (final sg p62 43)) by (unfold final; destruct (_ =? -1); [destruct sg; reflexivity|apply is_char_of]).
  assert (B : is_char sg (final sg p63 47)) by (unfold final; destruct (_ =? -1); [destruct sg; reflexivity|apply is_char_of]).
  rewrite store_same by assumption. unfold decode_raw.
  destruct (decode_store _ _ _ _ _ _ _ _) as [[st|d]| | |]; try reflexivity. cbn [bind]. rewrite count_same by assumption. reflexivity.
Qed.

Lemma u8_final sg p d : byte d -> u8 (s8 (final sg p d)) = pos_char (char_of sg p) d.
Proof.
  intros D. rewrite u8_s8. unfold final, pos_char. destruct (_ =? -1); [apply u8_byte; exact D|reflexivity].
Qed.

Lemma decode_on_ok sg src n t dest size p62 p63 ign : bytes src ->
  text_of src n t -> zlen t < 2 ^ 63 -> 0 <= size <= zlen dest ->
  good_pos (pos_char (char_of sg p62) 43) -> good_pos (pos_char (char_of sg p63) 47) ->
  let value := code_value (pos_char (char_of sg p62) 43) (pos_char (char_of sg p63) 47) in
  let wsp c := ign && code_wsp c in
  (exists d, decodes value wsp t d /\
     base64_decode_buffer_on sg src n dest size p62 p63 ign = Ok (DecOk (zlen d) (stored dest size d))) \/
  ((forall d, ~ decodes value wsp t d) /\
   exists d', base64_decode_buffer_on sg src n dest size p62 p63 ign = Ok (DecFail EILSEQ (stored dest size d'))).
Proof.
  intros F T L S G62 G63. rewrite decode_same by exact F.
  rewrite <- (u8_final sg p62 43) in * by (unfold byte; lia). rewrite <- (u8_final sg p63 47) in * by (unfold byte; lia).
  apply decode_raw_ok; try assumption; apply s8_range.
Qed.

Lemma decode_chars_same src n dest size p62 p63 ign : bytes src -> u8 p62 <> 255 -> u8 p63 <> 255 ->
  base64_decode_buffer_on false src n dest size p62 p63 ign = base64_decode_buffer_on true src n dest size p62 p63 ign.
Proof.
  intros F N62 N63. rewrite !decode_same by exact F.
  assert (X : forall p d, u8 p <> 255 -> s8 (final false p d) = s8 (final true p d)).
  { intros p d N. unfold final, char_of. destruct (Z.eqb_spec (u8 p) (-1)) as [E|_]; [pose proof (u8_range p) as B; unfold byte in B; lia|].
    destruct (Z.eqb_spec (s8 p) (-1)) as [E|_]; [exfalso; apply N; rewrite <- u8_s8, E; reflexivity|].
    rewrite s8_u8. symmetry. apply s8_schar, s8_range. }
  rewrite (X p62 43), (X p63 47) by assumption. reflexivity.
Qed.
Lemma pos_char_same p d : u8 p <> 255 -> pos_char (char_of false p) d = pos_char (char_of true p) d.
Proof.
  intros N. unfold pos_char, char_of. destruct (Z.eqb_spec (u8 p) (-1)) as [E|_]; [pose proof (u8_range p) as B; unfold byte in B; lia|].
  destruct (Z.eqb_spec (s8 p) (-1)) as [E|_]; [exfalso; apply N; rewrite <- u8_s8, E; reflexivity|].
  rewrite u8_s8. apply u8_byte, u8_range.
Qed.

Lemma encode_simple_on_ok sg junk data r : bytes data -> zlen data < 2 ^ 60 ->
  base64_encode_simple_on sg junk (data ++ r) (zlen data) =
  Ok (Some (base64 (pos_char (char_of sg (-1)) 43) (pos_char (char_of sg (-1)) 47) data ++ [0])).
Proof.
  intros Hb Hl. pose proof (zlen_nonneg data) as Hdn. set (E := base64 _ _ data).
  assert (HE : zlen E = (zlen data + 2) / 3 * 4) by apply base64_zlen. pose proof (zlen_nonneg E).
  unfold base64_encode_simple_on. rewrite encoding_size_correct by (unfold SIZE_MAX; lia).
  replace (_ <=? SIZE_MAX) with true by (unfold SIZE_MAX; lia). rewrite <- HE.
  change (u64 (-1)) with (2 ^ 64 - 1). replace (zlen E =? 2 ^ 64 - 1) with false by lia.
  rewrite u64_small by lia.
  change (base64_encode_buffer_on sg (data ++ r) (zlen data) (fresh_block junk (zlen E + 1)) (zlen E + 1) (-1) (-1))
    with (base64_encode_buffer (data ++ r) (zlen data) (fresh_block junk (zlen E + 1)) (zlen E + 1) (char_of sg (-1)) (char_of sg (-1))).
  pose proof (encode_buffer_ok data r (fresh_block junk (zlen E + 1)) (zlen E + 1) (char_of sg (-1)) (char_of sg (-1)) Hb) as H1.
  rewrite H1; [|lia|rewrite fresh_block_zlen; lia]. cbv zeta. fold E. cbn [bind].
  rewrite terminated_room by (rewrite fresh_block_zlen; lia).
  rewrite skipn_all2; [reflexivity|].
  assert (K : zlen (fresh_block junk (zlen E + 1)) = zlen E + 1) by (apply fresh_block_zlen; lia).
  unfold zlen in K |- *. lia.
Qed.

Lemma good_default sg d : d = 43 \/ d = 47 -> good_pos (pos_char (char_of sg (-1)) d).
Proof. intros [-> | ->]; destruct sg; vm_compute; repeat split; discriminate. Qed.

Lemma decode_simple_on_ok sg junk t r : bytes (t ++ 0 :: r) -> Forall (fun c => byte c /\ c <> 0) t -> zlen t < 2 ^ 62 ->
  let value := code_value (pos_char (char_of sg (-1)) 43) (pos_char (char_of sg (-1)) 47) in
  (exists d, Base64Spec.decodes value code_wsp t d /\ base64_decode_simple_on sg junk (t ++ 0 :: r) = Ok (Some (d ++ [0], zlen d))) \/
  ((forall d, ~ Base64Spec.decodes value code_wsp t d) /\ base64_decode_simple_on sg junk (t ++ 0 :: r) = Ok None).
Proof.
  intros F Ht Hl. pose proof (zlen_nonneg t) as P.
  assert (Htext : text_of (t ++ 0 :: r) (u64 (-1)) t).
  { split; [exact Ht|]. exists (0 :: r). split; [reflexivity|]. right. split; [|exists r; reflexivity]. change (u64 (-1)) with (2 ^ 64 - 1). lia. }
  pose proof (good_default sg 43 (or_introl eq_refl)) as G43. pose proof (good_default sg 47 (or_intror eq_refl)) as G47.
  destruct (decode_on_ok sg (t ++ 0 :: r) (u64 (-1)) t [] 0 (-1) (-1) true F Htext ltac:(lia) ltac:(cbn; lia) G43 G47) as [(d & D & E)|(N & dest' & E)].
  - left. exists d. split; [exact D|]. unfold base64_decode_simple_on. rewrite E. cbn [bind].
    assert (K : zlen (fresh_block junk (zlen d + 1)) = zlen d + 1) by (apply fresh_block_zlen; pose proof (zlen_nonneg d); lia).
    set (blk := fresh_block junk (zlen d + 1)) in *. clearbody blk. pose proof (zlen_nonneg d) as P2.
    destruct (decode_on_ok sg (t ++ 0 :: r) (u64 (-1)) t blk (zlen d) (-1) (-1) true F Htext ltac:(lia) ltac:(lia) G43 G47) as [(d2 & D2 & E2)|(N & _)];
      [|exfalso; exact (N d D)].
    assert (d2 = d) as -> by (exact (decodes_unique _ _ true t d2 d G43 G47 D2 D)).
    rewrite E2. cbn [bind]. unfold stored. rewrite Z.min_id, zlen_to_nat, firstn_all.
    destruct (skipn_S_cons (length d) blk) as [x Hx]; [unfold zlen in K; lia|].
    rewrite Hx. rewrite (wr_app d) by reflexivity. cbn [bind]. rewrite skipn_all2; [reflexivity|].
    unfold zlen in K; lia.
  - right. split; [exact N|]. unfold base64_decode_simple_on. rewrite E. reflexivity.
Qed.

Lemma not_decodes value wsp t c d : In c t -> value c = None -> wsp c = false -> c <> 61 -> ~ decodes value wsp t d.
Proof.
  intros I V W N (_ & body & pad & trail & E & M & Pd & T). rewrite E in I. apply in_app_iff in I. destruct I as [I|I].
  - assert (X : In (value c) (map value (filter (fun c => negb (wsp c)) body))).
    { apply in_map. apply filter_In. rewrite W. auto. }
    rewrite M, V in X. apply in_map_iff in X. destruct X as (? & ? & _). discriminate.
  - apply in_app_iff in I. destruct I as [I|I].
    + rewrite Pd in I. unfold padding in I. destruct (length d mod 3)%nat as [|[|?]]; cbn in I; lia.
    + rewrite Forall_forall in T. specialize (T c I). congruence.
Qed.

(** hash_string *)
Lemma hash_on_ok sg s rest : Forall (fun c => byte c /\ c <> 0) s ->
  hash_string_on sg (s ++ 0 :: rest) = Ok (u64 (poly (map (char_of sg) s))).
Proof.
  intros Hs. unfold hash_string_on.
  assert (L : forall todo done fuel, Forall (fun c => byte c /\ c <> 0) todo ->
     (length todo < fuel)%nat ->
     hash_string_loop_on sg fuel (done ++ todo ++ 0 :: rest) (zlen done) (u64 (poly (map (char_of sg) done))) =
     Ok (u64 (poly (map (char_of sg) (done ++ todo))))).
  { induction todo as [|c todo IH]; intros done fuel Ht Hf; (destruct fuel; [simpl in Hf; lia|]);
      cbn [hash_string_loop_on].
    - cbn [app]. rewrite rd_app by reflexivity. cbn. rewrite app_nil_r. reflexivity.
    - cbn [app]. rewrite rd_app by reflexivity. cbn [bind].
      inversion Ht as [|? ? [Hb H0] Ht']; subst.
      replace (truth c) with true by (unfold truth; lia).
      rewrite u64_step, <- poly_app.
      change [char_of sg c] with (map (char_of sg) [c]). rewrite <- map_app.
      specialize (IH (done ++ [c]) fuel Ht' ltac:(simpl in Hf; lia)).
      rewrite zlen_snoc in IH. rewrite <- !app_assoc in IH.
      exact IH. }
  specialize (L s [] (S (length (s ++ 0 :: rest))) Hs ltac:(rewrite app_length; simpl; lia)).
  exact L.
Qed.

(** charstr.c *)
Definition chars (sg : bool) (s : list Z) : list Z := map (char_of sg) s.

Lemma land_char sg c m : 0 <= m < 256 -> Z.land (char_of sg c) m = Z.land c m.
Proof.
  intros M. assert (X : forall x, Z.land x m = Z.land (u8 x) m).
  { intros x. unfold u8. change 256 with (2 ^ 8). rewrite <- Z.land_ones by lia. rewrite <- Z.land_assoc. f_equal.
    rewrite Z.land_comm, Z.land_ones by lia. symmetry. apply Z.mod_small. exact M. }
  rewrite X, (X c), u8_char. reflexivity.
Qed.
Lemma truth_char sg c : byte c -> truth (char_of sg c) = truth c.
Proof.
  intros B. unfold truth, char_of. destruct sg; [rewrite s8_byte by exact B; unfold byte in B; destruct (c <? 128) eqn:E; lia|rewrite u8_byte by exact B; reflexivity].
Qed.
Lemma zero_char sg c : byte c -> (char_of sg c =? 0) = (c =? 0).
Proof. intros B. pose proof (truth_char sg c B) as T. unfold truth in T. destruct (_ =? 0), (c =? 0); cbn in T; congruence. Qed.
Lemma char_inj sg c d : byte c -> byte d -> (char_of sg c =? char_of sg d) = (c =? d).
Proof.
  intros B D. destruct (Z.eqb_spec c d) as [->|N]; [apply Z.eqb_refl|]. apply Z.eqb_neq. intros E. apply N.
  rewrite <- (u8_byte c B), <- (u8_byte d D), <- (u8_char sg c), <- (u8_char sg d), E. reflexivity.
Qed.
Lemma lcase_char sg c : charstr_lcase_char (char_of sg c) = charstr_lcase_char c.
Proof. unfold charstr_lcase_char. rewrite u8_char. reflexivity. Qed.

Lemma at_end_chars sg s e : at_end (chars sg s) e = at_end s e.
Proof. unfold at_end, chars, zlen. destruct e; rewrite ?map_length; reflexivity. Qed.
Lemma tl_chars sg s : tl (chars sg s) = chars sg (tl s).
Proof. destruct s; reflexivity. Qed.
Definition lift_rest (sg : bool) (o : option (list Z * Z)) : option (list Z * Z) := option_map (fun x => (chars sg (fst x), snd x)) o.
Definition map_ok {A B} (f : A -> B) (r : res A) : res B := x <- r ;; Ok (f x).

Lemma continuation_chars sg s e cp : continuation (chars sg s) e cp = map_ok (lift_rest sg) (continuation s e cp).
Proof.
  unfold continuation. rewrite at_end_chars. destruct (at_end s e); [reflexivity|]. destruct s as [|c s]; [reflexivity|].
  cbn [chars map cur bind tl]. rewrite !land_char by lia. destruct (negb _); reflexivity.
Qed.
Lemma bind_cont sg r r' e : r' = map_ok (lift_rest sg) r ->
  ('(s, cp) <-? r' ;; continuation s e cp) = map_ok (lift_rest sg) ('(s, cp) <-? r ;; continuation s e cp).
Proof.
  intros ->. destruct r as [[[s cp]|]| | |]; try reflexivity. cbn. apply continuation_chars.
Qed.
Lemma decode_codepoint_chars sg s e :
  charstr_decode_utf8_codepoint (Some (chars sg s)) e = map_ok (lift_rest sg) (charstr_decode_utf8_codepoint (Some s) e).
Proof.
  unfold charstr_decode_utf8_codepoint. rewrite at_end_chars. destruct (at_end s e); [reflexivity|]. destruct s as [|c s]; [reflexivity|].
  cbn [chars map cur bind tl]. fold (chars sg s). rewrite !land_char by lia.
  destruct (negb (truth (Z.land c 128))); [reflexivity|]. destruct (negb (truth (Z.land c 64))); [reflexivity|].
  assert (X : forall r r', r' = map_ok (lift_rest sg) r ->
    ('(s, cp) <-? r' ;; '(s, cp) <-? continuation s e cp ;; if negb (valid_unicode cp) then Ok None else Ok (Some (s, cp))) =
    map_ok (lift_rest sg) ('(s, cp) <-? r ;; '(s, cp) <-? continuation s e cp ;; if negb (valid_unicode cp) then Ok None else Ok (Some (s, cp)))).
  { intros r r' ->. destruct r as [[[s1 cp]|]| | |]; try reflexivity. cbn [map_ok bind lift_rest option_map fst snd]. rewrite continuation_chars.
    destruct (continuation s1 e cp) as [[[s2 cp2]|]| | |]; try reflexivity. cbn [map_ok bind lift_rest option_map fst snd].
    destruct (negb (valid_unicode cp2)); reflexivity. }
  apply X. destruct (negb (truth (Z.land c 32))); [reflexivity|]. apply bind_cont.
  destruct (negb (truth (Z.land c 16))); [reflexivity|]. destruct (truth (Z.land c 8)); [reflexivity|]. apply continuation_chars.
Qed.

Lemma decode_rest_bytes s e rest cp : bytes s -> charstr_decode_utf8_codepoint (Some s) e = Ok (Some (rest, cp)) -> bytes rest.
Proof.
  intros F. assert (T : forall l, bytes l -> bytes (tl l)) by (intros l Fl; destruct l; [exact Fl|exact (Forall_inv_tail Fl)]).
  assert (C : forall l e cp r cp', bytes l -> continuation l e cp = Ok (Some (r, cp')) -> bytes r).
  { intros l e0 cp0 r cp' Fl. unfold continuation. destruct (at_end l e0); [discriminate|]. destruct (cur l); try discriminate. cbn [bind].
    destruct (negb _); [discriminate|]. intros E. injection E as <- _. apply T, Fl. }
  unfold charstr_decode_utf8_codepoint. destruct (at_end s e); [discriminate|]. destruct (cur s) as [c| | |]; try discriminate. cbn [bind].
  destruct (negb (truth (Z.land c 128))); [intros E; injection E as <- _; apply T, F|]. destruct (negb (truth (Z.land c 64))); [discriminate|].
  set (r1 := if negb (truth (Z.land c 32)) then _ else _).
  assert (R1 : forall r cp', r1 = Ok (Some (r, cp')) -> bytes r).
  { subst r1. destruct (negb (truth (Z.land c 32))); [intros r cp' E; injection E as <- _; apply T, F|].
    destruct (negb (truth (Z.land c 16))); [cbn; intros r cp' E; exact (C _ _ _ _ _ (T _ F) E)|]. destruct (truth (Z.land c 8)); [discriminate|].
    destruct (continuation (tl s) e (Z.land c 7)) as [[[s1 cp1]|]| | |] eqn:E1; try discriminate. cbn. intros r cp' E.
    exact (C _ _ _ _ _ (C _ _ _ _ _ (T _ F) E1) E). }
  clearbody r1. destruct r1 as [[[s1 cp1]|]| | |]; try discriminate. cbn [bind].
  destruct (continuation s1 e cp1) as [[[s2 cp2]|]| | |] eqn:E2; try discriminate. cbn [bind].
  destruct (negb (valid_unicode cp2)); [discriminate|]. intros E. injection E as <- _. exact (C _ _ _ _ _ (R1 _ _ eq_refl) E2).
Qed.

Lemma valid_loop_chars sg fuel : forall s, bytes s -> valid_loop fuel (Some (chars sg s)) = valid_loop fuel (Some s).
Proof.
  induction fuel as [|fuel IH]; intros s F; [reflexivity|]. cbn [valid_loop]. destruct s as [|c s]; [reflexivity|].
  change (cur (chars sg (c :: s))) with (Ok (char_of sg c)). cbn [cur bind]. rewrite truth_char by (exact (Forall_inv F)).
  destruct (truth c); [|reflexivity]. rewrite decode_codepoint_chars.
  destruct (charstr_decode_utf8_codepoint (Some (c :: s)) None) as [[[r cp]|]| | |] eqn:E; try reflexivity; cbn [map_ok bind lift_rest option_map fst].
  apply IH. exact (decode_rest_bytes _ _ _ _ F E).
Qed.
Lemma valid_bounded_chars sg e fuel : forall s, bytes s -> valid_bounded_loop fuel (Some (chars sg s)) e = valid_bounded_loop fuel (Some s) e.
Proof.
  induction fuel as [|fuel IH]; intros s F; [reflexivity|]. cbn [valid_bounded_loop]. rewrite at_end_chars. destruct (at_end s e); [reflexivity|].
  rewrite decode_codepoint_chars.
  destruct (charstr_decode_utf8_codepoint (Some s) e) as [[[r cp]|]| | |] eqn:E; try reflexivity; cbn [map_ok bind lift_rest option_map fst].
  apply IH. exact (decode_rest_bytes _ _ _ _ F E).
Qed.
Lemma valid_chars sg s e : bytes s ->
  charstr_valid_utf8 (Some (chars sg s)) = charstr_valid_utf8 (Some s) /\
  charstr_valid_utf8_bounded (Some (chars sg s)) e = charstr_valid_utf8_bounded (Some s) e.
Proof.
  intros F. unfold charstr_valid_utf8, charstr_valid_utf8_bounded, chars at 1 3. rewrite map_length. split; [apply valid_loop_chars|apply valid_bounded_chars]; exact F.
Qed.

Lemma case_cmp_chars sg : forall a b, bytes a -> bytes b -> charstr_case_cmp (chars sg a) (chars sg b) = charstr_case_cmp a b.
Proof.
  induction a as [|x a IH]; intros b A B; [reflexivity|]. cbn [chars map charstr_case_cmp]. rewrite truth_char by (exact (Forall_inv A)).
  destruct b as [|y b]; [destruct (truth x); reflexivity|]. change (chars sg (y :: b)) with (char_of sg y :: chars sg b). cbn [cur bind]. rewrite !lcase_char, (truth_char sg y) by (exact (Forall_inv B)).
  destruct (truth x); [|reflexivity]. destruct (_ <? _); [reflexivity|]. destruct (_ >? _); [reflexivity|].
  apply IH; [exact (Forall_inv_tail A)|exact (Forall_inv_tail B)].
Qed.
Lemma ncase_cmp_chars sg : forall a b n, bytes a -> bytes b -> charstr_ncase_cmp (chars sg a) (chars sg b) n = charstr_ncase_cmp a b n.
Proof.
  induction a as [|x a IH]; intros b n A B; [reflexivity|]. cbn [chars map charstr_ncase_cmp]. destruct (truth n); [|reflexivity].
  rewrite truth_char by (exact (Forall_inv A)).
  destruct b as [|y b]; [destruct (truth x); reflexivity|]. change (chars sg (y :: b)) with (char_of sg y :: chars sg b). cbn [cur bind]. rewrite !lcase_char, (truth_char sg y) by (exact (Forall_inv B)).
  destruct (truth x); [|reflexivity]. destruct (_ <? _); [reflexivity|]. destruct (_ >? _); [reflexivity|].
  apply IH; [exact (Forall_inv_tail A)|exact (Forall_inv_tail B)].
Qed.
Lemma skip_prefix_chars sg : forall p s, bytes s -> bytes p ->
  charstr_skip_prefix (chars sg s) (chars sg p) = map_ok (option_map (chars sg)) (charstr_skip_prefix s p).
Proof.
  induction p as [|x p IH]; intros s S P; [reflexivity|]. cbn [chars map charstr_skip_prefix]. rewrite truth_char by (exact (Forall_inv P)).
  destruct (truth x); [|reflexivity]. destruct s as [|y s]; [reflexivity|]. change (chars sg (y :: s)) with (char_of sg y :: chars sg s). cbv iota.
  rewrite char_inj by (first [exact (Forall_inv P)|exact (Forall_inv S)]). destruct (negb _); [reflexivity|].
  apply IH; [exact (Forall_inv_tail S)|exact (Forall_inv_tail P)].
Qed.
Lemma case_skip_prefix_chars sg : forall p s, bytes s -> bytes p ->
  charstr_case_skip_prefix (chars sg s) (chars sg p) = map_ok (option_map (chars sg)) (charstr_case_skip_prefix s p).
Proof.
  induction p as [|x p IH]; intros s S P; [reflexivity|]. cbn [chars map charstr_case_skip_prefix]. rewrite truth_char by (exact (Forall_inv P)).
  destruct (truth x); [|reflexivity]. destruct s as [|y s]; [reflexivity|]. change (chars sg (y :: s)) with (char_of sg y :: chars sg s). cbv iota. rewrite !lcase_char.
  destruct (negb _); [reflexivity|]. apply IH; [exact (Forall_inv_tail S)|exact (Forall_inv_tail P)].
Qed.

Lemma encode_byte_char sg enc c : charstr_url_custom_encode_byte enc (char_of sg c) = charstr_url_custom_encode_byte enc c.
Proof. unfold charstr_url_custom_encode_byte. rewrite u8_char. reflexivity. Qed.
Lemma url_encode_chars sg junk enc s : bytes s -> charstr_url_custom_encode junk enc (chars sg s) = charstr_url_custom_encode junk enc s.
Proof.
  intros F. unfold charstr_url_custom_encode.
  assert (L : forall n, encoded_length enc (chars sg s) n = encoded_length enc s n).
  { clear junk. induction s as [|c s IH]; intros n; [reflexivity|]. cbn [chars map encoded_length]. rewrite truth_char by (exact (Forall_inv F)).
    destruct (truth c); [|reflexivity]. unfold url_encoding_width at 1. rewrite encode_byte_char. apply IH. exact (Forall_inv_tail F). }
  assert (E : forall b ep, encode_loop enc (chars sg s) b ep = encode_loop enc s b ep).
  { clear junk L. induction s as [|c s IH]; intros b ep; [reflexivity|]. cbn [chars map encode_loop]. rewrite truth_char by (exact (Forall_inv F)).
    destruct (truth c); [|reflexivity]. rewrite encode_byte_char. destruct (put_string _ _ _) as [[b' ep']| | |]; try reflexivity. cbn [bind].
    apply IH. exact (Forall_inv_tail F). }
  rewrite L. destruct (encoded_length enc s 0); try reflexivity. cbn [bind]. apply E.
Qed.
Lemma create_encoder_chars sg r u : bytes r -> bytes u -> charstr_create_url_encoder (chars sg r) (chars sg u) = charstr_create_url_encoder r u.
Proof.
  intros R U. unfold charstr_create_url_encoder.
  assert (A : forall t, reserve_loop t (chars sg r) = reserve_loop t r).
  { induction r as [|c r IH]; intros t; [reflexivity|]. cbn [chars map reserve_loop]. rewrite truth_char by (exact (Forall_inv R)). rewrite u8_char.
    destruct (truth c); [|reflexivity]. destruct (wr t (u8 c) (percent (u8 c))) as [t'| | |]; try reflexivity. cbn [bind]. apply IH. exact (Forall_inv_tail R). }
  assert (B : forall t, unreserve_loop t (chars sg u) = unreserve_loop t u).
  { clear A. induction u as [|c u IH]; intros t; [reflexivity|]. cbn [chars map unreserve_loop]. rewrite truth_char by (exact (Forall_inv U)). rewrite u8_char.
    destruct (truth c); [|reflexivity]. destruct (wr t (u8 c) [u8 c]) as [t'| | |]; try reflexivity. cbn [bind]. apply IH. exact (Forall_inv_tail U). }
  rewrite A. destruct (reserve_loop default_encoder r); try reflexivity. cbn [bind]. apply B.
Qed.

Lemma strlen_chars sg : forall s, bytes s -> strlen (chars sg s) = strlen s.
Proof.
  induction s as [|c s IH]; intros F; [reflexivity|]. cbn [chars map strlen]. rewrite zero_char by (exact (Forall_inv F)).
  change (map (char_of sg) s) with (chars sg s). rewrite IH by (exact (Forall_inv_tail F)). reflexivity.
Qed.
Lemma strcmp_chars sg : forall s t, bytes s -> bytes t -> strcmp_eq (chars sg s) (chars sg t) = strcmp_eq s t.
Proof.
  induction s as [|c s IH]; intros t F G; [reflexivity|]. destruct t as [|d t]; [reflexivity|]. cbn [chars map strcmp_eq].
  rewrite zero_char, char_inj by (first [exact (Forall_inv F)|exact (Forall_inv G)]). destruct (negb _); [reflexivity|]. destruct (c =? 0); [reflexivity|].
  apply IH; [exact (Forall_inv_tail F)|exact (Forall_inv_tail G)].
Qed.
Lemma ends_with_chars sg s t : bytes s -> bytes t -> charstr_ends_with (chars sg s) (chars sg t) = charstr_ends_with s t.
Proof.
  intros F G. unfold charstr_ends_with. rewrite !strlen_chars by assumption. destruct (strlen s) as [n| | |]; try reflexivity. cbn [bind].
  destruct (strlen t) as [m| | |]; try reflexivity. cbn [bind]. destruct (n <? m); [reflexivity|]. unfold chars at 1. rewrite skipn_map.
  apply strcmp_chars; [|exact G]. unfold bytes in *. rewrite Forall_forall in *. intros x I. apply F. revert I. generalize (Z.to_nat (n - m)) as k.
  clear. intros k I. rewrite <- (firstn_skipn k s). apply in_or_app. right. exact I.
Qed.

(** Statements of C127. *)
Lemma encode_on_ok sg data tl dest size p62 p63 :
  bytes data -> zlen data < 2 ^ 62 -> 0 <= size <= zlen dest ->
  let E := base64 (pos_char (char_of sg p62) 43) (pos_char (char_of sg p63) 47) data in
  let k := Z.to_nat (Z.min (zlen E) (size - 1)) in
  base64_encode_buffer_on sg (data ++ tl) (zlen data) dest size p62 p63 =
  Ok (if size =? 0 then dest else firstn k E ++ 0 :: skipn (S k) dest, zlen E).
Proof. exact (encode_buffer_ok data tl dest size (char_of sg p62) (char_of sg p63)). Qed.

Lemma signed_decode src n dest size p62 p63 ign : bytes src -> schar p62 -> schar p63 ->
  base64_decode_buffer_on true src n dest size p62 p63 ign = base64_decode_buffer src n dest size p62 p63 ign.
Proof.
  intros F S1 S2. rewrite decode_same by exact F. unfold final, char_of. rewrite !(s8_schar p62), !(s8_schar p63) by assumption.
  rewrite !s8_schar; [reflexivity|destruct (p63 =? -1); [unfold schar; lia|exact S2]|destruct (p62 =? -1); [unfold schar; lia|exact S1]].
Qed.
Lemma hash_true fuel : forall s i h, hash_string_loop_on true fuel s i h = hash_string_loop fuel s i h.
Proof. induction fuel as [|fuel IH]; intros s i h; [reflexivity|]. cbn [hash_string_loop_on hash_string_loop]. destruct (rd s i); try reflexivity. cbn [bind]. rewrite IH. reflexivity. Qed.
Lemma signed_same src n dest size p62 p63 ign junk : bytes src -> -128 <= p62 <= 127 -> -128 <= p63 <= 127 ->
  base64_encode_buffer_on true src n dest size p62 p63 = base64_encode_buffer src n dest size p62 p63 /\
  base64_encode_simple_on true junk src n = base64_encode_simple junk src n /\
  base64_decode_buffer_on true src n dest size p62 p63 ign = base64_decode_buffer src n dest size p62 p63 ign /\
  base64_decode_simple_on true junk src = base64_decode_simple junk src /\
  hash_string_on true src = hash_string src.
Proof.
  intros F S1 S2. change (schar p62) in S1. change (schar p63) in S2.
  assert (SE : forall m, schar m -> char_of true m = m) by (intros; apply s8_schar; assumption).
  split; [unfold base64_encode_buffer_on; rewrite !SE by assumption; reflexivity|]. split; [reflexivity|].
  split; [apply signed_decode; assumption|]. split; [|exact (hash_true _ src 0 0)].
  unfold base64_decode_simple_on, base64_decode_simple. rewrite signed_decode by (first [exact F|unfold schar; lia]).
  destruct (base64_decode_buffer src (u64 (-1)) [] 0 (-1) (-1) true) as [[]| | |]; try reflexivity. cbn [bind].
  rewrite signed_decode by (first [exact F|unfold schar; lia]). reflexivity.
Qed.

Lemma chars_given src n dest size p62 p63 ign : bytes src -> u8 p62 <> 255 -> u8 p63 <> 255 ->
  base64_decode_buffer_on false src n dest size p62 p63 ign = base64_decode_buffer_on true src n dest size p62 p63 ign /\
  forall data tl, src = data ++ tl -> n = zlen data -> n < 2 ^ 62 -> 0 <= size <= zlen dest ->
    base64_encode_buffer_on false src n dest size p62 p63 = base64_encode_buffer_on true src n dest size p62 p63.
Proof.
  intros F N1 N2. split; [apply decode_chars_same; assumption|]. intros data tl -> -> L S.
  rewrite !encode_on_ok; try assumption; try (apply Forall_app in F; exact (proj1 F)). rewrite !pos_char_same by assumption. reflexivity.
Qed.

Lemma encode_default sg junk data r : bytes data -> zlen data < 2 ^ 60 ->
  base64_encode_simple_on sg junk (data ++ r) (zlen data) =
  Ok (Some ((if sg then base64 43 47 data else base64 255 255 data) ++ [0])).
Proof. intros B L. rewrite encode_simple_on_ok by assumption. destruct sg; reflexivity. Qed.

Lemma plus_slash_rejected junk t r : bytes (t ++ 0 :: r) -> Forall (fun c => byte c /\ c <> 0) t -> zlen t < 2 ^ 62 ->
  In 43 t \/ In 47 t -> base64_decode_simple_on false junk (t ++ 0 :: r) = Ok None.
Proof.
  intros F T L I. destruct (decode_simple_on_ok false junk t r F T L) as [(d & D & _)|(_ & E)]; [|exact E]. exfalso. revert D.
  destruct I as [I|I]; eapply (not_decodes _ _ _ _ _ I); try reflexivity; lia.
Qed.

Lemma round_trip junk :
  base64_encode_simple_on true junk [255; 254; 253] 3 = Ok (Some [47; 47; 55; 57; 0]) /\
  base64_decode_simple_on true junk [47; 47; 55; 57; 0] = Ok (Some ([255; 254; 253; 0], 3)) /\
  base64_encode_simple_on false junk [255; 254; 253] 3 = Ok (Some [255; 255; 55; 57; 0]) /\
  base64_decode_simple_on false junk [255; 255; 55; 57; 0] = Ok (Some ([251; 238; 253; 0], 3)) /\
  base64_decode_simple_on false junk [47; 47; 55; 57; 0] = Ok None.
Proof. vm_compute. repeat split. Qed.

Lemma hash_ascii s rest : Forall (fun c => 0 < c < 128) s ->
  hash_string_on false (s ++ 0 :: rest) = hash_string_on true (s ++ 0 :: rest).
Proof.
  intros F. assert (B : Forall (fun c => byte c /\ c <> 0) s) by (eapply Forall_impl; [|exact F]; unfold byte; cbn; intros; lia).
  rewrite !hash_on_ok by exact B. do 3 f_equal. apply map_ext_in. intros c I. rewrite Forall_forall in F. specialize (F c I). cbn beta in F. unfold char_of.
  rewrite s8_byte, u8_byte by (unfold byte; lia). destruct (c <? 128) eqn:E; lia.
Qed.
Lemma hash_differs c : 128 <= c < 256 -> hash_string_on false [c; 0] <> hash_string_on true [c; 0].
Proof.
  intros R. assert (B : Forall (fun c => byte c /\ c <> 0) [c]) by (constructor; [unfold byte; lia|constructor]).
  change [c; 0] with ([c] ++ 0 :: []). rewrite !hash_on_ok by exact B. cbn [map poly]. unfold char_of. rewrite s8_byte, u8_byte by (unfold byte; lia).
  destruct (c <? 128) eqn:E; [lia|]. rewrite zlen_nil. rewrite !u64_small by lia. intros X. injection X as X. lia.
Qed.

Lemma same_chars sg c enc :
  charstr_char_class (char_of sg c) = charstr_char_class c /\ charstr_digit_value (char_of sg c) = charstr_digit_value c /\
  charstr_lcase_char (char_of sg c) = charstr_lcase_char c /\ charstr_ucase_char (char_of sg c) = charstr_ucase_char c /\
  charstr_url_custom_encode_byte enc (char_of sg c) = charstr_url_custom_encode_byte enc c.
Proof.
  unfold charstr_char_class, charstr_digit_value, charstr_lcase_char, charstr_ucase_char, charstr_url_custom_encode_byte. rewrite u8_char. repeat split.
Qed.
Lemma same_strings sg s t n e : bytes s -> bytes t ->
  let S := map (char_of sg) s in let T := map (char_of sg) t in
  charstr_case_cmp S T = charstr_case_cmp s t /\ charstr_ncase_cmp S T n = charstr_ncase_cmp s t n /\
  charstr_ends_with S T = charstr_ends_with s t /\
  (forall o, charstr_skip_prefix s t = Ok o -> charstr_skip_prefix S T = Ok (option_map (map (char_of sg)) o)) /\
  (forall o, charstr_case_skip_prefix s t = Ok o -> charstr_case_skip_prefix S T = Ok (option_map (map (char_of sg)) o)) /\
  charstr_valid_utf8 (Some S) = charstr_valid_utf8 (Some s) /\
  charstr_valid_utf8_bounded (Some S) e = charstr_valid_utf8_bounded (Some s) e.
Proof.
  intros F G S T. split; [exact (case_cmp_chars sg s t F G)|]. split; [exact (ncase_cmp_chars sg s t n F G)|]. split; [exact (ends_with_chars sg s t F G)|].
  split; [intros o E; pose proof (skip_prefix_chars sg t s F G) as X; rewrite E in X; exact X|].
  split; [intros o E; pose proof (case_skip_prefix_chars sg t s F G) as X; rewrite E in X; exact X|]. exact (valid_chars sg s e F).
Qed.
Lemma same_url sg junk enc s t : bytes s -> bytes t ->
  charstr_url_custom_encode junk enc (map (char_of sg) s) = charstr_url_custom_encode junk enc s /\
  charstr_create_url_encoder (map (char_of sg) s) (map (char_of sg) t) = charstr_create_url_encoder s t.
Proof. intros F G. split; [exact (url_encode_chars sg junk enc s F)|exact (create_encoder_chars sg s t F G)]. Qed.
