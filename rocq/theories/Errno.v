(** Proofs about errno. *)
From Verif Require Import Base CMem CharstrModel CharstrSpec UrlModel UrlSpec UrlProofs Base64Model Base64Spec Base64Round Base64Any ByteArrayModel ByteArraySpec ByteArrayProofs OwnProofs NewMem ErrnoModel Base64Proofs.
From Coq Require Import ZifyBool ZifyNat.

Lemma url_decode_same junk errno e plus size : url_decode junk errno e plus size =
  (o <- charstr_url_decode junk e plus ;;
   Ok match o with
      | None => (None, size, E_ILSEQ)
      | Some (b, n) => (Some b, match size with Some _ => Some n | None => None end, errno)
      end).
Proof.
  unfold url_decode, charstr_url_decode. destruct (decoded_length e 0) as [[n|]| | |]; try reflexivity. cbn [bind].
  destruct (decode_loop plus e (fresh_block junk (u64 (n + 1))) 0); reflexivity.
Qed.

Lemma ensure_errno junk a len a' ok : ensure_space junk a len = Ok (a', ok) -> errno a' = if ok then errno a else ENOSPC.
Proof.
  unfold ensure_space. destruct (len >=? u64 (max_size a - cursor a)).
  - intros H. injection H as <- <-. reflexivity.
  - destruct (len >=? u64 (size a - cursor a)).
    + intros H. apply bind_Ok in H as (n & _ & H). injection H as <- <-. reflexivity.
    + intros H. injection H as <- <-. reflexivity.
Qed.
Lemma set_cursor_errno a d c a' : set_cursor a d c = Ok a' -> errno a' = errno a.
Proof. unfold set_cursor. intros H. apply bind_Ok in H as (d' & _ & H). injection H as <-. reflexivity. Qed.
Lemma append_errno junk a src len a' ok : byte_array_append junk a src len = Ok (a', ok) -> errno a' = if ok then errno a else ENOSPC.
Proof.
  unfold byte_array_append. intros H. apply bind_Ok in H as ([a1 ok1] & E & H). apply ensure_errno in E. destruct ok1; cbn [negb] in H.
  - destruct (len >? zlen src); [discriminate|]. apply bind_Ok in H as (d & _ & H). apply bind_Ok in H as (a2 & E2 & H). apply set_cursor_errno in E2.
    injection H as <- <-. congruence.
  - injection H as <- <-. exact E.
Qed.
Lemma copy_errno junk a pos src len a' ok : pos <= cursor a -> byte_array_copy junk a pos src len = Ok (a', ok) -> errno a' = if ok then errno a else ENOSPC.
Proof.
  unfold byte_array_copy. intros P H. replace (pos >? cursor a) with false in H by lia. apply bind_Ok in H as ([a1 ok1] & E & H).
  assert (E1 : errno a1 = if ok1 then errno a else ENOSPC).
  { destruct (len >? u64 (cursor a - pos)); [exact (ensure_errno _ _ _ _ _ E)|]. injection E as <- <-. reflexivity. }
  destruct ok1; cbn [negb] in H.
  - destruct (len >? zlen src); [discriminate|]. apply bind_Ok in H as (d & _ & H). destruct (len >? u64 (cursor a1 - pos)).
    + apply bind_Ok in H as (a2 & E2 & H). apply set_cursor_errno in E2. injection H as <- <-. congruence.
    + injection H as <- <-. exact E1.
  - injection H as <- <-. exact E1.
Qed.
Lemma resize_errno junk a n c a' ok : byte_array_resize junk a n c = Ok (a', ok) -> errno a' = if ok then errno a else ENOSPC.
Proof.
  unfold byte_array_resize. intros H. apply bind_Ok in H as ([a1 ok1] & E & H).
  assert (E1 : errno a1 = if ok1 then errno a else ENOSPC).
  { destruct (n >? cursor a).
    - apply bind_Ok in E as ([a2 ok2] & E & E2). apply ensure_errno in E. destruct ok2.
      + apply bind_Ok in E2 as (d & _ & E2). injection E2 as <- <-. exact E.
      + injection E2 as <- <-. exact E.
    - injection E as <- <-. reflexivity. }
  destruct ok1; cbn [negb] in H.
  - apply bind_Ok in H as (a2 & E2 & H). apply set_cursor_errno in E2. injection H as <- <-. congruence.
  - injection H as <- <-. exact E1.
Qed.

(** byte arrays: what errno is after an operation *)
Lemma step_errno junk a o a' ok : (forall len cb, o <> Stream len cb) ->
  (forall p d, o = Copy p d \/ o = CopyString p d -> p <= cursor a) ->
  step junk a o = Ok (a', ok) -> errno a' = if ok then errno a else ENOSPC.
Proof.
  intros N P H. destruct o as [d|s|pos d|pos s|n c| |len cb]; cbn [step] in H.
  - exact (append_errno _ _ _ _ _ _ H).
  - unfold byte_array_append_string in H. apply bind_Ok in H as (n & _ & H). exact (append_errno _ _ _ _ _ _ H).
  - exact (copy_errno _ _ _ _ _ _ _ (P pos d (or_introl eq_refl)) H).
  - unfold byte_array_copy_string in H. apply bind_Ok in H as (n & _ & H). exact (copy_errno _ _ _ _ _ _ _ (P pos s (or_intror eq_refl)) H).
  - exact (resize_errno _ _ _ _ _ _ H).
  - apply bind_Ok in H as (a1 & E & H). apply set_cursor_errno in E. injection H as <- <-. exact E.
  - destruct (N len cb eq_refl).
Qed.

Lemma step_behind junk a p d a' ok o : o = Copy p d \/ o = CopyString p d -> op_ok o -> cursor a < p -> step junk a o = Ok (a', ok) ->
  ok = false /\ a' = a.
Proof.
  intros O Ho P H. destruct O as [-> | ->]; cbn [step op_ok] in *.
  - unfold byte_array_copy in H. replace (p >? cursor a) with true in H by lia. injection H as <- <-. auto.
  - unfold byte_array_copy_string in H. apply bind_Ok in H as (n & _ & H). unfold byte_array_copy in H.
    replace (p >? cursor a) with true in H by lia. injection H as <- <-. auto.
Qed.

Lemma array_errno junk m ops o junk' : 1 <= m < 2 ^ 64 -> Forall (fun jo => op_ok (snd jo)) ops -> op_ok o ->
  (forall len cb, o <> Stream len cb) ->
  exists a bs a' ok, run_new junk m ops = Ok (a, bs) /\ step junk' a o = Ok (a', ok) /\
    errno a' = match intended m (firstn (Z.to_nat (byte_array_size a)) (byte_array_data a)) o with
               | None => errno a
               | Some l' => if zlen l' + 1 <=? m then errno a else ENOSPC
               end.
Proof.
  intros Hm Ho Ho1 N. destruct (make_ok junk m Hm) as (a0 & r0 & E0 & R0 & _).
  destruct (run_ok m ops Ho a0 [] 0 r0 R0) as (a & t & rest & E & R & K & _).
  exists a. eexists. unfold run_new. rewrite E0. cbn [bind]. set (l := fst _) in *.
  destruct (step_ok junk' m a l t rest o R Ho1) as (a1 & t1 & rest1 & E1 & R1 & K1 & C1).
  exists a1. eexists. split; [exact E|]. split; [exact E1|].
  destruct R as (Rd & Rc & _). unfold byte_array_size, byte_array_data. rewrite Rc, Rd, firstn_zlen.
  assert (B : (exists p d, (o = Copy p d \/ o = CopyString p d) /\ cursor a < p) \/ (forall p d, o = Copy p d \/ o = CopyString p d -> p <= cursor a)).
  { destruct o as [d|s|pos d|pos s|n c| |len cb]; try (right; intros ? ? [?|?]; discriminate).
    - destruct (Z_lt_ge_dec (cursor a) pos); [left; eauto|right]. intros ? ? [X|X]; [injection X as <- <-; lia|discriminate].
    - destruct (Z_lt_ge_dec (cursor a) pos); [left; eauto|right]. intros ? ? [X|X]; [discriminate|injection X as <- <-; lia]. }
  destruct B as [(p & d & O & B)|B].
  - destruct (step_behind _ _ _ _ _ _ _ O Ho1 B E1) as [_ ->].
    assert (I : intended m l o = None) by (destruct O as [-> | ->]; cbn [intended]; rewrite Rc in B; replace (p <=? zlen l) with false by lia; reflexivity).
    rewrite I. reflexivity.
  - rewrite (step_errno _ _ _ _ _ N B E1). unfold spec_step. destruct (intended m l o) as [l'|] eqn:I.
    + destruct (zlen l' <? m) eqn:L; cbn [snd].
      * replace (zlen l' + 1 <=? m) with true by lia. reflexivity.
      * replace (zlen l' + 1 <=? m) with false by lia. reflexivity.
    + exfalso. destruct o as [d|s|pos d|pos s|n c| |len cb]; cbn [intended] in I; try discriminate.
      * specialize (B pos d (or_introl eq_refl)). rewrite Rc in B. replace (pos <=? zlen l) with true in I by lia. discriminate.
      * specialize (B pos s (or_intror eq_refl)). rewrite Rc in B. replace (pos <=? zlen l) with true in I by lia. discriminate.
      * exact (N len cb eq_refl).
Qed.

(** base64 *)
Lemma sextets_bound : forall n d, (length d <= n)%nat -> (length d <= length (sextets d))%nat.
Proof.
  induction n as [|n IH]; intros d H; [destruct d; [cbn; lia|cbn in H; lia]|].
  destruct d as [|a [|b [|c d]]]; cbn [sextets length] in *; try lia. specialize (IH d ltac:(lia)). lia.
Qed.
Lemma decodes_short value wsp t d : decodes value wsp t d -> zlen d <= zlen t.
Proof.
  intros (_ & body & pad & trail & -> & M & _). rewrite zlen_app. unfold zlen. pose proof (sextets_bound (length d) d (Nat.le_refl _)) as B.
  assert (E : length (filter (fun c => negb (wsp c)) body) = length (sextets d)) by (rewrite <- (map_length value), M; apply map_length).
  assert (F : (length (filter (fun c => negb (wsp c)) body) <= length body)%nat).
  { clear. induction body as [|x l IH]; cbn [filter length]; [lia|]. destruct (negb (wsp x)); cbn [length]; lia. }
  lia.
Qed.
Lemma decode_simple_errno junk e t r n0 : Forall (fun c => byte c /\ c <> 0) t -> zlen t < 2 ^ 62 ->
  (exists d, decodes (code_value 43 47) code_wsp t d /\ decode_simple junk e (t ++ 0 :: r) n0 = Ok (Some (d ++ [0]), zlen d, e)) \/
  ((forall d, ~ decodes (code_value 43 47) code_wsp t d) /\ decode_simple junk e (t ++ 0 :: r) n0 = Ok (None, n0, E_ILSEQ)).
Proof.
  intros Ht Hl. pose proof (zlen_nonneg t) as P.
  assert (Htext : text_of (t ++ 0 :: r) (u64 (-1)) t).
  { split; [exact Ht|]. exists (0 :: r). split; [reflexivity|]. right. split; [|exists r; reflexivity]. change (u64 (-1)) with (2 ^ 64 - 1). lia. }
  destruct (decode_exact (t ++ 0 :: r) (u64 (-1)) t [] 0 (-1) (-1) true Htext ltac:(lia) ltac:(cbn; lia) ltac:(lia) ltac:(lia) good_43 good_47)
    as [(d & dest' & D & E)|(N & dest' & E)].
  - left. exists d. split; [exact D|]. unfold decode_simple, decode_buffer. rewrite E. cbn [bind]. pose proof (zlen_nonneg d) as P2.
    replace (zlen d <? 0) with false by lia.
    assert (Hd : zlen d < 2 ^ 62).
    { assert (X := decodes_short _ _ _ _ D). lia. }
    rewrite (u64_small (zlen d + 1)) by lia.
    assert (K : zlen (fresh_block junk (zlen d + 1)) = zlen d + 1) by (apply fresh_block_zlen; lia).
    set (blk := fresh_block junk (zlen d + 1)) in *. clearbody blk.
    pose proof (decode_short (t ++ 0 :: r) (u64 (-1)) t blk (zlen d) (-1) (-1) true Htext ltac:(lia)
                  ltac:(lia) ltac:(lia) ltac:(lia) good_43 good_47 d D) as H2.
    cbv zeta in H2. rewrite H2. cbn [bind]. rewrite Z.min_id, zlen_to_nat, firstn_all.
    destruct (skipn_S_cons (length d) blk) as [x Hx]; [unfold zlen in K; lia|].
    rewrite Hx. rewrite (wr_app d) by reflexivity. cbn [bind]. rewrite skipn_all2; [reflexivity|].
    unfold zlen in K; lia.
  - right. split; [exact N|]. unfold decode_simple, decode_buffer. rewrite E. reflexivity.
Qed.

Lemma decode_buffer_errno e src n t dest size p62 p63 ign :
  text_of src n t -> zlen t < 2 ^ 63 -> 0 <= size <= zlen dest -> -128 <= p62 <= 127 -> -128 <= p63 <= 127 ->
  good_pos (pos_char p62 43) -> good_pos (pos_char p63 47) ->
  let value := code_value (pos_char p62 43) (pos_char p63 47) in
  let wsp c := ign && code_wsp c in
  (exists d dest', decodes value wsp t d /\ decode_buffer e src n dest size p62 p63 ign = Ok (zlen d, dest', e)) \/
  ((forall d, ~ decodes value wsp t d) /\ exists dest', decode_buffer e src n dest size p62 p63 ign = Ok (-1, dest', E_ILSEQ)).
Proof.
  intros Ht Hl Hs H62 H63 G62 G63 value wsp. unfold decode_buffer.
  destruct (decode_exact src n t dest size p62 p63 ign Ht Hl Hs H62 H63 G62 G63) as [(d & dest' & D & E)|(N & dest' & E)]; rewrite E; cbn [bind].
  - left. exists d, dest'. auto.
  - right. split; [exact N|]. exists dest'. reflexivity.
Qed.
Lemma url_decode_errno junk e p t r size : text t -> zlen t + 1 < 2 ^ 64 ->
  (illegal t /\ url_decode junk e (t ++ 0 :: r) p size = Ok (None, size, E_ILSEQ)) \/
  (~ illegal t /\ exists d, UrlSpec.decodes p t d /\ url_decode junk e (t ++ 0 :: r) p size = Ok (Some (d ++ [0]), match size with Some _ => Some (zlen d) | None => None end, e)).
Proof.
  intros Ht Hl. rewrite url_decode_same. destruct (decode_ok junk p t r Ht Hl) as [[E I]|(d & D & E)]; rewrite E; cbn [bind].
  - left. auto.
  - right. split; [exact (decodes_legal p t d D)|]. exists d. auto.
Qed.
