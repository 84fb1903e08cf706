(** Sizes on any platform: proofs. *)
From Verif Require Import Base CMem CharstrModel CharstrSpec CharstrProofs UrlModel UrlSpec UrlProofs Utf8Model Utf8Spec Utf8Proofs
  Base64Model ByteArrayModel ByteArrayProofs WidthModel WidthInt.
From Coq Require Import ZifyBool ZifyNat.

Lemma uw_range w x : 0 <= w -> 0 <= uw w x < 2 ^ w.
Proof. intros H. apply Z.mod_pos_bound, Z.pow_pos_nonneg; lia. Qed.
Lemma uw_add w x y : uw w (uw w x + y) = uw w (x + y).
Proof. unfold uw. apply Zplus_mod_idemp_l. Qed.
Lemma uw_le w x : 0 <= w -> 0 <= x -> uw w x <= x.
Proof. intros Hw Hx. apply Z.mod_le; [exact Hx|]. apply Z.pow_pos_nonneg; lia. Qed.

(** ** URL encoding *)
Lemma encoded_length_on_ok w t : forall s r n, text s ->
  encoded_length_on w t (s ++ 0 :: r) (uw w n) = Ok (uw w (n + fold_right Z.add 0 (map (url_encoding_width t) s))).
Proof.
  induction s as [|c s IH]; intros r n Hs.
  - cbn. rewrite Z.add_0_r. reflexivity.
  - apply text_cons in Hs. destruct Hs as [Hc Hs]. cbn [encoded_length_on app map fold_right]. rewrite truth_pos by assumption.
    rewrite uw_add. rewrite (IH r (n + url_encoding_width t c) Hs). rewrite Z.add_assoc. reflexivity.
Qed.

Lemma put_string_short : forall vs pre old, zlen old < zlen vs -> put_string (pre ++ old) (zlen pre) vs = UB.
Proof.
  induction vs as [|v vs IH]; intros pre old H; [pose proof (zlen_nonneg old); change (zlen (@nil Z)) with 0 in H; lia|].
  cbn [put_string]. destruct old as [|x old].
  - rewrite app_nil_r. unfold wr, inb. replace ((0 <=? zlen pre) && (zlen pre <? zlen pre)) with false by lia. reflexivity.
  - rewrite wr_app by reflexivity. cbn [bind]. rewrite !zlen_cons in H.
    replace (pre ++ v :: old) with ((pre ++ [v]) ++ old) by (rewrite <- app_assoc; reflexivity).
    replace (zlen pre + 1) with (zlen (pre ++ [v])) by (rewrite zlen_snoc; lia). apply IH. lia.
Qed.

Lemma encode_loop_short t : forall s r pre old, text s ->
  zlen old <= zlen (concat (map (charstr_url_custom_encode_byte t) s)) ->
  encode_loop t (s ++ 0 :: r) (pre ++ old) (zlen pre) = UB.
Proof.
  induction s as [|c s IH]; intros r pre old Hs Hl.
  - cbn [map concat] in Hl. change (zlen (@nil Z)) with 0 in Hl. pose proof (zlen_nonneg old).
    rewrite (zlen_0_nil old) by lia. rewrite app_nil_r. cbn [encode_loop app]. change (truth 0) with false.
    unfold wr, inb. replace ((0 <=? zlen pre) && (zlen pre <? zlen pre)) with false by lia. reflexivity.
  - apply text_cons in Hs. destruct Hs as [Hc Hs]. cbn [encode_loop app map concat] in *. rewrite truth_pos by assumption.
    set (x := charstr_url_custom_encode_byte t c) in *. rewrite zlen_app in Hl.
    destruct (Z.lt_ge_cases (zlen old) (zlen x)) as [L|L]; [rewrite put_string_short by assumption; reflexivity|].
    rewrite <- (firstn_skipn (length x) old) at 1. rewrite put_string_ok by (unfold zlen in *; rewrite firstn_length; lia). cbn [bind].
    replace (pre ++ x ++ skipn (length x) old) with ((pre ++ x) ++ skipn (length x) old) by (symmetry; apply app_assoc).
    rewrite <- zlen_app. apply IH; [assumption|]. unfold zlen in *. rewrite skipn_length. lia.
Qed.

Lemma widths_sum r u t s : encoder_for r u t -> ~ In 37 u -> text s ->
  fold_right Z.add 0 (map (url_encoding_width t) s) = zlen (concat (map (charstr_url_custom_encode_byte t) s)).
Proof.
  intros H N. induction s as [|c s IH]; intros Hs; [reflexivity|]. apply text_cons in Hs. destruct Hs as [Hc Hs].
  cbn [map concat fold_right]. rewrite zlen_app, IH by assumption. destruct (width_ok r u t c H Hc) as (_ & _ & A). rewrite A by assumption. reflexivity.
Qed.

Lemma encode_on w junk r u t s rest : 0 <= w -> encoder_for r u t -> ~ In 37 u -> text s ->
  charstr_url_custom_encode_on w junk t (s ++ 0 :: rest) =
    let e := concat (map (charstr_url_custom_encode_byte t) s) in
    if zlen e + 1 <? 2 ^ w then Ok (e ++ [0]) else UB.
Proof.
  intros Hw H N Hs. cbv zeta. set (e := concat _). unfold charstr_url_custom_encode_on.
  change 0 with (uw w 0) at 2. rewrite encoded_length_on_ok by assumption. cbn [bind].
  rewrite Z.add_0_l, uw_add, (widths_sum r u) by assumption. fold e. pose proof (zlen_nonneg e) as He.
  pose proof (uw_range w (zlen e + 1) Hw) as R.
  destruct (zlen e + 1 <? 2 ^ w) eqn:L.
  - rewrite uw_small by lia. pose proof (encode_loop_ok t s rest [] (fresh_block junk (zlen e + 1)) Hs) as EL.
    cbn [app] in EL. change (zlen (@nil Z)) with 0 in EL. fold e in EL. rewrite EL by (rewrite fresh_block_zlen by lia; lia).
    rewrite skipn_all2; [reflexivity|]. pose proof (fresh_block_zlen junk (zlen e + 1) ltac:(lia)). unfold zlen in *. lia.
  - apply (encode_loop_short t s rest [] (fresh_block junk (uw w (zlen e + 1)))); [assumption|]. fold e. rewrite fresh_block_zlen by lia. lia.
Qed.

Lemma url_encode_on w junk s rest : 0 <= w -> text s ->
  charstr_url_encode_on w junk (s ++ 0 :: rest) =
    let e := concat (map charstr_url_encode_byte s) in
    if zlen e + 1 <? 2 ^ w then Ok (e ++ [0]) else UB.
Proof. intros Hw Hs. exact (encode_on w junk [] [] _ s rest Hw default_for (fun F => F) Hs). Qed.

(** ** URL decoding *)
Lemma decoded_length_on_eq w : 0 <= w <= 64 -> forall k e n, (length e <= k)%nat -> 0 <= n -> n + zlen e < 2 ^ w ->
  decoded_length_on w e n = decoded_length e n.
Proof.
  intros Hw. assert (P : 2 ^ w <= 2 ^ 64) by (apply Z.pow_le_mono_r; lia).
  induction k as [|k IH]; intros e n Hk Hn Hl; (destruct e as [|c e]; [reflexivity|]); cbn [length] in Hk; [lia|].
  rewrite zlen_cons in Hl. pose proof (zlen_nonneg e). cbn [decoded_length_on decoded_length]. destruct (truth c); [|reflexivity].
  rewrite uw_small by lia. rewrite u64_small by lia. destruct (c =? 37).
  - destruct e as [|h e]; [reflexivity|]. destruct (negb (is_hex h)); [reflexivity|]. destruct e as [|l e]; [reflexivity|].
    destruct (negb (is_hex l)); [reflexivity|]. cbn [length] in Hk. rewrite !zlen_cons in *. apply IH; lia.
  - apply IH; lia.
Qed.

Lemma decoded_le : forall k e n m, (length e <= k)%nat -> 0 <= n -> n + zlen e < 2 ^ 64 -> decoded_length e n = Ok (Some m) -> 0 <= m < n + zlen e.
Proof.
  induction k as [|k IH]; intros e n m Hk Hn Hl E; (destruct e as [|c e]; [discriminate|]); cbn [length] in Hk; [lia|].
  rewrite zlen_cons in *. pose proof (zlen_nonneg e). cbn [decoded_length] in E. destruct (truth c); [|injection E as <-; lia].
  rewrite u64_small in E by lia. destruct (c =? 37).
  - destruct e as [|h e]; [discriminate|]. destruct (negb (is_hex h)); [discriminate|]. destruct e as [|l e]; [discriminate|].
    destruct (negb (is_hex l)); [discriminate|]. cbn [length] in Hk. rewrite !zlen_cons in *. apply IH in E; lia.
  - apply IH in E; lia.
Qed.

Lemma decode_on w junk e p : 0 <= w <= 64 -> zlen e < 2 ^ w -> charstr_url_decode_on w junk e p = charstr_url_decode junk e p.
Proof.
  intros Hw Hl. assert (P : 2 ^ w <= 2 ^ 64) by (apply Z.pow_le_mono_r; lia). unfold charstr_url_decode_on, charstr_url_decode.
  rewrite (decoded_length_on_eq w Hw (length e)) by lia. destruct (decoded_length e 0) as [[m|]| | |] eqn:E; try reflexivity.
  cbn [bind]. apply (decoded_le (length e)) in E; try lia. rewrite uw_small, u64_small by lia. reflexivity.
Qed.

(** ** Sanitizing *)
Lemma count_bad_on_ok w : 0 <= w -> forall n s r fuel bad, (length s <= n)%nat -> (n < fuel)%nat -> text s ->
  exists t k, count_bad_on w fuel (s ++ 0 :: r) (uw w bad) = Ok (0 :: r, uw w (bad + k)) /\ sane s t /\ zlen t = zlen s + 2 * k /\ 0 <= k <= zlen s.
Proof.
  intros Hw. induction n as [n IH] using lt_wf_ind. intros s r fuel bad Hn Hf Hs. destruct fuel as [|fuel]; [lia|]. cbn [count_bad_on].
  destruct s as [|c s].
  { exists [], 0. rewrite Z.add_0_r. split; [reflexivity|]. split; [constructor|]. unfold zlen; cbn; lia. }
  cbn [app cur bind]. destruct (proj1 (text_cons c s) Hs) as [Hc Hs']. rewrite truth_pos by assumption.
  destruct (decode_string c s r Hs) as (o & -> & Ho). cbn [bind]. destruct o as [[t cp]|].
  - destruct Ho as (bs & u & E & -> & A).
    pose proof (pattern_length _ _ (proj1 A)). rewrite E in Hn, Hs |- *. rewrite app_length in Hn.
    apply text_app in Hs. destruct Hs as [_ Hu]. pose proof (zlen_nonneg bs).
    destruct (IH (length u) ltac:(lia) u r fuel bad) as (t & k & E1 & E2 & E3 & E4); try lia; try assumption.
    exists (bs ++ t), k. split; [exact E1|]. split; [apply (Sane_good bs cp); assumption|]. rewrite !zlen_app. lia.
  - cbn [tl]. cbn [length] in Hn. rewrite uw_add.
    destruct (IH (length s) ltac:(lia) s r fuel (bad + 1)) as (t & k & E1 & E2 & E3 & E4); try lia; try assumption.
    exists (utf8 0xfffd ++ t), (1 + k). split; [rewrite E1; replace (bad + 1 + k) with (bad + (1 + k)) by lia; reflexivity|]. split; [apply Sane_bad; assumption|].
    rewrite zlen_app, zlen_cons. change (zlen (utf8 65533)) with 3. lia.
Qed.

Lemma copy_until_short : forall bs pre old u, zlen old < zlen bs -> copy_until (pre ++ old) (zlen pre) (bs ++ u) u = UB.
Proof.
  induction bs as [|c bs IH]; intros pre old u H; [pose proof (zlen_nonneg old); change (zlen (@nil Z)) with 0 in H; lia|].
  cbn [app copy_until]. replace (zlen (c :: bs ++ u) =? zlen u) with false by (rewrite zlen_cons, zlen_app; pose proof (zlen_nonneg bs); lia).
  destruct old as [|x old].
  - rewrite app_nil_r. unfold wr, inb. replace ((0 <=? zlen pre) && (zlen pre <? zlen pre)) with false by lia. reflexivity.
  - rewrite wr_app by reflexivity. cbn [bind]. rewrite !zlen_cons in H.
    replace (pre ++ c :: old) with ((pre ++ [c]) ++ old) by (rewrite <- app_assoc; reflexivity).
    replace (zlen pre + 1) with (zlen (pre ++ [c])) by (rewrite zlen_snoc; lia). apply IH. lia.
Qed.

Lemma sanitize_loop_short : forall n s t, sane s t -> forall r fuel pre old, (length s <= n)%nat -> (n < fuel)%nat -> text s ->
  zlen old <= zlen t -> sanitize_loop fuel (s ++ 0 :: r) (pre ++ old) (zlen pre) = UB.
Proof.
  induction n as [n IH] using lt_wf_ind. intros s t H r fuel pre old Hn Hf Hs Hl. destruct fuel as [|fuel]; [lia|]. cbn [sanitize_loop].
  destruct s as [|c s].
  { pose proof (sane_det [] [] Sane_nil t H). subst t. change (zlen (@nil Z)) with 0 in Hl. pose proof (zlen_nonneg old).
    rewrite (zlen_0_nil old) by lia. rewrite app_nil_r. cbn [app cur bind]. change (truth 0) with false.
    unfold wr, inb. replace ((0 <=? zlen pre) && (zlen pre <? zlen pre)) with false by lia. reflexivity. }
  cbn [app cur bind]. destruct (proj1 (text_cons c s) Hs) as [Hc Hs']. rewrite truth_pos by assumption.
  destruct (decode_string c s r Hs) as (o & -> & Ho). cbn [bind]. destruct o as [[t' cp]|].
  - destruct Ho as (bs & u & E & -> & A).
    change (c :: s ++ 0 :: r) with ((c :: s) ++ 0 :: r).
    assert (exists v, t = bs ++ v /\ sane u v) as (v & -> & Hv).
    { inversion H as [|bs' cp' s' t'' A' Hs2 E2|c' s' t'' Bad' Hs2 E2]; subst.
      - rewrite E in E2. destruct (pattern_prefix _ _ _ _ _ _ (proj1 A') (proj1 A) E2) as (-> & _ & ->). eauto.
      - exfalso. apply Bad'. exists bs, cp, u. auto. }
    pose proof (pattern_length _ _ (proj1 A)). rewrite E in Hn, Hs |- *. rewrite app_length in Hn.
    apply text_app in Hs. destruct Hs as [_ Hu]. rewrite zlen_app in Hl. rewrite <- app_assoc.
    destruct (Z.lt_ge_cases (zlen old) (zlen bs)) as [L|L]; [rewrite copy_until_short by assumption; reflexivity|].
    rewrite <- (firstn_skipn (length bs) old).
    assert (L1 : zlen (firstn (length bs) old) = zlen bs) by (unfold zlen in *; rewrite firstn_length; lia).
    rewrite copy_until_ok by assumption. cbn [bind].
    replace (pre ++ bs ++ skipn (length bs) old) with ((pre ++ bs) ++ skipn (length bs) old) by (symmetry; apply app_assoc).
    rewrite <- zlen_app. apply (IH (length u) ltac:(lia) u v Hv r fuel (pre ++ bs)); try lia; try assumption.
    unfold zlen in *. rewrite skipn_length. lia.
  - assert (exists v, t = utf8 0xfffd ++ v /\ sane s v) as (v & -> & Hv).
    { inversion H as [|bs' cp' s' t'' A' Hs2 E2|c' s' t'' Bad' Hs2 E2]; subst.
      - exfalso. apply Ho. exists bs', cp', s'. auto.
      - eauto. }
    cbn [tl]. rewrite replacement_is. rewrite zlen_app in Hl. cbn [length] in Hn.
    destruct (Z.lt_ge_cases (zlen old) (zlen (utf8 0xfffd))) as [L|L].
    { unfold blit. rewrite zlen_app. replace ((0 <=? zlen pre) && (zlen pre + zlen (utf8 65533) <=? zlen pre + zlen old)) with false by lia. reflexivity. }
    rewrite <- (firstn_skipn (length (utf8 0xfffd)) old).
    assert (L1 : zlen (firstn (length (utf8 0xfffd)) old) = zlen (utf8 0xfffd)) by (unfold zlen in *; rewrite firstn_length; lia).
    rewrite blit_app by (reflexivity || assumption). cbn [bind].
    replace (pre ++ utf8 0xfffd ++ skipn (length (utf8 0xfffd)) old) with ((pre ++ utf8 0xfffd) ++ skipn (length (utf8 0xfffd)) old)
      by (symmetry; apply app_assoc).
    rewrite <- zlen_app. apply (IH (length s) ltac:(lia) s v Hv r fuel (pre ++ utf8 0xfffd)); try lia; try assumption.
    unfold zlen in *. rewrite skipn_length. lia.
Qed.

Lemma sanitize_on w junk s r : 0 <= w -> text s ->
  exists t, sane s t /\ charstr_sanitize_utf8_on w junk (s ++ 0 :: r) = if zlen t + 1 <? 2 ^ w then Ok (t ++ [0]) else UB.
Proof.
  intros Hw Hs. pose proof (zlen_nonneg s). unfold charstr_sanitize_utf8_on.
  destruct (count_bad_on_ok w Hw (length s) s r (S (length (s ++ 0 :: r))) 0) as (t & k & E & A & B & C); try lia; try assumption.
  { rewrite app_length. cbn. lia. }
  change (uw w 0) with 0 in E. rewrite E. cbn [bind]. change (zlen REPLACEMENT_CHARACTER) with 3. rewrite zlen_app.
  rewrite Z.add_0_l. exists t. split; [exact A|].
  replace (uw w (zlen s + zlen (0 :: r) - zlen (0 :: r) + uw w k * (3 - 1))) with (uw w (zlen t)).
  2:{ rewrite B. unfold uw. rewrite Z.add_simpl_r. change (3 - 1) with 2. rewrite (Z.mul_comm 2 k).
      rewrite (Zplus_mod (zlen s) (k mod 2 ^ w * 2)), Zmult_mod_idemp_l, <- Zplus_mod. reflexivity. }
  rewrite uw_add. pose proof (zlen_nonneg t). pose proof (uw_range w (zlen t + 1) Hw).
  destruct (zlen t + 1 <? 2 ^ w) eqn:L.
  - rewrite uw_small by lia. pose proof (sanitize_loop_ok (length s) s t A r (S (length (s ++ 0 :: r))) []) as SL.
    cbn [app] in SL. change (zlen (@nil Z)) with 0 in SL. apply SL; try lia; try assumption.
    + rewrite app_length. cbn. lia.
    + rewrite fresh_block_zlen by lia. lia.
  - apply (sanitize_loop_short (length s) s t A r (S (length (s ++ 0 :: r))) [] (fresh_block junk (uw w (zlen t + 1)))); try lia; try assumption.
    + rewrite app_length. cbn. lia.
    + rewrite fresh_block_zlen by lia. lia.
Qed.

(** ** Base64 *)
Lemma base64_size_on w n : 3 <= w -> 0 <= n < 2 ^ w ->
  base64_encoding_size_on w n = if (n + 2) / 3 * 4 <? 2 ^ w then (n + 2) / 3 * 4 else 2 ^ w - 1.
Proof.
  intros Hw Hn. assert (P : 8 <= 2 ^ w) by (change 8 with (2 ^ 3); apply Z.pow_le_mono_r; lia).
  assert (M : uw w (-1) = 2 ^ w - 1) by (unfold uw; symmetry; apply (Z.mod_unique_pos _ _ (-1)); lia).
  unfold base64_encoding_size_on. rewrite M. remember (2 ^ w) as p eqn:Ep.
  assert (D : 3 * ((n + 2) / 3) <= n + 2 < 3 * ((n + 2) / 3) + 3).
  { pose proof (Z.div_mod (n + 2) 3 ltac:(lia)). pose proof (Z.mod_pos_bound (n + 2) 3 ltac:(lia)). lia. }
  destruct (Z.lt_ge_cases (n + 2) p) as [L|L].
  - rewrite (uw_small w (n + 2)) by (rewrite <- Ep; lia). set (q := (n + 2) / 3) in *. destruct (q * 4 <? p) eqn:E.
    + rewrite uw_small by (rewrite <- Ep; lia). replace (q * 4 <? n) with false by lia. reflexivity.
    + replace (uw w (q * 4)) with (q * 4 - p) by (unfold uw; rewrite <- Ep; apply (Z.mod_unique_pos _ _ 1); lia).
      replace (q * 4 - p <? n) with true by lia. reflexivity.
  - replace (uw w (n + 2)) with (n + 2 - p) by (unfold uw; rewrite <- Ep; apply (Z.mod_unique_pos _ _ 1); lia).
    replace ((n + 2 - p) / 3 * 4) with 0 by (rewrite Z.div_small by lia; reflexivity). rewrite uw_small by (rewrite <- Ep; lia).
    replace (0 <? n) with true by lia. replace ((n + 2) / 3 * 4 <? p) with false by lia. reflexivity.
Qed.

(** ** Byte arrays *)
Definition rep_on (w m : Z) (a : byte_array) (l : list Z) (t : Z) (rest : list Z) : Prop :=
  data a = l ++ t :: rest /\ cursor a = zlen l /\ max_size a = m /\ size a = zlen (data a) /\
  zlen l < m < 2 ^ w /\ size a < 2 ^ w.

Lemma round_loop_on_ok w target : 1 <= w -> target < 2 ^ w -> forall fuel k,
  0 <= k <= w - 1 -> (Z.to_nat (w - k) < fuel)%nat ->
  exists n, round_loop_on w fuel target (2 ^ k) = Ok n /\ target <= n < 2 ^ w.
Proof.
  intros Hw Ht. induction fuel as [|fuel IH]; intros k Hk Hf; [lia|]. cbn [round_loop_on].
  assert (P : 0 < 2 ^ k < 2 ^ w) by (split; [apply Z.pow_pos_nonneg; lia|apply Z.pow_lt_mono_r; lia]).
  assert (Q : 2 ^ w = 2 * 2 ^ (w - 1)) by (replace w with (1 + (w - 1)) at 1 by lia; apply Z.pow_add_r; lia).
  assert (H2 : (2 ^ w - 1) / 2 = 2 ^ (w - 1) - 1) by (symmetry; apply (Z.div_unique_pos _ _ _ 1); lia).
  destruct (2 ^ k <? target) eqn:E; [|exists (2 ^ k); split; [reflexivity|lia]].
  rewrite H2. destruct (2 ^ k >? 2 ^ (w - 1) - 1) eqn:E2.
  - exists (2 ^ w - 1). split; [reflexivity|]. lia.
  - assert (Hk' : k < w - 1).
    { destruct (Z.eq_dec k (w - 1)) as [->|]; [|lia]. exfalso. lia. }
    rewrite Z.shiftl_mul_pow2 by lia. rewrite <- Z.pow_add_r by lia.
    rewrite uw_small by (split; [apply Z.pow_nonneg; lia|apply Z.pow_lt_mono_r; lia]). apply IH; lia.
Qed.

Lemma append_on w junk m a l t rest d : 1 <= w -> rep_on w m a l t rest -> zlen d < 2 ^ w ->
  exists a' t' rest', byte_array_append_on w junk a d (zlen d) = Ok (a', zlen l + zlen d <? m) /\
    rep_on w m a' (if zlen l + zlen d <? m then l ++ d else l) t' rest' /\ (t = 0 -> t' = 0).
Proof.
  intros Hw R Hd. pose proof R as (Rd & Rc & Rm & Rs & Rlm & Rsz). pose proof (zlen_nonneg d). pose proof (zlen_nonneg l). pose proof (zlen_nonneg rest).
  assert (RL : zlen (data a) = zlen l + 1 + zlen rest) by (rewrite Rd, zlen_app, zlen_cons; lia).
  unfold byte_array_append_on, ensure_space_on. rewrite Rm, Rc. rewrite (uw_small w (m - zlen l)) by lia.
  destruct (zlen l + zlen d <? m) eqn:E.
  2:{ replace (zlen d >=? m - zlen l) with true by lia. cbn [bind negb]. eexists _, t, rest. split; [reflexivity|]. split; [|auto].
      unfold rep_on. cbn [data cursor max_size size]. auto 10. }
  replace (zlen d >=? m - zlen l) with false by lia. rewrite (uw_small w (size a - zlen l)) by lia.
  assert (G : exists a1 rest1, (if zlen d >=? size a - zlen l then
      n <- round_loop_on w (Z.to_nat (w + 2)) (uw w (zlen l + zlen d + 1)) 1 ;;
      Ok (BA (realloc junk (data a) n) (zlen l) m n (ref_count a) (errno a), true) else Ok (a, true)) = Ok (a1, true) /\
      rep_on w m a1 l t rest1 /\ zlen d <= zlen rest1).
  { destruct (zlen d >=? size a - zlen l) eqn:G.
    - rewrite (uw_small w (zlen l + zlen d + 1)) by lia.
      destruct (round_loop_on_ok w (zlen l + zlen d + 1) Hw ltac:(lia) (Z.to_nat (w + 2)) 0 ltac:(lia) ltac:(lia)) as (n & N1 & N2).
      change (2 ^ 0) with 1 in N1. rewrite N1. cbn [bind].
      assert (F : zlen (fresh_block junk (n - zlen (data a))) = n - zlen (data a)) by (apply fresh_block_zlen; lia).
      exists (BA (realloc junk (data a) n) (zlen l) m n (ref_count a) (errno a)), (rest ++ fresh_block junk (n - zlen (data a))).
      split; [reflexivity|]. rewrite (realloc_grow junk (data a) n) by lia. unfold rep_on. cbn [data cursor max_size size].
      split; [|rewrite zlen_app; lia].
      split; [rewrite Rd at 1; rewrite <- app_assoc; reflexivity|]. split; [reflexivity|]. split; [reflexivity|]. rewrite zlen_app, F. lia.
    - exists a, rest. split; [reflexivity|]. split; [exact R|lia]. }
  destruct G as (a1 & rest1 & -> & (Dd & Dc & Dm & Ds & Dlm & Dsz) & L1). cbn [bind negb]. replace (zlen d >? zlen d) with false by lia.
  replace (firstn (Z.to_nat (zlen d)) d) with d by (rewrite zlen_to_nat, firstn_all; reflexivity).
  rewrite Dd, Dc. destruct (blit_end l t rest1 d L1) as (rest2 & B1 & B2 & _). rewrite B1. cbn [bind].
  assert (RL1 : zlen (data a1) = zlen l + 1 + zlen rest1) by (rewrite Dd, zlen_app, zlen_cons; lia).
  rewrite uw_small by lia. unfold set_cursor.
  destruct rest2 as [|x rest2]; [change (zlen (@nil Z)) with 0 in B2; lia|]. rewrite zlen_cons in B2.
  rewrite app_assoc, <- zlen_app, wr_end. cbn [bind].
  eexists _, 0, rest2. split; [reflexivity|]. unfold rep_on. cbn [data cursor max_size size ref_count].
  rewrite !zlen_app, zlen_cons. split; [|auto]. split; [reflexivity|]. split; [reflexivity|]. lia.
Qed.
