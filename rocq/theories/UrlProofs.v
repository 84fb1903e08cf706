(** Proofs about URL encoding. *)
From Verif Require Import Base CMem CharstrTables CharstrModel CharstrSpec CharstrProofs UrlModel UrlSpec.

Lemma is_hex_range c : 0 <= c < 256 -> is_hex c = ((48 <=? c) && (c <=? 57)) || ((65 <=? c) && (c <=? 70)) || ((97 <=? c) && (c <=? 102)).
Proof. intros Hc. apply eqb_prop. revert c Hc. apply all_bytes. vm_compute. reflexivity. Qed.

Lemma is_hex_ok c : 0 <= c < 256 -> (is_hex c = true <-> exists n, hex_value c n).
Proof.
  intros Hc. rewrite is_hex_range by assumption. split.
  - intros H. apply orb_true_iff in H. destruct H as [H|H]; [apply orb_true_iff in H; destruct H as [H|H]|].
    + exists (c - 48). replace c with (48 + (c - 48)) at 1 by lia. constructor. lia.
    + exists (c - 55). replace c with (65 + (c - 55 - 10)) at 1 by lia. constructor. lia.
    + exists (c - 87). replace c with (97 + (c - 87 - 10)) at 1 by lia. constructor. lia.
  - intros (n & H). destruct H; lia.
Qed.

Lemma hex_range c n : hex_value c n -> 48 <= c < 103 /\ 0 <= n < 16.
Proof. intros H. destruct H; lia. Qed.

Lemma skipn_skipn {A} : forall n m (l : list A), skipn n (skipn m l) = skipn (n + m) l.
Proof.
  intros n m. induction m as [|m IH]; intros l; [rewrite Nat.add_0_r; reflexivity|].
  destruct l as [|x l]; [rewrite !skipn_nil; reflexivity|]. rewrite Nat.add_succ_r. cbn [skipn]. apply IH.
Qed.

(** ** Encoders *)
Definition table_ok (t : url_encoder) : Prop := length t = 256%nat.

Lemma default_ok : table_ok default_encoder.
Proof. reflexivity. Qed.

Lemma wr_table t c v : table_ok t -> 0 < c < 256 ->
  exists t', wr t (u8 c) v = Ok t' /\ table_ok t' /\
    forall d, 0 <= d < 256 -> nth (Z.to_nat (u8 d)) t' [] = if d =? c then v else nth (Z.to_nat (u8 d)) t [].
Proof.
  intros Ht Hc. unfold table_ok in *. rewrite u8_small by (change (2 ^ 8) with 256; lia).
  rewrite wr_Ok by (unfold zlen; lia). exists (upd t (Z.to_nat c) v). split; [reflexivity|].
  split; [rewrite upd_length by lia; assumption|]. intros d Hd. rewrite u8_small by (change (2 ^ 8) with 256; lia).
  destruct (d =? c) eqn:E.
  - apply Z.eqb_eq in E. subst d. apply nth_upd_eq. lia.
  - apply nth_upd_neq; lia.
Qed.

Definition mem (c : Z) (s : list Z) : bool := existsb (Z.eqb c) s.

Lemma mem_ok c s : mem c s = true <-> In c s.
Proof. unfold mem. rewrite existsb_exists. split; [intros (x & H & E); replace c with x by lia; assumption|intros H; exists c; split; [assumption|lia]]. Qed.

Lemma hex_digit_ok n : 0 <= n < 16 -> hex_digit n = upper_hex n.
Proof.
  intros H. assert (E : n = 0 \/ n = 1 \/ n = 2 \/ n = 3 \/ n = 4 \/ n = 5 \/ n = 6 \/ n = 7 \/ n = 8 \/ n = 9 \/ n = 10 \/
    n = 11 \/ n = 12 \/ n = 13 \/ n = 14 \/ n = 15) by lia.
  repeat (destruct E as [->|E]; [reflexivity|]). subst n. reflexivity.
Qed.

Lemma percent_ok c : 0 <= c < 256 -> percent c = percent_encoding c.
Proof.
  intros H. unfold percent, percent_encoding. pose proof (Z.mod_pos_bound c 16 ltac:(lia)).
  rewrite !hex_digit_ok by lia. reflexivity.
Qed.

Lemma reserve_ok : forall p r t, table_ok t -> text p ->
  exists t', reserve_loop t (p ++ 0 :: r) = Ok t' /\ table_ok t' /\
    forall d, 0 <= d < 256 -> charstr_url_custom_encode_byte t' d = if mem d p then percent_encoding d else charstr_url_custom_encode_byte t d.
Proof.
  induction p as [|c p IH]; intros r t Ht Hp.
  - exists t. auto.
  - apply text_cons in Hp. destruct Hp as [Hc Hp]. cbn [reserve_loop app]. rewrite truth_pos by assumption.
    destruct (wr_table t c (percent (u8 c)) Ht Hc) as (t1 & -> & Ht1 & E1). cbn [bind].
    destruct (IH r t1 Ht1 Hp) as (t2 & E2 & Ht2 & E3). exists t2. split; [assumption|]. split; [assumption|].
    intros d Hd. rewrite E3 by assumption. unfold mem. cbn [existsb]. unfold charstr_url_custom_encode_byte at 1. rewrite E1 by assumption.
    destruct (d =? c) eqn:E; cbn [orb]; [|reflexivity]. apply Z.eqb_eq in E. subst d.
    rewrite u8_small by (change (2 ^ 8) with 256; lia). rewrite percent_ok by lia. destruct (existsb (Z.eqb c) p); reflexivity.
Qed.

Lemma unreserve_ok : forall p r t, table_ok t -> text p ->
  exists t', unreserve_loop t (p ++ 0 :: r) = Ok t' /\ table_ok t' /\
    forall d, 0 <= d < 256 -> charstr_url_custom_encode_byte t' d = if mem d p then [d] else charstr_url_custom_encode_byte t d.
Proof.
  induction p as [|c p IH]; intros r t Ht Hp.
  - exists t. auto.
  - apply text_cons in Hp. destruct Hp as [Hc Hp]. cbn [unreserve_loop app]. rewrite truth_pos by assumption.
    destruct (wr_table t c [u8 c] Ht Hc) as (t1 & -> & Ht1 & E1). cbn [bind].
    destruct (IH r t1 Ht1 Hp) as (t2 & E2 & Ht2 & E3). exists t2. split; [assumption|]. split; [assumption|].
    intros d Hd. rewrite E3 by assumption. unfold mem. cbn [existsb]. unfold charstr_url_custom_encode_byte at 1. rewrite E1 by assumption.
    destruct (d =? c) eqn:E; cbn [orb]; [|reflexivity]. apply Z.eqb_eq in E. subst d.
    rewrite u8_small by (change (2 ^ 8) with 256; lia). destruct (existsb (Z.eqb c) p); reflexivity.
Qed.

(** The encoder made from reserve [r] and unreserve [u]. *)
Definition encoder_for (r u : list Z) (t : url_encoder) : Prop :=
  forall d, 0 <= d < 256 -> charstr_url_custom_encode_byte t d =
    if mem d u then [d] else if mem d r then percent_encoding d else charstr_url_encode_byte d.

Lemma create_ok r u rr ru : text r -> text u ->
  exists t, charstr_create_url_encoder (r ++ 0 :: rr) (u ++ 0 :: ru) = Ok t /\ encoder_for r u t.
Proof.
  intros Hr Hu. unfold charstr_create_url_encoder. destruct (reserve_ok r rr default_encoder default_ok Hr) as (t1 & -> & H1 & E1).
  cbn [bind]. destruct (unreserve_ok u ru t1 H1 Hu) as (t2 & -> & H2 & E2). exists t2. split; [reflexivity|].
  intros d Hd. rewrite E2 by assumption. rewrite E1 by assumption. reflexivity.
Qed.

Lemma default_for : encoder_for [] [] default_encoder.
Proof. intros d Hd. reflexivity. Qed.

(** ** Encoding *)
Inductive code (u : list Z) : Z -> list Z -> Prop :=
| Code_plus : code u 32 [43]
| Code_unreserved c : In c u -> code u c [c]
| Code_plain c : c <> 37 -> c <> 43 -> 32 < c < 127 -> code u c [c]
| Code_percent c : code u c (percent_encoding c).

Lemma default_code c : 0 <= c < 256 -> code [] c (charstr_url_encode_byte c).
Proof.
  intros Hc.
  set (f := fun c => let x := charstr_url_encode_byte c in
    ((c =? 32) && (nth 0 x 0 =? 43) && (zlen x =? 1)) ||
    (negb (c =? 37) && negb (c =? 43) && (32 <? c) && (c <? 127) && (nth 0 x 0 =? c) && (zlen x =? 1)) ||
    (let y := percent_encoding c in (nth 0 x 0 =? nth 0 y 0) && (nth 1 x 0 =? nth 1 y 0) && (nth 2 x 0 =? nth 2 y 0) && (zlen x =? 3))).
  assert (E : f c = true) by (revert c Hc; apply all_bytes; vm_compute; reflexivity).
  unfold f in E. clear f. set (x := charstr_url_encode_byte c) in *. clearbody x.
  assert (L1 : zlen x = 1 -> x = [nth 0 x 0]).
  { destruct x as [|a [|b x]]; intros L; [discriminate|reflexivity|]. rewrite !zlen_cons in L. pose proof (zlen_nonneg x). lia. }
  assert (L3 : zlen x = 3 -> x = [nth 0 x 0; nth 1 x 0; nth 2 x 0]).
  { destruct x as [|a [|b [|d [|e x]]]]; intros L; try discriminate; [reflexivity|]. rewrite !zlen_cons in L. pose proof (zlen_nonneg x). lia. }
  apply orb_true_iff in E. destruct E as [E|E]; [apply orb_true_iff in E; destruct E as [E|E]|].
  - replace c with 32 by lia. rewrite L1 by lia. replace (nth 0 x 0) with 43 by lia. constructor.
  - rewrite L1 by lia. replace (nth 0 x 0) with c by lia. apply Code_plain; lia.
  - cbv zeta in E. rewrite L3 by lia.
    replace (nth 0 x 0) with (nth 0 (percent_encoding c) 0) by lia. replace (nth 1 x 0) with (nth 1 (percent_encoding c) 0) by lia.
    replace (nth 2 x 0) with (nth 2 (percent_encoding c) 0) by lia. apply Code_percent.
Qed.

Lemma encoder_code r u t c : encoder_for r u t -> 0 <= c < 256 -> code u c (charstr_url_custom_encode_byte t c).
Proof.
  intros H Hc. rewrite H by assumption. destruct (mem c u) eqn:E; [apply Code_unreserved, mem_ok; assumption|].
  destruct (mem c r); [apply Code_percent|]. pose proof (default_code c Hc) as D. revert D.
  generalize (charstr_url_encode_byte c). intros l D. destruct D; [constructor|contradiction|apply Code_plain; assumption|apply Code_percent].
Qed.

Lemma encoded_length_ok t : (forall c, 0 < c < 256 -> 1 <= zlen (charstr_url_custom_encode_byte t c) <= url_encoding_width t c /\ url_encoding_width t c <= 3) ->
  forall s r n, text s -> 0 <= n -> n + 3 * zlen s < 2 ^ 64 ->
  exists m, encoded_length t (s ++ 0 :: r) n = Ok (n + m) /\ 
    m = fold_right Z.add 0 (map (url_encoding_width t) s) /\
    zlen (concat (map (charstr_url_custom_encode_byte t) s)) <= m <= 3 * zlen s.
Proof.
  intros W. induction s as [|c s IH]; intros r n Hs Hn Hl.
  - exists 0. rewrite Z.add_0_r. split; [reflexivity|]. split; [reflexivity|]. cbn. unfold zlen; cbn; lia.
  - apply text_cons in Hs. destruct Hs as [Hc Hs]. cbn [encoded_length app map concat fold_right]. rewrite truth_pos by assumption.
    rewrite zlen_cons in *. destruct (W c Hc) as (W1 & W2). pose proof (zlen_nonneg s). rewrite u64_small by lia.
    destruct (IH r (n + url_encoding_width t c)) as (m & E & Em & Hm); try assumption; try lia.
    exists (url_encoding_width t c + m). rewrite E. split; [replace (n + url_encoding_width t c + m) with (n + (url_encoding_width t c + m)) by lia; reflexivity|].
    split; [rewrite Em; reflexivity|]. rewrite zlen_app. lia.
Qed.

Lemma put_string_ok : forall vs pre old post, zlen old = zlen vs ->
  put_string (pre ++ old ++ post) (zlen pre) vs = Ok (pre ++ vs ++ post, zlen pre + zlen vs).
Proof.
  induction vs as [|v vs IH]; intros pre old post Hl.
  - apply zlen_0_nil in Hl. subst old. cbn [put_string app]. change (zlen (@nil Z)) with 0. rewrite Z.add_0_r. reflexivity.
  - destruct old as [|x old]; [rewrite zlen_cons in Hl; change (zlen (@nil Z)) with 0 in Hl; pose proof (zlen_nonneg vs); lia|].
    rewrite !zlen_cons in Hl. cbn [put_string app]. rewrite wr_app by reflexivity. cbn [bind].
    replace (pre ++ v :: old ++ post) with ((pre ++ [v]) ++ old ++ post) by (rewrite <- app_assoc; reflexivity).
    replace (zlen pre + 1) with (zlen (pre ++ [v])) by (rewrite zlen_snoc; lia).
    rewrite IH by lia. rewrite <- app_assoc. cbn [app]. rewrite zlen_snoc, zlen_cons.
    replace (zlen pre + 1 + zlen vs) with (zlen pre + (1 + zlen vs)) by lia. reflexivity.
Qed.

Lemma encode_loop_ok t : forall s r pre old, text s ->
  zlen (concat (map (charstr_url_custom_encode_byte t) s)) < zlen old ->
  encode_loop t (s ++ 0 :: r) (pre ++ old) (zlen pre) =
    Ok (pre ++ concat (map (charstr_url_custom_encode_byte t) s) ++ 0 ::
        skipn (S (length (concat (map (charstr_url_custom_encode_byte t) s)))) old).
Proof.
  induction s as [|c s IH]; intros r pre old Hs Hl.
  - destruct old as [|x old]; [change (zlen (@nil Z)) with 0 in Hl; cbn in Hl; lia|].
    cbn [encode_loop app map concat length skipn]. change (truth 0) with false. rewrite wr_app by reflexivity. reflexivity.
  - apply text_cons in Hs. destruct Hs as [Hc Hs]. cbn [encode_loop app map concat] in *. rewrite truth_pos by assumption.
    set (x := charstr_url_custom_encode_byte t c) in *. rewrite zlen_app in Hl.
    pose proof (zlen_nonneg (concat (map (charstr_url_custom_encode_byte t) s))).
    rewrite <- (firstn_skipn (length x) old) at 1. rewrite put_string_ok by (unfold zlen in *; rewrite firstn_length; lia). cbn [bind].
    replace (pre ++ x ++ skipn (length x) old) with ((pre ++ x) ++ skipn (length x) old) by (symmetry; apply app_assoc).
    rewrite <- zlen_app. rewrite IH; [|assumption|unfold zlen in *; rewrite skipn_length; lia].
    rewrite <- !app_assoc. rewrite skipn_skipn, app_length.
    replace (S (length (concat (map (charstr_url_custom_encode_byte t) s))) + length x)%nat
      with (S (length x + length (concat (map (charstr_url_custom_encode_byte t) s)))) by lia.
    reflexivity.
Qed.

Lemma width_ok r u t c : encoder_for r u t -> 0 < c < 256 ->
  1 <= zlen (charstr_url_custom_encode_byte t c) <= url_encoding_width t c /\ url_encoding_width t c <= 3 /\
  (~ In 37 u -> zlen (charstr_url_custom_encode_byte t c) = url_encoding_width t c).
Proof.
  intros H Hc. unfold url_encoding_width. pose proof (encoder_code r u t c H ltac:(lia)) as C.
  revert C. generalize (charstr_url_custom_encode_byte t c). intros l C. destruct C as [|c Hin|c H1 H2 H3|c].
  - cbn. lia.
  - unfold zlen. cbn [length nth]. destruct (c =? 37) eqn:E; (split; [lia|]); (split; [lia|]); [|lia].
    intros N. exfalso. apply N. replace 37 with c by lia. assumption.
  - unfold zlen. cbn [length nth]. replace (c =? 37) with false by lia. lia.
  - unfold zlen. cbn [length nth percent_encoding]. change (37 =? 37) with true. cbn [length]. lia.
Qed.

Lemma encode_ok junk r u t s rest : encoder_for r u t -> text s -> 3 * zlen s + 1 < 2 ^ 64 ->
  exists slack, charstr_url_custom_encode junk t (s ++ 0 :: rest) =
    Ok (concat (map (charstr_url_custom_encode_byte t) s) ++ 0 :: slack) /\ (~ In 37 u -> slack = []).
Proof.
  intros H Hs Hl. unfold charstr_url_custom_encode. pose proof (zlen_nonneg s).
  destruct (encoded_length_ok t) with (s := s) (r := rest) (n := 0) as (m & E & Em & Hm); try assumption; try lia.
  { intros c Hc. destruct (width_ok r u t c H Hc) as (A & B & _). auto. }
  rewrite E. cbn [bind]. rewrite Z.add_0_l. pose proof (zlen_nonneg (concat (map (charstr_url_custom_encode_byte t) s))).
  rewrite u64_small by lia.
  pose proof (encode_loop_ok t s rest [] (fresh_block junk (m + 1)) Hs) as EL. cbn [app] in EL. change (zlen (@nil Z)) with 0 in EL.
  rewrite EL by (rewrite fresh_block_zlen by lia; lia). clear EL.
  eexists. split; [reflexivity|]. intros N.
  assert (zlen (concat (map (charstr_url_custom_encode_byte t) s)) = m).
  { rewrite Em. clear - H Hs N. induction s as [|c s IH]; [reflexivity|]. apply text_cons in Hs. destruct Hs as [Hc Hs].
    cbn [map concat fold_right]. rewrite zlen_app, IH by assumption. destruct (width_ok r u t c H Hc) as (_ & _ & A). rewrite A by assumption. reflexivity. }
  apply skipn_all2. pose proof (fresh_block_zlen junk (m + 1) ltac:(lia)). unfold zlen in *. lia.
Qed.

(** ** Decoding *)
Lemma decodes_legal p e d : decodes p e d -> ~ illegal e.
Proof.
  intros H. induction H as [|e d H IH|h l a b e d Hh Hl H IH|c e d H1 H2 H IH]; intros (pre & rest & E & N).
  - destruct pre; discriminate.
  - destruct pre as [|x pre]; [discriminate|]. inversion E. subst. apply IH. exists pre, rest. auto.
  - pose proof (hex_range _ _ Hh). pose proof (hex_range _ _ Hl).
    destruct pre as [|x pre]; cbn [app] in E; inversion E; subst; [apply N; eauto 10|].
    destruct pre as [|y pre]; cbn [app] in *; inversion E; subst; [lia|].
    destruct pre as [|z pre]; cbn [app] in *; inversion E; subst; [lia|].
    apply IH. exists pre, rest. auto.
  - destruct pre as [|x pre]; [cbn [app] in E; inversion E; subst; congruence|]. inversion E. subst. apply IH. exists pre, rest. auto.
Qed.

Lemma decodes_length p e d : decodes p e d -> zlen d <= zlen e.
Proof. intros H. induction H; rewrite ?zlen_cons in *; lia. Qed.

Lemma illegal_cons c e : illegal e -> illegal (c :: e).
Proof. intros (pre & rest & -> & N). exists (c :: pre), rest. auto. Qed.

Lemma decoded_length_ok p : forall k e r n, (length e <= k)%nat -> text e -> 0 <= n -> n + zlen e < 2 ^ 64 ->
  (decoded_length (e ++ 0 :: r) n = Ok None /\ illegal e) \/
  (exists d, decodes p e d /\ decoded_length (e ++ 0 :: r) n = Ok (Some (n + zlen d))).
Proof.
  induction k as [k IH] using lt_wf_ind. intros e r n Hk He Hn Hl. destruct e as [|c e].
  { right. exists []. split; [constructor|]. cbn. rewrite Z.add_0_r. reflexivity. }
  apply text_cons in He. destruct He as [Hc He]. cbn [decoded_length app]. rewrite truth_pos by assumption.
  cbn [length] in Hk. rewrite zlen_cons in Hl. pose proof (zlen_nonneg e).
  destruct (c =? 37) eqn:E.
  - apply Z.eqb_eq in E. subst c.
    assert (I0 : forall h, In h [hd 0 (e ++ [0])] -> 0 <= h < 256 /\ ((~ exists n, hex_value h n) -> illegal (37 :: e))).
    { intros h [<-|[]]. split.
      - destruct e as [|h e]; cbn [hd app]; [lia|]. apply text_cons in He. lia.
      - intros N. exists [], e. split; [reflexivity|]. intros (h & l & t & a & b & -> & Hh & Hl2). apply N. cbn. eauto. }
    destruct e as [|h e]; cbn [app].
    { change (is_hex 0) with false. left. split; [reflexivity|]. apply (I0 0); [left; reflexivity|].
      intros (m & Hm). apply hex_range in Hm. lia. }
    apply text_cons in He. destruct He as [Hh He]. pose proof (is_hex_ok h ltac:(lia)) as HH.
    destruct (is_hex h); cbn [negb].
    2:{ left. split; [reflexivity|]. apply (I0 h); [left; reflexivity|]. intros Hx. apply HH in Hx. discriminate. }
    destruct (proj1 HH eq_refl) as (a & Ha).
    destruct e as [|l e]; cbn [app].
    { change (is_hex 0) with false. left. split; [reflexivity|]. exists [], [h]. split; [reflexivity|].
      intros (h' & l' & t & a' & b' & Eq & _). discriminate. }
    apply text_cons in He. destruct He as [Hl2 He]. pose proof (is_hex_ok l ltac:(lia)) as HL.
    destruct (is_hex l); cbn [negb].
    2:{ left. split; [reflexivity|]. exists [], (h :: l :: e). split; [reflexivity|].
        intros (h' & l' & t & a' & b' & Eq & _ & Hb). inversion Eq. subst.
        assert (false = true) as F; [apply HL; eauto|discriminate F]. }
    destruct (proj1 HL eq_refl) as (b & Hb). cbn [length] in Hk. rewrite !zlen_cons in *. pose proof (zlen_nonneg e).
    rewrite u64_small by lia.
    destruct (IH (length e) ltac:(lia) e r (n + 1)) as [[E1 E2]|(d & E1 & E2)]; try assumption; try lia.
    + left. split; [assumption|]. do 3 apply illegal_cons. assumption.
    + right. exists (16 * a + b :: d). split; [constructor; assumption|]. rewrite E2, zlen_cons.
      replace (n + 1 + zlen d) with (n + (1 + zlen d)) by lia. reflexivity.
  - rewrite u64_small by lia.
    destruct (IH (length e) ltac:(lia) e r (n + 1)) as [[E1 E2]|(d & E1 & E2)]; try assumption; try lia.
    + left. split; [assumption|]. apply illegal_cons. assumption.
    + right. assert (D : exists x, decodes p (c :: e) (x :: d)).
      { destruct (Z.eq_dec c 43) as [->|N]; [eexists; apply Decodes_plus; assumption|]. exists c. apply Decodes_plain; [lia|lia|assumption]. }
      destruct D as (x & D). exists (x :: d). split; [assumption|]. rewrite E2, zlen_cons.
      replace (n + 1 + zlen d) with (n + (1 + zlen d)) by lia. reflexivity.
Qed.

Lemma decode_loop_ok p e d : decodes p e d -> forall r pre old, text e -> zlen old = zlen d + 1 ->
  decode_loop p (e ++ 0 :: r) (pre ++ old) (zlen pre) = Ok (pre ++ d ++ [0]).
Proof.
  assert (Next : forall (pre : list Z) v old, zlen pre + 1 = zlen (pre ++ [v]) /\ pre ++ v :: old = (pre ++ [v]) ++ old).
  { intros. rewrite zlen_snoc, <- app_assoc. auto. }
  intros H. induction H as [|e d H IH|h l a b e d Hh Hl H IH|c e d H1 H2 H IH]; intros r pre old He Hlen.
  - change (zlen (@nil Z)) with 0 in Hlen.
    destruct old as [|x [|y old]]; [discriminate| |rewrite !zlen_cons in Hlen; pose proof (zlen_nonneg old); lia].
    cbn [decode_loop app Z.eqb Pos.eqb]. apply wr_app. reflexivity.
  - rewrite zlen_cons in Hlen. pose proof (zlen_nonneg d).
    destruct old as [|x old]; [change (zlen (@nil Z)) with 0 in Hlen; lia|]. rewrite zlen_cons in Hlen.
    apply text_cons in He. destruct He as [Hc He]. cbn [decode_loop app Z.eqb Pos.eqb]. rewrite wr_app by reflexivity. cbn [bind].
    destruct (Next pre (if p then 32 else 43) old) as [-> ->]. rewrite IH by (assumption || lia). rewrite <- app_assoc. reflexivity.
  - rewrite zlen_cons in Hlen. pose proof (zlen_nonneg d).
    destruct old as [|x old]; [change (zlen (@nil Z)) with 0 in Hlen; lia|]. rewrite zlen_cons in Hlen.
    apply text_cons in He. destruct He as [Hc He]. apply text_cons in He. destruct He as [Hc1 He]. apply text_cons in He. destruct He as [Hc2 He].
    cbn [decode_loop app Z.eqb Pos.eqb]. rewrite wr_app by reflexivity. cbn [bind]. rewrite rd_app by reflexivity. cbn [bind].
    rewrite wr_app by reflexivity. cbn [bind].
    rewrite (digit_value_ok h a Hh), (digit_value_ok l b Hl). pose proof (hex_range _ _ Hh). pose proof (hex_range _ _ Hl).
    rewrite (u8_small (a * 16)) by lia. rewrite (u8_small (a * 16 + b)) by lia. replace (a * 16 + b) with (16 * a + b) by lia.
    destruct (Next pre (16 * a + b) old) as [-> ->]. rewrite IH by (assumption || lia). rewrite <- app_assoc. reflexivity.
  - rewrite zlen_cons in Hlen. pose proof (zlen_nonneg d).
    destruct old as [|x old]; [change (zlen (@nil Z)) with 0 in Hlen; lia|]. rewrite zlen_cons in Hlen.
    apply text_cons in He. destruct He as [Hc He]. cbn [decode_loop app]. replace (c =? 0) with false by lia.
    replace (c =? 43) with false by lia. replace (c =? 37) with false by lia. rewrite wr_app by reflexivity. cbn [bind].
    destruct (Next pre c old) as [-> ->]. rewrite IH by (assumption || lia). rewrite <- app_assoc. reflexivity.
Qed.

Lemma decode_ok junk p e r : text e -> zlen e + 1 < 2 ^ 64 ->
  (charstr_url_decode junk (e ++ 0 :: r) p = Ok None /\ illegal e) \/
  (exists d, decodes p e d /\ charstr_url_decode junk (e ++ 0 :: r) p = Ok (Some (d ++ [0], zlen d))).
Proof.
  intros He Hl. unfold charstr_url_decode.
  destruct (decoded_length_ok p (length e) e r 0) as [[-> E2]|(d & D & ->)]; try assumption; try lia; cbn [bind].
  - left. auto.
  - right. exists d. split; [assumption|]. rewrite Z.add_0_l. pose proof (decodes_length p e d D). pose proof (zlen_nonneg d).
    rewrite u64_small by lia.
    pose proof (decode_loop_ok p e d D r [] (fresh_block junk (zlen d + 1)) He) as DL. cbn [app] in DL. change (zlen (@nil Z)) with 0 in DL.
    rewrite DL by (apply fresh_block_zlen; lia). reflexivity.
Qed.

Lemma hex_value_det c n m : hex_value c n -> hex_value c m -> n = m.
Proof. intros H H'. rewrite <- (digit_value_ok c n H). apply digit_value_ok. assumption. Qed.

Lemma decodes_det p e d : decodes p e d -> forall d', decodes p e d' -> d = d'.
Proof.
  intros H. induction H as [|e d H IH|h l a b e d Hh Hl H IH|c e d H1 H2 H IH]; intros d' H'; inversion H'; subst; try lia.
  - reflexivity.
  - f_equal. auto.
  - rewrite (hex_value_det h a a0), (hex_value_det l b b0) by assumption. f_equal. auto.
  - f_equal. auto.
Qed.

(** ** Round trip *)
Lemma upper_hex_value n : 0 <= n < 16 -> hex_value (upper_hex n) n.
Proof.
  intros H. rewrite <- hex_digit_ok by assumption. unfold hex_digit. destruct (n <? 10) eqn:E; [constructor; lia|].
  replace (55 + n) with (65 + (n - 10)) by lia. constructor. lia.
Qed.

Lemma decodes_code u c x e d : 0 < c < 256 -> ~ In 37 u -> ~ In 43 u -> code u c x -> decodes true e d -> decodes true (x ++ e) (c :: d).
Proof.
  intros Hc H1 H2 C D. destruct C as [|c Hin|c N1 N2 N3|c].
  - apply Decodes_plus. assumption.
  - apply Decodes_plain; [intros ->; auto|intros ->; auto|assumption].
  - apply Decodes_plain; assumption.
  - cbn [percent_encoding app]. pose proof (Z.mod_pos_bound c 16 ltac:(lia)).
    replace c with (16 * (c / 16) + c mod 16) at 3 by (symmetry; apply Z.div_mod; lia).
    apply Decodes_percent; [apply upper_hex_value; lia|apply upper_hex_value; lia|assumption].
Qed.

Lemma decodes_encoding r u t s : encoder_for r u t -> ~ In 37 u -> ~ In 43 u -> text s ->
  decodes true (concat (map (charstr_url_custom_encode_byte t) s)) s.
Proof.
  intros H H1 H2. induction s as [|c s IH]; intros Hs; [constructor|]. apply text_cons in Hs. destruct Hs as [Hc Hs].
  cbn [map concat]. apply (decodes_code u); try assumption; [|auto]. apply (encoder_code r u t); [assumption|lia].
Qed.

Lemma text_upper_hex n : 0 <= n < 16 -> 0 < upper_hex n < 256.
Proof. intros H. pose proof (hex_range _ _ (upper_hex_value n H)). lia. Qed.

Lemma text_code u c x : 0 < c < 256 -> code u c x -> text x.
Proof.
  intros Hc C. unfold text. destruct C; try (repeat constructor; lia).
  pose proof (Z.mod_pos_bound c 16 ltac:(lia)).
  apply Forall_cons; [lia|]. apply Forall_cons; [apply text_upper_hex; lia|]. apply Forall_cons; [apply text_upper_hex; lia|constructor].
Qed.

Lemma text_encoding r u t s : encoder_for r u t -> text s -> text (concat (map (charstr_url_custom_encode_byte t) s)).
Proof.
  intros H. induction s as [|c s IH]; intros Hs; [constructor|]. apply text_cons in Hs. destruct Hs as [Hc Hs].
  cbn [map concat]. apply text_app. split; [|auto]. apply (text_code u c); [assumption|]. apply (encoder_code r u t); [assumption|lia].
Qed.

Lemma encoding_length r u t s : encoder_for r u t -> text s -> zlen (concat (map (charstr_url_custom_encode_byte t) s)) <= 3 * zlen s.
Proof.
  intros H. induction s as [|c s IH]; intros Hs; [reflexivity|]. apply text_cons in Hs. destruct Hs as [Hc Hs].
  cbn [map concat]. rewrite zlen_app, zlen_cons. specialize (IH Hs). destruct (width_ok r u t c H Hc). lia.
Qed.

Lemma round_trip junk junk' r u t s rest : encoder_for r u t -> ~ In 37 u -> ~ In 43 u -> text s -> 3 * zlen s + 1 < 2 ^ 64 ->
  exists e, charstr_url_custom_encode junk t (s ++ 0 :: rest) = Ok (e ++ [0]) /\
    charstr_url_decode junk' (e ++ [0]) true = Ok (Some (s ++ [0], zlen s)).
Proof.
  intros H H1 H2 Hs Hl. destruct (encode_ok junk r u t s rest H Hs Hl) as (slack & E & Sl). rewrite (Sl H1) in E.
  eexists. split; [exact E|]. pose proof (decodes_encoding r u t s H H1 H2 Hs) as D.
  pose proof (encoding_length r u t s H Hs).
  destruct (decode_ok junk' true _ [] (text_encoding r u t s H Hs) ltac:(lia)) as [[_ I]|(d & D' & E')].
  - exfalso. exact (decodes_legal _ _ _ D I).
  - rewrite <- (decodes_det _ _ _ D _ D') in E'. exact E'.
Qed.

Lemma default_printable c : 0 < c < 256 -> Forall (fun x => 32 < x < 127) (charstr_url_encode_byte c).
Proof.
  intros Hc. pose proof (default_code c ltac:(lia)) as C. destruct C as [|c []|c N1 N2 N3|c].
  - repeat constructor; lia.
  - repeat constructor; lia.
  - pose proof (Z.mod_pos_bound c 16 ltac:(lia)).
    pose proof (hex_range _ _ (upper_hex_value (c / 16) ltac:(lia))). pose proof (hex_range _ _ (upper_hex_value (c mod 16) ltac:(lia))).
    apply Forall_cons; [lia|]. apply Forall_cons; [lia|]. apply Forall_cons; [lia|constructor].
Qed.

(** ** The table *)
Lemma list_eqb_eq (a b : list Z) : (if list_eq_dec Z.eq_dec a b then true else false) = true -> a = b.
Proof. destruct (list_eq_dec Z.eq_dec a b); [auto|discriminate]. Qed.

Lemma table_doc c : 0 <= c < 256 -> c <> 34 -> c <> 93 -> c <> 125 -> charstr_url_encode_byte c = documented_encoding c.
Proof.
  intros Hc H1 H2 H3.
  assert (E : (c =? 34) || (c =? 93) || (c =? 125) ||
     (if list_eq_dec Z.eq_dec (charstr_url_encode_byte c) (documented_encoding c) then true else false) = true).
  { set (f := fun c => (c =? 34) || (c =? 93) || (c =? 125) ||
     (if list_eq_dec Z.eq_dec (charstr_url_encode_byte c) (documented_encoding c) then true else false)).
    change (f c = true). revert c Hc H1 H2 H3. intros c Hc _ _ _. revert c Hc. apply all_bytes. vm_compute. reflexivity. }
  replace (c =? 34) with false in E by lia. replace (c =? 93) with false in E by lia. replace (c =? 125) with false in E by lia.
  apply list_eqb_eq. exact E.
Qed.
