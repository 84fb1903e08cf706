(** Proofs about the byte-string functions of src/charstr.c. *)
From Verif Require Import Base CMem CharstrTables CharstrModel CharstrSpec.
From Coq Require Import ZifyBool ZifyNat.

(** ** Facts checked for all the 256 bytes *)

Lemma all_bytes (f : Z -> bool) :
  forallb f (map Z.of_nat (seq 0 256)) = true -> forall c, 0 <= c < 256 -> f c = true.
Proof.
  intros H c Hc. rewrite forallb_forall in H. apply H. apply in_map_iff.
  exists (Z.to_nat c). split; [lia|]. apply in_seq. lia.
Qed.

Lemma lcase_char_ok c : 0 <= c < 256 -> charstr_lcase_char c = ascii_lower c.
Proof.
  intros Hc. apply Z.eqb_eq. revert c Hc. apply all_bytes. vm_compute. reflexivity.
Qed.
Lemma ucase_char_ok c : 0 <= c < 256 -> charstr_ucase_char c = ascii_upper c.
Proof.
  intros Hc. apply Z.eqb_eq. revert c Hc. apply all_bytes. vm_compute. reflexivity.
Qed.

Definition misplaced (c : Z) : bool := (c =? 8) || ((10 <=? c) && (c <=? 13)).

Lemma char_class_ok flag p : In (flag, p) documented_classes ->
  forall c, 0 <= c < 256 -> misplaced c = false -> truth (Z.land (charstr_char_class c) flag) = p c.
Proof.
  intros Hin c Hc Hm.
  assert (E : forallb (fun d => misplaced d || forallb (fun fp => Bool.eqb (truth (Z.land (charstr_char_class d) (fst fp))) (snd fp d)) documented_classes)
              (map Z.of_nat (seq 0 256)) = true) by (vm_compute; reflexivity).
  apply (all_bytes _ E) in Hc. rewrite Hm in Hc. cbn [orb] in Hc. rewrite forallb_forall in Hc.
  specialize (Hc _ Hin). cbn [fst snd] in Hc. apply Bool.eqb_prop in Hc. exact Hc.
Qed.

Lemma char_class_bits c : 0 <= c < 256 -> 0 <= charstr_char_class c < 0x2000 /\ (128 <= c -> charstr_char_class c = 0).
Proof.
  intros Hc.
  assert (E : forallb (fun d => (0 <=? charstr_char_class d) && (charstr_char_class d <? 0x2000) &&
     ((d <? 128) || (charstr_char_class d =? 0))) (map Z.of_nat (seq 0 256)) = true) by (vm_compute; reflexivity).
  apply (all_bytes _ E) in Hc. lia.
Qed.

Lemma is_white_ok c : 0 <= c < 256 -> is_white c = true <-> code_white c.
Proof.
  intros Hc.
  assert (E : forallb (fun d => Bool.eqb (is_white d) ((d =? 32) || ((8 <=? d) && (d <=? 11)))) (map Z.of_nat (seq 0 256)) = true)
    by (vm_compute; reflexivity).
  apply (all_bytes _ E) in Hc. apply Bool.eqb_prop in Hc. rewrite Hc. unfold code_white. lia.
Qed.

Lemma digit_value_ok c n : hex_value c n -> charstr_digit_value c = n.
Proof.
  intros H.
  assert (C : 0 <= n <= 15) by (destruct H; lia).
  assert (E : n = 0 \/ n = 1 \/ n = 2 \/ n = 3 \/ n = 4 \/ n = 5 \/ n = 6 \/ n = 7 \/ n = 8 \/ n = 9 \/ n = 10 \/
    n = 11 \/ n = 12 \/ n = 13 \/ n = 14 \/ n = 15) by lia.
  destruct H as [n H|n H|n H];
  repeat (destruct E as [->|E]); try subst n; try lia; reflexivity.
Qed.

(** ** Comparison *)

Lemma text_cons c s : text (c :: s) <-> 0 < c < 256 /\ text s.
Proof. unfold text. split; [intros H; inversion H; auto|intros [? ?]; constructor; assumption]. Qed.

Lemma text_app s t : text (s ++ t) <-> text s /\ text t.
Proof. apply Forall_app. Qed.

Lemma text_no_nul s : text s -> no_nul s.
Proof. apply Forall_impl. lia. Qed.

Lemma truth_pos c : 0 < c < 256 -> truth c = true.
Proof. unfold truth. lia. Qed.

Lemma lower_pos c : 0 < c < 256 -> 0 < ascii_lower c < 256.
Proof. unfold ascii_lower. destruct ((65 <=? c) && (c <=? 90)) eqn:E; lia. Qed.

Lemma case_cmp_ok : forall a b ra rb, text a -> text b ->
  charstr_case_cmp (a ++ 0 :: ra) (b ++ 0 :: rb) = Ok (lex (map ascii_lower a) (map ascii_lower b)).
Proof.
  induction a as [|x a IH]; intros b ra rb Ha Hb.
  - destruct b as [|y b]; [reflexivity|]. apply text_cons in Hb. cbn. rewrite truth_pos by tauto. reflexivity.
  - apply text_cons in Ha. destruct Ha as [Hx Ha]. cbn [charstr_case_cmp app]. rewrite truth_pos by assumption.
    rewrite lcase_char_ok by lia. pose proof (lower_pos x Hx).
    destruct b as [|y b]; cbn [app].
    + change (charstr_lcase_char 0) with 0. cbn [map lex].
      replace (ascii_lower x <? 0) with false by lia. replace (ascii_lower x >? 0) with true by lia. reflexivity.
    + apply text_cons in Hb. destruct Hb as [Hy Hb]. rewrite lcase_char_ok by lia.
      cbn [map lex]. rewrite Z.gtb_ltb. destruct (_ <? _); [reflexivity|]. destruct (_ <? _); [reflexivity|].
      apply IH; assumption.
Qed.

Lemma ncase_cmp_ok : forall a b n ba bb, 0 <= n ->
  holds_upto n a ba -> holds_upto n b bb ->
  charstr_ncase_cmp ba bb n = Ok (lex (map ascii_lower a) (map ascii_lower b)).
Proof.
  induction a as [|x a IH]; intros b n ba bb Hn Ha Hb.
  - destruct (Z.eq_dec n 0) as [->|Hn0].
    + destruct Hb as [Hb [[L _]|[L _]]]; [pose proof (zlen_nonneg b); lia|].
      destruct b as [|y b]; [|rewrite zlen_cons in L; pose proof (zlen_nonneg b); lia].
      destruct ba; reflexivity.
    + destruct Ha as [_ [[_ [ra ->]]|[L _]]]; [|change (zlen (@nil Z)) with 0 in L; lia].
      cbn [app charstr_ncase_cmp]. assert (truth n = true) as -> by (unfold truth; lia).
      cbn [truth Z.eqb negb]. 
      destruct b as [|y b].
      * destruct Hb as [_ [[_ [rb ->]]|[L _]]]; [reflexivity|change (zlen (@nil Z)) with 0 in L; lia].
      * destruct Hb as [Hy Hb]. apply text_cons in Hy.
        destruct Hb as [[_ [rb ->]]|[_ [rb ->]]]; cbn; rewrite truth_pos by tauto; reflexivity.
  - destruct Ha as [Hx Ha]. apply text_cons in Hx. destruct Hx as [Hx Hta]. rewrite zlen_cons in Ha.
    pose proof (zlen_nonneg a) as La.
    assert (Hn1 : 0 < n) by (destruct Ha as [[? _]|[? _]]; lia).
    assert (exists ba', ba = x :: ba' /\ holds_upto (n - 1) a ba') as (ba' & -> & Ha').
    { destruct Ha as [[L [r ->]]|[L [r ->]]]; (eexists; split; [reflexivity|]); (split; [assumption|]).
      - left. split; [lia|eauto].
      - right. split; [lia|eauto]. }
    cbn [charstr_ncase_cmp]. assert (truth n = true) as -> by (unfold truth; lia).
    rewrite truth_pos by assumption. rewrite lcase_char_ok by lia. pose proof (lower_pos x Hx).
    destruct b as [|y b].
    + destruct Hb as [_ [[_ [rb ->]]|[L _]]]; [|change (zlen (@nil Z)) with 0 in L; lia]. cbn [app].
      change (charstr_lcase_char 0) with 0. cbn [map lex].
      replace (ascii_lower x <? 0) with false by lia. replace (ascii_lower x >? 0) with true by lia. reflexivity.
    + destruct Hb as [Hy Hb]. apply text_cons in Hy. destruct Hy as [Hy Htb]. rewrite zlen_cons in Hb.
      assert (exists bb', bb = y :: bb' /\ holds_upto (n - 1) b bb') as (bb' & -> & Hb').
      { destruct Hb as [[L [r ->]]|[L [r ->]]]; (eexists; split; [reflexivity|]); (split; [assumption|]).
        - left. split; [lia|eauto].
        - right. split; [lia|eauto]. }
      rewrite lcase_char_ok by lia.
      cbn [map lex]. rewrite Z.gtb_ltb. destruct (_ <? _); [reflexivity|]. destruct (_ <? _); [reflexivity|].
      apply IH; [lia|assumption|assumption].
Qed.

Lemma lex_range a : forall b, lex a b = -1 \/ lex a b = 0 \/ lex a b = 1.
Proof.
  induction a as [|x a IH]; intros [|y b]; cbn [lex]; auto.
  destruct (x <? y); auto. destruct (y <? x); auto.
Qed.
Lemma lex_sym a : forall b, lex b a = - lex a b.
Proof.
  induction a as [|x a IH]; intros [|y b]; cbn [lex]; auto.
  destruct (x <? y) eqn:E1, (y <? x) eqn:E2; try lia; auto.
Qed.
Lemma lex_trans a : forall b c, lex a b <= 0 -> lex b c <= 0 -> lex a c <= 0.
Proof.
  induction a as [|x a IH]; intros [|y b] [|z c]; cbn [lex]; try lia.
  destruct (x <? y) eqn:E1, (y <? x) eqn:E2, (y <? z) eqn:E3, (z <? y) eqn:E4, (x <? z) eqn:E5, (z <? x) eqn:E6; try lia.
  apply IH.
Qed.
Lemma lex_zero a : forall b, lex a b = 0 <-> a = b.
Proof.
  induction a as [|x a IH]; intros [|y b]; cbn [lex]; split; try discriminate; try reflexivity.
  - destruct (x <? y) eqn:E1; [discriminate|]. destruct (y <? x) eqn:E2; [discriminate|].
    intros H. apply IH in H. f_equal; [lia|exact H].
  - intros H. inversion H. subst. rewrite Z.ltb_irrefl. apply IH. reflexivity.
Qed.

(** ** Prefixes and suffixes *)

Lemma skip_prefix_yes p : forall s rp, text p ->
  charstr_skip_prefix (p ++ s) (p ++ 0 :: rp) = Ok (Some s).
Proof.
  induction p as [|c p IH]; intros s rp Hp; [reflexivity|]. apply text_cons in Hp.
  cbn [charstr_skip_prefix app]. rewrite truth_pos by tauto. rewrite Z.eqb_refl. cbn [negb]. apply IH. tauto.
Qed.

Lemma skip_prefix_ok p : forall s r rp, text p -> text s ->
  exists o, charstr_skip_prefix (s ++ 0 :: r) (p ++ 0 :: rp) = Ok o /\
    match o with
    | Some t => exists u, s = p ++ u /\ t = u ++ 0 :: r
    | None => ~ exists u, s = p ++ u
    end.
Proof.
  induction p as [|c p IH]; intros s r rp Hp Hs.
  - eexists. split; [reflexivity|]. exists s. auto.
  - apply text_cons in Hp. destruct Hp as [Hc Hp].
    cbn [charstr_skip_prefix app]. rewrite truth_pos by tauto.
    destruct s as [|d s]; cbn [app].
    + replace (0 =? c) with false by lia. cbn [negb]. eexists. split; [reflexivity|].
      intros (u & E). discriminate.
    + apply text_cons in Hs. destruct Hs as [Hd Hs]. destruct (d =? c) eqn:E; cbn [negb].
      * apply Z.eqb_eq in E. subst d. destruct (IH s r rp Hp Hs) as (o & E & Ho). exists o. split; [exact E|].
        destruct o as [t|].
        -- destruct Ho as (u & -> & ->). exists u. auto.
        -- intros (u & Eu). apply Ho. exists u. inversion Eu. reflexivity.
      * eexists. split; [reflexivity|]. intros (u & Eu). inversion Eu. lia.
Qed.

Lemma case_skip_prefix_ok p : forall s r rp, text p -> text s ->
  exists o, charstr_case_skip_prefix (s ++ 0 :: r) (p ++ 0 :: rp) = Ok o /\
    match o with
    | Some t => exists q u, s = q ++ u /\ map ascii_lower q = map ascii_lower p /\ t = u ++ 0 :: r
    | None => ~ exists q u, s = q ++ u /\ map ascii_lower q = map ascii_lower p
    end.
Proof.
  induction p as [|c p IH]; intros s r rp Hp Hs.
  - eexists. split; [reflexivity|]. exists [], s. auto.
  - apply text_cons in Hp. destruct Hp as [Hc Hp].
    cbn [charstr_case_skip_prefix app]. rewrite truth_pos by tauto. rewrite (lcase_char_ok c) by lia.
    pose proof (lower_pos c Hc).
    destruct s as [|d s]; cbn [app].
    + change (charstr_lcase_char 0) with 0.
      replace (0 =? ascii_lower c) with false by lia. cbn [negb]. eexists. split; [reflexivity|].
      intros (q & u & E & M). destruct q; discriminate.
    + apply text_cons in Hs. destruct Hs as [Hd Hs]. rewrite (lcase_char_ok d) by lia.
      destruct (ascii_lower d =? ascii_lower c) eqn:E; cbn [negb].
      * apply Z.eqb_eq in E. destruct (IH s r rp Hp Hs) as (o & E1 & Ho). exists o. split; [exact E1|].
        destruct o as [t|].
        -- destruct Ho as (q & u & -> & M & ->). exists (d :: q), u. cbn [map app]. rewrite M, E. auto.
        -- intros (q & u & Eu & M). apply Ho. destruct q as [|q0 q]; [discriminate|].
           inversion Eu. inversion M. eauto.
      * eexists. split; [reflexivity|]. intros (q & u & Eu & M). destruct q as [|q0 q]; [discriminate|].
        inversion Eu. inversion M. subst. lia.
Qed.

Lemma strcmp_eq_ok s : forall t r rt, text s -> text t ->
  exists b, strcmp_eq (s ++ 0 :: r) (t ++ 0 :: rt) = Ok b /\ (b = true <-> s = t).
Proof.
  induction s as [|c s IH]; intros t r rt Hs Ht.
  - destruct t as [|d t]; cbn [strcmp_eq app].
    + exists true. split; [reflexivity|tauto].
    + apply text_cons in Ht. replace (0 =? d) with false by lia. exists false. split; [reflexivity|]. split; discriminate.
  - apply text_cons in Hs. destruct Hs as [Hc Hs]. destruct t as [|d t]; cbn [strcmp_eq app].
    + replace (c =? 0) with false by lia. exists false. split; [reflexivity|]. split; discriminate.
    + apply text_cons in Ht. destruct Ht as [Hd Ht]. destruct (c =? d) eqn:E; cbn [negb].
      * apply Z.eqb_eq in E. subst d. replace (c =? 0) with false by lia.
        destruct (IH t r rt Hs Ht) as (b & E1 & Hb). exists b. split; [exact E1|]. rewrite Hb.
        split; [intros ->; reflexivity|intros H; inversion H; reflexivity].
      * exists false. split; [reflexivity|]. split; [discriminate|]. intros H. inversion H. lia.
Qed.

Lemma skipn_app_exact {A} (a b : list A) : skipn (length a) (a ++ b) = b.
Proof. rewrite skipn_app, skipn_all, Nat.sub_diag. reflexivity. Qed.

Lemma ends_with_ok s t r rt : text s -> text t ->
  exists b, charstr_ends_with (s ++ 0 :: r) (t ++ 0 :: rt) = Ok b /\ (b = true <-> exists u, s = u ++ t).
Proof.
  intros Hs Ht. unfold charstr_ends_with. rewrite !strlen_ok by (apply text_no_nul; assumption). cbn [bind].
  destruct (zlen s <? zlen t) eqn:E.
  { exists false. split; [reflexivity|]. split; [discriminate|]. intros (u & ->). rewrite zlen_app in E.
    pose proof (zlen_nonneg u). lia. }
  set (k := Z.to_nat (zlen s - zlen t)).
  assert (Hk : (k <= length s)%nat) by (unfold k, zlen in *; lia).
  rewrite skipn_app. replace (k - length s)%nat with 0%nat by lia. cbn [skipn].
  destruct (strcmp_eq_ok (skipn k s) t r rt) as (b & E1 & Hb); [|assumption|].
  { rewrite <- (firstn_skipn k s) in Hs. apply text_app in Hs. tauto. }
  exists b. split; [exact E1|]. rewrite Hb. split.
  - intros Et. exists (firstn k s). rewrite <- Et at 1. symmetry. apply firstn_skipn.
  - intros (u & Eu). assert (Hku : k = length u).
    { unfold k. rewrite Eu, zlen_app. unfold zlen. lia. }
    rewrite Hku, Eu. apply skipn_app_exact.
Qed.

(** ** Duplication *)

Lemma dup_range_ok junk s t : zlen s + 1 < 2 ^ 64 -> dup_range junk (s ++ t) (zlen s) = Ok (as_block s).
Proof.
  intros H. pose proof (zlen_nonneg s). unfold dup_range. rewrite u64_small by lia.
  replace (zlen s <=? zlen (s ++ t)) with true by (rewrite zlen_app; pose proof (zlen_nonneg t); lia).
  rewrite firstn_zlen.
  assert (L : zlen (fresh_block junk (zlen s + 1)) = zlen s + 1) by (apply fresh_block_zlen; lia).
  unfold blit. rewrite L. replace ((0 <=? 0) && (0 + zlen s <=? zlen s + 1)) with true by lia.
  cbn [bind Z.to_nat firstn app].
  destruct (skipn (Z.to_nat (0 + zlen s)) (fresh_block junk (zlen s + 1))) as [|x [|y l]] eqn:E.
  - apply (f_equal (@length Z)) in E. rewrite skipn_length in E. cbn [length] in E. unfold zlen in *. lia.
  - rewrite wr_app by reflexivity. reflexivity.
  - apply (f_equal (@length Z)) in E. rewrite skipn_length in E. cbn [length] in E. unfold zlen in *. lia.
Qed.

Lemma dup_until_ok junk s p : zlen s + 1 < 2 ^ 64 -> dup_until junk (s ++ p) p = Ok (as_block s).
Proof.
  intros H. unfold dup_until, charstr_dupsubstr. rewrite zlen_app.
  replace (zlen s + zlen p - zlen p) with (zlen s) by lia. pose proof (zlen_nonneg s).
  rewrite u64_small by lia. rewrite dup_range_ok by assumption. reflexivity.
Qed.

Lemma dup_all_ok junk s r : text s -> zlen s + 1 < 2 ^ 64 -> dup_all junk (s ++ 0 :: r) = Ok (as_block s).
Proof.
  intros Hs H. unfold dup_all, charstr_dupstr. rewrite strlen_ok by (apply text_no_nul; assumption). cbn [bind].
  rewrite dup_range_ok by assumption. reflexivity.
Qed.

(** ** Case mapping in place *)

Lemma map_str_ok f : forall s fuel pre r, (length s < fuel)%nat -> text s ->
  map_str f fuel (pre ++ s ++ 0 :: r) (zlen pre) = Ok (pre ++ map f s ++ 0 :: r).
Proof.
  induction s as [|c s IH]; intros fuel pre r Hf Hs; (destruct fuel as [|fuel]; [cbn [length] in Hf; lia|]); cbn [map_str app].
  - rewrite rd_app by reflexivity. reflexivity.
  - apply text_cons in Hs. destruct Hs as [Hc Hs]. rewrite rd_app by reflexivity. cbn [bind].
    rewrite truth_pos by assumption. rewrite wr_app by reflexivity. cbn [bind].
    replace (pre ++ f c :: s ++ 0 :: r) with ((pre ++ [f c]) ++ s ++ 0 :: r) by (rewrite <- app_assoc; reflexivity).
    replace (zlen pre + 1) with (zlen (pre ++ [f c])) by apply zlen_snoc.
    rewrite IH; [|cbn [length] in Hf; lia|assumption]. rewrite <- app_assoc. reflexivity.
Qed.

Lemma map_substr_ok f : forall s fuel pre r, (length s < fuel)%nat ->
  map_substr f fuel (pre ++ s ++ r) (zlen pre) (zlen pre + zlen s) = Ok (pre ++ map f s ++ r).
Proof.
  induction s as [|c s IH]; intros fuel pre r Hf; (destruct fuel as [|fuel]; [cbn [length] in Hf; lia|]); cbn [map_substr app].
  - change (zlen (@nil Z)) with 0. replace (zlen pre =? zlen pre + 0) with true by lia. reflexivity.
  - rewrite zlen_cons. pose proof (zlen_nonneg s). replace (zlen pre =? zlen pre + (1 + zlen s)) with false by lia.
    rewrite rd_app by reflexivity. cbn [bind]. rewrite wr_app by reflexivity. cbn [bind].
    replace (pre ++ f c :: s ++ r) with ((pre ++ [f c]) ++ s ++ r) by (rewrite <- app_assoc; reflexivity).
    replace (zlen pre + (1 + zlen s)) with (zlen (pre ++ [f c]) + zlen s) by (rewrite zlen_snoc; lia).
    replace (zlen pre + 1) with (zlen (pre ++ [f c])) by apply zlen_snoc.
    rewrite IH by (cbn [length] in Hf; lia). rewrite <- app_assoc. reflexivity.
Qed.

Lemma map_bytes_ext (f g : Z -> Z) s : (forall c, 0 <= c < 256 -> f c = g c) -> bytes s -> map f s = map g s.
Proof.
  intros H Hs. apply map_ext_in. intros c Hc. apply H. unfold bytes in Hs. rewrite Forall_forall in Hs.
  specialize (Hs c Hc). exact Hs.
Qed.

Lemma text_bytes s : text s -> bytes s.
Proof. apply Forall_impl. unfold byte. lia. Qed.

Lemma case_str_ok pre s r : text s ->
  charstr_lcase_str (pre ++ s ++ 0 :: r) (zlen pre) = Ok (pre ++ map ascii_lower s ++ 0 :: r) /\
  charstr_ucase_str (pre ++ s ++ 0 :: r) (zlen pre) = Ok (pre ++ map ascii_upper s ++ 0 :: r).
Proof.
  intros Hs. unfold charstr_lcase_str, charstr_ucase_str.
  rewrite !map_str_ok; try assumption; try (rewrite !app_length; cbn [length]; lia).
  rewrite (map_bytes_ext _ ascii_lower), (map_bytes_ext charstr_ucase_char ascii_upper);
    auto using text_bytes, lcase_char_ok, ucase_char_ok.
Qed.

Lemma case_substr_ok pre s r : bytes s ->
  charstr_lcase_substr (pre ++ s ++ r) (zlen pre) (zlen pre + zlen s) = Ok (pre ++ map ascii_lower s ++ r) /\
  charstr_ucase_substr (pre ++ s ++ r) (zlen pre) (zlen pre + zlen s) = Ok (pre ++ map ascii_upper s ++ r).
Proof.
  intros Hs. unfold charstr_lcase_substr, charstr_ucase_substr.
  rewrite !map_substr_ok; try (rewrite !app_length; lia).
  rewrite (map_bytes_ext _ ascii_lower), (map_bytes_ext charstr_ucase_char ascii_upper);
    auto using lcase_char_ok, ucase_char_ok.
Qed.

(** ** Splitting by a character *)

Lemma strchr_ok c : forall s r, text s -> 0 < c < 256 ->
  (~ In c s /\ strchr (s ++ 0 :: r) c = Ok None) \/
  (exists a b, s = a ++ c :: b /\ ~ In c a /\ strchr (s ++ 0 :: r) c = Ok (Some (c :: b ++ 0 :: r))).
Proof.
  induction s as [|d s IH]; intros r Hs Hc; cbn [strchr app].
  - left. split; [intros []|]. replace (0 =? c) with false by lia. reflexivity.
  - apply text_cons in Hs. destruct Hs as [Hd Hs]. destruct (d =? c) eqn:E.
    + apply Z.eqb_eq in E. subst d. right. exists [], s. cbn. auto.
    + replace (d =? 0) with false by lia. destruct (IH r Hs Hc) as [[H1 H2]|(a & b & H1 & H2 & H3)].
      * left. split; [|exact H2]. intros [->|H]; [lia|tauto].
      * right. exists (d :: a), b. subst s. split; [reflexivity|]. split; [|exact H3].
        intros [->|H]; [lia|tauto].
Qed.

Lemma count_app c a b : count c (a ++ b) = count c a + count c b.
Proof. induction a as [|d a IH]; [reflexivity|]. cbn [count app]. rewrite IH. lia. Qed.
Lemma count_nonneg c s : 0 <= count c s.
Proof. induction s as [|d s IH]; cbn [count]; [lia|]. destruct (d =? c); lia. Qed.
Lemma count_zero c s : ~ In c s -> count c s = 0.
Proof.
  induction s as [|d s IH]; intros H; [reflexivity|]. cbn [count].
  destruct (d =? c) eqn:E; [exfalso; apply H; left; lia|]. rewrite IH; [reflexivity|]. intros H1. apply H. right. exact H1.
Qed.

Lemma join_cons sep p parts : parts <> [] -> join sep (p :: parts) = p ++ sep ++ join sep parts.
Proof. destruct parts; [congruence|reflexivity]. Qed.

Lemma removelast_cons {A} (p : A) parts : parts <> [] -> removelast (p :: parts) = p :: removelast parts.
Proof. destruct parts; [congruence|reflexivity]. Qed.

Lemma split_at_char_last delim max s : 0 <= max -> (max = 0 \/ ~ In delim s) -> split_at_char delim max s [s].
Proof.
  intros Hm H. split; [reflexivity|]. split; [|constructor]. cbn.
  destruct H as [->|H]; [pose proof (count_nonneg delim s); lia|]. rewrite count_zero by assumption. lia.
Qed.

Lemma split_at_char_cons delim max a b parts : 0 < max -> ~ In delim a ->
  split_at_char delim (max - 1) b parts -> split_at_char delim max (a ++ delim :: b) (a :: parts).
Proof.
  intros Hm Ha (J & L & F).
  assert (parts <> []).
  { intros ->. change (zlen (@nil (list Z))) with 0 in L. pose proof (count_nonneg delim b). lia. }
  split; [rewrite join_cons by assumption; rewrite J; reflexivity|]. split.
  - rewrite zlen_cons, L, count_app. rewrite (count_zero delim a) by assumption. cbn [count]. rewrite Z.eqb_refl. lia.
  - rewrite removelast_cons by assumption. constructor; assumption.
Qed.

Lemma split_loop_ok junk delim : 0 < delim < 256 -> forall n s r max l fuel,
  (length s <= n)%nat -> (n < fuel)%nat -> text s -> 0 <= max -> zlen s + 1 < 2 ^ 64 ->
  exists parts, split_loop junk fuel (s ++ 0 :: r) delim max l = Ok (l ++ map as_block parts) /\
    split_at_char delim max s parts.
Proof.
  intros Hd. induction n as [n IH] using lt_wf_ind. intros s r max l fuel Hn Hf Hs Hm Hlen.
  destruct fuel as [|fuel]; [lia|]. cbn [split_loop].
  assert (Fin : (max = 0 \/ ~ In delim s) ->
    exists parts, (d <- dup_all junk (s ++ 0 :: r) ;; Ok (l ++ [d])) = Ok (l ++ map as_block parts) /\ split_at_char delim max s parts).
  { intros H. exists [s]. rewrite dup_all_ok by assumption. split; [reflexivity|]. apply split_at_char_last; assumption. }
  unfold truth. destruct (max =? 0) eqn:E; cbn [negb]; [apply Fin; left; lia|].
  destruct (strchr_ok delim s r Hs Hd) as [[H1 ->]|(a & b & -> & H2 & ->)]; cbn [bind].
  { apply Fin. right. assumption. }
  apply text_app in Hs. destruct Hs as [Ha Hb]. apply text_cons in Hb. destruct Hb as [_ Hb].
  rewrite zlen_app, zlen_cons in Hlen. pose proof (zlen_nonneg a). pose proof (zlen_nonneg b).
  rewrite <- app_assoc. cbn [app]. rewrite dup_until_ok by lia. cbn [bind tl].
  rewrite app_length in Hn. cbn [length] in Hn.
  destruct (IH (length b) ltac:(lia) b r (max - 1) (l ++ [as_block a]) fuel) as (parts & E1 & E2); try lia; try assumption.
  exists (a :: parts). rewrite E1. split; [rewrite <- app_assoc; reflexivity|].
  apply split_at_char_cons; [lia|assumption|assumption].
Qed.

Lemma split_ok junk s r delim max : text s -> 0 < delim < 256 -> 0 <= max -> zlen s + 1 < 2 ^ 64 ->
  exists parts, charstr_split junk (s ++ 0 :: r) delim max = Ok (map as_block parts) /\ split_at_char delim max s parts.
Proof.
  intros Hs Hd Hm Hl. unfold charstr_split.
  destruct (split_loop_ok junk delim Hd (length s) s r max [] (S (length (s ++ 0 :: r)))) as (parts & E1 & E2);
    try lia; try assumption; [rewrite app_length; cbn [length]; lia|].
  exists parts. auto.
Qed.

Lemma split_array_loop_ok junk delim max : 0 < delim < 256 -> 0 <= max < 2 ^ 32 -> forall n s r array fuel done rest,
  (length s <= n)%nat -> (n < fuel)%nat -> text s -> zlen done <= max -> zlen s + 1 < 2 ^ 64 ->
  array = done ++ rest -> max + 1 <= zlen array ->
  exists parts rest', split_array_loop junk fuel (s ++ 0 :: r) delim array (zlen done) max =
      Ok (zlen done + zlen parts - 1, done ++ map as_block parts ++ rest') /\
    rest = firstn (length parts) rest ++ rest' /\ (length parts <= length rest)%nat /\
    split_at_char delim (max - zlen done) s parts.
Proof.
  intros Hd Hm. induction n as [n IH] using lt_wf_ind. intros s r array fuel done rest Hn Hf Hs Hmax Hlen Harr Hcap.
  destruct fuel as [|fuel]; [lia|]. cbn [split_array_loop].
  subst array. rewrite zlen_app in Hcap.
  destruct rest as [|x rest]; [change (zlen (@nil (list Z))) with 0 in Hcap; lia|].
  assert (Fin : (max - zlen done = 0 \/ ~ In delim s) ->
    exists parts rest', (d <- dup_all junk (s ++ 0 :: r) ;; array <- wr (done ++ x :: rest) (zlen done) d ;; Ok (zlen done, array)) =
      Ok (zlen done + zlen parts - 1, done ++ map as_block parts ++ rest') /\
    x :: rest = firstn (length parts) (x :: rest) ++ rest' /\ (length parts <= length (x :: rest))%nat /\
    split_at_char delim (max - zlen done) s parts).
  { intros H. exists [s], rest. rewrite dup_all_ok by assumption. cbn [bind]. rewrite wr_app by reflexivity. cbn [bind map app].
    rewrite zlen_cons. change (zlen (@nil (list Z))) with 0. split; [repeat f_equal; lia|].
    split; [reflexivity|]. split; [cbn [length]; lia|]. apply split_at_char_last; [lia|assumption]. }
  destruct (zlen done <? max) eqn:E; [|apply Fin; left; lia].
  destruct (strchr_ok delim s r Hs Hd) as [[H1 ->]|(a & b & -> & H2 & ->)]; cbn [bind].
  { apply Fin. right. assumption. }
  apply text_app in Hs. destruct Hs as [Ha Hb]. apply text_cons in Hb. destruct Hb as [_ Hb].
  rewrite zlen_app, zlen_cons in Hlen. pose proof (zlen_nonneg a). pose proof (zlen_nonneg b). pose proof (zlen_nonneg done).
  rewrite <- app_assoc. cbn [app]. rewrite dup_until_ok by lia. cbn [bind tl].
  rewrite wr_app by reflexivity. cbn [bind]. rewrite u32_small by lia.
  rewrite app_length in Hn. cbn [length] in Hn. rewrite zlen_cons in Hcap.
  destruct (IH (length b) ltac:(lia) b r (done ++ as_block a :: rest) fuel (done ++ [as_block a]) rest)
    as (parts & rest' & E1 & E2 & E3 & E4); try lia; try assumption; rewrite ?zlen_snoc in *; try lia.
  { rewrite <- app_assoc. reflexivity. }
  { rewrite zlen_app, zlen_cons. lia. }
  exists (a :: parts), rest'. rewrite E1. split.
  { rewrite zlen_cons. rewrite <- app_assoc. cbn [app map]. replace (zlen done + (1 + zlen parts) - 1) with (zlen done + 1 + zlen parts - 1) by lia. reflexivity. }
  split; [cbn [length firstn app]; rewrite <- E2; reflexivity|]. split; [cbn [length]; lia|].
  apply split_at_char_cons; [lia|assumption|].
  replace (max - zlen done - 1) with (max - (zlen done + 1)) by lia. exact E4.
Qed.

Lemma split_into_array_ok junk s r delim array max :
  text s -> 0 < delim < 256 -> 0 <= max < 2 ^ 32 -> zlen s + 1 < 2 ^ 64 -> max + 1 <= zlen array ->
  exists parts, charstr_split junk (s ++ 0 :: r) delim max = Ok (map as_block parts) /\
    charstr_split_into_array junk (s ++ 0 :: r) delim array max =
      Ok (zlen parts - 1, map as_block parts ++ skipn (length parts) array) /\ split_at_char delim max s parts.
Proof.
  intros Hs Hd Hm Hl Ha.
  destruct (split_ok junk s r delim max Hs Hd ltac:(lia) Hl) as (parts & P1 & P2).
  unfold charstr_split_into_array.
  destruct (split_array_loop_ok junk delim max Hd Hm (length s) s r array (S (length (s ++ 0 :: r))) [] array)
    as (parts' & rest' & E1 & E2 & E3 & E4); try lia; try assumption; try reflexivity.
  { rewrite app_length; cbn [length]; lia. }
  { change (zlen (@nil (list Z))) with 0. lia. }
  change (zlen (@nil (list Z))) with 0 in *. rewrite Z.sub_0_r in E4.
  assert (Uniq : forall n s max parts parts', (length parts <= n)%nat -> 0 <= max -> split_at_char delim max s parts -> split_at_char delim max s parts' -> parts = parts').
  { clear. induction n as [|n IH]; intros s max parts parts' Hn Hmax (J & L & F) (J' & L' & F').
    - destruct parts; [|cbn in Hn; lia]. change (zlen (@nil (list Z))) with 0 in L. pose proof (count_nonneg delim s). lia.
    - pose proof (count_nonneg delim s).
      destruct parts as [|p parts]; [change (zlen (@nil (list Z))) with 0 in L; lia|].
      destruct parts' as [|p' parts']; [change (zlen (@nil (list Z))) with 0 in L'; lia|].
      destruct parts as [|q parts], parts' as [|q' parts'].
      + cbn in J, J'. congruence.
      + rewrite !zlen_cons in L. rewrite !zlen_cons in L'. pose proof (zlen_nonneg parts'). change (zlen (@nil (list Z))) with 0 in L. lia.
      + rewrite !zlen_cons in L. rewrite !zlen_cons in L'. pose proof (zlen_nonneg parts). change (zlen (@nil (list Z))) with 0 in L'. lia.
      + rewrite join_cons in J, J' by discriminate. rewrite removelast_cons in F, F' by discriminate.
        inversion_clear F as [|? ? F1 F2]. inversion_clear F' as [|? ? F1' F2'].
        assert (E : p = p' /\ join [delim] (q :: parts) = join [delim] (q' :: parts')).
        { clear - J J' F1 F1'. rewrite <- J' in J. clear J'. revert p' F1' J. cbn [app].
          generalize (join [delim] (q :: parts)) (join [delim] (q' :: parts')). intros x y.
          induction p as [|c p IHp]; intros [|c' p'] F1' J; cbn [app] in J; inversion J; subst.
          - auto.
          - exfalso. apply F1'. left. reflexivity.
          - exfalso. apply F1. left. reflexivity.
          - destruct (IHp (fun h => F1 (or_intror h)) p' (fun h => F1' (or_intror h))) as [-> ->]; auto. }
        destruct E as [-> E]. f_equal.
        rewrite <- J in L, L'. rewrite zlen_cons in L. rewrite zlen_cons in L'. rewrite count_app in L. rewrite count_app in L'. cbn [count app] in L, L'. rewrite Z.eqb_refl in L, L'.
        rewrite count_zero in L by assumption. rewrite count_zero in L' by assumption.
        pose proof (zlen_nonneg parts). rewrite zlen_cons in L.
        apply (IH (join [delim] (q :: parts)) (max - 1)).
        * cbn [length] in *. lia.
        * lia.
        * split; [reflexivity|]. split; [|assumption]. rewrite zlen_cons. lia.
        * split; [auto|]. split; [|assumption]. lia. }
  assert (parts = parts') by (eapply (Uniq (length parts)); [apply Nat.le_refl| |eassumption|eassumption]; lia). subst parts'.
  exists parts. split; [exact P1|]. split; [|exact P2]. rewrite E1. cbn [app].
  assert (rest' = skipn (length parts) array) as ->; [|repeat f_equal; lia].
  rewrite <- (firstn_skipn (length parts) array) in E2 at 1. apply app_inv_head in E2. auto.
Qed.

(** ** Splitting by a string *)

Lemma begins_ok d : forall s r rd, text d -> text s ->
  exists b, begins (s ++ 0 :: r) (d ++ 0 :: rd) = Ok b /\ (b = true <-> exists u, s = d ++ u).
Proof.
  induction d as [|c d IH]; intros s r rd Hd Hs.
  - exists true. split; [reflexivity|]. split; [intros _; exists s; reflexivity|reflexivity].
  - apply text_cons in Hd. destruct Hd as [Hc Hd]. cbn [begins app]. replace (c =? 0) with false by lia.
    destruct s as [|x s]; cbn [app].
    + replace (0 =? c) with false by lia. exists false. split; [reflexivity|]. split; [discriminate|].
      intros (u & E). discriminate.
    + apply text_cons in Hs. destruct Hs as [Hx Hs]. destruct (x =? c) eqn:E; cbn [negb].
      * apply Z.eqb_eq in E. subst x. destruct (IH s r rd Hd Hs) as (b & E1 & Hb). exists b. split; [exact E1|].
        rewrite Hb. split; intros (u & E); exists u; [rewrite E; reflexivity|inversion E; reflexivity].
      * exists false. split; [reflexivity|]. split; [discriminate|]. intros (u & Eu). inversion Eu. lia.
Qed.

Lemma occurs_cons d c s k : occurs_at d (c :: s) k -> (k = 0 /\ exists u, c :: s = d ++ u) \/ occurs_at d s (k - 1).
Proof.
  intros (a & b & E & L). destruct a as [|x a].
  - left. split; [symmetry; exact L|]. exists b. exact E.
  - right. inversion E. subst. exists a, b. split; [reflexivity|]. rewrite zlen_cons. lia.
Qed.

Lemma strstr_ok d rd : forall s r, text d -> text s ->
  ((~ exists k, occurs_at d s k) /\ strstr (s ++ 0 :: r) (d ++ 0 :: rd) = Ok None) \/
  (exists a b, s = a ++ d ++ b /\ (forall k, occurs_at d s k -> zlen a <= k) /\
    strstr (s ++ 0 :: r) (d ++ 0 :: rd) = Ok (Some (d ++ b ++ 0 :: r))).
Proof.
  induction s as [|c s IH]; intros r Hd Hs.
  - destruct (begins_ok d [] r rd Hd Hs) as (b & E & Hb). cbn [app] in E. cbn [strstr app]. rewrite E. cbn [bind].
    destruct b.
    + right. destruct Hb as [Hb _]. destruct (Hb eq_refl) as (u & Eu). symmetry in Eu. apply app_eq_nil in Eu.
      destruct Eu as [-> ->]. exists [], []. split; [reflexivity|]. split; [|reflexivity].
      intros k (a & b & _ & L). pose proof (zlen_nonneg a). change (zlen (@nil Z)) with 0. lia.
    + left. split; [|reflexivity]. intros (k & a & b & E1 & L). symmetry in E1. apply app_eq_nil in E1. destruct E1 as [-> E1].
      assert (false = true) as H; [|discriminate H]. apply Hb. exists b. symmetry. exact E1.
  - destruct (begins_ok d (c :: s) r rd Hd Hs) as (b & E & Hb). cbn [app] in E. cbn [strstr app]. rewrite E. cbn [bind].
    apply text_cons in Hs. destruct Hs as [Hc Hs]. destruct b.
    + right. destruct Hb as [Hb _]. destruct (Hb eq_refl) as (u & Eu). exists [], u. split; [exact Eu|]. split.
      * intros k (a & b & _ & L). pose proof (zlen_nonneg a). change (zlen (@nil Z)) with 0. lia.
      * rewrite app_assoc. rewrite <- Eu. reflexivity.
    + replace (c =? 0) with false by lia.
      assert (No : ~ exists u, c :: s = d ++ u) by (intros H; apply Hb in H; discriminate).
      destruct (IH r Hd Hs) as [[H1 H2]|(a & b & H1 & H2 & H3)].
      * left. split; [|exact H2]. intros (k & Hk). apply occurs_cons in Hk. destruct Hk as [[_ Hk]|Hk]; [tauto|].
        apply H1. eauto.
      * right. exists (c :: a), b. split; [rewrite H1; reflexivity|]. split; [|exact H3].
        intros k Hk. apply occurs_cons in Hk. destruct Hk as [[_ Hk]|Hk]; [tauto|].
        apply H2 in Hk. rewrite zlen_cons. lia.
Qed.

Lemma leftmost_of d a b : (forall k, occurs_at d (a ++ d ++ b) k -> zlen a <= k) -> leftmost d a.
Proof.
  intros H k (x & y & E & L). apply H. exists x, (y ++ b). split; [|exact L].
  rewrite app_assoc, E. rewrite <- !app_assoc. reflexivity.
Qed.

Lemma split_at_string_last d max s : 0 <= max -> (max = 0 \/ ~ exists k, occurs_at d s k) -> split_at_string d max s [s].
Proof.
  intros Hm H. split; [discriminate|]. split; [reflexivity|]. cbn. split; [lia|]. split; [constructor|].
  destruct H as [H|H]; [left; lia|right; exact H].
Qed.

Lemma last_cons {A} (p : A) parts x : parts <> [] -> last (p :: parts) x = last parts x.
Proof. destruct parts; [congruence|reflexivity]. Qed.

Lemma split_at_string_cons d max a b parts : leftmost d a ->
  split_at_string d (max - 1) b parts -> split_at_string d max (a ++ d ++ b) (a :: parts).
Proof.
  intros Ha (Ne & J & L & F & La). split; [discriminate|].
  split; [rewrite join_cons by assumption; rewrite J; reflexivity|]. rewrite zlen_cons. split; [lia|].
  rewrite removelast_cons, last_cons by assumption. split; [constructor; assumption|].
  destruct La as [La|La]; [left; lia|right; exact La].
Qed.

Lemma split_str_loop_ok junk d rd : text d -> d <> [] -> forall n s r max l fuel,
  (length s <= n)%nat -> (n < fuel)%nat -> text s -> 0 <= max -> zlen s + 1 < 2 ^ 64 ->
  exists parts, split_str_loop junk fuel (s ++ 0 :: r) (d ++ 0 :: rd) (zlen d) max l = Ok (l ++ map as_block parts) /\
    split_at_string d max s parts.
Proof.
  intros Hd Hne. induction n as [n IH] using lt_wf_ind. intros s r max l fuel Hn Hf Hs Hm Hlen.
  destruct fuel as [|fuel]; [lia|]. cbn [split_str_loop].
  assert (Fin : (max = 0 \/ ~ exists k, occurs_at d s k) ->
    exists parts, (x <- dup_all junk (s ++ 0 :: r) ;; Ok (l ++ [x])) = Ok (l ++ map as_block parts) /\ split_at_string d max s parts).
  { intros H. exists [s]. rewrite dup_all_ok by assumption. split; [reflexivity|]. apply split_at_string_last; assumption. }
  unfold truth. destruct (max =? 0) eqn:E; cbn [negb]; [apply Fin; left; lia|].
  destruct (strstr_ok d rd s r Hd Hs) as [[H1 ->]|(a & b & -> & H2 & ->)]; cbn [bind].
  { apply Fin. right. assumption. }
  apply text_app in Hs. destruct Hs as [Ha Hb]. apply text_app in Hb. destruct Hb as [_ Hb].
  rewrite !zlen_app in Hlen. pose proof (zlen_nonneg a). pose proof (zlen_nonneg b). pose proof (zlen_nonneg d).
  rewrite <- !app_assoc. rewrite dup_until_ok by lia. cbn [bind].
  rewrite skipn_zlen.
  rewrite !app_length in Hn. assert (0 < length d)%nat by (destruct d; [congruence|cbn; lia]).
  destruct (IH (length b) ltac:(lia) b r (max - 1) (l ++ [as_block a]) fuel) as (parts & E1 & E2); try lia; try assumption.
  exists (a :: parts). rewrite E1. split; [rewrite <- app_assoc; reflexivity|].
  apply split_at_string_cons; [eapply leftmost_of; eassumption|assumption].
Qed.

Lemma split_str_ok junk s r d rd max : text s -> text d -> d <> [] -> 0 <= max -> zlen s + 1 < 2 ^ 64 ->
  exists parts, charstr_split_str junk (s ++ 0 :: r) (d ++ 0 :: rd) max = Ok (map as_block parts) /\
    split_at_string d max s parts.
Proof.
  intros Hs Hd Hne Hm Hl. unfold charstr_split_str. rewrite strlen_ok by (apply text_no_nul; assumption). cbn [bind].
  assert (0 < zlen d) by (destruct d; [congruence|rewrite zlen_cons; pose proof (zlen_nonneg d); lia]).
  replace (zlen d =? 0) with false by lia. rewrite Nat.add_0_r.
  destruct (split_str_loop_ok junk d rd Hd Hne (length s) s r max [] (S (length (s ++ 0 :: r)))) as (parts & E1 & E2);
    try lia; try assumption; [rewrite app_length; cbn [length]; lia|].
  exists parts. auto.
Qed.

Lemma split_str_empty_loop junk rd s r : text s -> zlen s + 1 < 2 ^ 64 -> forall n l fuel, (n < fuel)%nat ->
  split_str_loop junk fuel (s ++ 0 :: r) (0 :: rd) 0 (Z.of_nat n) l = Ok (l ++ map as_block (repeat [] n ++ [s])).
Proof.
  intros Hs Hl. induction n as [|n IH]; intros l fuel Hf; (destruct fuel as [|fuel]; [lia|]); cbn [split_str_loop].
  - change (truth (Z.of_nat 0)) with false. rewrite dup_all_ok by assumption. reflexivity.
  - assert (truth (Z.of_nat (S n)) = true) as -> by (unfold truth; lia).
    assert (strstr (s ++ 0 :: r) (0 :: rd) = Ok (Some (s ++ 0 :: r))) as -> by (destruct s; reflexivity). cbn [bind].
    change (dup_until junk (s ++ 0 :: r) (s ++ 0 :: r)) with (dup_until junk ([] ++ s ++ 0 :: r) (s ++ 0 :: r)).
    rewrite dup_until_ok by (change (zlen (@nil Z)) with 0; lia). cbn [bind Z.to_nat skipn].
    replace (Z.of_nat (S n) - 1) with (Z.of_nat n) by lia. rewrite IH by lia.
    cbn [repeat app map]. rewrite <- app_assoc. reflexivity.
Qed.

Lemma split_str_empty junk s r rd max : text s -> 0 <= max -> zlen s + 1 < 2 ^ 64 ->
  charstr_split_str junk (s ++ 0 :: r) (0 :: rd) max = Ok (map as_block (repeat [] (Z.to_nat max) ++ [s])).
Proof.
  intros Hs Hm Hl. unfold charstr_split_str. cbn [strlen Z.eqb bind].
  rewrite <- (Z2Nat.id max) at 2 by assumption. rewrite split_str_empty_loop; [reflexivity|assumption|assumption|lia].
Qed.

(** ** Atoms *)

Lemma skip_white_ok : forall s r, text s ->
  (Forall code_white s /\ skip_white (s ++ 0 :: r) = Ok None) \/
  (exists w c t, s = w ++ c :: t /\ Forall code_white w /\ ~ code_white c /\
    skip_white (s ++ 0 :: r) = Ok (Some (c :: t ++ 0 :: r))).
Proof.
  induction s as [|c s IH]; intros r Hs; cbn [skip_white app].
  - left. split; [constructor|reflexivity].
  - apply text_cons in Hs. destruct Hs as [Hc Hs]. replace (c =? 0) with false by lia.
    pose proof (is_white_ok c ltac:(lia)) as W. destruct (is_white c); cbn [negb].
    + assert (Wc : code_white c) by (apply W; reflexivity).
      destruct (IH r Hs) as [[H1 H2]|(w & d & t & -> & H2 & H3 & H4)].
      * left. auto.
      * right. exists (c :: w), d, t. auto.
    + right. exists [], c, s. split; [reflexivity|]. split; [constructor|]. split; [|reflexivity].
      intros H. apply W in H. discriminate.
Qed.

Lemma skip_black_ok : forall s r, text s ->
  exists a t, s = a ++ t /\ Forall (fun c => ~ code_white c) a /\
    (t = [] \/ exists c t', t = c :: t' /\ code_white c) /\ skip_black (s ++ 0 :: r) = Ok (t ++ 0 :: r).
Proof.
  induction s as [|c s IH]; intros r Hs; cbn [skip_black app].
  - exists [], []. auto.
  - apply text_cons in Hs. destruct Hs as [Hc Hs]. rewrite truth_pos by assumption.
    pose proof (is_white_ok c ltac:(lia)) as W. destruct (is_white c); cbn [negb andb].
    + exists [], (c :: s). split; [reflexivity|]. split; [constructor|]. split; [|reflexivity]. right. exists c, s.
      split; [reflexivity|]. apply W. reflexivity.
    + destruct (IH r Hs) as (a & t & -> & H2 & H3 & H4). exists (c :: a), t. split; [reflexivity|].
      split; [|auto]. constructor; [|assumption]. intros H. apply W in H. discriminate.
Qed.

Lemma atoms_loop_ok junk : forall n s r l fuel, (length s <= n)%nat -> (n < fuel)%nat -> text s -> zlen s + 1 < 2 ^ 64 ->
  exists parts, atoms_loop junk fuel (s ++ 0 :: r) l = Ok (l ++ map as_block parts) /\ atoms code_white s parts.
Proof.
  induction n as [n IH] using lt_wf_ind. intros s r l fuel Hn Hf Hs Hlen.
  destruct fuel as [|fuel]; [lia|]. cbn [atoms_loop].
  destruct (skip_white_ok s r Hs) as [[H1 ->]|(w & c & t & -> & H2 & H3 & ->)]; cbn [bind].
  { exists []. rewrite app_nil_r. split; [reflexivity|]. constructor. assumption. }
  cbn [tl]. apply text_app in Hs. destruct Hs as [Hw Hs]. apply text_cons in Hs. destruct Hs as [Hc Hs].
  destruct (skip_black_ok t r Hs) as (a & u & -> & A1 & A2 & ->). cbn [bind].
  rewrite zlen_app, zlen_cons, zlen_app in Hlen.
  pose proof (zlen_nonneg a). pose proof (zlen_nonneg u). pose proof (zlen_nonneg w).
  replace (c :: (a ++ u) ++ 0 :: r) with ((c :: a) ++ u ++ 0 :: r) by (cbn [app]; rewrite <- app_assoc; reflexivity).
  rewrite dup_until_ok by (rewrite zlen_cons; lia). cbn [bind].
  apply text_app in Hs. destruct Hs as [_ Hu]. rewrite app_length in Hn. cbn [length] in Hn. rewrite app_length in Hn.
  destruct (IH (length u) ltac:(lia) u r (l ++ [as_block (c :: a)]) fuel) as (parts & E1 & E2); try lia; try assumption.
  exists ((c :: a) :: parts). rewrite E1. split; [rewrite <- app_assoc; reflexivity|].
  change (w ++ c :: a ++ u) with (w ++ (c :: a) ++ u).
  apply Atoms_cons; try assumption; [discriminate|]. constructor; assumption.
Qed.

Lemma split_atoms_ok junk s r : text s -> zlen s + 1 < 2 ^ 64 ->
  exists parts, charstr_split_atoms junk (s ++ 0 :: r) = Ok (map as_block parts) /\ atoms code_white s parts.
Proof.
  intros Hs Hl. unfold charstr_split_atoms.
  destruct (atoms_loop_ok junk (length s) s r [] (S (length (s ++ 0 :: r)))) as (parts & E1 & E2);
    try lia; try assumption; [rewrite app_length; cbn [length]; lia|].
  exists parts. auto.
Qed.

Lemma atoms_ext (W W' : Z -> Prop) s l : (forall c, In c s -> (W c <-> W' c)) -> atoms W s l -> atoms W' s l.
Proof.
  intros H HA. induction HA as [w Hw|w a s l Hw Ha Hb Hs HA IH].
  - constructor. rewrite Forall_forall in *. intros c Hc. apply H; [assumption|]. apply Hw. assumption.
  - assert (Hin : forall c, In c w \/ In c a \/ In c s -> (W c <-> W' c)).
    { intros c Hc. apply H. rewrite !in_app_iff. tauto. }
    constructor.
    + rewrite Forall_forall in *. intros c Hc. apply Hin; [tauto|]. apply Hw. assumption.
    + assumption.
    + rewrite Forall_forall in *. intros c Hc Wc. apply (Hb c Hc). apply Hin; [tauto|]. assumption.
    + destruct Hs as [Hs|(c & s' & -> & Wc)]; [left; exact Hs|right; exists c, s']. split; [reflexivity|].
      apply Hin; [right; right; left; reflexivity|]. assumption.
    + apply IH. intros c Hc. apply Hin. tauto.
Qed.

(** The bytes for which the table and the documentation disagree on whitespace. *)
Definition regular (c : Z) : Prop := c <> 8 /\ c <> 11 /\ c <> 12 /\ c <> 13.

Lemma regular_white c : regular c -> (code_white c <-> doc_white c).
Proof. unfold regular, code_white, doc_white. lia. Qed.

(** ** Stripping *)

Lemma strip_left_ok : forall s r, text s ->
  exists w t, s = w ++ t /\ Forall code_white w /\ (forall c t', t = c :: t' -> ~ code_white c) /\
    strip_left (s ++ 0 :: r) = Ok (t ++ 0 :: r).
Proof.
  induction s as [|c s IH]; intros r Hs; cbn [strip_left app].
  - exists [], []. split; [reflexivity|]. split; [constructor|]. split; [discriminate|reflexivity].
  - apply text_cons in Hs. destruct Hs as [Hc Hs]. rewrite truth_pos by assumption. cbn [andb].
    pose proof (is_white_ok c ltac:(lia)) as W. destruct (is_white c).
    + destruct (IH r Hs) as (w & t & -> & H2 & H3 & H4). exists (c :: w), t. split; [reflexivity|].
      split; [constructor; [apply W; reflexivity|assumption]|]. auto.
    + exists [], (c :: s). split; [reflexivity|]. split; [constructor|]. split; [|reflexivity].
      intros d t' E. inversion E. subst. intros H. apply W in H. discriminate.
Qed.

Lemma strip_right_ok : forall s r, text s ->
  exists m w, s = m ++ w /\ Forall code_white w /\ (forall c m', m = m' ++ [c] -> ~ code_white c) /\
    strip_right (s ++ 0 :: r) (length s) = Ok (length m).
Proof.
  intros s. induction s as [|c s IH] using rev_ind; intros r Hs.
  - exists [], []. split; [reflexivity|]. split; [constructor|]. split; [|reflexivity].
    intros c m' E. symmetry in E. apply app_eq_nil in E. destruct E. discriminate.
  - apply text_app in Hs. destruct Hs as [Hs Hc]. apply text_cons in Hc. destruct Hc as [Hc _].
    rewrite app_length. cbn [length]. rewrite Nat.add_1_r. cbn [strip_right].
    rewrite <- app_assoc. cbn [app]. rewrite rd_app by reflexivity. cbn [bind].
    pose proof (is_white_ok c ltac:(lia)) as W. destruct (is_white c).
    + assert (E : exists m w, s = m ++ w /\ Forall code_white w /\ (forall c m', m = m' ++ [c] -> ~ code_white c) /\
        strip_right (s ++ c :: 0 :: r) (length s) = Ok (length m)).
      { destruct (IH r Hs) as (m & w & H1 & H2 & H3 & H4). exists m, w. repeat (split; [assumption|]).
        rewrite <- H4.
        assert (Same : forall k, (k <= length s)%nat -> strip_right (s ++ c :: 0 :: r) k = strip_right (s ++ 0 :: r) k).
        { induction k as [|k IHk]; intros Hk; [reflexivity|]. cbn [strip_right].
          rewrite !rd_Ok by (rewrite zlen_app; unfold zlen; cbn [length]; lia). cbn [bind].
          rewrite !app_nth1 by lia. rewrite IHk by lia. reflexivity. }
        apply Same. lia. }
      destruct E as (m & w & -> & H2 & H3 & H4). exists m, (w ++ [c]). split; [symmetry; apply app_assoc|].
      split; [|auto]. apply Forall_app. split; [assumption|]. constructor; [apply W; reflexivity|constructor].
    + exists (s ++ [c]), []. split; [rewrite app_nil_r; reflexivity|]. split; [constructor|].
      split; [|rewrite app_length; cbn [length]; f_equal; lia].
      intros d m' E. apply app_inj_tail in E. destruct E as [_ ->]. intros H. apply W in H. discriminate.
Qed.

Lemma strip_ok junk s r : text s -> zlen s + 1 < 2 ^ 64 ->
  exists m, charstr_strip junk (Some (s ++ 0 :: r)) = Ok (Some (as_block m)) /\ stripped code_white s m.
Proof.
  intros Hs Hl. unfold charstr_strip.
  destruct (strip_left_ok s r Hs) as (w & t & -> & A1 & A2 & ->). cbn [bind].
  apply text_app in Hs. destruct Hs as [_ Ht].
  rewrite strlen_ok by (apply text_no_nul; assumption). cbn [bind]. rewrite zlen_to_nat.
  destruct (strip_right_ok t r Ht) as (m & w2 & -> & B1 & B2 & ->). cbn [bind].
  exists m. unfold charstr_dupsubstr.
  replace (zlen ((m ++ w2) ++ 0 :: r) - (zlen ((m ++ w2) ++ 0 :: r) - Z.of_nat (length m))) with (zlen m) by (unfold zlen; lia).
  rewrite !zlen_app in Hl. pose proof (zlen_nonneg w). pose proof (zlen_nonneg m). pose proof (zlen_nonneg w2).
  rewrite u64_small by lia. rewrite <- app_assoc. rewrite dup_range_ok by lia. cbn [bind].
  split; [reflexivity|]. exists w, w2. split; [reflexivity|]. split; [assumption|]. split; [assumption|].
  split; [|assumption]. intros c m' E. subst m. apply (A2 c (m' ++ w2)). reflexivity.
Qed.

Lemma stripped_ext (W W' : Z -> Prop) s m : (forall c, In c s -> (W c <-> W' c)) -> stripped W s m -> stripped W' s m.
Proof.
  intros H (w1 & w2 & -> & A & B & C & D).
  assert (Hin : forall c, In c w1 \/ In c m \/ In c w2 -> (W c <-> W' c)).
  { intros c Hc. apply H. rewrite !in_app_iff. tauto. }
  exists w1, w2. split; [reflexivity|].
  split. { rewrite Forall_forall in *. intros c Hc. apply Hin; auto. }
  split. { rewrite Forall_forall in *. intros c Hc. apply Hin; auto. }
  split.
  - intros c m' E Wc. apply (C c m' E). apply Hin; [|assumption]. right. left. rewrite E. left. reflexivity.
  - intros c m' E Wc. apply (D c m' E). apply Hin; [|assumption]. right. left. rewrite E. apply in_app_iff. right. left. reflexivity.
Qed.
