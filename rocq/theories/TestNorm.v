(** Proofs about the program test/charstr_normalization_test.c. *)
From Verif Require Import Base CMem Heap ListModel ListSpec ListProofs CharstrModel CharstrSpec CharstrProofs Utf8Model Utf8Spec Utf8Proofs NormModel NormSpec NormFacts NormOrder NormBytes NormDecompose NormRecompose NormMain NormProps IdnaTextModel IdnaTextSpec IdnaTextProofs.
From Verif Require Import ObjModel ObjBase OwnModel OwnSpec OwnProofs NewMemModel GenMemModel GenMem GenMemFile TestMoreModel TestSpec TestMore TestIdnaModel TestIdna TestNormModel TestNormSpec.
From Coq Require Import Permutation ZifyBool ZifyNat.

(** ** The columns in blocks that may be larger *)
Definition stored (cps b : list Z) : Prop := exists q, b = encoding cps ++ 0 :: q.

Lemma compare_stored a b r d : codepoints a -> codepoints b -> stored b d -> exists x, strcmp_eq (encoding a ++ 0 :: r) d = Ok x /\ (x = true <-> a = b).
Proof.
  intros A B (q & ->). destruct (strcmp_eq_ok (encoding a) (encoding b) r q (codepoints_text _ A) (codepoints_text _ B)) as (x & E & X). exists x. split; [exact E|].
  rewrite X. split; [apply encoding_inj; [apply A|apply B]|congruence].
Qed.
Lemma verify_stored l cps a b d da db : sound l -> codepoints cps -> codepoints a -> codepoints b ->
  (exists t, nfd cps t /\ zlen (encoding t) < 1000) -> ~ (exists t, nfc cps t /\ crowded t) -> stored cps d -> stored a da -> stored b db ->
  exists x, verify_normalization l d da db = Ok x /\ (x = true <-> nfd cps a /\ nfc cps b).
Proof.
  intros (L1 & L2 & L3) C A B (t & N & Lt) NC (q & ->) Sa Sb. pose proof (nfd_codepoints _ _ C N) as Ct.
  assert (Ud : forall v, nfd cps v -> v = t) by (destruct (nfd_exists cps) as (t' & _ & U); intros v V; rewrite (U v V); symmetry; apply U; exact N).
  destruct (decompose_fits (encoding cps) cps t (0 :: q) None [] (l_nfd_output l) [] (text_input _ q (codepoints_text _ C)) (encodes_encs _ (proj1 C)) N ltac:(lia)) as (rest & R & _).
  rewrite !app_nil_r, L1 in R. cbn [app] in R. change (zlen (@nil Z)) with 0 in R. rewrite !Z.add_0_l in R.
  unfold verify_normalization. rewrite R. cbn [bind].
  destruct (compare_stored t a rest da Ct A Sa) as (x & -> & X). cbn [bind]. destruct x; cbn [negb].
  2: { exists false. split; [reflexivity|]. split; [discriminate|]. intros [Na _]. apply X. symmetry. exact (Ud a Na). }
  pose proof (proj1 X eq_refl) as <-.
  destruct (C59_nfc (encoding t) t (0 :: rest) None [] (l_nfc_output l) [] (l_recomposer l) (l_hangul l) (l_errno l) (text_input _ _ (codepoints_text _ Ct)) (encodes_encs _ (proj1 Ct)) (nfd_idem _ _ N) L3 ltac:(lia))
    as (u & (v & Nv & Cv) & _ & K).
  assert (v = t) as ->. { destruct (nfd_exists t) as (t' & _ & U). rewrite (U v Nv). symmetry. apply U. exact (nfd_idem _ _ N). }
  assert (Nu : nfc cps u) by (exists t; auto).
  destruct K as (rest2 & K); [intros Cr; apply NC; eauto|]. rewrite !app_nil_r, L2 in K. cbn [app] in K. change (zlen (@nil Z)) with 0 in K. rewrite !Z.add_0_l in K.
  rewrite K. cbn [bind].
  destruct (compare_stored u b rest2 db (nfc_codepoints _ _ Ct Cv) B Sb) as (y & -> & Y). exists y. split; [reflexivity|]. rewrite Y. split; [intros <-; auto|].
  intros [_ Nb]. destruct (nfc_exists cps) as (u' & _ & U). rewrite (U u Nu). symmetry. exact (U b Nb).
Qed.
Lemma test_stored l c1 c2 c3 c4 c5 d1 d2 d3 d4 d5 : sound l -> Forall (fun c => codepoints c /\ fits c) [c1; c2; c3; c4; c5] ->
  stored c1 d1 -> stored c2 d2 -> stored c3 d3 -> stored c4 d4 -> stored c5 d5 ->
  exists x, test_normalization l d1 d2 d3 d4 d5 = Ok x /\ (x = true <-> right [c1; c2; c3; c4; c5]).
Proof.
  intros L F S1 S2 S3 S4 S5. rewrite Forall_forall in F.
  assert (V : forall c a b d da db, In c [c1; c2; c3; c4; c5] -> In a [c1; c2; c3; c4; c5] -> In b [c1; c2; c3; c4; c5] -> stored c d -> stored a da -> stored b db ->
    exists x, verify_normalization l d da db = Ok x /\ (x = true <-> nfd c a /\ nfc c b)).
  { intros c a b d da db Ic Ia Ib. apply verify_stored; [exact L|apply F..| |]; try assumption; apply (F c Ic). }
  unfold test_normalization, right.
  Ltac step1 V c a b d da db := let x := fresh "x" in let X := fresh "X" in destruct (V c a b d da db) as (x & -> & X); [cbn; tauto|cbn; tauto|cbn; tauto|assumption|assumption|assumption|]; cbn [bind];
    destruct x; cbn [negb]; [|exists false; split; [reflexivity|]; split; [discriminate|]; intros [P Q]; apply X; first [apply P; cbn; tauto|apply Q; cbn; tauto]].
  step1 V c1 c3 c2 d1 d3 d2. step1 V c2 c3 c2 d2 d3 d2. step1 V c3 c3 c2 d3 d3 d2. step1 V c4 c5 c4 d4 d5 d4. step1 V c5 c5 c4 d5 d5 d4.
  exists true. split; [reflexivity|]. split; [intros _|reflexivity]. split.
  - intros c [<-|[<-|[<-|[]]]]; tauto.
  - intros c [<-|[<-|[]]]; tauto.
Qed.

(** ** Splitting *)
Notation join := CharstrSpec.join.
Lemma split_join c x : forall fs max, Forall (fun f => ~ In c f) fs -> zlen fs <= max -> (max = zlen fs \/ ~ In c x) ->
  split_at_char c max (join [c] (fs ++ [x])) (fs ++ [x]).
Proof.
  induction fs as [|f fs IH]; intros max F L M.
  - cbn [app join]. change (zlen (@nil (list Z))) with 0 in *. apply split_at_char_last; [lia|]. destruct M; auto.
  - rewrite zlen_cons in *. pose proof (zlen_nonneg fs). inversion F; subst. cbn [app]. assert (E : join [c] (f :: fs ++ [x]) = f ++ c :: join [c] (fs ++ [x])) by (destruct fs; reflexivity).
    rewrite E. apply split_at_char_cons; [lia|assumption|]. apply IH; [assumption|lia|]. destruct M; [left; lia|auto].
Qed.
Lemma number_free c ds n : hex_number ds n -> c = 32 \/ c = 59 \/ c = 35 \/ c = 64 -> ~ In c ds.
Proof.
  intros H C I. destruct (hex_number_x _ _ H) as (_ & F & _). rewrite Forall_forall in F. specialize (F _ I). unfold xdigit in F. destruct C as [->|[->|[->| ->]]]; cbv in F; intuition discriminate.
Qed.
Lemma join_no c d parts : c <> d -> Forall (fun f => ~ In c f) parts -> ~ In c (join [d] parts).
Proof.
  intros N. induction 1 as [|f parts Hf _ IH]; [intros []|]. cbn [join]. destruct parts; [exact Hf|]. intros I. apply in_app_or in I. destruct I as [I|[I|I]]; [auto|congruence|auto].
Qed.
Lemma join_count c (parts : list (list Z)) : zlen parts <= zlen (join [c] parts) + 1.
Proof.
  induction parts as [|f parts IH]; [cbn; lia|]. cbn [join]. destruct parts as [|g parts]; [cbn; pose proof (zlen_nonneg f); unfold zlen; cbn [length]; lia|].
  rewrite zlen_cons, !zlen_app. change (zlen [c]) with 1. pose proof (zlen_nonneg f). lia.
Qed.

Section Norm.
Context (junk : nat -> Z) (l : leftovers) (others : Z -> option cell).
Notation world := (world others).

Lemma scalar_range cp : scalar cp -> 0 <= cp < 0x110000.
Proof. unfold scalar. lia. Qed.
Lemma decode_loop_ok lf str size os : forall ts numbers cps k h done room,
  (length ts < k)%nat -> map block_of ts = map as_block numbers -> Forall2 hex_number numbers cps -> Forall scalar cps ->
  size = zlen done + zlen room -> 4 * zlen ts < zlen room ->
  world h (OList lf (map pair_of ts) :: map str_of ts ++ OStr str (done ++ room) :: os) ->
  exists room' h', decode_loop k lf str size (Some (zlen done)) h = Ok (Some (zlen done + zlen (encoding cps)), h') /\ 0 < zlen room' /\
    world h' (OList lf [] :: OStr str (done ++ encoding cps ++ room') :: os).
Proof.
  induction ts as [|[[e p] b] ts IH]; intros numbers cps k h done room K B F S Z R W; (destruct k as [|k]; [cbn in K; lia|]); cbn [decode_loop].
  - destruct numbers; [|discriminate B]. inversion F; subst. rewrite (bnd_Ok _ _ _ _ _ (empty_ok _ _ _ (is_list_of _ _ _ _ _ W))). cbn [map].
    exists room, h. cbn [encoding flat_map app]. change (zlen (@nil Z)) with 0. rewrite Z.add_0_r. split; [reflexivity|]. split; [change (zlen (@nil (Z * Z * list Z))) with 0 in R; lia|exact W].
  - destruct numbers as [|ds numbers]; [discriminate B|]. cbn [map block_of snd] in B. injection B as -> B. inversion F as [|? cp ? cps' Hd F' E1 E2]; subst. inversion S as [|? ? Sc S']; subst.
    pose proof (scalar_range _ Sc) as Rc.
    rewrite (bnd_Ok _ _ _ _ _ (empty_ok _ _ _ (is_list_of _ _ _ _ _ W))). cbn [map pair_of fst].
    cbn [map pair_of fst] in W. destruct (w_pop _ _ _ _ _ W) as (h1 & E1 & W1). cbn [values map snd hd tl] in E1, W1. rewrite (bnd_Ok _ _ _ _ _ E1).
    cbn [map app] in W1. change (str_of (e, p, as_block ds)) with (OStr p (as_block ds)) in W1.
    assert (G : get h1 p = Some (CSlots (as_block ds))) by (apply (world_get _ _ _ _ _ W1); right; left; reflexivity).
    rewrite (step_ld_slots _ _ _ _ G). unfold as_block at 1. rewrite (strtol_padded ds cp ds [] Hd ltac:(lia)) by (exists [], []; rewrite app_nil_r; repeat split; constructor).
    rewrite step_lift. rewrite s32_small by lia.
    apply (world_perm _ _ _ (OStr str (done ++ room) :: OStr p (as_block ds) :: OList lf (map pair_of ts) :: map str_of ts ++ os)) in W1; [|perm].
    rewrite (step_ld_slots _ _ _ _ (world_get _ _ _ _ _ W1 (or_introl eq_refl))).
    rewrite encode_puts. rewrite enc_utf8 by lia. assert (LU : 0 < zlen (utf8 cp) <= 4).
    { rewrite <- enc_utf8 by lia. rewrite enc_length. destruct (cp <? 128), (cp <? 2048), (cp <? 65536); lia. }
    rewrite zlen_cons in R. pose proof (zlen_nonneg ts).
    set (n := length (utf8 cp)). assert (En : zlen (firstn n room) = zlen (utf8 cp)) by (clear - R LU H; unfold n, zlen in *; rewrite firstn_length; rewrite Nat.min_l by lia; reflexivity).
    assert (Er : zlen (skipn n room) = zlen room - zlen (utf8 cp)) by (clear - R LU H; unfold n, zlen in *; rewrite skipn_length; lia).
    replace (done ++ room) with (done ++ firstn n room ++ skipn n room) by (rewrite firstn_skipn; reflexivity). rewrite (puts_fits (utf8 cp) done (firstn n room) (skipn n room)); [|exact En|intros m X; injection X as <-; lia].
    rewrite step_lift. cbn [fst snd].
    destruct (w_store _ _ _ _ _ (done ++ utf8 cp ++ skipn n room) W1) as (h2 & E2 & W2). rewrite (bnd_Ok _ _ _ _ _ E2).
    apply (world_perm _ _ _ (OStr p (as_block ds) :: OList lf (map pair_of ts) :: map str_of ts ++ OStr str (done ++ utf8 cp ++ skipn n room) :: os)) in W2; [|perm].
    assert (Np : p <> 0) by (apply (world_nonnull _ _ _ _ _ W2 (or_introl eq_refl))).
    destruct (w_free _ _ _ _ _ W2) as (h3 & E3 & W3). unfold free_or_null. rewrite (proj2 (Z.eqb_neq p 0) Np). rewrite (bnd_Ok _ _ _ _ _ E3).
    rewrite app_assoc in W3. rewrite <- (zlen_app done (utf8 cp)).
    destruct (IH numbers cps' k h3 (done ++ utf8 cp) (skipn n room)) as (room' & h' & E4 & R4 & W4); try assumption.
    + cbn in K. lia.
    + rewrite zlen_app. lia.
    + lia.
    + exists room', h'. change (encoding (cp :: cps')) with (utf8 cp ++ encoding cps'). rewrite (zlen_app (utf8 cp)). split; [rewrite E4, zlen_app, Z.add_assoc; reflexivity|]. split; [exact R4|].
      rewrite <- !app_assoc in W4 |- *. exact W4.
Qed.

Definition small (f : list Z) : Prop := text f /\ zlen f < 2 ^ 32 - 1.
Lemma as_block_len f : zlen (as_block f) = zlen f + 1.
Proof. unfold as_block. rewrite zlen_app. reflexivity. Qed.
Lemma forall2_left {A B} (P : A -> Prop) (Q : A -> B -> Prop) : (forall a b, Q a b -> P a) -> forall l1 l2, Forall2 Q l1 l2 -> Forall P l1.
Proof. intros H. induction 1; constructor; eauto. Qed.
Lemma forall2_len {A B} (Q : A -> B -> Prop) l1 l2 : Forall2 Q l1 l2 -> length l1 = length l2.
Proof. induction 1; cbn [length]; congruence. Qed.
Lemma exists_last_part (parts : list (list Z)) : parts <> [] -> exists fs x, parts = fs ++ [x].
Proof. intros N. destruct (exists_last N) as (fs & x & ->). eauto. Qed.

Lemma decode_column_ok h os p f cps : world h os -> In (OStr p (as_block f)) os -> column f cps -> small f ->
  exists q d h', decode_column junk p h = Ok (q, h') /\ stored cps d /\ world h' (OStr q d :: os).
Proof.
  intros W I (numbers & Ne & Ef & F & (Sc & Nz) & _) (T & L). pose proof (zlen_nonneg f) as Lf.
  destruct (exists_last_part numbers Ne) as (fs & x & En).
  assert (FR : Forall (fun g => ~ In 32 g) numbers) by (revert F; apply forall2_left; intros a b H; apply (number_free 32 a b H); auto).
  pose proof (join_count 32 numbers) as JC. rewrite <- Ef in JC.
  assert (SP : split_at_char 32 (2 ^ 32 - 1) f numbers).
  { rewrite Ef, En. rewrite En in FR. apply Forall_app in FR. destruct FR as (F1 & F2). rewrite En, zlen_app in JC. change (zlen [x]) with 1 in JC. apply split_join; [exact F1|lia|]. right. inversion F2; assumption. }
  destruct (split_ok junk f [] 32 (2 ^ 32 - 1) T ltac:(lia) ltac:(lia) ltac:(lia)) as (parts & EP & SP'). rewrite (one_split (l_recomposer l) _ _ _ _ _ SP' SP) in EP. clear SP' parts. fold (as_block f) in EP.
  assert (LB : zlen (as_block f) < 2 ^ 59) by (rewrite as_block_len; lia).
  destruct (split_own junk h p (as_block f) 0 32 (2 ^ 32 - 1) (map as_block numbers) (world_get _ _ _ _ _ W I) LB EP) as (lf & h1 & es & E1 & O1).
  destruct (w_list _ _ _ _ _ _ _ W O1) as (ts & PA & PB & W1). rewrite <- PA in W1. clear O1.
  unfold decode_column. change (u32 (-1)) with (2 ^ 32 - 1). rewrite (bnd_Ok _ _ _ _ _ E1).
  rewrite (bnd_Ok _ _ _ _ _ (size_ok _ _ _ (is_list_of _ _ _ _ _ W1))).
  assert (Lts : zlen (map pair_of ts) = zlen numbers) by (unfold zlen; apply (f_equal (@length _)) in PB; rewrite !map_length in PB; rewrite map_length; congruence).
  rewrite Lts. pose proof (zlen_nonneg numbers) as Ln. cbv zeta. replace (u64 (u64 (zlen numbers * 4) + 1)) with (zlen numbers * 4 + 1) by (unfold u64; rewrite !Z.mod_small; lia).
  set (room := fresh_block junk (zlen numbers * 4 + 1)). assert (Lr : zlen room = zlen numbers * 4 + 1) by (unfold room, fresh_block, zlen in *; rewrite map_length, seq_length; lia).
  destruct (w_new _ _ _ room W1) as (q & h2 & E2 & Nq & W2). unfold new_string in E2. rewrite step_lift in E2. rewrite (bnd_Ok _ _ _ _ _ E2).
  erewrite bnd_Ok by reflexivity.
  apply (world_perm _ _ _ (OList lf (map pair_of ts) :: map str_of ts ++ OStr q ([] ++ room) :: os)) in W2; [|cbn [app]; perm].
  assert (Lt2 : zlen ts = zlen numbers) by (rewrite <- Lts; unfold zlen; rewrite map_length; reflexivity).
  assert (Fu : (length ts < S (length (mem h2)))%nat) by (pose proof (il_fuel _ _ _ (is_list_of _ _ _ _ _ W2)) as X; rewrite map_length in X; exact X).
  assert (Rm : 4 * zlen ts < zlen room) by lia.
  destruct (decode_loop_ok lf q (zlen numbers * 4 + 1) os ts numbers cps _ h2 [] room Fu PB F Sc (eq_sym Lr) Rm W2) as (room' & h3 & E3 & R3 & W3).
  change (zlen (@nil Z)) with 0 in E3. rewrite Z.add_0_l in E3. rewrite (bnd_Ok _ _ _ _ _ E3). cbn [app] in W3.
  apply (world_perm _ _ _ (OStr q (encoding cps ++ room') :: OList lf [] :: os)) in W3; [|perm].
  rewrite (step_ld_slots _ _ _ _ (world_get _ _ _ _ _ W3 (or_introl eq_refl))).
  destruct room' as [|y room']; [cbn in R3; lia|]. rewrite (wr_app (encoding cps) y room' _ 0 eq_refl), step_lift.
  destruct (w_store _ _ _ _ _ (encoding cps ++ 0 :: room') W3) as (h4 & E4 & W4). rewrite (bnd_Ok _ _ _ _ _ E4).
  apply (world_perm _ _ _ (OList lf [] :: OStr q (encoding cps ++ 0 :: room') :: os)) in W4; [|perm].
  destruct (w_destroy _ _ _ _ _ W4) as (h5 & E5 & W5). rewrite (bnd_Ok _ _ _ _ _ E5).
  exists q, (encoding cps ++ 0 :: room'), h5. split; [reflexivity|]. split; [exists room'; reflexivity|exact W5].
Qed.

Lemma decode_columns_ok fields cols : Forall2 column fields cols -> Forall small fields -> forall ps h os, length ps = length fields ->
  world h (strs (combine ps (map as_block fields)) ++ os) ->
  exists qs ds h', decode_columns junk ps h = Ok (qs, h') /\ length qs = length ds /\ Forall2 stored cols ds /\ world h' (strs (combine qs ds) ++ os).
Proof.
  induction 1 as [|f c fields cols Hc F IH]; intros S ps h os L W.
  - destruct ps; [|discriminate L]. exists [], [], h. cbn in W |- *. repeat split; [constructor|apply W..].
  - destruct ps as [|p ps]; [discriminate L|]. injection L as L. inversion S as [|? ? Sf S']; subst. cbn [decode_columns].
    cbn [map combine strs fst snd app] in W. fold (strs (combine ps (map as_block fields))) in W.
    destruct (decode_column_ok h _ p f c W (or_introl eq_refl) Hc Sf) as (q & d & h1 & E1 & St & W1). rewrite (bnd_Ok _ _ _ _ _ E1).
    apply (world_perm _ _ _ (OStr p (as_block f) :: strs (combine ps (map as_block fields)) ++ OStr q d :: os)) in W1; [|perm].
    assert (Np : p <> 0) by (apply (world_nonnull _ _ _ _ _ W1 (or_introl eq_refl))).
    destruct (w_free _ _ _ _ _ W1) as (h2 & E2 & W2). unfold free_or_null. rewrite (proj2 (Z.eqb_neq p 0) Np). rewrite (bnd_Ok _ _ _ _ _ E2).
    destruct (IH S' ps h2 (OStr q d :: os) L W2) as (qs & ds & h3 & E3 & L3 & F3 & W3). rewrite (bnd_Ok _ _ _ _ _ E3).
    exists (q :: qs), (d :: ds), h3. split; [reflexivity|]. split; [cbn [length]; congruence|]. split; [constructor; assumption|].
    cbn [combine strs map fst snd app]. fold (strs (combine qs ds)). apply (world_perm _ _ (strs (combine qs ds) ++ OStr q d :: os)); [perm|exact W3].
Qed.
Lemma free_strings_ok : forall qs ds h os, length qs = length ds -> world h (strs (combine qs ds) ++ os) ->
  exists h', free_fields qs h = Ok (tt, h') /\ world h' os.
Proof.
  induction qs as [|q qs IH]; intros [|d ds] h os L W; try discriminate; cbn [free_fields]; [exists h; auto|].
  injection L as L. cbn [combine strs map fst snd app] in W. fold (strs (combine qs ds)) in W.
  assert (Nq : q <> 0) by (apply (world_nonnull _ _ _ _ _ W (or_introl eq_refl))).
  destruct (w_free _ _ _ _ _ W) as (h2 & E2 & W2). unfold free_or_null at 1. rewrite (proj2 (Z.eqb_neq q 0) Nq). rewrite (bnd_Ok _ _ _ _ _ E2). exact (IH ds h2 os L W2).
Qed.

Lemma strs_get ps : forall blocks h, Forall2 (fun p d => get h p = Some (CSlots d)) ps blocks -> Forall (holds h) (strs (combine ps blocks)) /\ feet (strs (combine ps blocks)) = ps.
Proof.
  induction ps as [|p ps IH]; intros blocks h F; inversion F as [|? d ? bs G F' E1 E2]; subst; [split; [constructor|reflexivity]|].
  destruct (IH _ _ F') as (A & B). cbn [combine strs map fst snd feet flat_map foot app]. split; [constructor; [exact G|exact A]|]. f_equal. exact B.
Qed.
Lemma w_array h h' array old os ps blocks : world h (OStr array old :: os) -> new_string_array h h' array old ps blocks ->
  world h' (OStr array (ps ++ skipn (length ps) old) :: strs (combine ps blocks) ++ os).
Proof.
  intros W (G & F & ND & N & SO). destruct (strs_get _ _ _ F) as (A & B).
  assert (E : feet (OStr array (ps ++ skipn (length ps) old) :: strs (combine ps blocks)) = array :: ps) by (cbn [feet flat_map foot app]; f_equal; exact B).
  apply (world_change others h h' [OStr array old] (OStr array (ps ++ skipn (length ps) old) :: strs (combine ps blocks)) os W); rewrite ?E.
  - constructor; [exact G|exact A].
  - exact ND.
  - intros x [<-|Hx] X; [destruct X; left; reflexivity|exact (N x Hx)].
  - intros x [<-|[]] X. destruct X. left; reflexivity.
  - intros x _ Hx. exact (SO x Hx).
Qed.

Lemma decode_line_ok h os la line cols : world h os -> In (OStr la (as_block line)) os -> small line -> data_line line cols ->
  exists qs ds h', decode_line junk la h = Ok (qs, h') /\ length qs = length ds /\ Forall2 stored cols ds /\ world h' (strs (combine qs ds) ++ os).
Proof.
  intros W I (T & L) (fields & rest & El & Lf & F). unfold decode_line. pose proof (zlen_nonneg line).
  set (old := fresh_block junk 6). assert (Lo : zlen old = 6) by reflexivity.
  destruct (w_new _ _ _ old W) as (array & h1 & E1 & Na & W1). unfold new_string in E1. rewrite step_lift in E1. rewrite (bnd_Ok _ _ _ _ _ E1).
  assert (Nla : la <> array).
  { intros ->. destruct W1 as (ND & _). cbn [feet flat_map foot app] in ND. inversion ND as [|? ? X _]. apply X. apply in_flat_map. exists (OStr array (as_block line)). split; [exact I|left; reflexivity]. }
  pose proof (world_get _ _ _ _ _ W1 (or_intror I)) as G. pose proof (world_get _ _ _ _ _ W1 (or_introl eq_refl)) as GA.
  assert (FR : Forall (fun g => ~ In 59 g) fields).
  { revert F. apply forall2_left. intros a b (numbers & _ & -> & Fn & _). apply join_no; [lia|]. revert Fn. apply forall2_left. intros x y Hx. apply (number_free 59 x y Hx). auto. }
  destruct (split_into_array_own junk h1 la [] line [] 59 array old 5 T ltac:(lia) ltac:(lia) ltac:(lia) G Nla GA ltac:(lia)) as (parts & h2 & ps & P1 & P2 & O2).
  destruct (split_ok junk line [] 59 5 T ltac:(lia) ltac:(lia) ltac:(lia)) as (parts' & P1' & SP). rewrite P1' in P1. injection P1 as P1.
  assert (EP : parts' = fields ++ [rest]).
  { apply (one_split (l_recomposer l) 59 5 line); [exact SP|]. rewrite El. apply split_join; [exact FR|unfold zlen; lia|left; unfold zlen; lia]. }
  rewrite <- P1 in O2. assert (LP : zlen parts = 6). { apply (f_equal (@length _)) in P1. rewrite !map_length, EP, app_length in P1. cbn [length] in P1. unfold zlen. lia. }
  change (zlen (@nil Z)) with 0 in P2. rewrite (bnd_Ok _ _ _ _ _ P2). rewrite LP. change (negb (6 - 1 =? 5)) with false. cbv iota.
  pose proof (w_array _ _ _ _ _ _ _ W1 O2) as W2. rewrite EP, map_app in W2, O2. cbn [map] in W2, O2.
  assert (Lps : length ps = 6%nat). { destruct O2 as (_ & F2 & _). apply forall2_len in F2. rewrite F2, app_length, map_length. cbn [length]. lia. }
  rewrite skipn_all2 in W2 by (unfold zlen in Lo; lia). rewrite app_nil_r in W2.
  rewrite (step_ld_slots _ _ _ _ (world_get _ _ _ _ _ W2 (or_introl eq_refl))).
  destruct (exists_last (l := ps)) as (ps5 & pr & Ep); [intros ->; discriminate|]. rewrite Ep in *. rewrite app_length in Lps. cbn [length] in Lps.
  assert (L5 : length ps5 = 5%nat) by lia. rewrite firstn_app, L5, firstn_all2 by lia. cbn [Nat.sub firstn]. rewrite app_nil_r.
  assert (EC : combine (ps5 ++ [pr]) (map as_block fields ++ [as_block rest]) = combine ps5 (map as_block fields) ++ [(pr, as_block rest)]).
  { assert (X : length ps5 = length (map as_block fields)) by (rewrite map_length; lia). clear - X. revert X. generalize (map as_block fields). induction ps5 as [|p ps IH]; intros [|b bs] X; try discriminate; [reflexivity|]. cbn [app combine]. f_equal. apply IH. injection X as X. exact X. }
  rewrite EC in W2. unfold strs in W2. rewrite map_app in W2. fold (strs (combine ps5 (map as_block fields))) in W2. cbn [map fst snd] in W2.
  apply (world_perm _ _ _ (strs (combine ps5 (map as_block fields)) ++ OStr pr (as_block rest) :: OStr array (ps5 ++ [pr]) :: os)) in W2; [|perm].
  assert (SF : Forall small fields).
  { rewrite Forall_forall. intros f If. assert (If' : In f (fields ++ [rest])) by (apply in_or_app; auto). split.
    - apply (string_text [59] (fields ++ [rest]) f); [rewrite <- El; exact T|exact If'].
    - pose proof (string_len [59] (fields ++ [rest]) f If') as X. rewrite <- El in X. lia. }
  destruct (decode_columns_ok fields cols F SF ps5 h2 _ ltac:(lia) W2) as (qs & ds & h3 & E3 & L3 & F3 & W3). rewrite (bnd_Ok _ _ _ _ _ E3).
  assert (R5 : rd (ps5 ++ [pr]) 5 = Ok pr) by (apply rd_app; unfold zlen; lia). rewrite R5, step_lift.
  apply (world_perm _ _ _ (OStr pr (as_block rest) :: OStr array (ps5 ++ [pr]) :: strs (combine qs ds) ++ os)) in W3; [|perm].
  assert (Npr : pr <> 0) by (apply (world_nonnull _ _ _ _ _ W3 (or_introl eq_refl))).
  destruct (w_free _ _ _ _ _ W3) as (h4 & E4 & W4). unfold free_or_null. rewrite (proj2 (Z.eqb_neq pr 0) Npr). rewrite (bnd_Ok _ _ _ _ _ E4).
  destruct (w_free _ _ _ _ _ W4) as (h5 & E5 & W5). rewrite (bnd_Ok _ _ _ _ _ E5).
  exists qs, ds, h5. auto.
Qed.

Lemma column_codepoints f c : column f c -> codepoints c /\ fits c.
Proof. intros (numbers & _ & _ & _ & A & B). auto. Qed.
Lemma norm_line_ok h os la line cols : sound l -> world h os -> In (OStr la (as_block line)) os -> small line -> data_line line cols ->
  exists e h', norm_line junk l la h = Ok (e, h') /\ world h' os /\ (e = false <-> right cols).
Proof.
  intros Sl W I SL D. destruct (decode_line_ok _ _ _ _ _ W I SL D) as (qs & ds & h1 & E1 & L1 & F1 & W1). unfold norm_line. rewrite (bnd_Ok _ _ _ _ _ E1).
  destruct D as (fields & rest & _ & Lf & F). pose proof (forall2_len _ _ _ F) as L2. pose proof (forall2_len _ _ _ F1) as L3.
  assert (CP : Forall (fun c => codepoints c /\ fits c) cols) by (clear - F; induction F; constructor; eauto using column_codepoints).
  destruct cols as [|c1 [|c2 [|c3 [|c4 [|c5 [|? ?]]]]]]; cbn [length] in L2; try lia.
  destruct ds as [|d1 [|d2 [|d3 [|d4 [|d5 [|? ?]]]]]]; cbn [length] in L3; try lia.
  destruct qs as [|q1 [|q2 [|q3 [|q4 [|q5 [|? ?]]]]]]; cbn [length] in L1; try lia.
  inversion F1 as [|? ? ? ? S1 F2]; subst. inversion F2 as [|? ? ? ? S2 F3]; subst. inversion F3 as [|? ? ? ? S3 F4]; subst. inversion F4 as [|? ? ? ? S4 F5]; subst. inversion F5 as [|? ? ? ? S5 _]; subst.
  cbn [test_strings]. assert (G : forall q d, In (OStr q d) (strs (combine [q1; q2; q3; q4; q5] [d1; d2; d3; d4; d5]) ++ os) -> get h1 q = Some (CSlots d)) by (intros q d; exact (world_get _ _ _ q d W1)).
  destruct (test_stored l c1 c2 c3 c4 c5 d1 d2 d3 d4 d5 Sl CP S1 S2 S3 S4 S5) as (x & Ex & X).
  rewrite !bnd_assoc.
  rewrite (step_ld_slots _ _ _ _ (G q1 d1 ltac:(cbn; tauto))). rewrite !bnd_assoc, (step_ld_slots _ _ _ _ (G q2 d2 ltac:(cbn; tauto))). rewrite !bnd_assoc, (step_ld_slots _ _ _ _ (G q3 d3 ltac:(cbn; tauto))).
  rewrite !bnd_assoc, (step_ld_slots _ _ _ _ (G q4 d4 ltac:(cbn; tauto))). rewrite !bnd_assoc, (step_ld_slots _ _ _ _ (G q5 d5 ltac:(cbn; tauto))).
  rewrite Ex, step_lift. destruct (free_strings_ok [q1; q2; q3; q4; q5] [d1; d2; d3; d4; d5] _ _ L1 W1) as (h2 & E2 & W2). rewrite (bnd_Ok _ _ _ _ _ E2).
  exists (negb x), h2. split; [reflexivity|]. split; [exact W2|]. rewrite <- X. destruct x; cbn [negb]; split; congruence.
Qed.

Lemma data_line_starts line cols : data_line line cols -> exists c s, line = c :: s /\ (c =? 35) || (c =? 64) = false.
Proof.
  intros (fields & rest & -> & Lf & F). destruct F as [|f c fields cols (numbers & Ne & -> & Fn & _) F]; [discriminate|].
  destruct numbers as [|ds numbers]; [contradiction|]. inversion Fn as [|? n ? ? Hn _ E1 E2]. subst. destruct (hex_number_x _ _ Hn) as (_ & X & Nd). destruct ds as [|d ds]; [contradiction|]. inversion X as [|? ? Xd _]. subst.
  assert (D : (d =? 35) || (d =? 64) = false) by (unfold xdigit in Xd; lia).
  assert (J : exists s, join [32] ((d :: ds) :: numbers) = d :: s) by (destruct numbers; cbn [join app]; eauto).
  destruct J as (s & J). rewrite J. destruct fields; cbn [app join]; eauto.
Qed.
Lemma norm_loop_ok : sound l -> forall file rows, norm_text file rows -> forall fuel h os buffer b, (length file < fuel)%nat -> small file -> world h (OStr buffer b :: os) ->
  exists e h', norm_loop junk l fuel buffer false file h = Ok (e, h') /\ world h' os /\ (e = false <-> Forall right rows).
Proof.
  intros Sl. induction 1 as [|line file rows WL OL NT IH|line file cols rows WL DL NT IH]; intros fuel h os buffer b Fu Sf W; (destruct fuel as [|fuel]; [cbn in Fu; lia|]); cbn [norm_loop].
  - cbn [getline]. destruct (w_free _ _ _ _ _ W) as (h1 & E1 & W1). rewrite (bnd_Ok _ _ _ _ _ E1). exists false, h1. split; [reflexivity|]. split; [exact W1|]. split; [constructor|reflexivity].
  - destruct (getline_ok _ _ WL) as (-> & _). rewrite app_length in Fu. destruct OL as (s & OL). assert (OL' : exists c, line = c :: s /\ (c =? 35) || (c =? 64) = true) by (destruct OL as [->| ->]; eauto).
    destruct OL' as (c & -> & Hc). destruct (w_free _ _ _ _ _ W) as (h1 & E1 & W1). rewrite (bnd_Ok _ _ _ _ _ E1).
    destruct (w_new _ _ _ (as_block (c :: s)) W1) as (la & h2 & E2 & NA & W2). unfold new_string in E2. rewrite step_lift in E2. rewrite (bnd_Ok _ _ _ _ _ E2).
    unfold first_byte. rewrite bnd_assoc, (step_ld_slots _ _ _ _ (world_get _ _ _ _ _ W2 (or_introl eq_refl))). change (rd (as_block (c :: s)) 0) with (Ok c). rewrite step_lift, Hc.
    destruct Sf as (T & L). apply Forall_app in T. rewrite zlen_app in L. pose proof (zlen_nonneg (c :: s)). apply (IH fuel h2 os la (as_block (c :: s))); [cbn [length] in Fu; lia|split; [apply T|lia]|exact W2].
  - destruct (getline_ok _ _ WL) as (-> & _). rewrite app_length in Fu. destruct (data_line_starts _ _ DL) as (c & s & El & Hc). destruct line as [|c' s']; [discriminate El|]. cbv iota. set (line := c' :: s') in *.
    destruct (w_free _ _ _ _ _ W) as (h1 & E1 & W1). rewrite (bnd_Ok _ _ _ _ _ E1).
    destruct (w_new _ _ _ (as_block line) W1) as (la & h2 & E2 & NA & W2). unfold new_string in E2. rewrite step_lift in E2. rewrite (bnd_Ok _ _ _ _ _ E2).
    unfold first_byte. rewrite bnd_assoc, (step_ld_slots _ _ _ _ (world_get _ _ _ _ _ W2 (or_introl eq_refl))). replace (rd (as_block line) 0) with (Ok c) by (rewrite El; reflexivity). rewrite step_lift, Hc.
    destruct Sf as (T & L). apply Forall_app in T. rewrite zlen_app in L. pose proof (zlen_nonneg line). pose proof (zlen_nonneg file).
    assert (SL : small line) by (split; [apply T|lia]). assert (SF : small file) by (split; [apply T|lia]).
    destruct (norm_line_ok h2 _ la line cols Sl W2 (or_introl eq_refl) SL DL) as (e & h3 & E3 & W3 & X). rewrite (bnd_Ok _ _ _ _ _ E3).
    rewrite El in Fu. cbn [length] in Fu. destruct e.
    + destruct fuel as [|fuel]; [lia|]. cbn [norm_loop]. destruct (w_free _ _ _ _ _ W3) as (h4 & E4 & W4). rewrite (bnd_Ok _ _ _ _ _ E4).
      exists true, h4. split; [reflexivity|]. split; [exact W4|]. split; [discriminate|]. intros Fr. apply X. inversion Fr; assumption.
    + destruct (IH fuel h3 os la (as_block line) ltac:(lia) SF W3) as (e & h4 & E4 & W4 & Y). exists e, h4. split; [exact E4|]. split; [exact W4|]. rewrite Y. split; [intros Fr; constructor; [apply X; reflexivity|exact Fr]|intros Fr; inversion Fr; assumption].
Qed.
End Norm.

Lemma norm_main_ok junk l h file rows : sound l -> text file -> zlen file < 2 ^ 32 - 1 -> norm_text file rows ->
  exists error h', norm_main junk l file h = Ok (error, h') /\ same_memory h h' /\ (error = false <-> Forall right rows).
Proof.
  intros Sl T L NT. unfold norm_main. destruct (w_new _ _ _ (fresh_block junk 512) (empty_world h)) as (buffer & h1 & E1 & N1 & W1). unfold new_string in E1. rewrite step_lift in E1. rewrite (bnd_Ok _ _ _ _ _ E1).
  destruct (norm_loop_ok junk l (get h) Sl file rows NT (S (length file)) h1 [] buffer _ (Nat.lt_succ_diag_r _) (conj T L) W1) as (e & h2 & E2 & (_ & _ & _ & W2) & X).
  exists e, h2. split; [exact E2|]. split; [|exact X]. intros x. apply W2. intros [].
Qed.
