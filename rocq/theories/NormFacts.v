(** What follows from the checks of NormTables.v for all codepoints. *)
From Verif Require Import Base UcdData NormModel NormSpec Utf8Spec Ptree NormTables.
From Coq Require Import ZifyBool ZifyNat.

#[local] Opaque decomposition_data ccc_data exclusion_data nfc_qc_data nfd_qc_data.

Ltac bools H := repeat (apply andb_prop in H as [H ?]).

(** * Scalar values and their encodings *)

Lemma scalar_b_ok cp : scalar_b cp = true -> scalar cp /\ 0 < cp.
Proof. unfold scalar_b, scalar. lia. Qed.
Lemma utf8_width cp : 0 <= cp < 0x200000 -> zlen (utf8 cp) = width cp.
Proof. intros H. unfold utf8, width. destruct (cp <? 0x80); [reflexivity|]. destruct (cp <? 0x800); [reflexivity|]. destruct (cp <? 0x10000); reflexivity. Qed.
Lemma width_pos cp : 1 <= width cp <= 4.
Proof. unfold width. destruct (cp <? 0x80); [lia|]. destruct (cp <? 0x800); [lia|]. destruct (cp <? 0x10000); lia. Qed.
Lemma scalar_range cp : scalar cp -> 0 <= cp < 0x200000.
Proof. unfold scalar. lia. Qed.

(** * Hangul *)

Lemma is_syllable_ok cp : is_syllable cp = true <-> exists l v t, syllable l v t cp.
Proof.
  unfold is_syllable, syllable. split.
  - intros H. exists ((cp - 0xAC00) / 588), ((cp - 0xAC00) mod 588 / 28), (((cp - 0xAC00) mod 588) mod 28).
    assert (H' : 0 <= cp - 0xAC00 < 11172) by lia. remember (cp - 0xAC00) as i eqn:Ei. clear H.
    assert (cp = i + 0xAC00) by lia. subst cp. clear Ei.
    pose proof (Z.div_mod i 588 ltac:(lia)). pose proof (Z.mod_pos_bound i 588 ltac:(lia)).
    pose proof (Z.div_mod (i mod 588) 28 ltac:(lia)). pose proof (Z.mod_pos_bound (i mod 588) 28 ltac:(lia)).
    lia.
  - intros (l & v & t & H). lia.
Qed.
Lemma syllable_jamo_ok l v t cp : syllable l v t cp -> syllable_jamo cp = jamo l v t.
Proof.
  intros (Hl & Hv & Ht & ->). unfold syllable_jamo. cbn zeta.
  replace (0xAC00 + (l * 21 + v) * 28 + t - 0xAC00) with (l * (21 * 28) + (v * 28 + t)) by lia.
  assert (E1 : (l * (21 * 28) + (v * 28 + t)) / (21 * 28) = l) by (symmetry; apply (Z.div_unique _ _ _ (v * 28 + t)); lia).
  assert (E2 : (l * (21 * 28) + (v * 28 + t)) mod (21 * 28) = v * 28 + t) by (symmetry; apply (Z.mod_unique _ _ l); lia).
  assert (E3 : (v * 28 + t) / 28 = v) by (symmetry; apply (Z.div_unique _ _ _ t); lia).
  assert (E4 : (l * (21 * 28) + (v * 28 + t)) mod 28 = t) by (symmetry; apply (Z.mod_unique _ _ (l * 21 + v)); lia).
  rewrite E1, E2, E3, E4. reflexivity.
Qed.
Lemma syllable_unique l v t l' v' t' cp : syllable l v t cp -> syllable l' v' t' cp -> l = l' /\ v = v' /\ t = t'.
Proof. unfold syllable. intros (? & ? & ? & ?) (? & ? & ? & ?). lia. Qed.
Lemma is_syllable_hangul cp : is_syllable cp = true -> hangul cp = true.
Proof. unfold is_syllable, hangul. lia. Qed.
Lemma jamo_hangul l v t x : 0 <= l < 19 -> 0 <= v < 21 -> 0 <= t < 28 -> In x (jamo l v t) ->
  hangul x = true /\ is_syllable x = false /\ 0x1100 <= x < 0x1200.
Proof.
  intros Hl Hv Ht I. unfold jamo in I. unfold hangul, is_syllable. destruct (t =? 0) eqn:E; cbn [app In] in I; intuition lia.
Qed.

(** * Decomposition *)

Lemma decomposition_row cp d : switch decomposition_data cp = Some d ->
  scalar cp /\ 0 < cp /\ hangul cp = false /\ d <> [] /\ forall c, In c d -> scalar c /\ 0 < c /\ hangul c = false.
Proof.
  intros E. apply switch_in in E. pose proof (proj1 (forallb_forall _ _) decomposition_check _ E) as H. cbn in H. bools H.
  apply scalar_b_ok in H as [S P]. split; [exact S|]. split; [exact P|]. split; [|split].
  - lia.
  - destruct d; [discriminate|congruence].
  - intros c I. match goal with X : forallb _ d = true |- _ => pose proof (proj1 (forallb_forall _ _) X _ I) as Y end. cbn in Y. bools Y.
    apply scalar_b_ok in Y as [SY PY]. repeat split; auto. lia.
Qed.

Definition plain (x : Z) : bool :=
  match switch decomposition_data x with Some _ => false | None => negb (is_syllable x) end.

Lemma hangul_plain x : hangul x = true -> is_syllable x = false -> plain x = true.
Proof.
  intros H N. unfold plain. destruct (switch decomposition_data x) as [d|] eqn:E; [|rewrite N; reflexivity].
  apply decomposition_row in E. destruct E as (_ & _ & K & _). congruence.
Qed.
Lemma syllable_jamo_plain cp : is_syllable cp = true -> forallb plain (syllable_jamo cp) = true.
Proof.
  intros H. apply is_syllable_ok in H as (l & v & t & H). rewrite (syllable_jamo_ok _ _ _ _ H). destruct H as (Hl & Hv & Ht & _).
  apply forallb_forall. intros x I. destruct (jamo_hangul l v t x Hl Hv Ht I) as (A & B & _). apply hangul_plain; assumption.
Qed.

Lemma full_stable cp : forallb plain (full 4 cp) = true.
Proof.
  destruct (switch decomposition_data cp) as [d|] eqn:E.
  - pose proof (switch_in _ _ _ E) as I. pose proof (proj1 (forallb_forall _ _) full_check _ I) as H. cbn beta iota in H.
    apply andb_prop in H as [H _]. unfold stable_t in H. rewrite full_t_ok in H. etransitivity; [|exact H]. clear H.
    induction (full 4 cp) as [|x l IH]; [reflexivity|]. cbn [forallb]. rewrite IH. f_equal. unfold plain, decomposition_tree.
    rewrite (switch_zget _ _ decomposition_keys). reflexivity.
  - cbn [full]. rewrite E. destruct (is_syllable cp) eqn:S; [apply syllable_jamo_plain; exact S|].
    cbn [forallb]. unfold plain. rewrite E, S. reflexivity.
Qed.
Lemma full_more n : forall cp, forallb plain (full n cp) = true -> full (S n) cp = full n cp.
Proof.
  induction n as [|n IH]; intros cp H.
  - cbn in H. unfold plain in H. cbn [full]. destruct (switch decomposition_data cp); [discriminate|].
    destruct (is_syllable cp); [discriminate|reflexivity].
  - cbn [full] in H. change (full (S (S n)) cp) with
      (match switch decomposition_data cp with Some d => flat_map (full (S n)) d | None => if is_syllable cp then syllable_jamo cp else [cp] end).
    change (full (S n) cp) with
      (match switch decomposition_data cp with Some d => flat_map (full n) d | None => if is_syllable cp then syllable_jamo cp else [cp] end).
    destruct (switch decomposition_data cp) as [d|]; [|reflexivity].
    induction d as [|c d IHd]; [reflexivity|]. cbn [flat_map] in *. rewrite forallb_app in H. apply andb_prop in H as [H1 H2].
    rewrite IH by exact H1. rewrite IHd by exact H2. reflexivity.
Qed.

(** The full decomposition of a codepoint, and of a string. *)
Definition fd (cp : Z) : list Z := full 4 cp.
Definition fds (s : list Z) : list Z := flat_map fd s.
Arguments fd : simpl never.
Arguments fds : simpl never.
Lemma fds_cons c s : fds (c :: s) = fd c ++ fds s.
Proof. reflexivity. Qed.

Lemma fd_mapped cp d : switch decomposition_data cp = Some d -> fd cp = fds d.
Proof. intros E. unfold fd. rewrite <- (full_more 4 cp (full_stable cp)). cbn [full]. rewrite E. reflexivity. Qed.
Lemma fd_syllable l v t cp : syllable l v t cp -> fd cp = jamo l v t.
Proof.
  intros H. assert (S : is_syllable cp = true) by (apply is_syllable_ok; eauto).
  unfold fd. cbn [full]. destruct (switch decomposition_data cp) as [d|] eqn:E.
  - apply decomposition_row in E as (_ & _ & K & _). rewrite (is_syllable_hangul _ S) in K. discriminate.
  - rewrite S. apply syllable_jamo_ok. exact H.
Qed.
Lemma fd_plain cp : plain cp = true -> fd cp = [cp].
Proof.
  unfold plain, fd. cbn [full]. destruct (switch decomposition_data cp); [discriminate|]. destruct (is_syllable cp); [discriminate|reflexivity].
Qed.
Lemma fd_all_plain cp : Forall (fun x => plain x = true) (fd cp).
Proof. apply Forall_forall. apply forallb_forall. apply full_stable. Qed.
Lemma fds_all_plain s : Forall (fun x => plain x = true) (fds s).
Proof. induction s as [|c s IH]; [constructor|]. rewrite fds_cons. apply Forall_app. split; [apply fd_all_plain|exact IH]. Qed.
Lemma fds_plain s : Forall (fun x => plain x = true) s -> fds s = s.
Proof. induction 1 as [|c s H _ IH]; [reflexivity|]. rewrite fds_cons. rewrite fd_plain by exact H. rewrite IH. reflexivity. Qed.
Lemma fds_app a b : fds (a ++ b) = fds a ++ fds b.
Proof. apply flat_map_app. Qed.

Scheme decomposed_ind2 := Induction for decomposed Sort Prop
  with decomposed_all_ind2 := Induction for decomposed_all Sort Prop.
Combined Scheme decomposed_mutual from decomposed_ind2, decomposed_all_ind2.

Lemma decomposed_fd : (forall cp r, decomposed cp r -> r = fd cp) /\ (forall s r, decomposed_all s r -> r = fds s).
Proof.
  apply (decomposed_mutual (fun cp r _ => r = fd cp) (fun s r _ => r = fds s)).
  - intros cp N1 N2. symmetry. apply fd_plain. unfold plain. rewrite (not_in_switch _ _ N1).
    destruct (is_syllable cp) eqn:E; [|reflexivity]. apply is_syllable_ok in E as (l & v & t & E). destruct (N2 _ _ _ E).
  - intros cp l v t H. symmetry. apply fd_syllable. exact H.
  - intros cp d r I _ ->. symmetry. apply fd_mapped. eapply in_switch; [exact decomposition_keys|exact I].
  - reflexivity.
  - intros cp cps r rs _ -> _ ->. reflexivity.
Qed.
Lemma fd_decomposed_gen n : forall cp, forallb plain (full n cp) = true -> decomposed cp (full n cp).
Proof.
  induction n as [|n IH]; intros cp H; cbn [full] in *.
  - cbn in H. unfold plain in H. apply D_self.
    + intros d I. rewrite (in_switch _ _ _ _ decomposition_keys I) in H. discriminate.
    + intros l v t S. assert (is_syllable cp = true) by (apply is_syllable_ok; eauto).
      destruct (switch decomposition_data cp); [discriminate|]. rewrite H0 in H. discriminate.
  - destruct (switch decomposition_data cp) as [d|] eqn:E.
    + apply D_mapped with d; [apply switch_in; exact E|]. clear E. induction d as [|c d IHd]; [constructor|].
      cbn [flat_map] in *. rewrite forallb_app in H. apply andb_prop in H as [H1 H2]. constructor; auto.
    + destruct (is_syllable cp) eqn:S.
      * apply is_syllable_ok in S as (l & v & t & S). rewrite (syllable_jamo_ok _ _ _ _ S). apply D_hangul. exact S.
      * apply D_self.
        -- intros d I. rewrite (in_switch _ _ _ _ decomposition_keys I) in E. discriminate.
        -- intros l v t K. assert (is_syllable cp = true) by (apply is_syllable_ok; eauto). congruence.
Qed.
Lemma fd_decomposed cp : decomposed cp (fd cp).
Proof. apply fd_decomposed_gen. apply full_stable. Qed.
Lemma fds_decomposed s : decomposed_all s (fds s).
Proof. induction s as [|c s IH]; [constructor|]. rewrite fds_cons. constructor; [apply fd_decomposed|exact IH]. Qed.
Lemma decomposed_all_iff s r : decomposed_all s r <-> r = fds s.
Proof. split; [apply decomposed_fd|intros ->; apply fds_decomposed]. Qed.

Lemma full_scalar n : forall cp, scalar cp -> Forall scalar (full n cp).
Proof.
  induction n as [|n IH]; intros cp H; cbn [full]; [constructor; [exact H|constructor]|].
  destruct (switch decomposition_data cp) as [d|] eqn:E.
  - apply decomposition_row in E as (_ & _ & _ & _ & D). induction d as [|c d IHd]; [constructor|]. cbn [flat_map]. apply Forall_app. split.
    + apply IH. apply D. left; reflexivity.
    + apply IHd. intros x I. apply D. right; exact I.
  - destruct (is_syllable cp) eqn:S; [|constructor; [exact H|constructor]].
    apply is_syllable_ok in S as (l & v & t & S). rewrite (syllable_jamo_ok _ _ _ _ S). destruct S as (Hl & Hv & Ht & _).
    apply Forall_forall. intros x I. destruct (jamo_hangul l v t x Hl Hv Ht I) as (_ & _ & R). unfold scalar. lia.
Qed.
Lemma fd_scalar cp : scalar cp -> Forall scalar (fd cp).
Proof. apply full_scalar. Qed.
Lemma fds_scalar s : Forall scalar s -> Forall scalar (fds s).
Proof. induction 1 as [|c s H _ IH]; [constructor|]. rewrite fds_cons. apply Forall_app. split; [apply fd_scalar; exact H|exact IH]. Qed.
Lemma full_hangul n : forall cp, hangul cp = false -> Forall (fun x => hangul x = false) (full n cp).
Proof.
  induction n as [|n IH]; intros cp H; cbn [full]; [constructor; [exact H|constructor]|].
  destruct (switch decomposition_data cp) as [d|] eqn:E.
  - apply decomposition_row in E as (_ & _ & _ & _ & D). induction d as [|c d IHd]; [constructor|]. cbn [flat_map]. apply Forall_app. split.
    + apply IH. apply D. left; reflexivity.
    + apply IHd. intros x I. apply D. right; exact I.
  - destruct (is_syllable cp) eqn:S; [|constructor; [exact H|constructor]]. apply is_syllable_hangul in S. congruence.
Qed.
Lemma fd_hangul cp : hangul cp = false -> Forall (fun x => hangul x = false) (fd cp).
Proof. apply full_hangul. Qed.
Lemma full_nonzero n : forall cp, cp <> 0 -> Forall (fun x => x <> 0) (full n cp).
Proof.
  induction n as [|n IH]; intros cp H; cbn [full]; [constructor; [exact H|constructor]|].
  destruct (switch decomposition_data cp) as [d|] eqn:E.
  - apply decomposition_row in E as (_ & _ & _ & _ & D). induction d as [|c d IHd]; [constructor|]. cbn [flat_map]. apply Forall_app. split.
    + apply IH. destruct (D c ltac:(left; reflexivity)) as (_ & P & _). lia.
    + apply IHd. intros x I. apply D. right; exact I.
  - destruct (is_syllable cp) eqn:S; [|constructor; [exact H|constructor]].
    apply is_syllable_ok in S as (l & v & t & S). rewrite (syllable_jamo_ok _ _ _ _ S). destruct S as (Hl & Hv & Ht & _).
    apply Forall_forall. intros x I. destruct (jamo_hangul l v t x Hl Hv Ht I) as (_ & _ & R). lia.
Qed.

Lemma total_app a b : total (a ++ b) = total a + total b.
Proof. induction a as [|c a IH]; [reflexivity|]. cbn [app total fold_right]. fold (total (a ++ b)). fold (total a). lia. Qed.
Lemma total_zlen s : Forall scalar s -> zlen (flat_map utf8 s) = total s.
Proof.
  induction 1 as [|c s H _ IH]; [reflexivity|]. cbn [flat_map total fold_right]. fold (total s). rewrite zlen_app, IH.
  rewrite utf8_width by (apply scalar_range; exact H). reflexivity.
Qed.
Lemma fd_total cp : scalar cp -> total (fd cp) <= 3 * width cp.
Proof.
  intros S. destruct (switch decomposition_data cp) as [d|] eqn:E.
  - pose proof (switch_in _ _ _ E) as I. pose proof (proj1 (forallb_forall _ _) full_check _ I) as H. cbn beta iota in H.
    apply andb_prop in H as [_ H]. rewrite full_t_ok in H. unfold fd. apply Z.leb_le. exact H.
  - destruct (is_syllable cp) eqn:SY.
    + apply is_syllable_ok in SY as (l & v & t & K). rewrite (fd_syllable _ _ _ _ K). destruct K as (Hl & Hv & Ht & ->).
      unfold jamo. assert (W : forall x, 0x1100 <= x < 0x1200 -> width x = 3).
      { intros x Hx. unfold width. replace (x <? 0x80) with false by lia. replace (x <? 0x800) with false by lia. replace (x <? 0x10000) with true by lia. reflexivity. }
      assert (W2 : width (0xAC00 + (l * 21 + v) * 28 + t) = 3).
      { unfold width. replace (_ <? 0x80) with false by lia. replace (_ <? 0x800) with false by lia. replace (_ <? 0x10000) with true by lia. reflexivity. }
      rewrite W2. destruct (t =? 0); cbn [app total fold_right]; rewrite ?W by lia; lia.
    + rewrite fd_plain by (unfold plain; rewrite E, SY; reflexivity). cbn [total fold_right]. pose proof (width_pos cp). lia.
Qed.

(** * Composition *)

Definition tb (l c : Z) : option Z :=
  let p := _charstr_unicode_primary_composite l c in if p >=? 0 then Some p else None.
Definition hg (l c : Z) : option Z :=
  if (0x1100 <=? l) && (l <? 0x1100 + 19) && ((0x1161 <=? c) && (c <? 0x1161 + 21)) then
    Some (0xAC00 + ((l - 0x1100) * 21 + (c - 0x1161)) * 28)
  else if is_syllable l && ((l - 0xAC00) mod 28 =? 0) && ((0x11A7 <? c) && (c <? 0x11A7 + 28)) then
    Some (l + (c - 0x11A7))
  else None.
Definition join (l c : Z) : option Z := match tb l c with Some p => Some p | None => hg l c end.

Lemma composite_fold (rows : list (Z * Z * Z)) l c : forall p0 : Z,
  let p := fold_left (fun p '(c', s, codepoint) => if (c' =? c) && (s =? l) then codepoint else p) rows p0 in
  p = p0 \/ In (c, l, p) rows.
Proof.
  induction rows as [|[[c' s] q] rows IH]; intros p0; [left; reflexivity|]. cbn [fold_left].
  destruct ((c' =? c) && (s =? l)) eqn:E.
  - destruct (IH q) as [H|H]; [|right; right; exact H]. cbn zeta in H. rewrite H. right. left. assert (c' = c /\ s = l) as [-> ->] by lia. reflexivity.
  - destruct (IH p0) as [H|H]; [left; exact H|right; right; exact H].
Qed.
Lemma composite_fold_in (rows : list (Z * Z * Z)) l c : forall p0 p : Z, In (c, l, p) rows ->
  In (c, l, fold_left (fun p '(c', s, codepoint) => if (c' =? c) && (s =? l) then codepoint else p) rows p0) rows.
Proof.
  induction rows as [|[[c' s] q] rows IH]; intros p0 p; [intros []|]. cbn [fold_left]. intros [E|I].
  - injection E as -> -> ->. rewrite !Z.eqb_refl. cbn [andb]. destruct (composite_fold rows l c p) as [H|H]; cbn zeta in H.
    + rewrite H. left; reflexivity.
    + right; exact H.
  - right. eapply IH. exact I.
Qed.

Lemma composite_row c l p : In (c, l, p) recompositions ->
  0 < c < 0x200000 /\ 0 < l /\ 0 <= p /\ composite_t l c = Some p /\ hangul l = false /\ hangul c = false /\ hangul p = false /\
  width p <= width l + width c /\ scalar p /\ (ccc l = 0 -> ccc p = 0) /\ switch decomposition_data c = None.
Proof.
  intros I. pose proof (proj1 (forallb_forall _ _) composite_check _ I) as H. cbn beta iota in H. bools H.
  rewrite !ccc_t_ok in *. rewrite (switch_zget _ _ decomposition_keys). unfold decomposition_tree in *.
  match goal with X : match composite_t l c with _ => _ end = true |- _ => destruct (composite_t l c) as [q|]; [|discriminate] end.
  match goal with X : scalar_b p = true |- _ => apply scalar_b_ok in X as [S _] end.
  match goal with X : match zget c _ with _ => _ end = true |- _ => destruct (zget c (tree_of decomposition_data)); [discriminate|] end.
  repeat split; try lia; try exact S. f_equal. lia.
Qed.
Lemma lookup_rows (rows : list (Z * Z * Z)) l c p :
  (forall c l p q, In (c, l, p) rows -> In (c, l, q) rows -> p = q) -> (forall c l p, In (c, l, p) rows -> 0 <= p) ->
  (let r := fold_left (fun p '(c', s, codepoint) => if (c' =? c) && (s =? l) then codepoint else p) rows (-1) in
   if r >=? 0 then Some r else None) = Some p <-> In (c, l, p) rows.
Proof.
  intros U P. cbn zeta. split.
  - destruct (composite_fold rows l c (-1)) as [H|H]; cbn zeta in H.
    + rewrite H. discriminate.
    + match goal with |- (if ?q >=? 0 then _ else _) = _ -> _ => destruct (q >=? 0) end; [|discriminate]. intros E. injection E as <-. exact H.
  - intros I. pose proof (composite_fold_in rows l c (-1) p I) as J. rewrite <- (U _ _ _ _ I J). pose proof (P _ _ _ I).
    replace (p >=? 0) with true by lia. reflexivity.
Qed.
Lemma tb_in l c p : tb l c = Some p <-> In (c, l, p) recompositions.
Proof.
  unfold tb, _charstr_unicode_primary_composite. apply lookup_rows.
  - intros c' l' p' q' I J. apply composite_row in I as (_ & _ & _ & T & _). apply composite_row in J as (_ & _ & _ & T' & _). congruence.
  - intros c' l' p' I. apply composite_row in I. tauto.
Qed.
Lemma in_recompositions c l p : In (c, l, p) recompositions <-> In (p, [l; c]) decomposition_data /\ ~ In p exclusion_data.
Proof.
  unfold recompositions. rewrite in_flat_map. split.
  - intros ([cp d] & I & J). destruct d as [|a [|b [|]]]; try destruct J. destruct (existsb _ exclusion_data) eqn:E; [destruct J|].
    destruct J as [J|[]]. injection J as -> -> ->. split; [exact I|]. intros X.
    assert (K : existsb (fun x => x =? p) exclusion_data = true) by (apply existsb_exists; exists p; split; [exact X|apply Z.eqb_refl]). congruence.
  - intros [I N]. exists (p, [l; c]). split; [exact I|]. destruct (existsb _ exclusion_data) eqn:E; [|left; reflexivity].
    apply existsb_exists in E as (x & X & K). assert (x = p) by lia. subst. destruct (N X).
Qed.
Lemma tb_hangul l c p : tb l c = Some p -> hangul l = false /\ hangul c = false /\ hangul p = false.
Proof. intros H. apply tb_in, composite_row in H. tauto. Qed.
Lemma tb_fd l c p : tb l c = Some p -> fd p = fd l ++ [c].
Proof.
  intros H. apply tb_in in H. destruct (composite_row _ _ _ H) as (_ & _ & _ & _ & _ & Hc & _ & _ & _ & _ & N). apply in_recompositions in H as [I _].
  rewrite (fd_mapped p [l; c]) by (eapply in_switch; [exact decomposition_keys|exact I]). rewrite !fds_cons. change (fds []) with (@nil Z). rewrite app_nil_r. f_equal.
  apply fd_plain. unfold plain. rewrite N. destruct (is_syllable c) eqn:S; [|reflexivity]. apply is_syllable_hangul in S. congruence.
Qed.
Lemma some_inj {A} (a b : A) : Some a = Some b -> a = b.
Proof. congruence. Qed.
Lemma hg_cases l c p : hg l c = Some p ->
  (exists i j, l = 0x1100 + i /\ c = 0x1161 + j /\ syllable i j 0 p) \/
  (exists i j t, c = 0x11A7 + t /\ t <> 0 /\ syllable i j 0 l /\ syllable i j t p).
Proof.
  unfold hg. destruct (_ && _) eqn:E.
  - intros H. apply some_inj in H; subst p. left. exists (l - 0x1100), (c - 0x1161). unfold syllable. lia.
  - clear E. destruct (is_syllable l && _ && _) eqn:E; [|discriminate]. intros H. apply some_inj in H; subst p. right.
    apply andb_prop in E as [E E2]. apply andb_prop in E as [E E1]. apply is_syllable_ok in E as (i & j & t & S). exists i, j, (c - 0x11A7).
    assert (t = 0). { destruct S as (? & ? & ? & ->). assert (((i * 21 + j) * 28 + t) mod 28 = t) by (symmetry; apply (Z.mod_unique _ _ (i * 21 + j)); lia).
      replace (0xAC00 + (i * 21 + j) * 28 + t - 0xAC00) with ((i * 21 + j) * 28 + t) in * by lia. lia. }
    subst t. unfold syllable in *. lia.
Qed.
Lemma hg_lv i j p : syllable i j 0 p -> hg (0x1100 + i) (0x1161 + j) = Some p.
Proof.
  intros (? & ? & _ & ->). unfold hg. replace (_ && _) with true by lia. f_equal. lia.
Qed.
Lemma hg_lvt i j t l p : syllable i j 0 l -> syllable i j t p -> t <> 0 -> hg l (0x11A7 + t) = Some p.
Proof.
  intros (? & ? & _ & ->) (_ & _ & ? & ->) N. unfold hg. replace (_ && _) with false by lia.
  assert (E : (0xAC00 + (i * 21 + j) * 28 + 0 - 0xAC00) mod 28 = 0) by (symmetry; apply (Z.mod_unique _ _ (i * 21 + j)); lia).
  rewrite E. unfold is_syllable. replace (_ && _) with true by lia. f_equal. lia.
Qed.
Lemma hg_hangul l c p : hg l c = Some p -> hangul l = true /\ hangul c = true /\ is_syllable p = true.
Proof.
  intros H. apply hg_cases in H as [(i & j & -> & -> & S)|(i & j & t & -> & N & S & S')];
    unfold hangul, is_syllable, syllable in *; repeat split; lia.
Qed.
Lemma hg_fd l c p : hg l c = Some p -> fd p = fd l ++ [c].
Proof.
  intros H. apply hg_cases in H as [(i & j & -> & -> & S)|(i & j & t & -> & N & S & S')].
  - rewrite (fd_syllable _ _ _ _ S). destruct S as (? & ? & _). rewrite fd_plain; [reflexivity|]. apply hangul_plain; unfold hangul, is_syllable; lia.
  - rewrite (fd_syllable _ _ _ _ S), (fd_syllable _ _ _ _ S'). unfold jamo. replace (t =? 0) with false by lia. reflexivity.
Qed.

Lemma join_composite l c p : ccc l = 0 -> (primary_composite l c p <-> join l c = Some p).
Proof.
  intros L. unfold join. split.
  - intros [l' c' p' I N S1 S2|i j p' S|i j t lv p' S S' N].
    + replace (tb l' c') with (Some p'); [reflexivity|]. symmetry. apply tb_in, in_recompositions. auto.
    + destruct (tb _ _) eqn:E; [|apply hg_lv; exact S]. apply tb_hangul in E as (E & _). destruct S as (? & _). unfold hangul in E. lia.
    + destruct (tb _ _) eqn:E; [|eapply hg_lvt; eauto]. apply tb_hangul in E as (_ & E & _). destruct S' as (_ & _ & ? & _). unfold hangul in E. lia.
  - destruct (tb l c) as [q|] eqn:E.
    + intros H. injection H as ->. apply tb_in in E. destruct (composite_row _ _ _ E) as (_ & _ & _ & _ & _ & _ & _ & _ & _ & K & _).
      apply in_recompositions in E as [I N]. apply PC_mapped; auto; apply class_ccc; auto.
    + intros H. apply hg_cases in H as [(i & j & -> & -> & S)|(i & j & t & -> & N & S & S')]; [apply PC_lv; exact S|eapply PC_lvt; eauto].
Qed.
Lemma join_starter l c p : ccc l = 0 -> join l c = Some p -> ccc p = 0.
Proof.
  intros L. unfold join. destruct (tb l c) as [q|] eqn:E.
  - intros H. injection H as ->. apply tb_in, composite_row in E. tauto.
  - intros H. apply hg_hangul in H as (_ & _ & H). apply ccc_hangul, is_syllable_hangul, H.
Qed.
Lemma join_fd l c p : join l c = Some p -> fd p = fd l ++ [c].
Proof.
  unfold join. destruct (tb l c) as [q|] eqn:E.
  - intros H. injection H as ->. apply tb_fd. exact E.
  - apply hg_fd.
Qed.
Lemma join_scalar l c p : join l c = Some p -> scalar p /\ width p <= width l + width c.
Proof.
  unfold join. destruct (tb l c) as [q|] eqn:E.
  - intros H. injection H as ->. apply tb_in, composite_row in E. tauto.
  - intros H. assert (W : forall x, 0x1100 <= x < 0x1200 -> width x = 3).
    { intros x Hx. unfold width. replace (x <? 0x80) with false by lia. replace (x <? 0x800) with false by lia. replace (x <? 0x10000) with true by lia. reflexivity. }
    destruct (hg_hangul _ _ _ H) as (_ & _ & S). unfold is_syllable in S.
    assert (width p = 3). { unfold width. replace (p <? 0x80) with false by lia. replace (p <? 0x800) with false by lia. replace (p <? 0x10000) with true by lia. reflexivity. }
    split; [unfold scalar; lia|]. apply hg_cases in H as [(i & j & -> & -> & S')|(i & j & t & -> & N & S1 & S2)]; unfold syllable in *.
    + rewrite (W (0x1100 + i)), (W (0x1161 + j)) by lia. lia.
    + rewrite (W (0x11A7 + t)) by lia. pose proof (width_pos l). lia.
Qed.

(** * Quick checks *)

Definition covered (rows : list (Z * Z * bool)) (cp : Z) : Prop := exists a b v, In (a, b, v) rows /\ a <= cp <= b.
Lemma qc_fold rows cp : forall o, (o <> None \/ covered rows cp) ->
  fold_left (fun v '(cp_low, cp_high, value) => if (cp_low <=? cp) && (cp <=? cp_high) then Some value else v) rows o <> None.
Proof.
  induction rows as [|[[a b] v] rows IH]; intros o H; cbn [fold_left].
  - destruct H as [H|(a & b & v & [] & _)]. exact H.
  - apply IH. destruct ((a <=? cp) && (cp <=? b)) eqn:E; [left; discriminate|].
    destruct H as [H|(a' & b' & v' & [X|X] & K)]; [left; exact H| |right; exists a', b', v'; auto].
    injection X as -> -> ->. lia.
Qed.
Lemma qc_covered rows cp : covered rows cp -> qc_value rows cp <> None.
Proof. intros H. apply qc_fold. right. exact H. Qed.
Lemma tree_covered rows cp : zget cp (ranges_tree (small_ranges rows)) <> None -> covered rows cp.
Proof.
  intros H. apply ranges_get in H as (a & b & I & J). unfold small_ranges in I. apply in_flat_map in I as ([[a' b'] v] & I & K).
  destruct (b' - a' <? 1000); [|destruct K]. destruct K as [K|[]]. injection K as -> ->. exists a, b, v. auto.
Qed.
Lemma exists_covered rows a b cp : existsb (fun '(a', b', _) => (a' =? a) && (b' =? b)) rows = true -> a <= cp <= b -> covered rows cp.
Proof.
  intros H K. apply existsb_exists in H as ([[a' b'] v] & I & J). exists a', b', v. split; [exact I|lia].
Qed.

Lemma nfd_qc_yes cp : qc_value nfd_qc_data cp = None -> plain cp = true.
Proof.
  intros H. unfold plain. destruct (switch decomposition_data cp) as [d|] eqn:E.
  - apply switch_in in E. pose proof (proj1 (forallb_forall _ _) nfd_qc_check _ E) as K. cbn beta iota in K.
    destruct (zget cp nfd_qc_tree) eqn:G; [|discriminate]. destruct (qc_covered nfd_qc_data cp); [|exact H].
    apply tree_covered. unfold nfd_qc_tree in G. rewrite G. discriminate.
  - destruct (is_syllable cp) eqn:S; [|reflexivity]. destruct (qc_covered nfd_qc_data cp); [|exact H].
    apply (exists_covered _ _ _ _ nfd_qc_hangul). unfold is_syllable in S. lia.
Qed.
Lemma nfc_qc_inert cp : qc_value nfc_qc_data cp = None -> forall l, ccc l = 0 -> join l cp = None.
Proof.
  intros H l L. unfold join. destruct (tb l cp) as [p|] eqn:E.
  - apply tb_in in E. pose proof (proj1 (forallb_forall _ _) nfc_qc_seconds _ E) as K. cbn beta iota in K. rewrite ccc_t_ok, L in K. cbn [Z.eqb negb orb] in K.
    destruct (zget cp nfc_qc_tree) eqn:G; [|discriminate]. destruct (qc_covered nfc_qc_data cp); [|exact H].
    apply tree_covered. unfold nfc_qc_tree in G. rewrite G. discriminate.
  - destruct (hg l cp) as [p|] eqn:G; [|reflexivity]. destruct (qc_covered nfc_qc_data cp); [|exact H].
    pose proof nfc_qc_hangul as K. apply andb_prop in K as [K _]. apply andb_prop in K as [K1 K2].
    apply hg_cases in G as [(i & j & -> & -> & S)|(i & j & t & -> & N & S & S')]; unfold syllable in *.
    + apply (exists_covered _ _ _ _ K1). lia.
    + apply (exists_covered _ _ _ _ K2). lia.
Qed.

Fixpoint nondecreasing (last : Z) (l : list Z) : Prop :=
  match l with
  | [] => True
  | c :: l => last <= ccc c /\ nondecreasing (ccc c) l
  end.
Lemma nondecreasing_t_ok l : forall last, nondecreasing_t last l = true -> nondecreasing last l.
Proof.
  induction l as [|c l IH]; intros last H; cbn in *; [exact I|]. rewrite !ccc_t_ok in H. apply andb_prop in H as [H1 H2]. split; [lia|apply IH; exact H2].
Qed.
(** Feeding the elements of a list into the first one. *)
Fixpoint joins (l : Z) (t : list Z) (p : Z) : Prop :=
  match t with
  | [] => p = l
  | c :: t => exists q, join l c = Some q /\ joins q t p
  end.
Lemma composite_t_in l c p : composite_t l c = Some p -> exists l' c', composite_key l' c' = composite_key l c /\ In (c', l', p) recompositions.
Proof.
  unfold composite_t, composite_tree. intros H.
  assert (X : In (composite_key l c, p) (map (fun '(c, l, p) => (composite_key l c, p)) recompositions)).
  { apply switch_in. rewrite switch_tree; [exact H|]. destruct (composite_key l c); [discriminate|lia|discriminate]. }
  apply in_map_iff in X as ([[c' l'] p'] & E & I). injection E as E ->. exists l', c'. auto.
Qed.
Lemma composite_t_join l c p : 0 <= c < 0x200000 -> composite_t l c = Some p -> join l c = Some p.
Proof.
  intros R H. apply composite_t_in in H as (l' & c' & E & I). destruct (composite_row _ _ _ I) as (R' & _).
  unfold composite_key in E. assert (l' = l /\ c' = c) as [-> ->] by lia. unfold join. rewrite (proj2 (tb_in l c p) I). reflexivity.
Qed.
Lemma joins_t_ok t : forall l p, Forall scalar t -> fold_left join_t t (Some l) = Some p -> joins l t p.
Proof.
  induction t as [|c t IH]; intros l p S H; cbn in *; [congruence|]. inversion_clear S as [|? ? S1 S2].
  destruct (composite_t l c) as [q|] eqn:E.
  - exists q. split; [apply composite_t_join; [apply scalar_range; exact S1|exact E]|apply IH; assumption].
  - exfalso. clear - H. induction t as [|x t IH]; cbn in H; [discriminate|auto].
Qed.
Lemma nfc_qc_yes cp : qc_value nfc_qc_data cp = None ->
  (ccc cp <> 0 -> fd cp = [cp]) /\
  (ccc cp = 0 -> exists d t, fd cp = d :: t /\ ccc d = 0 /\ (forall l, ccc l = 0 -> join l d = None) /\ nondecreasing 0 t /\ joins d t cp).
Proof.
  intros H. destruct (switch decomposition_data cp) as [e|] eqn:E.
  - pose proof (switch_in _ _ _ E) as I. pose proof (proj1 (forallb_forall _ _) nfc_qc_check _ I) as K. cbn beta iota in K.
    destruct (zget cp nfc_qc_tree) eqn:G.
    { destruct (qc_covered nfc_qc_data cp); [|exact H]. apply tree_covered. unfold nfc_qc_tree in G. rewrite G. discriminate. }
    cbn [some orb] in K. unfold recomposes_t in K. rewrite full_t_ok, !ccc_t_ok in K. fold (fd cp) in K. apply andb_prop in K as [K0 K].
    pose proof (fd_scalar cp (proj1 (decomposition_row _ _ E))) as FS.
    split; [intros N; lia|]. intros _. destruct (fd cp) as [|d t] eqn:FDE; [discriminate|]. rewrite !ccc_t_ok in K. bools K.
    exists d, t. split; [reflexivity|]. split; [lia|]. split; [|split].
    + intros l L. destruct (join l d) as [p|] eqn:J; [|reflexivity]. exfalso. unfold join in J. destruct (tb l d) as [q|] eqn:TB.
      * apply tb_in in TB. pose proof (proj1 (forallb_forall _ _) nfc_qc_seconds _ TB) as X. cbn beta iota in X. rewrite ccc_t_ok, L in X. cbn [Z.eqb negb orb] in X.
        rewrite X in *. discriminate.
      * apply hg_hangul in J as (_ & J & _). assert (JD : hangul d = false).
        { pose proof (fd_hangul cp (proj1 (proj2 (proj2 (decomposition_row _ _ E))))) as FH. rewrite FDE in FH. inversion FH; assumption. }
        congruence.
    + apply nondecreasing_t_ok. assumption.
    + apply joins_t_ok; [inversion FS; assumption|]. destruct (fold_left join_t t (Some d)) as [p|]; [|discriminate]. f_equal. lia.
  - destruct (is_syllable cp) eqn:S.
    + split; [intros N; rewrite (ccc_hangul cp (is_syllable_hangul _ S)) in N; congruence|]. intros _.
      apply is_syllable_ok in S as (l & v & t & S). rewrite (fd_syllable _ _ _ _ S). pose proof S as (Hl & Hv & Ht & Ecp).
      assert (S0 : syllable l v 0 (cp - t)) by (unfold syllable; lia).
      exists (0x1100 + l), ((0x1161 + v) :: if t =? 0 then [] else [0x11A7 + t]). split; [reflexivity|].
      assert (CH : forall x, hangul x = true -> ccc x = 0) by (exact ccc_hangul).
      split; [apply CH; unfold hangul; lia|]. split; [|split].
      * intros l' L. unfold join. destruct (tb l' (0x1100 + l)) as [q|] eqn:TB.
        { apply tb_hangul in TB as (_ & TB & _). unfold hangul in TB. lia. }
        destruct (hg l' (0x1100 + l)) as [q|] eqn:HG; [|reflexivity].
        apply hg_cases in HG as [(i & j & _ & X & Y)|(i & j & t' & X & _ & Y & Y')]; unfold syllable in *; lia.
      * cbn [nondecreasing]. rewrite (CH (0x1161 + v)) by (unfold hangul; lia). split; [lia|]. destruct (t =? 0) eqn:T; cbn [nondecreasing]; [exact I|].
        rewrite (CH (0x11A7 + t)) by (unfold hangul; lia). split; [lia|exact I].
      * assert (NT : forall a b, hangul a = true -> tb a b = None).
        { intros a b A. destruct (tb a b) eqn:TB; [|reflexivity]. apply tb_hangul in TB as (TB & _). congruence. }
        cbn [joins]. exists (cp - t). split.
        { unfold join. rewrite NT by (unfold hangul; lia). apply hg_lv. exact S0. }
        destruct (t =? 0) eqn:T; cbn [joins]; [lia|]. exists cp. split; [|reflexivity].
        unfold join. rewrite NT by (unfold hangul; lia). eapply hg_lvt; [exact S0|exact S|lia].
    + assert (P : fd cp = [cp]) by (apply fd_plain; unfold plain; rewrite E, S; reflexivity).
      split; [auto|]. intros C. exists cp, []. split; [exact P|]. split; [exact C|]. split; [apply nfc_qc_inert; exact H|]. split; [exact I|reflexivity].
Qed.
