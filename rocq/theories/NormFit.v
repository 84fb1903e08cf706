(** charstr_unicode_decompose for every size of the buffer, in terms of the specification *)
From Verif Require Import Base CMem CharstrModel CharstrSpec CharstrProofs Utf8Model Utf8Spec Utf8Proofs UcdData NormModel NormSpec NormTables NormFacts NormOrder NormBytes NormDecompose NormMain NormExact NormFitSpec.
From Coq Require Import ZifyBool ZifyNat.

#[local] Opaque decomposition_data ccc_data exclusion_data nfc_qc_data nfd_qc_data.

Lemma fit_written cps : Forall scalar cps -> forall room w, written cps room w <-> exists rs, fit cps room = Some rs /\ w = concat rs.
Proof.
  induction 1 as [|cp cps S F IH]; intros room w.
  - split.
    + intros W. inversion W; subst. exists []. split; reflexivity.
    + intros (rs & E & ->). injection E as <-. constructor.
  - pose proof (fd_scalar cp S) as SF. assert (S1 : Forall scalar [cp]) by (constructor; [exact S|constructor]).
    pose proof (encs_zlen _ SF) as LF. pose proof (encs_zlen _ S1) as L1. cbn [fit]. unfold fit_cp. split.
    + intros W. inversion W as [|cp' d cps' w' room' D L W' E1 E2 E3|cp' d cps' w' room' l v t Y D L L' W' E1 E2 E3]; subst.
      * apply decomposed_fd1 in D. subst d. replace (total (fd cp) <=? room) with true by lia.
        apply IH in W' as (rs & E & ->). rewrite LF in E. rewrite E. exists (fd cp :: rs). split; reflexivity.
      * apply decomposed_fd1 in D. subst d. replace (total (fd cp) <=? room) with false by lia.
        assert (is_syllable cp = true) as -> by (apply is_syllable_ok; eauto). replace (total [cp] <=? room) with true by lia. cbn [andb].
        apply IH in W' as (rs & E & ->). rewrite L1 in E. rewrite E. exists ([cp] :: rs). split; reflexivity.
    + intros (rs & E & ->). destruct (total (fd cp) <=? room) eqn:L.
      * destruct (fit cps (room - total (fd cp))) as [rs'|] eqn:E'; [|discriminate]. injection E as <-. cbn [concat].
        apply (W_decomposed cp (fd cp)); [apply fd_decomposed|lia|]. apply IH. rewrite LF. eauto.
      * destruct (is_syllable cp) eqn:Y; [|discriminate]. cbn [andb] in E. destruct (total [cp] <=? room) eqn:L'; [|discriminate].
        destruct (fit cps (room - total [cp])) as [rs'|] eqn:E'; [|discriminate]. injection E as <-. cbn [concat app].
        apply is_syllable_ok in Y as (l & v & t & Y).
        apply (W_syllable cp (fd cp) cps _ room l v t Y); [apply fd_decomposed|lia|lia|]. apply IH. rewrite L1. eauto.
Qed.

Lemma scanned_breaks s cps : scanned s cps false <-> breaks s cps.
Proof.
  split.
  - assert (G : forall ok, scanned s cps ok -> ok = false -> breaks s cps); [|intros H; exact (G false H eq_refl)].
    induction 1 as [|c s N|bs cp s cps ok A H IH]; intros E; [discriminate| |].
    + exists [], (c :: s). split; [reflexivity|]. split; [exists []; split; [reflexivity|constructor]|]. split; [discriminate|exact N].
    + destruct (IH E) as (a & b & -> & (ps & -> & F) & Nb & N). exists (bs ++ concat ps), b. split; [rewrite <- app_assoc; reflexivity|].
      split; [|auto]. exists (bs :: ps). split; [reflexivity|constructor; assumption].
  - intros (a & b & -> & (ps & -> & F) & Nb & N). induction F as [|bs cp ps cps A _ IH]; cbn [concat app].
    + destruct b as [|c b]; [congruence|]. apply Sc_bad. exact N.
    + rewrite <- app_assoc. apply Sc_cons; [exact A|exact IH].
Qed.

Lemma decompose_loop_bad s cps ok : scanned s cps ok -> ok = false -> forall q e, input s q e -> forall fuel pre free post, (length s < fuel)%nat ->
  exists free', decompose_loop fuel (s ++ q) e (pre ++ free ++ post) (zlen pre) (zlen pre + zlen free) =
    Ok (pre ++ free' ++ post, inr match fit cps (zlen free) with Some _ => EILSEQ | None => EOVERFLOW end) /\ zlen free' = zlen free.
Proof.
  induction 1 as [|c s N|bs cp s cps ok A H IH]; intros Eok q e I fuel pre free post F; (destruct fuel as [|fuel]; [lia|]); cbn [decompose_loop fit].
  - discriminate.
  - destruct (head_bad c s q e N I) as (-> & -> & Tc & ->). cbn [bind]. rewrite Tc. cbn [bind]. exists free. split; reflexivity.
  - destruct (head_good _ _ _ _ _ A I) as (c & -> & -> & Tc & -> & I'). cbn [bind]. rewrite Tc. cbn [bind].
    destruct (decompose_cp_exact pre free post cp (proj2 A)) as (free1 & -> & L1 & O). cbn [bind].
    destruct (fit_cp cp (zlen free)) as [r|] eqn:Fr; [|exists free1; auto].
    destruct O as (rest & ->). pose proof (variant_scalar _ _ (proj2 A) (fit_cp_variant _ _ _ Fr)) as Sr. pose proof (encs_zlen r Sr) as Lr. rewrite zlen_app in L1.
    replace (pre ++ (encs r ++ rest) ++ post) with ((pre ++ encs r) ++ rest ++ post) by (rewrite <- !app_assoc; reflexivity).
    replace (zlen pre + total r) with (zlen (pre ++ encs r)) by (rewrite zlen_app; lia).
    replace (zlen pre + zlen free) with (zlen (pre ++ encs r) + zlen rest) by (rewrite zlen_app; lia).
    destruct (IH Eok q e I' fuel (pre ++ encs r) rest post) as (free2 & -> & L2).
    { pose proof (pattern_length _ _ (proj1 A)). rewrite app_length in F. lia. }
    replace (zlen free - total r) with (zlen rest) by lia. exists (encs r ++ free2). rewrite <- !app_assoc.
    split; [destruct (fit cps (zlen rest)); reflexivity|rewrite (zlen_app (encs r) free2); lia].
Qed.

Lemma written_scalar cps room w : Forall scalar cps -> written cps room w -> Forall scalar w.
Proof.
  intros S W. apply (fit_written cps S) in W as (rs & E & ->). apply fit_variant in E. induction E as [|cp r cps rs V _ IH]; [constructor|].
  inversion_clear S. cbn [concat]. apply Forall_app. split; [eapply variant_scalar; eauto|auto].
Qed.
Lemma written_unique cps room w w' : Forall scalar cps -> written cps room w -> written cps room w' -> w = w'.
Proof. intros S W W'. apply (fit_written cps S) in W as (rs & E & ->), W' as (rs' & E' & ->). congruence. Qed.

Lemma fit_total cps : forall room rs, 0 <= room -> fit cps room = Some rs -> total (concat rs) <= room.
Proof.
  induction cps as [|cp cps IH]; intros room rs P E; cbn [fit] in E; [injection E as <-; exact P|].
  destruct (fit_cp cp room) as [r|] eqn:Fc; [|discriminate]. destruct (fit cps (room - total r)) as [rs'|] eqn:Fr; [|discriminate]. injection E as <-.
  assert (total r <= room).
  { unfold fit_cp in Fc. destruct (total (fd cp) <=? room) eqn:L; [injection Fc as <-; lia|]. destruct (is_syllable cp); [|discriminate]. cbn [andb] in Fc.
    destruct (total [cp] <=? room) eqn:L'; [injection Fc as <-; lia|discriminate]. }
  cbn [concat]. rewrite total_app. specialize (IH (room - total r) rs' ltac:(lia) Fr). lia.
Qed.
Lemma decompose_written s cps q e pre free post : input s q e -> encodes s cps ->
  (forall w t, written cps (zlen free) w -> zlen (encoding w) < zlen free -> exchanges w t -> ordered t ->
   exists rest, charstr_unicode_decompose (s ++ q) e (pre ++ free ++ post) (zlen pre) (zlen pre + zlen free) =
     Ok (pre ++ encoding t ++ 0 :: rest ++ post, inl (zlen pre + zlen (encoding t))) /\ zlen (encoding t) + 1 + zlen rest = zlen free) /\
  ((~ exists w, written cps (zlen free) w /\ zlen (encoding w) < zlen free) ->
   exists free', charstr_unicode_decompose (s ++ q) e (pre ++ free ++ post) (zlen pre) (zlen pre + zlen free) = Ok (pre ++ free' ++ post, inr EOVERFLOW) /\ zlen free' = zlen free).
Proof.
  intros I E. pose proof (encodes_scalar _ _ E) as SC. pose proof (proj1 (encodes_scanned _ _) E) as Sc.
  destruct (decompose_exact s cps q e pre free post Sc I) as (free' & D & L & O). split.
  - intros w t W Lw X Ot. pose proof (written_scalar _ _ _ SC W) as Sw. rewrite (encs_zlen w Sw) in Lw.
    assert (fitting cps (zlen free) = Some w) as Fi.
    { unfold fitting. apply (fit_written cps SC) in W as (rs & -> & ->). replace (total (concat rs) =? zlen free) with false by lia. reflexivity. }
    rewrite Fi in D, O. destruct O as (rest & ->). apply exchanges_osort in X. rewrite (osort_of_ordered t Ot) in X. symmetry in X. subst t.
    assert (zlen (encoding (osort w)) = total w) as Lt by (rewrite (encs_zlen _ (osort_forall _ _ Sw)); apply osort_total).
    exists rest. rewrite D, Lt. split; [rewrite <- app_assoc; reflexivity|]. rewrite zlen_app, zlen_cons in L. lia.
  - intros N. exists free'. split; [|exact L]. rewrite D. unfold fitting. destruct (fit cps (zlen free)) as [rs|] eqn:Fi; [|reflexivity].
    destruct (total (concat rs) =? zlen free) eqn:Q; [reflexivity|]. exfalso. apply N. exists (concat rs).
    assert (written cps (zlen free) (concat rs)) as W by (apply (fit_written cps SC); eauto). split; [exact W|]. rewrite (encs_zlen _ (written_scalar _ _ _ SC W)).
    enough (total (concat rs) <= zlen free) by lia. exact (fit_total cps (zlen free) rs (zlen_nonneg _) Fi).
Qed.
Lemma decompose_broken s cps q e pre free post : input s q e -> breaks s cps ->
  exists free', charstr_unicode_decompose (s ++ q) e (pre ++ free ++ post) (zlen pre) (zlen pre + zlen free) =
      Ok (pre ++ free' ++ post, inr match fit cps (zlen free) with Some _ => EILSEQ | None => EOVERFLOW end) /\ zlen free' = zlen free.
Proof.
  intros I B. apply scanned_breaks in B. unfold charstr_unicode_decompose.
  destruct (decompose_loop_bad s cps false B eq_refl q e I (S (length (s ++ q))) pre free post) as (free1 & -> & L); [rewrite app_length; lia|].
  cbn [bind]. exists free1. split; [reflexivity|exact L].
Qed.
Lemma breaks_scalar s cps : breaks s cps -> Forall scalar cps.
Proof. intros (a & b & _ & E & _). eapply encodes_scalar. exact E. Qed.
