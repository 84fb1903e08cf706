(** The theorems on normalization, from the lemmas on the loops. *)
From Verif Require Import Base CMem CharstrModel CharstrSpec CharstrProofs Utf8Model Utf8Spec Utf8Proofs.
From Verif Require Import UcdData NormModel NormSpec NormTables NormFacts NormOrder NormBytes NormDecompose NormRecompose.
From Coq Require Import ZifyBool ZifyNat.

#[local] Opaque decomposition_data ccc_data exclusion_data nfc_qc_data nfd_qc_data.

Lemma crowd_iff s : crowd s <-> crowded s.
Proof.
  unfold crowd, crowded. split; intros (pre & l & mid & post & E & L & F & Z); exists pre, l, mid, post; (split; [exact E|]).
  - split; [apply class_ccc; exact L|]. split; [|exact Z]. eapply Forall_impl; [|exact F]. intros c N S. apply N. apply class_ccc in S. exact S.
  - split; [apply class_ccc; exact L|]. split; [|exact Z]. eapply Forall_impl; [|exact F]. intros c N S. apply N. apply class_ccc. exact S.
Qed.
Lemma encodes_scalar s cps : encodes s cps -> Forall scalar cps.
Proof. intros E. apply encodes_scanned in E. eapply scanned_scalar; eauto. Qed.
Lemma fds_scalars cps : Forall scalar cps -> Forall scalar (fds cps).
Proof. intros F. apply fds_scalar. exact F. Qed.
Lemma nfd_total_bytes cps t : Forall scalar cps -> nfd cps t -> Forall scalar t /\ zlen (encoding t) = total (fds cps).
Proof.
  intros F N. apply nfd_iff in N as ->. assert (S : Forall scalar (osort (fds cps))) by (apply osort_forall, fds_scalars, F).
  split; [exact S|]. rewrite encs_zlen, osort_total by exact S. reflexivity.
Qed.
Lemma nfd_exists cps : exists t, nfd cps t /\ forall u, nfd cps u -> u = t.
Proof. exists (osort (fds cps)). split; [apply nfd_iff; reflexivity|]. intros u H. apply nfd_iff. exact H. Qed.
Lemma compose_exists cps : exists t, compose [] cps t /\ forall u, compose [] cps u -> u = t.
Proof. exists (composed cps). split; [apply compose_composed; reflexivity|]. intros u H. apply compose_composed. exact H. Qed.
Lemma nfc_exists cps : exists t, nfc cps t /\ forall u, nfc cps u -> u = t.
Proof. exists (composed (osort (fds cps))). split; [apply nfc_iff; reflexivity|]. intros u H. apply nfc_iff. exact H. Qed.

(** * Decomposition *)

(** What may be written for a codepoint *)
Definition piece (cp : Z) (r : list Z) : Prop := decomposed cp r \/ (r = [cp] /\ exists l v t, syllable l v t cp).
Lemma fd_decomposed cp : decomposed cp (fd cp).
Proof.
  assert (D : decomposed_all [cp] (fds [cp])) by (apply decomposed_all_iff; reflexivity). rewrite fds_cons in D. change (fds []) with (@nil Z) in D. rewrite app_nil_r in D.
  remember (fd cp) as f eqn:Ef. inversion D as [|? ? r rs D1 D2 E1 E2]. inversion D2; subst. rewrite app_nil_r. exact D1.
Qed.
Lemma decomposed_fd1 cp r : decomposed cp r -> r = fd cp.
Proof.
  intros D. assert (A : decomposed_all [cp] (r ++ [])) by (constructor; [exact D|constructor]). apply decomposed_all_iff in A. rewrite fds_cons in A.
  change (fds []) with (@nil Z) in A. rewrite !app_nil_r in A. exact A.
Qed.
Lemma variant_piece cp r : variant cp r -> piece cp r.
Proof. intros [->|[Y ->]]; [left; apply fd_decomposed|right]. split; [reflexivity|]. apply is_syllable_ok. exact Y. Qed.
Lemma variant_plain cps rs : no_syllable cps -> Forall2 variant cps rs -> concat rs = fds cps.
Proof.
  intros N F. induction F as [|cp r cps rs V _ IH]; [reflexivity|]. cbn [concat]. rewrite fds_cons, IH.
  - destruct V as [->|[Y _]]; [reflexivity|]. apply is_syllable_ok in Y as (l & v & t & Y). destruct (N cp l v t (or_introl eq_refl) Y).
  - intros c l v t I. apply N. right. exact I.
Qed.

Lemma decompose_fits s cps t q e pre free post : input s q e -> encodes s cps -> nfd cps t -> zlen (encoding t) < zlen free ->
  exists rest, charstr_unicode_decompose (s ++ q) e (pre ++ free ++ post) (zlen pre) (zlen pre + zlen free) =
    Ok (pre ++ encoding t ++ 0 :: rest ++ post, inl (zlen pre + zlen (encoding t))) /\ zlen (encoding t) + 1 + zlen rest = zlen free.
Proof.
  intros I E N L. pose proof (encodes_scalar _ _ E) as F. apply encodes_scanned in E. destruct (nfd_total_bytes cps t F N) as [_ T]. rewrite T in *.
  destruct (decompose_ok s cps true q e pre free post E I) as (free' & o & -> & L' & O). destruct o as [n|err].
  - destruct O as (_ & rs & rest & V & -> & -> & R). rewrite (proj1 R L) in *. apply nfd_iff in N. rewrite <- N in *. exists rest. split.
    + rewrite <- app_assoc. reflexivity.
    + rewrite zlen_app, zlen_cons in L'. lia.
  - destruct O as [[_ O]|[_ O]]; [discriminate|lia].
Qed.
Lemma decompose_success s cps ok q e pre free post b n : input s q e -> scanned s cps ok ->
  charstr_unicode_decompose (s ++ q) e (pre ++ free ++ post) (zlen pre) (zlen pre + zlen free) = Ok (b, inl n) ->
  ok = true /\ exists rs t rest, Forall2 variant cps rs /\ exchanges (concat rs) t /\ ordered t /\
    b = pre ++ encoding t ++ 0 :: rest ++ post /\ n = zlen pre + zlen (encoding t) /\ zlen (encoding t) + 1 + zlen rest = zlen free.
Proof.
  intros I S E. destruct (decompose_ok s cps ok q e pre free post S I) as (free' & o & E' & L' & O). rewrite E in E'. injection E' as -> <-.
  destruct O as (Ok' & rs & rest & V & -> & -> & R). split; [exact Ok'|]. exists rs, (osort (concat rs)), rest. split; [exact V|].
  assert (SR : Forall scalar (concat rs)).
  { pose proof (scanned_scalar _ _ _ S) as SC. clear - V SC. induction V as [|cp r cps rs V _ IH]; [constructor|]. inversion_clear SC. cbn. apply Forall_app.
    split; [eapply variant_scalar; eauto|auto]. }
  pose proof (osort_forall _ _ SR) as SO. pose proof (osort_total (concat rs)) as OT.
  split; [apply osort_exchanges|]. split; [apply osort_ordered|]. split; [rewrite <- app_assoc; reflexivity|].
  rewrite zlen_app, zlen_cons, encs_zlen in L' by exact SO. rewrite encs_zlen by exact SO. lia.
Qed.
Lemma decompose_bad s q e pre free post : input s q e -> (~ exists cps, encodes s cps) ->
  exists free' err, charstr_unicode_decompose (s ++ q) e (pre ++ free ++ post) (zlen pre) (zlen pre + zlen free) = Ok (pre ++ free' ++ post, inr err) /\
    zlen free' = zlen free /\ (err = EILSEQ \/ err = EOVERFLOW) /\ (3 * zlen s <= zlen free -> err = EILSEQ).
Proof.
  intros I N. destruct (scanned_total s (text_bytes _ (proj1 I))) as (cps & ok & S). assert (ok = false).
  { destruct ok; [|reflexivity]. destruct N. exists cps. apply encodes_scanned. exact S. } subst ok.
  destruct (decompose_ok s cps false q e pre free post S I) as (free' & o & -> & L' & O). destruct o as [n|err]; [destruct O; discriminate|].
  exists free', err. split; [reflexivity|]. split; [exact L'|]. split; [intuition auto|]. intros G. destruct O as [[-> _]|[-> O]]; [reflexivity|]. exfalso.
  assert (B : total (fds cps) <= 3 * total cps).
  { pose proof (scanned_scalar _ _ _ S) as SC. clear - SC. induction SC as [|c cps Sc SC IH]; [reflexivity || (cbn; lia)|]. rewrite fds_cons, total_app. pose proof (fd_total c Sc). change (total (c :: cps)) with (width c + total cps). lia. }
  pose proof (scanned_width_strict _ _ _ S) as SW. cbn iota in SW. lia.
Qed.

Lemma decompose_tight s cps t q e pre free post : input s q e -> encodes s cps -> nfd cps t -> no_syllable cps -> zlen (encoding t) >= zlen free ->
  exists free', charstr_unicode_decompose (s ++ q) e (pre ++ free ++ post) (zlen pre) (zlen pre + zlen free) = Ok (pre ++ free' ++ post, inr EOVERFLOW) /\
    zlen free' = zlen free.
Proof.
  intros I E N NS L. pose proof (encodes_scalar _ _ E) as F. apply encodes_scanned in E. destruct (nfd_total_bytes cps t F N) as [_ T]. rewrite T in *.
  destruct (decompose_ok s cps true q e pre free post E I) as (free' & o & -> & L' & O). destruct o as [n|err].
  - exfalso. destruct O as (_ & rs & rest & V & -> & -> & R). apply (variant_plain _ _ NS) in V. apply R in V. lia.
  - exists free'. destruct O as [[_ O]|[-> O]]; [discriminate|]. auto.
Qed.
Lemma decompose_errors s cps q e pre free post b err : input s q e -> encodes s cps ->
  charstr_unicode_decompose (s ++ q) e (pre ++ free ++ post) (zlen pre) (zlen pre + zlen free) = Ok (b, inr err) ->
  err = EOVERFLOW /\ forall t, nfd cps t -> zlen (encoding t) >= zlen free.
Proof.
  intros I E R. pose proof (encodes_scalar _ _ E) as F. apply encodes_scanned in E.
  destruct (decompose_ok s cps true q e pre free post E I) as (free' & o & E' & L' & O). rewrite R in E'. injection E' as -> <-.
  destruct O as [[_ O]|[-> O]]; [discriminate|]. split; [reflexivity|]. intros t N. destruct (nfd_total_bytes cps t F N) as [_ ->]. exact O.
Qed.
Lemma nfd_three s cps t : encodes s cps -> nfd cps t -> zlen (encoding t) <= 3 * zlen s.
Proof.
  intros E N. pose proof (encodes_scalar _ _ E) as F. destruct (nfd_total_bytes cps t F N) as [_ ->]. apply encodes_scanned, scanned_width in E.
  enough (total (fds cps) <= 3 * total cps) by lia. clear - F.
  induction F as [|c cps Sc F IH]; [reflexivity || (cbn; lia)|]. rewrite fds_cons, total_app. pose proof (fd_total c Sc). change (total (c :: cps)) with (width c + total cps). lia.
Qed.

(** * Recomposition *)

Lemma recompose_result s cps t q e pre free post r h errno : input s q e -> encodes s cps -> compose [] cps t -> zlen (r_ccs r) = 100 ->
  exists free' o, charstr_unicode_recompose r h (s ++ q) e (pre ++ free ++ post) (zlen pre) (zlen pre + zlen free) errno = Ok (pre ++ free' ++ post, o) /\
    zlen free' = zlen free /\
    match o with
    | inl n => ~ crowded t /\ zlen (encoding t) < zlen free /\ n = zlen pre + zlen (encoding t) /\ exists rest, free' = encoding t ++ 0 :: rest
    | inr err => (err = EOVERFLOW /\ zlen (encoding t) >= zlen free) \/ (err = ENOBUFS /\ crowded t)
    end.
Proof.
  intros I E C R. pose proof (encodes_scalar _ _ E) as F. apply encodes_scanned in E. apply compose_composed in C. subst t.
  pose proof (composed_scalar _ F) as SC. rewrite (encs_zlen _ SC).
  destruct (recompose_ok s cps true q e pre free post r h errno E I R) as (free' & o & -> & L & O). exists free', o. split; [reflexivity|]. split; [exact L|].
  destruct o as [n|err].
  - destruct O as (_ & NC & G & rest & -> & ->). split; [intros C; apply NC, crowd_iff, C|]. split; [exact G|]. split; [reflexivity|]. exists rest. reflexivity.
  - destruct O as [[_ O]|[O|[-> C]]]; [discriminate|left; exact O|right]. split; [reflexivity|apply crowd_iff; exact C].
Qed.
Lemma recompose_bad s q e pre free post r h errno : input s q e -> (~ exists cps, encodes s cps) -> zlen (r_ccs r) = 100 ->
  exists free' err, charstr_unicode_recompose r h (s ++ q) e (pre ++ free ++ post) (zlen pre) (zlen pre + zlen free) errno = Ok (pre ++ free' ++ post, inr err) /\
    zlen free' = zlen free /\ (err = EILSEQ \/ err = EOVERFLOW \/ err = ENOBUFS).
Proof.
  intros I N R. destruct (scanned_total s (text_bytes _ (proj1 I))) as (cps & ok & S). assert (ok = false).
  { destruct ok; [|reflexivity]. destruct N. exists cps. apply encodes_scanned. exact S. } subst ok.
  destruct (recompose_ok s cps false q e pre free post r h errno S I R) as (free' & o & -> & L' & O). destruct o as [n|err]; [destruct O; discriminate|].
  exists free', err. split; [reflexivity|]. split; [exact L'|]. tauto.
Qed.
Lemma compose_shrinks s cps t : encodes s cps -> compose [] cps t -> zlen (encoding t) <= zlen s.
Proof.
  intros E C. pose proof (encodes_scalar _ _ E) as F. apply compose_composed in C. subst t. rewrite encs_zlen by (apply composed_scalar; exact F).
  apply encodes_scanned, scanned_width in E. pose proof (composed_total cps). lia.
Qed.

(** * Stability *)

Definition nonzero (c : Z) : Prop := c <> 0.
Lemma fds_nonzero cps : Forall nonzero cps -> Forall nonzero (fds cps).
Proof. intros F. induction F as [|c cps N F IH]; [constructor|]. rewrite fds_cons. apply Forall_app. split; [|exact IH]. unfold fd. apply full_nonzero. exact N. Qed.
Lemma join_nonzero l c p : join l c = Some p -> nonzero p.
Proof.
  intros J. unfold join in J. destruct (tb l c) as [p'|] eqn:E.
  - apply some_inj in J. subst p'. pose proof E as E'. apply tb_in, composite_row in E' as (C & _). apply tb_fd in E. intros ->.
    rewrite (fd_plain 0) in E by reflexivity. change [0] with ([] ++ [0]) in E. apply app_inj_tail in E as [_ E]. lia.
  - apply hg_hangul in J as (_ & _ & H). unfold is_syllable in H. unfold nonzero. lia.
Qed.
Lemma composed_nonzero s : Forall nonzero s -> Forall nonzero (composed s).
Proof.
  assert (St : forall st c, Forall nonzero (cflat st) -> nonzero c -> Forall nonzero (cflat (cst st c))).
  { intros st c F S. assert (K : forall pre l mid, Forall nonzero (pre ++ l :: mid) -> Forall nonzero (cflat (ckeep pre l mid c))).
    { intros pre l mid K. rewrite ckeep_flat. apply Forall_app. auto. }
    destruct st as [out|pre l mid]; unfold cst; cbn [cstep cflat] in *.
    - destruct (ccc c =? 0); cbn [cflat]; apply Forall_app; auto.
    - destruct (cblocked mid c); [apply K, F|]. destruct (join l c) as [p|] eqn:J; [|apply K, F]. cbn [cflat].
      apply Forall_app in F as [F1 F2]. inversion_clear F2. apply Forall_app. split; [exact F1|]. constructor; [|assumption]. apply (join_nonzero l c p J). }
  intros H. unfold composed. assert (G : forall st, Forall nonzero (cflat st) -> Forall nonzero (cflat (fold_left cst s st))).
  { induction H as [|c s S H IH]; intros st F; [exact F|]. cbn [fold_left]. apply IH. apply St; assumption. }
  apply G. constructor.
Qed.
Lemma not_in_nonzero cps : ~ In 0 cps -> Forall nonzero cps.
Proof. intros N. apply Forall_forall. intros c I ->. exact (N I). Qed.
Lemma nfd_text cps t : Forall scalar cps -> ~ In 0 cps -> nfd cps t -> Forall scalar t /\ text (encoding t).
Proof.
  intros F N H. destruct (nfd_total_bytes _ _ F H) as [S _]. split; [exact S|]. apply encs_text; [exact S|]. apply nfd_iff in H as ->.
  apply (osort_forall nonzero). apply fds_nonzero, not_in_nonzero, N.
Qed.
Lemma text_input t r : text t -> input t (0 :: r) None.
Proof. intros T. split; [exact T|]. right. exists [], r. split; [reflexivity|]. split; [constructor|]. left. reflexivity. Qed.
(** Decomposing NFD changes nothing. *)
Lemma decompose_again cps t r pre free post : Forall scalar cps -> ~ In 0 cps -> nfd cps t -> zlen (encoding t) < zlen free ->
  exists rest, charstr_unicode_decompose (encoding t ++ 0 :: r) None (pre ++ free ++ post) (zlen pre) (zlen pre + zlen free) =
    Ok (pre ++ encoding t ++ 0 :: rest ++ post, inl (zlen pre + zlen (encoding t))).
Proof.
  intros F N H L. destruct (nfd_text _ _ F N H) as [S T].
  destruct (decompose_fits (encoding t) t t (0 :: r) None pre free post (text_input _ _ T) (encodes_encs _ S) (nfd_idem _ _ H) L) as (rest & -> & _). exists rest. reflexivity.
Qed.
(** Decomposing what was recomposed from NFD *)
Lemma decompose_composed u t r pre free post : Forall scalar u -> ~ In 0 u -> nfd u u -> compose [] u t -> zlen (encoding u) < zlen free ->
  exists rest, charstr_unicode_decompose (encoding t ++ 0 :: r) None (pre ++ free ++ post) (zlen pre) (zlen pre + zlen free) =
    Ok (pre ++ encoding u ++ 0 :: rest ++ post, inl (zlen pre + zlen (encoding u))).
Proof.
  intros F N H C L. pose proof C as C'. apply compose_composed in C'. assert (S : Forall scalar t) by (subst t; apply composed_scalar; exact F).
  assert (T : text (encoding t)). { apply encs_text; [exact S|]. subst t. apply composed_nonzero, not_in_nonzero, N. }
  destruct (decompose_fits (encoding t) t u (0 :: r) None pre free post (text_input _ _ T) (encodes_encs _ S) (nfd_of_composed _ _ _ H C) L) as (rest & -> & _). exists rest. reflexivity.
Qed.
