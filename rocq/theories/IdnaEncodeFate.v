(** The result of charstr_idna_encode as a function of the string: it does not depend on
    uninitialized memory. *)
From Verif Require Import Base CMem CharstrModel CharstrSpec CharstrProofs Utf8Model Utf8Spec Utf8Proofs UcdData NormModel NormSpec NormTables NormFacts NormOrder NormBytes NormDecompose NormRecompose NormMain NormSyllable NormExact.
From Verif Require Import CategoryModel CategorySpec CategoryData IdnaTabModel IdnaTabSpec IdnaData IdnaModel IdnaProofs.
From Verif Require Import PunyModel PunySpec PunyProofs PunyPass PunyHost PunyName PunyNfc PunyTop PunyLe IdnaEncodeModel IdnaEncodeSpec IdnaEncodeProofs IdnaEncodeMore.
From Coq Require Import ZifyBool ZifyNat.
#[local] Opaque idna_data gen_idna_table decomposition_data ccc_data exclusion_data nfc_qc_data nfd_qc_data category_data.

Definition recomposed (u : list Z) (res : res (option (list Z))) : Prop :=
  (~ crowded (composed u) /\ outcome spacing_mark image (composed u) res) \/ (crowded (composed u) /\ res = Ok None).
Fixpoint before_nul (l : list Z) : list Z :=
  match l with
  | [] => []
  | c :: l => if c =? 0 then [] else c :: before_nul l
  end.
Definition fate (s cps : list Z) (ok : bool) (res : res (option (list Z))) : Prop :=
  if detect cps ok 1 2 0 0 =? 0 then outcome spacing_mark image cps res
  else if detect cps ok 4 8 0 0 =? 0 then recomposed cps res
  else if ok then
    match fitting cps (3 * zlen s) with
    | None => res = Ok None
    | Some l => recomposed (before_nul (osort l)) res
    end
  else res = Ok None.

Lemma recomposed_unique u r r' : recomposed u r -> recomposed u r' -> r = r'.
Proof. intros [[N O]|[C ->]] [[N' O']|[C' ->]]; try contradiction; [exact (outcome_unique _ _ _ O O')|reflexivity]. Qed.
Lemma fate_unique s cps ok r r' : fate s cps ok r -> fate s cps ok r' -> r = r'.
Proof.
  unfold fate. destruct (detect cps ok 1 2 0 0 =? 0); [apply outcome_unique|]. destruct (detect cps ok 4 8 0 0 =? 0); [apply recomposed_unique|].
  destruct ok; [|congruence]. destruct (fitting cps (3 * zlen s)); [apply recomposed_unique|congruence].
Qed.

Lemma before_nul_none l : Forall nonzero l -> before_nul l = l.
Proof. induction 1 as [|c l H _ IH]; [reflexivity|]. cbn [before_nul]. unfold nonzero in H. replace (c =? 0) with false by lia. rewrite IH. reflexivity. Qed.
Lemma before_nul_app a b : Forall nonzero a -> before_nul (a ++ 0 :: b) = a.
Proof. induction 1 as [|c l H _ IH]; [reflexivity|]. cbn [app before_nul]. unfold nonzero in H. replace (c =? 0) with false by lia. rewrite IH. reflexivity. Qed.

Section Fate.
Variables (junk : nat -> Z) (r : recomposer) (h : hangul_recomposer) (errno : Z).
Hypothesis r_size : zlen (r_ccs r) = 100.

(** Recomposition of what is before the first NUL *)
Lemma recompose_fate l q : Forall scalar l -> recomposed (before_nul l) (encode_nfd idna_library junk r h errno (encs l ++ 0 :: q) (zlen (0 :: q))).
Proof.
  intros S. destruct (first_nul l) as [N|(a & b & -> & N)].
  - rewrite (before_nul_none l N).
    apply (encode_nfd_ok idna_library spacing_mark real_category junk image image_ok r h errno r_size (encs l) l (composed l) (0 :: q) _).
    + split; [apply encs_text; assumption|]. left. reflexivity.
    + apply encodes_encs. exact S.
    + apply compose_composed. reflexivity.
    + lia.
  - rewrite (before_nul_app a b N). apply Forall_app in S as [S1 S2]. inversion_clear S2 as [|? ? _ S3].
    replace (encs (a ++ 0 :: b) ++ 0 :: q) with (encs a ++ 0 :: encs b ++ 0 :: q) by (rewrite encs_app, encs_cons, <- app_assoc; reflexivity).
    apply (encode_nfd_ok idna_library spacing_mark real_category junk image image_ok r h errno r_size (encs a) a (composed a) (0 :: encs b ++ 0 :: q) (zlen (0 :: q))).
    + split; [apply encs_text; assumption|]. right. exists (encs b), (0 :: q). split; [reflexivity|]. split; [apply encs_bytes; exact S3|]. right. reflexivity.
    + apply encodes_encs. exact S1.
    + apply compose_composed. reflexivity.
    + rewrite (zlen_cons 0 (encs b ++ _)), zlen_app. pose proof (zlen_nonneg (encs b)). lia.
Qed.

Lemma idna_fate s cps ok q : text s -> ~ ascii s -> 3 * zlen s + 1 < 2 ^ 64 -> scanned s cps ok ->
  fate s cps ok (charstr_idna_encode junk r h errno (s ++ 0 :: q)).
Proof.
  intros T A L Sc. unfold charstr_idna_encode, idna_encode. rewrite is_all_ascii_ok by exact T.
  replace (forallb (fun c => c <? 128) s) with false.
  2: { symmetry. apply not_true_is_false. intros K. apply A. apply Forall_forall. rewrite forallb_forall in K. intros x I. specialize (K x I). lia. }
  cbn [bind]. rewrite strlen_ok by (apply text_no_nul; exact T). cbn [bind].
  assert (zlen (s ++ 0 :: q) - zlen s = zlen (0 :: q)) as -> by (rewrite zlen_app; lia).
  assert (input s (0 :: q) (Some (zlen (0 :: q)))) as I by (split; [exact T|left; reflexivity]).
  unfold charstr_unicode_canonically_composed, charstr_unicode_canonically_decomposed, charstr_detect_unicode_normal_form.
  rewrite !(detect_loop_ok s cps ok Sc) by (try exact I; rewrite app_length; lia). cbn [bind]. unfold fate, UNICODE_NFC_DISALLOWED, UNICODE_NFC_MAYBE, UNICODE_NFD_DISALLOWED, UNICODE_NFD_MAYBE.
  destruct (detect cps ok 1 2 0 0 =? 0) eqn:D1.
  { assert (ok = true) as -> by (apply Z.eqb_eq, detect_zero in D1; try discriminate; apply D1).
    exact (encode_nfc_ok idna_library spacing_mark real_category junk image image_ok s cps true (0 :: q) Sc (text_bytes _ T)). }
  cbn [bind]. destruct (detect cps ok 4 8 0 0 =? 0) eqn:D2.
  { assert (ok = true) as -> by (apply Z.eqb_eq, detect_zero in D2; try discriminate; apply D2). apply encodes_scanned in Sc.
    exact (encode_nfd_ok idna_library spacing_mark real_category junk image image_ok r h errno r_size s cps (composed cps) (0 :: q) _ I Sc (proj2 (compose_composed _ _) eq_refl) ltac:(lia)). }
  pose proof (zlen_nonneg s) as Ls.
  assert (u64 (3 * zlen s) = 3 * zlen s) as -> by (apply Z.mod_small; lia).
  assert (u64 (3 * zlen s + 1) = 3 * zlen s + 1) as -> by (apply Z.mod_small; lia).
  pose proof (fresh_block_zlen junk (3 * zlen s + 1) ltac:(lia)) as F.
  destruct (split_firstn (fresh_block junk (3 * zlen s + 1)) (3 * zlen s)) as (free & post & Ef & Lf); [rewrite F; lia|]. rewrite Ef. clear Ef F.
  destruct ok.
  - destruct (decompose_exact s cps (0 :: q) _ [] free post Sc I) as (free' & D & _ & O). cbn [app] in D. change (zlen (@nil Z)) with 0 in D. cbn [Z.add] in D. rewrite Lf in D, O. rewrite D. cbn [bind].
    destruct (fitting cps (3 * zlen s)) as [l|] eqn:Fi; [|reflexivity]. destruct O as (rest & ->).
    destruct (fitting_variant _ _ _ Fi) as (rs & V & ->).
    assert (Forall scalar (concat rs)) as SR.
    { pose proof (scanned_scalar _ _ _ Sc) as SC. clear - V SC. induction V as [|cp x cps rs V _ IH]; [constructor|]. inversion_clear SC. cbn [concat]. apply Forall_app.
      split; [eapply variant_scalar; eauto|auto]. }
    pose proof (osort_forall _ _ SR) as SO.
    replace ((encs (osort (concat rs)) ++ 0 :: rest) ++ post) with (encs (osort (concat rs)) ++ 0 :: rest ++ post) by (rewrite <- app_assoc; reflexivity).
    replace (zlen (encs (osort (concat rs)) ++ 0 :: rest ++ post) - total (concat rs)) with (zlen (0 :: rest ++ post)) by (rewrite zlen_app, encs_zlen, osort_total by exact SO; lia).
    exact (recompose_fate (osort (concat rs)) (rest ++ post) SO).
  - apply scanned_valid in Sc. destruct (decompose_bad s (0 :: q) _ [] free post I Sc) as (free' & err & D & _).
    cbn [app] in D. change (zlen (@nil Z)) with 0 in D. cbn [Z.add] in D. rewrite Lf in D. rewrite D. reflexivity.
Qed.
End Fate.

Lemma independent junk r h errno q junk' r' h' errno' q' s : text s -> 3 * zlen s + 1 < 2 ^ 64 -> zlen (r_ccs r) = 100 -> zlen (r_ccs r') = 100 ->
  charstr_idna_encode junk r h errno (s ++ 0 :: q) = charstr_idna_encode junk' r' h' errno' (s ++ 0 :: q').
Proof.
  intros T L R R'. destruct (ascii_dec s) as [A|A].
  - assert (zlen s + 1 < 2 ^ 64) as L' by (pose proof (zlen_nonneg s); lia). unfold charstr_idna_encode.
    rewrite (idna_ascii idna_library spacing_mark real_category junk image image_ok r h errno s q T A L').
    rewrite (idna_ascii idna_library spacing_mark real_category junk' image image_ok r' h' errno' s q' T A L'). reflexivity.
  - destruct (scanned_total s (text_bytes _ T)) as (cps & ok & Sc).
    exact (fate_unique s cps ok _ _ (idna_fate junk r h errno R s cps ok q T A L Sc) (idna_fate junk' r' h' errno' R' s cps ok q' T A L Sc)).
Qed.
