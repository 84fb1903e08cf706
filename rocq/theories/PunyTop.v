(** charstr_idna_encode for given functions of the generated files *)
From Verif Require Import Base CMem CharstrModel CharstrSpec CharstrProofs Utf8Model Utf8Spec Utf8Proofs UcdData NormModel NormSpec NormTables NormFacts NormOrder NormBytes NormDecompose NormRecompose NormMain NormSyllable.
From Verif Require Import CategoryModel PunyModel PunySpec PunyProofs PunyPass PunyHost PunyName PunyNfc.
From Coq Require Import ZifyBool ZifyNat.
#[local] Opaque decomposition_data ccc_data exclusion_data nfc_qc_data nfd_qc_data.

Lemma is_all_ascii_ok s r : text s -> is_all_ascii (s ++ 0 :: r) = Ok (forallb (fun c => c <? 128) s).
Proof.
  induction 1 as [|c s H _ IH]; [reflexivity|]. cbn [app is_all_ascii forallb]. unfold truth at 1.
  replace (negb (c =? 0)) with true by lia. destruct (c <? 128) eqn:E; cbn [andb].
  - assert (Z.land c 128 = 0) as ->.
    { change 128 with (2 ^ 7). apply Z.bits_inj'. intros n Hn. rewrite Z.land_spec, Z.bits_0, Z.pow2_bits_eqb by lia.
      destruct (7 =? n) eqn:K; [|apply andb_false_r]. apply Z.eqb_eq in K. subst n. rewrite andb_true_r.
      apply Z.bits_above_log2; [lia|]. apply Z.log2_lt_pow2; [|lia]; lia. }
    exact IH.
  - assert (Z.land c 128 <> 0) as K.
    { intros K. assert (Z.testbit (Z.land c 128) 7 = false) as B by (rewrite K; apply Z.bits_0).
      rewrite Z.land_spec in B. change (Z.testbit 128 7) with true in B. rewrite andb_true_r in B.
      assert (c / 2 ^ 7 = 1) as D by (symmetry; apply (Z.div_unique _ _ _ (c - 128)); lia).
      rewrite Z.testbit_odd, Z.shiftr_div_pow2, D in B by lia. discriminate. }
    unfold truth. destruct (Z.eqb_spec (Z.land c 128) 0); [contradiction|reflexivity].
Qed.

Lemma first_nul (t : list Z) : Forall nonzero t \/ exists a b, t = a ++ 0 :: b /\ Forall nonzero a.
Proof.
  induction t as [|c t [IH|(a & b & -> & IH)]]; [left; constructor|..]; destruct (Z.eq_dec c 0) as [->|N].
  - right. exists [], t. split; [reflexivity|constructor].
  - left. constructor; assumption.
  - right. exists [], (a ++ 0 :: b). split; [reflexivity|constructor].
  - right. exists (c :: a), b. split; [reflexivity|constructor; assumption].
Qed.

Section Top.
Variable lib : library.
Variable spacing_mark : Z -> bool.
Hypothesis category_ok : forall c, 128 <= c -> exists k, unicode_category_of lib c = Ok k /\ category_eqb k Mc = spacing_mark c.
Variable junk : nat -> Z.
Variable image : Z -> option (list Z).
Hypothesis image_ok : forall c, scalar c -> treats lib c (image c).
Variables (r : recomposer) (h : hangul_recomposer) (errno : Z).
Hypothesis r_size : zlen (r_ccs r) = 100.

Notation outcome := (outcome spacing_mark image).
Notation idna s := (idna_encode lib junk r h errno s).

Lemma idna_ascii s q : text s -> Forall (fun c => c < 128) s -> zlen s + 1 < 2 ^ 64 ->
  idna (s ++ 0 :: q) = Ok (Some (map ascii_lower s ++ [0])).
Proof.
  intros T A L. unfold idna_encode. rewrite is_all_ascii_ok by exact T.
  replace (forallb (fun c => c <? 128) s) with true.
  2: { symmetry. apply forallb_forall. intros x I. rewrite Forall_forall in A. specialize (A x I). cbv beta in A. lia. }
  cbn [bind]. pose proof (dup_all_ok junk s q T L) as D. unfold dup_all in D.
  destruct (charstr_dupstr junk (Some (s ++ 0 :: q))) as [[d|]| | |]; cbn [bind] in D |- *; try discriminate. injection D as ->.
  unfold as_block. destruct (case_str_ok [] s [] T) as [K _]. cbn [app] in K. change (zlen (@nil Z)) with 0 in K. rewrite K. reflexivity.
Qed.

(** The cases: the string is not UTF-8; its NFC form is encoded; NFC or recomposition fails;
    or the part before an overlong NUL is encoded. *)
Lemma weaken (A B C : Prop) : (A /\ B) \/ C -> B \/ C.
Proof. tauto. Qed.
Lemma idna_other s q : text s -> ~ Forall (fun c => c < 128) s -> 3 * zlen s + 1 < 2 ^ 64 ->
  ((~ exists cps, encodes s cps) /\ idna (s ++ 0 :: q) = Ok None) \/
  exists cps, encodes s cps /\
   ((exists t, nfc cps t /\ (outcome t (idna (s ++ 0 :: q)) \/ (crowded t /\ idna (s ++ 0 :: q) = Ok None))) \/
    (exists t, nfd cps t /\ zlen (encoding t) >= 3 * zlen s /\ idna (s ++ 0 :: q) = Ok None) \/
    (exists a b t, cps = a ++ 0 :: b /\ ~ In 0 a /\ nfc a t /\ (outcome t (idna (s ++ 0 :: q)) \/ (crowded t /\ idna (s ++ 0 :: q) = Ok None)))).
Proof.
  intros T A L. unfold idna_encode. rewrite is_all_ascii_ok by exact T.
  replace (forallb (fun c => c <? 128) s) with false.
  2: { symmetry. apply not_true_is_false. intros K. apply A. apply Forall_forall. rewrite forallb_forall in K. intros x I. specialize (K x I). lia. }
  cbn [bind]. rewrite strlen_ok by (apply text_no_nul; exact T). cbn [bind].
  assert (zlen (s ++ 0 :: q) - zlen s = zlen (0 :: q)) as -> by (rewrite zlen_app; lia).
  assert (input s (0 :: q) (Some (zlen (0 :: q)))) as I.
  { split; [exact T|]. left. reflexivity. }
  destruct (detect_nfc s (0 :: q) _ I) as (b1 & -> & D1). cbn [bind]. destruct b1.
  { right. destruct (D1 eq_refl) as (cps & E & N). exists cps. split; [exact E|]. left. exists cps. split; [exact N|]. left.
    apply (encode_nfc_ok lib spacing_mark category_ok junk image image_ok s cps true (0 :: q)); [apply encodes_scanned; exact E|apply text_bytes; exact T]. }
  destruct (detect_nfd s (0 :: q) _ I) as (b2 & -> & D2). cbn [bind]. destruct b2.
  { right. destruct (D2 eq_refl) as (cps & E & N). destruct (compose_exists cps) as (t & C & _). exists cps. split; [exact E|].
    left. exists t. split; [exists cps; auto|].
    destruct (encode_nfd_ok lib spacing_mark category_ok junk image image_ok r h errno r_size s cps t (0 :: q) _ I E C ltac:(lia)) as [[_ K]|K]; [left|right]; exact K. }
  pose proof (zlen_nonneg s) as Ls.
  assert (u64 (3 * zlen s) = 3 * zlen s) as -> by (apply Z.mod_small; lia).
  assert (u64 (3 * zlen s + 1) = 3 * zlen s + 1) as -> by (apply Z.mod_small; lia).
  pose proof (fresh_block_zlen junk (3 * zlen s + 1) ltac:(lia)) as F. 
  destruct (split_firstn (fresh_block junk (3 * zlen s + 1)) (3 * zlen s)) as (free & post & Ef & Lf); [rewrite F; lia|]. rewrite Ef. clear Ef F.
  destruct (scanned_total s (text_bytes _ T)) as (cps & ok & Sc).
  pose proof (scanned_scalar _ _ _ Sc) as S.
  destruct ok.
  2: { left. apply scanned_valid in Sc. split; [exact Sc|]. destruct (decompose_bad s (0 :: q) _ [] free post I Sc) as (free' & err & D & _).
       cbn [app] in D. change (zlen (@nil Z)) with 0 in D. cbn [Z.add] in D. rewrite Lf in D. rewrite D. reflexivity. }
  right. exists cps. pose proof Sc as E. apply encodes_scanned in E. split; [exact E|].
  destruct (charstr_unicode_decompose (s ++ 0 :: q) (Some (zlen (0 :: q))) (free ++ post) 0 (3 * zlen s)) as [[w o]| | |] eqn:D.
  2-4: exfalso; pose proof (decompose_ok s cps true (0 :: q) _ [] free post Sc I) as (f & o & D' & _);
       cbn [app] in D'; change (zlen (@nil Z)) with 0 in D'; cbn [Z.add] in D'; rewrite Lf in D'; rewrite D' in D; discriminate.
  cbn [bind]. destruct o as [n|err].
  2: { right. left. destruct (nfd_exists cps) as (t & N & _). exists t. split; [exact N|].
       pose proof (decompose_errors s cps (0 :: q) _ [] free post w err I E) as K. cbn [app] in K. change (zlen (@nil Z)) with 0 in K. cbn [Z.add] in K.
       rewrite Lf in K. destruct (K D) as [_ K']. split; [exact (K' t N)|reflexivity]. }
  pose proof (decompose_success s cps true (0 :: q) (Some (zlen (0 :: q))) [] free post w n I Sc) as K. cbn [app] in K. change (zlen (@nil Z)) with 0 in K. cbn [Z.add] in K.
  rewrite Lf in K. destruct (K D) as (_ & rs & t & rest & V & X & O & -> & -> & Lr). clear K D.
  apply exchanges_osort in X. rewrite (osort_of_ordered t O) in X. subst t.
  assert (Scalars : forall cps rs, Forall2 variant cps rs -> Forall scalar cps -> Forall scalar (osort (concat rs))).
  { clear. intros cps rs V S. apply osort_forall. induction V as [|cp x cps rs V _ IH]; [constructor|]. inversion_clear S as [|? ? S1 S2]. cbn [concat]. apply Forall_app.
    split; [eapply variant_scalar; eauto|auto]. }
  assert (Form : forall cps rs, Forall2 variant cps rs -> nfc cps (composed (osort (concat rs)))).
  { clear. intros cps rs V. apply nfc_iff. apply (variant_composed cps rs); [exact V|apply osort_exchanges|apply osort_ordered]. }
  replace (zlen (encs (osort (concat rs)) ++ 0 :: rest ++ post) - zlen (encs (osort (concat rs)))) with (zlen (0 :: rest ++ post)) by (rewrite zlen_app; lia).
  destruct (first_nul cps) as [N|(a & b & -> & N)].
  - left. exists (composed (osort (concat rs))). split; [apply Form; exact V|].
    eapply weaken. apply (encode_nfd_ok lib spacing_mark category_ok junk image image_ok r h errno r_size (encs (osort (concat rs))) (osort (concat rs)) _ (0 :: rest ++ post) _).
    + split; [apply encs_text; [apply (Scalars cps); assumption|apply osort_forall, (variant_nonzero cps); assumption]|]. left. reflexivity.
    + apply encodes_encs, (Scalars cps); assumption.
    + apply compose_composed. reflexivity.
    + lia.
  - right. right. destruct (variant_split a b rs V) as (ra & rb & Va & Vb & Ec). apply Forall_app in S as [Sa Sb]. inversion_clear Sb as [|? ? _ Sb'].
    exists a, b, (composed (osort (concat ra))). split; [reflexivity|]. split; [intros I0; rewrite Forall_forall in N; exact (N 0 I0 eq_refl)|]. split; [apply Form; exact Va|].
    rewrite Ec, (osort_starter _ 0 _ ccc_0).
    pose proof (Scalars a ra Va Sa) as S1. pose proof (Scalars b rb Vb Sb') as S2.
    pose proof (osort_forall nonzero _ (variant_nonzero a ra Va N)) as N1.
    remember (osort (concat ra)) as ta eqn:Eta. remember (osort (concat rb)) as tb eqn:Etb. clear Eta Etb.
    replace (encs (ta ++ 0 :: tb) ++ 0 :: rest ++ post) with (encs ta ++ 0 :: encs tb ++ 0 :: rest ++ post)
      by (rewrite encs_app, encs_cons, <- app_assoc; reflexivity).
    eapply weaken. apply (encode_nfd_ok lib spacing_mark category_ok junk image image_ok r h errno r_size (encs ta) ta (composed ta) (0 :: encs tb ++ 0 :: rest ++ post) (zlen (0 :: rest ++ post))).
    + split; [apply encs_text; [exact S1|exact N1]|]. right. exists (encs tb), (0 :: rest ++ post). split; [reflexivity|]. split; [apply encs_bytes; exact S2|]. right. reflexivity.
    + apply encodes_encs. exact S1.
    + apply compose_composed. reflexivity.
    + rewrite (zlen_cons 0 (encs tb ++ _)), zlen_app. pose proof (zlen_nonneg (encs tb)). lia.
Qed.
End Top.
