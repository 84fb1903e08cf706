(** The verdicts of charstr_detect_unicode_normal_form are right. *)
From Verif Require Import Base CMem Ptree CharstrModel CharstrSpec CharstrProofs Utf8Model Utf8Spec Utf8Proofs UcdData NormModel NormSpec NormTables NormFacts NormOrder NormBytes.
From Coq Require Import ZifyBool ZifyNat.

(** * Table facts *)

Fixpoint all_of (n : nat) (k : Z) (f : Z -> bool) : bool :=
  match n with
  | O => true
  | S n => f k && all_of n (k + 1) f
  end.
Lemma all_of_ok n : forall k f, all_of n k f = true -> forall x, k <= x < k + Z.of_nat n -> f x = true.
Proof.
  induction n as [|n IH]; intros k f H x R; [lia|]. cbn [all_of] in H. apply andb_true_iff in H as [H1 H2].
  destruct (Z.eq_dec x k) as [->|]; [exact H1|]. apply (IH (k + 1) f H2). lia.
Qed.

Definition has_mapping_t (cp : Z) : bool := some (zget cp decomposition_tree).
Lemma nfd_no_check : forallb (fun '(a, b, v) => v &&
  if b - a <? 1000 then all_of (Z.to_nat (b - a + 1)) a has_mapping_t else (a =? 0xAC00) && (b =? 0xAC00 + 19 * 21 * 28 - 1)) nfd_qc_data = true.
Proof. vm_compute. reflexivity. Qed.

Definition primaries_t : ptree unit := tree_of (flat_map (fun '(c, l, p) => if ccc_t l =? 0 then [(p, tt)] else []) recompositions).
Definition never_t (cp : Z) : bool := has_mapping_t cp && negb (some (zget cp primaries_t)) && negb (is_syllable cp).
Lemma nfc_no_check : forallb (fun '(a, b, v) => negb v || (b - a <? 1000) && all_of (Z.to_nat (b - a + 1)) a never_t) nfc_qc_data = true.
Proof. vm_compute. reflexivity. Qed.

Lemma tree_in {A} (rows : list (Z * A)) k a : 0 < k -> In (k, a) rows -> zget k (tree_of rows) <> None.
Proof.
  intros K. induction rows as [|[k' a'] rows IH]; [contradiction|]. intros [H|H].
  - injection H as -> ->. cbn [tree_of]. rewrite zget_same by exact K. discriminate.
  - cbn [tree_of]. destruct (Z.eq_dec k k') as [->|N]; [rewrite zget_same by exact K; discriminate|]. rewrite zget_other by exact N. exact (IH H).
Qed.

Lemma primaries_in p : 0 < p -> In (p, tt) (flat_map (fun '(c, l, p) => if ccc_t l =? 0 then [(p, tt)] else []) recompositions) -> zget p primaries_t <> None.
Proof. unfold primaries_t. apply tree_in. Qed.

#[local] Opaque decomposition_data ccc_data exclusion_data nfc_qc_data nfd_qc_data primaries_t.

Lemma qc_row rows cp v : qc_value rows cp = Some v -> exists a b, In (a, b, v) rows /\ a <= cp <= b.
Proof.
  unfold qc_value. assert (G : forall o, fold_left (fun v '(cp_low, cp_high, value) => if (cp_low <=? cp) && (cp <=? cp_high) then Some value else v) rows o = Some v ->
    o = Some v \/ exists a b, In (a, b, v) rows /\ a <= cp <= b).
  { induction rows as [|[[a b] w] rows IH]; intros o H; [left; exact H|]. cbn [fold_left] in H. apply IH in H as [H|(a' & b' & I & R)].
    - destruct ((a <=? cp) && (cp <=? b)) eqn:E; [|left; exact H]. injection H as ->. right. exists a, b. split; [left; reflexivity|lia].
    - right. exists a', b'. split; [right; exact I|exact R]. }
  intros H. apply G in H as [H|H]; [discriminate|exact H].
Qed.

Lemma has_mapping cp : has_mapping_t cp = true -> exists d, switch decomposition_data cp = Some d.
Proof.
  unfold has_mapping_t, decomposition_tree. rewrite <- (switch_zget _ _ decomposition_keys). destruct (switch decomposition_data cp) as [d|]; [eauto|discriminate].
Qed.
Lemma plain_none cp d : switch decomposition_data cp = Some d -> plain cp = false.
Proof. intros H. unfold plain. rewrite H. reflexivity. Qed.

Lemma nfd_no cp : qc_value nfd_qc_data cp <> None -> plain cp = false.
Proof.
  intros H. destruct (qc_value nfd_qc_data cp) as [v|] eqn:E; [|contradiction]. apply qc_row in E as (a & b & I & R).
  pose proof (proj1 (forallb_forall _ _) nfd_no_check _ I) as K. cbv beta iota in K. apply andb_true_iff in K as [_ K].
  destruct (b - a <? 1000) eqn:S.
  - apply (all_of_ok _ _ _) with (x := cp) in K; [|lia]. apply has_mapping in K as (d & K). exact (plain_none cp d K).
  - unfold plain. destruct (switch decomposition_data cp); [reflexivity|]. replace (is_syllable cp) with true; [reflexivity|]. symmetry. unfold is_syllable. lia.
Qed.

Lemma nfc_no cp : qc_value nfc_qc_data cp = Some true -> plain cp = false /\ forall l c, ccc l = 0 -> join l c <> Some cp.
Proof.
  intros E. apply qc_row in E as (a & b & I & R).
  pose proof (proj1 (forallb_forall _ _) nfc_no_check _ I) as K. cbv beta iota in K. cbn [negb orb] in K. apply andb_true_iff in K as [_ K].
  apply (all_of_ok _ _ _) with (x := cp) in K; [|lia]. unfold never_t in K. apply andb_true_iff in K as [K K3]. apply andb_true_iff in K as [K1 K2].
  apply has_mapping in K1 as (d & K1). split; [exact (plain_none cp d K1)|]. intros l c Z J. unfold join in J. destruct (tb l c) as [p|] eqn:T.
  - injection J as ->. pose proof T as Sc. apply tb_in in T. destruct (join_scalar l c cp) as [S _]; [unfold join; rewrite Sc; reflexivity|].
    assert (0 < cp) as P.
    { apply tb_in in Sc. pose proof (proj1 (forallb_forall _ _) composite_check _ Sc) as C. cbv beta iota in C.
      assert (scalar_b cp = true) as B by (repeat (apply andb_true_iff in C as [C ?]); assumption). apply scalar_b_ok in B. lia. }
    assert (In (cp, tt) (flat_map (fun '(c, l, p) => if ccc_t l =? 0 then [(p, tt)] else []) recompositions)) as IN.
    { apply in_flat_map. exists (c, l, cp). split; [exact T|]. rewrite ccc_t_ok, Z. left. reflexivity. }
    apply (primaries_in _ P) in IN. apply IN. destruct (zget cp primaries_t); [discriminate K2|reflexivity].
  - apply hg_hangul in J as (_ & _ & J). rewrite J in K3. discriminate K3.
Qed.

(** * The order of composed strings *)

Lemma drop_ordered mid : forall c s, (forall m, In m mid -> ccc m < ccc c) -> ordered (mid ++ c :: s) -> ordered (mid ++ s).
Proof.
  induction mid as [|m mid IH]; intros c s H O; cbn [app] in *.
  - apply ordered_cons in O. apply O.
  - apply ordered_cons in O as [O1 O2]. apply ordered_cons. split; [|exact (IH c s (fun x I => H x (or_intror I)) O2)].
    destruct mid as [|m' mid]; [|exact O1]. cbn [app] in *. pose proof (H m (or_introl eq_refl)). apply ordered_cons in O2 as [O2 _]. destruct s as [|x s]; [exact I|]. lia.
Qed.

Definition legal (c : Z) : Prop := plain c = true \/ exists l d, ccc l = 0 /\ join l d = Some c.
Lemma compose_legal d s r : compose d s r -> Forall legal d -> Forall legal s -> ordered (d ++ s) -> Forall legal r /\ ordered r.
Proof.
  induction 1 as [d|pre l mid c p s r NB P _ IH|d c s r _ _ IH]; intros Ld Ls O.
  - rewrite app_nil_r in O. auto.
  - destruct NB as [St NB]. apply class_ccc in St. apply (join_composite l c p St) in P. inversion_clear Ls as [|? ? _ Ls'].
    apply IH; [|exact Ls'|].
    + apply Forall_app in Ld as [L1 L2]. inversion_clear L2 as [|? ? _ L3]. apply Forall_app. split; [exact L1|]. constructor; [|exact L3]. right. eauto.
    + rewrite <- app_assoc in *. cbn [app] in *. apply ordered_app in O as [O1 O2].
      apply ordered_starter; [exact O1|exact (join_starter l c p St P)|]. apply ordered_cons in O2 as [_ O2]. apply ordered_cons.
      pose proof (join_starter l c p St P) as Zp. split; [destruct (mid ++ s); [exact I|]; lia|]. apply (drop_ordered mid c s); [|exact O2].
      intros m I. apply (NB m (ccc m) (ccc c) I); apply class_ccc; reflexivity.
  - inversion_clear Ls as [|? ? L1 L2]. apply IH; [apply Forall_app; auto|exact L2|]. rewrite <- app_assoc. exact O.
Qed.
Lemma nfc_legal s t : nfc s t -> Forall legal t /\ ordered t.
Proof.
  intros (u & N & C). apply nfd_idem in N. apply nfd_self_iff in N as [P O]. apply (compose_legal _ _ _ C); [constructor| |exact O].
  eapply Forall_impl; [|exact P]. intros c H. left. exact H.
Qed.

(** * Verdicts *)

Lemma detect_cases cps ok d m : forall last result,
  (detect cps ok d m last result = d /\ ((exists c, In c cps /\ dis d c = true) \/ ~ ordered cps \/ (match cps with [] => False | c :: _ => last > ccc c /\ ccc c > 0 end))) \/
  (ok = true /\ (detect cps ok d m last result = result \/ detect cps ok d m last result = m)) \/
  (ok = false /\ detect cps ok d m last result = -1).
Proof.
  induction cps as [|c cps IH]; intros last result; cbn [detect].
  - destruct ok; auto.
  - destruct (truth (ccc c) && (last >? ccc c)) eqn:E; [left; split; [reflexivity|]; right; right; pose proof (ccc_nonneg c); unfold truth in E; lia|].
    destruct (dis d c) eqn:D; [left; split; [reflexivity|]; left; exists c; split; [left; reflexivity|exact D]|].
    destruct (IH (ccc c) (if dis m c then m else result)) as [[K1 K2]|[[K1 K2]|K]]; [left; split; [exact K1|]|right; left; split; [exact K1|]|right; right; exact K].
    + destruct K2 as [(x & I & K)|[K|K]]; [left; exists x; split; [right; exact I|exact K]|right; left; intros O; apply K; apply ordered_cons in O; apply O|].
      right; left. intros O. apply ordered_cons in O as [O _]. destruct cps as [|x cps]; [exact K|]. contradiction.
    + destruct (dis m c); [right; destruct K2; assumption|exact K2].
Qed.

Lemma dis_nfc c : dis UNICODE_NFC_DISALLOWED c = true -> qc_value nfc_qc_data c = Some true.
Proof. unfold dis. rewrite (proj1 (allowed_nfc c)). unfold qc_flags. destruct (qc_value nfc_qc_data c) as [[]|]; [reflexivity|discriminate..]. Qed.
Lemma dis_nfd c : dis UNICODE_NFD_DISALLOWED c = true -> qc_value nfd_qc_data c <> None.
Proof. unfold dis. rewrite (proj1 (allowed_nfd c)). unfold qc_flags. destruct (qc_value nfd_qc_data c) as [[]|]; discriminate. Qed.
Lemma maybe_nfd c : dis UNICODE_NFD_MAYBE c = false.
Proof.
  unfold dis. rewrite (proj2 (allowed_nfd c)). unfold qc_flags. destruct (qc_value nfd_qc_data c) as [[]|] eqn:E; [reflexivity| |reflexivity].
  apply qc_row in E as (a & b & I & _). pose proof (proj1 (forallb_forall _ _) nfd_no_check _ I) as K. cbv beta iota in K. discriminate.
Qed.

Lemma verdict_nfc s q e : input s q e -> exists v, charstr_detect_unicode_normal_form (s ++ q) e UNICODE_NFC_DISALLOWED UNICODE_NFC_MAYBE = Ok v /\
  ((v = 0 /\ exists cps, encodes s cps /\ nfc cps cps) \/
   (v = UNICODE_NFC_DISALLOWED /\ ~ exists cps, encodes s cps /\ nfc cps cps) \/
   (v = UNICODE_NFC_MAYBE /\ exists cps, encodes s cps) \/
   (v = -1 /\ ~ exists cps, encodes s cps)).
Proof.
  intros I. destruct (scanned_total s) as (cps & ok & S); [apply text_bytes; apply I|].
  assert (charstr_detect_unicode_normal_form (s ++ q) e UNICODE_NFC_DISALLOWED UNICODE_NFC_MAYBE = Ok (detect cps ok UNICODE_NFC_DISALLOWED UNICODE_NFC_MAYBE 0 0)) as D.
  { unfold charstr_detect_unicode_normal_form. apply (detect_loop_ok s cps ok S); [exact I|rewrite app_length; lia]. }
  exists (detect cps ok UNICODE_NFC_DISALLOWED UNICODE_NFC_MAYBE 0 0). split; [exact D|].
  destruct (detect_cases cps ok UNICODE_NFC_DISALLOWED UNICODE_NFC_MAYBE 0 0) as [[-> K]|[[-> K]|[-> ->]]].
  - right; left. split; [reflexivity|]. intros (cps' & E & N). apply encodes_scanned in E.
    assert (cps' = cps) as ->.
    { destruct ok; [exact (encodes_det s cps' cps (proj2 (encodes_scanned _ _) E) (proj2 (encodes_scanned _ _) S))|]. exfalso. apply (scanned_valid s cps S). exists cps'. apply encodes_scanned. exact E. }
    apply nfc_legal in N as [L O]. destruct K as [(c & IN & K)|[K|K]]; [|contradiction|destruct cps as [|c cps]; [exact K|]; pose proof (ccc_nonneg c); lia].
    apply dis_nfc, nfc_no in K as [K1 K2]. rewrite Forall_forall in L. destruct (L c IN) as [L1|(l & d & L1 & L2)]; [congruence|exact (K2 l d L1 L2)].
  - destruct K as [K|K]; rewrite K in *.
    + left. split; [reflexivity|]. destruct (detect_nfc s q e I) as (b & Eb & Hb). unfold charstr_unicode_canonically_composed in Eb. rewrite D in Eb. cbn [bind] in Eb. injection Eb as <-. apply Hb. reflexivity.
    + right; right; left. split; [reflexivity|]. exists cps. apply encodes_scanned. exact S.
  - right; right; right. split; [reflexivity|]. exact (scanned_valid s cps S).
Qed.

Lemma detect_no_maybe cps d m ok : (forall c, dis m c = false) -> forall last, detect cps ok d m last 0 = d \/ detect cps ok d m last 0 = (if ok then 0 else -1).
Proof.
  intros M. induction cps as [|c cps IH]; intros last; cbn [detect]; [auto|]. destruct (truth (ccc c) && (last >? ccc c)); [auto|]. destruct (dis d c); [auto|]. rewrite M. apply IH.
Qed.
Lemma verdict_nfd s q e : input s q e -> exists v, charstr_detect_unicode_normal_form (s ++ q) e UNICODE_NFD_DISALLOWED UNICODE_NFD_MAYBE = Ok v /\
  ((v = 0 /\ exists cps, encodes s cps /\ nfd cps cps) \/
   (v = UNICODE_NFD_DISALLOWED /\ ~ exists cps, encodes s cps /\ nfd cps cps) \/
   (v = -1 /\ ~ exists cps, encodes s cps)).
Proof.
  intros I. destruct (scanned_total s) as (cps & ok & S); [apply text_bytes; apply I|].
  assert (charstr_detect_unicode_normal_form (s ++ q) e UNICODE_NFD_DISALLOWED UNICODE_NFD_MAYBE = Ok (detect cps ok UNICODE_NFD_DISALLOWED UNICODE_NFD_MAYBE 0 0)) as D.
  { unfold charstr_detect_unicode_normal_form. apply (detect_loop_ok s cps ok S); [exact I|rewrite app_length; lia]. }
  exists (detect cps ok UNICODE_NFD_DISALLOWED UNICODE_NFD_MAYBE 0 0). split; [exact D|].
  destruct (detect_cases cps ok UNICODE_NFD_DISALLOWED UNICODE_NFD_MAYBE 0 0) as [[-> K]|[[-> K]|[-> ->]]].
  - right; left. split; [reflexivity|]. intros (cps' & E & N). apply encodes_scanned in E.
    assert (cps' = cps) as ->.
    { destruct ok; [exact (encodes_det s cps' cps (proj2 (encodes_scanned _ _) E) (proj2 (encodes_scanned _ _) S))|]. exfalso. apply (scanned_valid s cps S). exists cps'. apply encodes_scanned. exact E. }
    apply nfd_self_iff in N as [L O]. destruct K as [(c & IN & K)|[K|K]]; [|contradiction|destruct cps as [|c cps]; [exact K|]; pose proof (ccc_nonneg c); lia].
    apply dis_nfd, nfd_no in K. rewrite Forall_forall in L. rewrite (L c IN) in K. discriminate.
  - destruct (detect_no_maybe cps UNICODE_NFD_DISALLOWED UNICODE_NFD_MAYBE true maybe_nfd 0) as [K'|K']; [destruct K as [K|K]; rewrite K in K'; discriminate|]. rewrite K' in *.
    left. split; [reflexivity|]. destruct (detect_nfd s q e I) as (b & Eb & Hb). unfold charstr_unicode_canonically_decomposed in Eb. rewrite D in Eb. cbn [bind] in Eb. injection Eb as <-. apply Hb. reflexivity.
  - right; right. split; [reflexivity|]. exact (scanned_valid s cps S).
Qed.
