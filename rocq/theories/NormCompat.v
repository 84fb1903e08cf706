(** The verdicts of charstr_detect_unicode_normal_form on NFKC and NFKD. *)
From Verif Require Import Base CMem Ptree CharstrModel CharstrSpec CharstrProofs Utf8Model Utf8Spec Utf8Proofs UcdData CompatData NormModel NormSpec NormCompatSpec.
From Verif Require Import NormTables NormFacts NormOrder NormBytes NormDetect.
From Coq Require Import ZifyBool ZifyNat.

(** * Table facts *)

Lemma compatibility_keys : increasing_keys 0 compatibility_data = true.
Proof. vm_compute. reflexivity. Qed.
Definition compatibility_tree : ptree (list Z) := tree_of compatibility_data.
Definition kmapping_t (cp : Z) : bool := some (zget cp decomposition_tree) || some (zget cp compatibility_tree).
Lemma compatibility_hangul : forallb (fun '(k, _) => negb (hangul k)) compatibility_data = true.
Proof. vm_compute. reflexivity. Qed.

Definition nfkd_qc_tree : ptree unit := ranges_tree (small_ranges nfkd_qc_data).
Definition nfkc_qc_tree : ptree unit := ranges_tree (small_ranges nfkc_qc_data).
Lemma nfkd_yes_check :
  forallb (fun '(k, _) => some (zget k nfkd_qc_tree)) decomposition_data &&
  forallb (fun '(k, _) => some (zget k nfkd_qc_tree)) compatibility_data &&
  existsb (fun '(a, b, _) => (a =? 0xAC00) && (b =? 0xAC00 + 19 * 21 * 28 - 1)) nfkd_qc_data = true.
Proof. vm_compute. reflexivity. Qed.
Lemma nfkd_no_check : forallb (fun '(a, b, v) => v &&
  if b - a <? 1000 then all_of (Z.to_nat (b - a + 1)) a kmapping_t else (a =? 0xAC00) && (b =? 0xAC00 + 19 * 21 * 28 - 1)) nfkd_qc_data = true.
Proof. vm_compute. reflexivity. Qed.

(** The codepoints that decompose the same way with and without the compatibility mappings *)
Fixpoint clean_t (n : nat) (cp : Z) : bool :=
  negb (some (zget cp compatibility_tree)) &&
  match n with
  | O => true
  | S n => match zget cp decomposition_tree with Some d => forallb (clean_t n) d | None => true end
  end.
Lemma nfkc_yes_check :
  forallb (fun '(a, b, _) => (b - a <? 1000) && all_of (Z.to_nat (b - a + 1)) a (fun k => some (zget k nfkc_qc_tree))) nfc_qc_data &&
  forallb (fun '(k, _) => some (zget k nfkc_qc_tree)) compatibility_data &&
  forallb (fun '(k, _) => some (zget k nfkc_qc_tree) || clean_t 4 k) decomposition_data = true.
Proof. vm_compute. reflexivity. Qed.

Definition nfkc_no_ranges : list (Z * Z) := flat_map (fun '(a, b, v) => if v : bool then [(a, b)] else []) nfkc_qc_data.
Definition nfkc_no_tree : ptree unit := ranges_tree nfkc_no_ranges.
Lemma nfkc_no_check :
  forallb (fun '(a, b) => (0 <? a) && all_of (Z.to_nat (b - a + 1)) a kmapping_t) nfkc_no_ranges &&
  forallb (fun '(c, l, p) => negb (ccc_t l =? 0) || negb (some (zget p nfkc_no_tree)) || some (zget l nfkc_no_tree) || kmapping_t c) recompositions = true.
Proof. vm_compute. reflexivity. Qed.

#[local] Opaque decomposition_data ccc_data exclusion_data nfc_qc_data nfd_qc_data nfkc_qc_data nfkd_qc_data compatibility_data recompositions.

(** * Decomposition *)

Definition kplain (x : Z) : bool :=
  match switch compatibility_data x with Some _ => false | None => plain x end.
Lemma kmapping_t_ok cp : kmapping_t cp = false -> is_syllable cp = false -> kplain cp = true.
Proof.
  unfold kmapping_t, kplain, plain, decomposition_tree, compatibility_tree. rewrite <- (switch_zget _ _ decomposition_keys), <- (switch_zget _ _ compatibility_keys).
  intros H S. apply orb_false_iff in H as [H1 H2]. destruct (switch decomposition_data cp); [discriminate H1|]. destruct (switch compatibility_data cp); [discriminate H2|]. rewrite S. reflexivity.
Qed.
Lemma kmapping_t_not cp : kmapping_t cp = true -> kplain cp = false.
Proof.
  unfold kmapping_t, kplain, plain, decomposition_tree, compatibility_tree. rewrite <- (switch_zget _ _ decomposition_keys), <- (switch_zget _ _ compatibility_keys).
  intros H. destruct (switch compatibility_data cp); [reflexivity|]. destruct (switch decomposition_data cp); [reflexivity|discriminate H].
Qed.
Lemma kplain_iff cp : kplain cp = true <-> (forall d, ~ mapping cp d) /\ forall l v t, ~ syllable l v t cp.
Proof.
  unfold kplain, plain, mapping. split.
  - intros H. destruct (switch compatibility_data cp) eqn:E1; [discriminate H|]. destruct (switch decomposition_data cp) eqn:E2; [discriminate H|]. split.
    + intros d [I|I]; [rewrite (in_switch _ _ _ _ decomposition_keys I) in E2; discriminate E2|rewrite (in_switch _ _ _ _ compatibility_keys I) in E1; discriminate E1].
    + intros l v t S. assert (is_syllable cp = true) as K by (apply is_syllable_ok; eauto). rewrite K in H. discriminate H.
  - intros [N S]. rewrite (not_in_switch compatibility_data cp) by (intros d I; exact (N d (or_intror I))). rewrite (not_in_switch decomposition_data cp) by (intros d I; exact (N d (or_introl I))).
    destruct (is_syllable cp) eqn:E; [|reflexivity]. apply is_syllable_ok in E as (l & v & t & E). destruct (S _ _ _ E).
Qed.
Lemma compatibility_hangul_none cp : hangul cp = true -> switch compatibility_data cp = None.
Proof.
  intros H. destruct (switch compatibility_data cp) as [d|] eqn:E; [|reflexivity]. apply switch_in in E.
  pose proof (proj1 (forallb_forall _ _) compatibility_hangul _ E) as K. cbv beta iota in K. rewrite H in K. discriminate K.
Qed.
Lemma jamo_kplain l v t cp : syllable l v t cp -> Forall (fun x => kplain x = true) (jamo l v t).
Proof.
  intros (Hl & Hv & Ht & _). apply Forall_forall. intros x I. destruct (jamo_hangul l v t x Hl Hv Ht I) as (A & B & _).
  unfold kplain. rewrite (compatibility_hangul_none x A). apply hangul_plain; assumption.
Qed.

Scheme kdecomposed_ind2 := Induction for kdecomposed Sort Prop
  with kdecomposed_all_ind2 := Induction for kdecomposed_all Sort Prop.
Combined Scheme kdecomposed_mutual from kdecomposed_ind2, kdecomposed_all_ind2.

Lemma kdecomposed_kplain : (forall cp r, kdecomposed cp r -> Forall (fun x => kplain x = true) r) /\
  (forall s r, kdecomposed_all s r -> Forall (fun x => kplain x = true) r).
Proof.
  apply (kdecomposed_mutual (fun cp r _ => Forall (fun x => kplain x = true) r) (fun s r _ => Forall (fun x => kplain x = true) r)).
  - intros cp N1 N2. constructor; [|constructor]. apply kplain_iff. auto.
  - intros cp l v t S. exact (jamo_kplain _ _ _ _ S).
  - intros cp d r _ _ H. exact H.
  - constructor.
  - intros cp cps r rs _ H1 _ H2. apply Forall_app. auto.
Qed.
Lemma kplain_all s : Forall (fun x => kplain x = true) s -> kdecomposed_all s s.
Proof.
  induction 1 as [|c s H _ IH]; [constructor|]. change (c :: s) with ([c] ++ s) at 2. constructor; [|exact IH]. apply kplain_iff in H as [H1 H2]. apply KD_self; assumption.
Qed.
Lemma exchanges_forall (P : Z -> Prop) s t : exchanges s t -> Forall P s -> Forall P t.
Proof.
  induction 1 as [s|s t u E _ IH]; [auto|]. intros H. apply IH. destruct E as [pre a b post ca cb _ _ _ _]. apply Forall_app in H as [H1 H2]. inversion_clear H2 as [|? ? A H3]. inversion_clear H3 as [|? ? B C].
  apply Forall_app. split; [exact H1|]. repeat constructor; assumption.
Qed.
Lemma nfkd_out s t : nfkd s t -> Forall (fun x => kplain x = true) t /\ ordered t.
Proof. intros (u & D & E & O). split; [|exact O]. apply (exchanges_forall _ u t E). apply (proj2 kdecomposed_kplain s u D). Qed.
Lemma nfkd_self_iff s : nfkd s s <-> Forall (fun x => kplain x = true) s /\ ordered s.
Proof.
  split; [apply nfkd_out|]. intros [P O]. exists s. split; [apply kplain_all; exact P|]. split; [constructor|exact O].
Qed.

(** * NFKD *)

Lemma nfkd_qc_yes cp : qc_value nfkd_qc_data cp = None -> kplain cp = true.
Proof.
  intros H. apply kplain_iff. pose proof nfkd_yes_check as K. apply andb_true_iff in K as [K K3]. apply andb_true_iff in K as [K1 K2].
  assert (T : zget cp nfkd_qc_tree = None).
  { destruct (zget cp nfkd_qc_tree) eqn:G; [|reflexivity]. destruct (qc_covered nfkd_qc_data cp); [|exact H]. apply tree_covered. unfold nfkd_qc_tree in G. rewrite G. discriminate. }
  split.
  - intros d [I|I].
    + pose proof (proj1 (forallb_forall _ _) K1 _ I) as Q. cbv beta iota in Q. rewrite T in Q. discriminate Q.
    + pose proof (proj1 (forallb_forall _ _) K2 _ I) as Q. cbv beta iota in Q. rewrite T in Q. discriminate Q.
  - intros l v t S. destruct (qc_covered nfkd_qc_data cp); [|exact H]. apply (exists_covered _ _ _ _ K3). unfold syllable in S. lia.
Qed.
Lemma nfkd_no cp : qc_value nfkd_qc_data cp <> None -> kplain cp = false.
Proof.
  intros H. destruct (qc_value nfkd_qc_data cp) as [v|] eqn:E; [|contradiction]. apply qc_row in E as (a & b & I & R).
  pose proof (proj1 (forallb_forall _ _) nfkd_no_check _ I) as K. cbv beta iota in K. apply andb_true_iff in K as [_ K].
  destruct (b - a <? 1000) eqn:S.
  - apply (all_of_ok _ _ _) with (x := cp) in K; [|lia]. exact (kmapping_t_not cp K).
  - unfold kplain, plain. destruct (switch compatibility_data cp); [reflexivity|]. destruct (switch decomposition_data cp); [reflexivity|]. replace (is_syllable cp) with true; [reflexivity|]. symmetry. unfold is_syllable. lia.
Qed.

(** * NFKC, yes *)

Lemma clean_kdecomposed n : forall cp, clean_t n cp = true -> forallb plain (full n cp) = true -> kdecomposed cp (full n cp).
Proof.
  induction n as [|n IH]; intros cp C H; cbn [clean_t full] in *; apply andb_true_iff in C as [C1 C2].
  - cbn in H. apply andb_true_iff in H as [H _]. assert (kplain cp = true) as K.
    { unfold kplain. rewrite (switch_zget _ _ compatibility_keys). change (tree_of compatibility_data) with compatibility_tree. destruct (zget cp compatibility_tree); [discriminate C1|exact H]. }
    apply kplain_iff in K as [K1 K2]. apply KD_self; assumption.
  - assert (N : switch compatibility_data cp = None).
    { rewrite (switch_zget _ _ compatibility_keys). change (tree_of compatibility_data) with compatibility_tree. destruct (zget cp compatibility_tree); [discriminate C1|reflexivity]. }
    unfold decomposition_tree in C2. rewrite <- (switch_zget _ _ decomposition_keys) in C2. destruct (switch decomposition_data cp) as [d|] eqn:E.
    + apply KD_mapped with d; [left; apply switch_in; exact E|]. clear E N C1. induction d as [|c d IHd]; [constructor|].
      cbn [flat_map forallb] in *. rewrite forallb_app in H. apply andb_prop in H as [H1 H2]. apply andb_prop in C2 as [C2 C3]. constructor; auto.
    + destruct (is_syllable cp) eqn:S.
      * apply is_syllable_ok in S as (l & v & t & S). rewrite (syllable_jamo_ok _ _ _ _ S). apply KD_hangul. exact S.
      * assert (kplain cp = true) as K by (unfold kplain, plain; rewrite N, E, S; reflexivity). apply kplain_iff in K as [K1 K2]. apply KD_self; assumption.
Qed.
Lemma nfkc_qc_yes cp : qc_value nfkc_qc_data cp = None -> quick cp /\ kdecomposed cp (fd cp).
Proof.
  intros H. pose proof nfkc_yes_check as K. apply andb_true_iff in K as [K K3]. apply andb_true_iff in K as [K1 K2].
  assert (T : zget cp nfkc_qc_tree = None).
  { destruct (zget cp nfkc_qc_tree) eqn:G; [|reflexivity]. destruct (qc_covered nfkc_qc_data cp); [|exact H]. apply tree_covered. unfold nfkc_qc_tree in G. rewrite G. discriminate. }
  split.
  - unfold quick. destruct (qc_value nfc_qc_data cp) as [v|] eqn:E; [|reflexivity]. apply qc_row in E as (a & b & I & R).
    pose proof (proj1 (forallb_forall _ _) K1 _ I) as Q. cbv beta iota in Q. apply andb_true_iff in Q as [_ Q]. apply (all_of_ok _ _ _) with (x := cp) in Q; [|lia]. cbv beta in Q. rewrite T in Q. discriminate Q.
  - assert (N : switch compatibility_data cp = None).
    { apply not_in_switch. intros d I. pose proof (proj1 (forallb_forall _ _) K2 _ I) as Q. cbv beta iota in Q. rewrite T in Q. discriminate Q. }
    destruct (switch decomposition_data cp) as [d|] eqn:E.
    + apply switch_in in E. pose proof (proj1 (forallb_forall _ _) K3 _ E) as Q. cbv beta iota in Q. rewrite T in Q. cbn [some orb] in Q. apply clean_kdecomposed; [exact Q|apply full_stable].
    + unfold fd. cbn [full]. rewrite E. destruct (is_syllable cp) eqn:S.
      * apply is_syllable_ok in S as (l & v & t & S). rewrite (syllable_jamo_ok _ _ _ _ S). apply KD_hangul. exact S.
      * assert (kplain cp = true) as K by (unfold kplain, plain; rewrite N, E, S; reflexivity). apply kplain_iff in K as [Q1 Q2]. apply KD_self; assumption.
Qed.
Lemma nfkc_quick s : Forall (fun c => qc_value nfkc_qc_data c = None) s -> ordered s -> nfkc s s.
Proof.
  intros F O. assert (nfc s s) as (u & (v & D & E & Ou) & C).
  { apply nfc_quick; [|exact O]. eapply Forall_impl; [|exact F]. intros c H. apply (nfkc_qc_yes c H). }
  exists u. split; [|exact C]. exists v. split; [|auto]. apply decomposed_all_iff in D as ->. clear - F. induction F as [|c s H _ IH]; [constructor|].
  rewrite fds_cons. constructor; [apply (nfkc_qc_yes c H)|exact IH].
Qed.

(** * NFKC, no *)

Inductive klegal : Z -> Prop :=
| KL_plain c : kplain c = true -> klegal c
| KL_join l d c : klegal l -> ccc l = 0 -> kplain d = true -> join l d = Some c -> klegal c.
Lemma compose_klegal d s r : compose d s r -> Forall klegal d -> Forall (fun x => kplain x = true) s -> ordered (d ++ s) -> Forall klegal r /\ ordered r.
Proof.
  induction 1 as [d|pre l mid c p s r NB P _ IH|d c s r _ _ IH]; intros Ld Ls O.
  - rewrite app_nil_r in O. auto.
  - destruct NB as [St NB]. apply class_ccc in St. apply (join_composite l c p St) in P. inversion_clear Ls as [|? ? Lc Ls'].
    apply IH; [|exact Ls'|].
    + apply Forall_app in Ld as [L1 L2]. inversion_clear L2 as [|? ? L4 L3]. apply Forall_app. split; [exact L1|]. constructor; [|exact L3]. exact (KL_join l c p L4 St Lc P).
    + rewrite <- app_assoc in *. cbn [app] in *. apply ordered_app in O as [O1 O2].
      apply ordered_starter; [exact O1|exact (join_starter l c p St P)|]. apply ordered_cons in O2 as [_ O2]. apply ordered_cons.
      pose proof (join_starter l c p St P) as Zp. split; [destruct (mid ++ s); [exact I|]; lia|]. apply (drop_ordered mid c s); [|exact O2].
      intros m I. apply (NB m (ccc m) (ccc c) I); apply class_ccc; reflexivity.
  - inversion_clear Ls as [|? ? L1 L2]. apply IH; [apply Forall_app; split; [exact Ld|]; constructor; [exact (KL_plain c L1)|constructor]|exact L2|]. rewrite <- app_assoc. exact O.
Qed.
Lemma nfkc_klegal s t : nfkc s t -> Forall klegal t /\ ordered t.
Proof. intros (u & N & C). apply nfkd_out in N as [P O]. apply (compose_klegal _ _ _ C); [constructor|exact P|exact O]. Qed.

Definition knever (cp : Z) : Prop := exists a b, In (a, b) nfkc_no_ranges /\ a <= cp <= b.
Lemma knever_tree cp : knever cp <-> zget cp nfkc_no_tree <> None.
Proof.
  unfold nfkc_no_tree. split.
  - intros (a & b & I & R). apply (ranges_in _ a b cp I); [|exact R]. pose proof nfkc_no_check as K. apply andb_true_iff in K as [K _].
    pose proof (proj1 (forallb_forall _ _) K _ I) as Q. cbv beta iota in Q. apply andb_true_iff in Q as [Q _]. lia.
  - intros H. apply ranges_get in H. exact H.
Qed.
Lemma knever_kplain cp : knever cp -> kplain cp = false.
Proof.
  intros (a & b & I & R). pose proof nfkc_no_check as K. apply andb_true_iff in K as [K _]. pose proof (proj1 (forallb_forall _ _) K _ I) as Q. cbv beta iota in Q.
  apply andb_true_iff in Q as [_ Q]. apply (all_of_ok _ _ _) with (x := cp) in Q; [|lia]. exact (kmapping_t_not cp Q).
Qed.
Lemma knever_syllable cp : knever cp -> is_syllable cp = false.
Proof.
  intros (a & b & I & R). pose proof nfkc_no_check as K. apply andb_true_iff in K as [K _]. pose proof (proj1 (forallb_forall _ _) K _ I) as Q. cbv beta iota in Q.
  apply andb_true_iff in Q as [_ Q]. apply (all_of_ok _ _ _) with (x := cp) in Q; [|lia]. destruct (is_syllable cp) eqn:S; [|reflexivity].
  apply is_syllable_hangul in S. unfold kmapping_t, decomposition_tree, compatibility_tree in Q. rewrite <- (switch_zget _ _ decomposition_keys), <- (switch_zget _ _ compatibility_keys) in Q.
  rewrite (compatibility_hangul_none cp S) in Q. destruct (switch decomposition_data cp) as [d|] eqn:E; [|discriminate Q]. apply decomposition_row in E as (_ & _ & E & _). congruence.
Qed.
Lemma klegal_knever c : klegal c -> ~ knever c.
Proof.
  induction 1 as [c P|l d c _ IH L P J]; intros N.
  - apply knever_kplain in N. congruence.
  - unfold join in J. destruct (tb l d) as [p|] eqn:T.
    + injection J as ->. apply tb_in in T. pose proof nfkc_no_check as K. apply andb_true_iff in K as [_ K]. pose proof (proj1 (forallb_forall _ _) K _ T) as Q. cbv beta iota in Q.
      rewrite ccc_t_ok, L in Q. cbn [Z.eqb negb orb] in Q. apply knever_tree in N. destruct (zget c nfkc_no_tree); [|contradiction]. cbn [some negb orb] in Q.
      destruct (kmapping_t d) eqn:M; [apply kmapping_t_not in M; congruence|]. rewrite orb_false_r in Q. apply IH. apply knever_tree. destruct (zget l nfkc_no_tree); [discriminate|discriminate Q].
    + apply hg_hangul in J as (_ & _ & J). apply knever_syllable in N. congruence.
Qed.
Lemma nfkc_no cp : qc_value nfkc_qc_data cp = Some true -> knever cp.
Proof.
  intros E. apply qc_row in E as (a & b & I & R). exists a, b. split; [|exact R]. unfold nfkc_no_ranges. apply in_flat_map. exists (a, b, true). split; [exact I|left; reflexivity].
Qed.

(** * Verdicts *)

Lemma lor_parts_k a b c d :
  (a = 0 \/ a = 1 \/ a = 2) -> (b = 0 \/ b = 4 \/ b = 8) -> (c = 0 \/ c = 0x10 \/ c = 0x20) -> (d = 0 \/ d = 0x40 \/ d = 0x80) ->
  truth (Z.land (Z.lor (Z.lor (Z.lor a b) c) d) 0x10) = (c =? 0x10) /\ truth (Z.land (Z.lor (Z.lor (Z.lor a b) c) d) 0x20) = (c =? 0x20) /\
  truth (Z.land (Z.lor (Z.lor (Z.lor a b) c) d) 0x40) = (d =? 0x40) /\ truth (Z.land (Z.lor (Z.lor (Z.lor a b) c) d) 0x80) = (d =? 0x80).
Proof.
  intros A B C D. destruct A as [->|[->| ->]]; destruct B as [->|[->| ->]]; destruct C as [->|[->| ->]]; destruct D as [->|[->| ->]]; repeat split; reflexivity.
Qed.
Lemma dis_k cp :
  dis UNICODE_NFKC_DISALLOWED cp = (match qc_value nfkc_qc_data cp with Some true => true | _ => false end) /\
  dis UNICODE_NFKC_MAYBE cp = (match qc_value nfkc_qc_data cp with Some false => true | _ => false end) /\
  dis UNICODE_NFKD_DISALLOWED cp = (match qc_value nfkd_qc_data cp with Some true => true | _ => false end) /\
  dis UNICODE_NFKD_MAYBE cp = (match qc_value nfkd_qc_data cp with Some false => true | _ => false end).
Proof.
  unfold dis, charstr_allowed_unicode_normal_forms.
  destruct (lor_parts_k (qc_flags nfc_qc_data UNICODE_NFC_DISALLOWED UNICODE_NFC_MAYBE cp) (qc_flags nfd_qc_data UNICODE_NFD_DISALLOWED UNICODE_NFD_MAYBE cp)
    (qc_flags nfkc_qc_data UNICODE_NFKC_DISALLOWED UNICODE_NFKC_MAYBE cp) (qc_flags nfkd_qc_data UNICODE_NFKD_DISALLOWED UNICODE_NFKD_MAYBE cp)) as (E1 & E2 & E3 & E4); try apply qc_flags_cases.
  split; [|split; [|split]].
  - etransitivity; [exact E1|]. unfold qc_flags. destruct (qc_value nfkc_qc_data cp) as [[]|]; reflexivity.
  - etransitivity; [exact E2|]. unfold qc_flags. destruct (qc_value nfkc_qc_data cp) as [[]|]; reflexivity.
  - etransitivity; [exact E3|]. unfold qc_flags. destruct (qc_value nfkd_qc_data cp) as [[]|]; reflexivity.
  - etransitivity; [exact E4|]. unfold qc_flags. destruct (qc_value nfkd_qc_data cp) as [[]|]; reflexivity.
Qed.
Lemma maybe_nfkd c : dis UNICODE_NFKD_MAYBE c = false.
Proof.
  destruct (dis_k c) as (_ & _ & _ & ->). destruct (qc_value nfkd_qc_data c) as [[]|] eqn:E; [reflexivity| |reflexivity].
  apply qc_row in E as (a & b & I & _). pose proof (proj1 (forallb_forall _ _) nfkd_no_check _ I) as K. cbv beta iota in K. discriminate K.
Qed.

(** The verdict on any form whose normal strings contain no disallowed character and are
    ordered, and include those without disallowed and dubious characters that are ordered. *)
Lemma verdict (form : list Z -> Prop) (fd fm : Z) : fd > 0 -> fm > 0 -> fd <> fm ->
  (forall s, Forall (fun c => dis fd c = false /\ dis fm c = false) s -> ordered s -> form s) ->
  (forall s, form s -> ordered s /\ Forall (fun c => dis fd c = false) s) ->
  forall s q e, input s q e -> exists v, charstr_detect_unicode_normal_form (s ++ q) e fd fm = Ok v /\
  ((v = 0 /\ exists cps, encodes s cps /\ form cps) \/
   (v = fd /\ ~ exists cps, encodes s cps /\ form cps) \/
   (v = fm /\ (exists c, dis fm c = true) /\ exists cps, encodes s cps) \/
   (v = -1 /\ ~ exists cps, encodes s cps)).
Proof.
  intros Pd Pm NE Y N s q e I. destruct (scanned_total s) as (cps & ok & S); [apply text_bytes; apply I|].
  assert (charstr_detect_unicode_normal_form (s ++ q) e fd fm = Ok (detect cps ok fd fm 0 0)) as D.
  { unfold charstr_detect_unicode_normal_form. apply (detect_loop_ok s cps ok S); [exact I|rewrite app_length; lia]. }
  exists (detect cps ok fd fm 0 0). split; [exact D|].
  destruct (detect_cases cps ok fd fm 0 0) as [[-> K]|[[-> K]|[-> ->]]].
  - right; left. split; [reflexivity|]. intros (cps' & E & F). apply encodes_scanned in E.
    assert (cps' = cps) as ->.
    { destruct ok; [exact (encodes_det s cps' cps (proj2 (encodes_scanned _ _) E) (proj2 (encodes_scanned _ _) S))|]. exfalso. apply (scanned_valid s cps S). exists cps'. apply encodes_scanned. exact E. }
    apply N in F as [O F]. destruct K as [(c & IN & K)|[K|K]]; [|contradiction|destruct cps as [|c cps]; [exact K|]; pose proof (ccc_nonneg c); lia].
    rewrite Forall_forall in F. rewrite (F c IN) in K. discriminate K.
  - destruct (Z.eq_dec (detect cps true fd fm 0 0) 0) as [Z0|NZ].
    + left. split; [exact Z0|]. exists cps. split; [apply encodes_scanned; exact S|]. apply detect_zero in Z0; [|lia..]. destruct Z0 as (_ & _ & F & O & _). apply Y; assumption.
    + destruct K as [K|K]; [contradiction|]. right; right; left. split; [exact K|]. split; [|exists cps; apply encodes_scanned; exact S].
      revert K. clear - Pm NE Pd. assert (G : forall last r, detect cps true fd fm last r = fm -> r <> fm -> exists c, dis fm c = true).
      { induction cps as [|c cps IH]; intros last r; cbn [detect]; [contradiction|]. destruct (truth (ccc c) && (last >? ccc c)); [lia|]. destruct (dis fd c); [lia|].
        destruct (dis fm c) eqn:E; [eauto|]. apply IH. }
      intros K. apply (G 0 0 K). lia.
  - right; right; right. split; [reflexivity|]. exact (scanned_valid s cps S).
Qed.

Lemma verdict_nfkc s q e : input s q e -> exists v, charstr_detect_unicode_normal_form (s ++ q) e UNICODE_NFKC_DISALLOWED UNICODE_NFKC_MAYBE = Ok v /\
  ((v = 0 /\ exists cps, encodes s cps /\ nfkc cps cps) \/
   (v = UNICODE_NFKC_DISALLOWED /\ ~ exists cps, encodes s cps /\ nfkc cps cps) \/
   (v = UNICODE_NFKC_MAYBE /\ exists cps, encodes s cps) \/
   (v = -1 /\ ~ exists cps, encodes s cps)).
Proof.
  intros I. destruct (verdict (fun s => nfkc s s) UNICODE_NFKC_DISALLOWED UNICODE_NFKC_MAYBE) with (s := s) (q := q) (e := e) as (v & V & K); try (unfold UNICODE_NFKC_DISALLOWED, UNICODE_NFKC_MAYBE; lia); try exact I.
  - intros t F O. apply nfkc_quick; [|exact O]. eapply Forall_impl; [|exact F]. intros c [A B]. destruct (dis_k c) as (E1 & E2 & _). rewrite E1 in A. rewrite E2 in B. destruct (qc_value nfkc_qc_data c) as [[]|]; [discriminate A|discriminate B|reflexivity].
  - intros t F. apply nfkc_klegal in F as [L O]. split; [exact O|]. eapply Forall_impl; [|exact L]. intros c H. destruct (dis_k c) as (-> & _). destruct (qc_value nfkc_qc_data c) as [[]|] eqn:E; [|reflexivity..].
    exfalso. exact (klegal_knever c H (nfkc_no c E)).
  - exists v. split; [exact V|]. tauto.
Qed.
Lemma verdict_nfkd s q e : input s q e -> exists v, charstr_detect_unicode_normal_form (s ++ q) e UNICODE_NFKD_DISALLOWED UNICODE_NFKD_MAYBE = Ok v /\
  ((v = 0 /\ exists cps, encodes s cps /\ nfkd cps cps) \/
   (v = UNICODE_NFKD_DISALLOWED /\ ~ exists cps, encodes s cps /\ nfkd cps cps) \/
   (v = -1 /\ ~ exists cps, encodes s cps)).
Proof.
  intros I. destruct (verdict (fun s => nfkd s s) UNICODE_NFKD_DISALLOWED UNICODE_NFKD_MAYBE) with (s := s) (q := q) (e := e) as (v & V & K); try (unfold UNICODE_NFKD_DISALLOWED, UNICODE_NFKD_MAYBE; lia); try exact I.
  - intros t F O. apply nfkd_self_iff. split; [|exact O]. eapply Forall_impl; [|exact F]. intros c [A B]. apply nfkd_qc_yes. destruct (dis_k c) as (_ & _ & E1 & E2). rewrite E1 in A. rewrite E2 in B. destruct (qc_value nfkd_qc_data c) as [[]|]; [discriminate A|discriminate B|reflexivity].
  - intros t F. apply nfkd_self_iff in F as [L O]. split; [exact O|]. eapply Forall_impl; [|exact L]. intros c H. destruct (dis_k c) as (_ & _ & -> & _). destruct (qc_value nfkd_qc_data c) as [[]|] eqn:E; [|reflexivity..].
    cbv beta in H. rewrite (nfkd_no c) in H by (rewrite E; discriminate). discriminate H.
  - exists v. split; [exact V|]. destruct K as [K|[K|[(_ & (c & K) & _)|K]]]; [auto|auto| |auto]. rewrite maybe_nfkd in K. discriminate K.
Qed.
