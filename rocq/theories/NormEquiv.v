(** Canonical equivalence against the normal forms. *)
From Verif Require Import Base CMem CharstrModel CharstrSpec Utf8Model Utf8Spec UcdData NormModel NormSpec NormEquivSpec.
From Verif Require Import NormTables NormFacts NormOrder NormBytes NormDecompose NormRecompose NormMain.

(** A combining character decomposes to characters of its class. *)
Lemma class_check : forallb (fun '(k, _) => (ccc_t k =? 0) || forallb (fun x => ccc_t x =? ccc_t k) (full_t 4 k)) decomposition_data = true.
Proof. vm_compute. reflexivity. Qed.

#[local] Opaque decomposition_data ccc_data exclusion_data nfc_qc_data nfd_qc_data.

Lemma equivalent_context p q s t : equivalent s t -> equivalent (p ++ s ++ q) (p ++ t ++ q).
Proof.
  induction 1 as [s|s t _ IH|s t u _ IH1 _ IH2|pre cp d post I|pre cp l v t post S|pre a b post ca cb A B Pa Pb N].
  - apply E_refl.
  - apply E_sym. exact IH.
  - eapply E_trans; eassumption.
  - pose proof (E_mapped (p ++ pre) cp d (post ++ q) I) as H. rewrite <- !app_assoc in *. exact H.
  - pose proof (E_hangul (p ++ pre) cp l v t (post ++ q) S) as H. rewrite <- !app_assoc in *. exact H.
  - pose proof (E_order (p ++ pre) a b (post ++ q) ca cb A B Pa Pb N) as H. rewrite <- !app_assoc in *. exact H.
Qed.
Lemma equivalent_app s t s' t' : equivalent s t -> equivalent s' t' -> equivalent (s ++ s') (t ++ t').
Proof.
  intros H H'. apply (equivalent_context [] s') in H. apply (equivalent_context t []) in H'. cbn [app] in H. rewrite !app_nil_r in H'.
  eapply E_trans; eassumption.
Qed.

(** * Equivalent strings have the same NFD *)

Lemma fd_class cp : ccc cp > 0 -> Forall (fun x => ccc x = ccc cp) (fd cp).
Proof.
  intros P. destruct (switch decomposition_data cp) as [d|] eqn:E.
  - pose proof (proj1 (forallb_forall _ _) class_check _ (switch_in _ _ _ E)) as K. cbn beta iota in K. rewrite full_t_ok, ccc_t_ok in K. fold (fd cp) in K.
    replace (ccc cp =? 0) with false in K by lia. cbn [orb] in K. apply Forall_forall. intros x I.
    pose proof (proj1 (forallb_forall _ _) K _ I) as K'. cbn beta in K'. rewrite ccc_t_ok in K'. lia.
  - destruct (is_syllable cp) eqn:Y.
    + apply is_syllable_hangul, ccc_hangul in Y. lia.
    + rewrite fd_plain by (unfold plain; rewrite E, Y; reflexivity). constructor; [reflexivity|constructor].
Qed.
Lemma osort_swap1 pre a b post : ccc a > 0 -> ccc b > 0 -> ccc a <> ccc b -> osort (pre ++ a :: b :: post) = osort (pre ++ b :: a :: post).
Proof.
  intros A B N. destruct (Z_lt_le_dec (ccc b) (ccc a)).
  - apply exchange_osort, exchange_ccc; lia.
  - symmetry. apply exchange_osort, exchange_ccc; lia.
Qed.
Lemma osort_swap_one ca A : 0 < ca -> Forall (fun x => ccc x = ca) A -> forall pre b post, ccc b > 0 -> ccc b <> ca ->
  osort (pre ++ A ++ b :: post) = osort (pre ++ b :: A ++ post).
Proof.
  intros P. induction 1 as [|a A E F IH]; intros pre b post B N; [reflexivity|]. cbn [app].
  pose proof (IH (pre ++ [a]) b post B N) as H. rewrite <- !app_assoc in H. cbn [app] in H. rewrite H. apply osort_swap1; lia.
Qed.
Lemma osort_swap_all ca cb A B : 0 < ca -> 0 < cb -> ca <> cb -> Forall (fun x => ccc x = ca) A -> Forall (fun x => ccc x = cb) B ->
  forall pre post, osort (pre ++ A ++ B ++ post) = osort (pre ++ B ++ A ++ post).
Proof.
  intros Pa Pb N FA. induction 1 as [|b B E F IH]; intros pre post; [reflexivity|]. cbn [app].
  rewrite (osort_swap_one ca) by (assumption || lia). pose proof (IH (pre ++ [b]) post) as H. rewrite <- !app_assoc in H. exact H.
Qed.
Lemma equivalent_nfd s t : equivalent s t -> osort (fds s) = osort (fds t).
Proof.
  induction 1 as [s|s t _ IH|s t u _ IH1 _ IH2|pre cp d post I|pre cp l v t post S|pre a b post ca cb A B Pa Pb N].
  - reflexivity.
  - symmetry. exact IH.
  - congruence.
  - rewrite !fds_app, fds_cons. rewrite (fd_mapped cp d) by (eapply in_switch; [exact decomposition_keys|exact I]). reflexivity.
  - rewrite !fds_app, fds_cons. rewrite (fd_syllable _ _ _ _ S). rewrite (fds_plain (jamo l v t)); [reflexivity|]. rewrite <- (fd_syllable _ _ _ _ S). apply fd_all_plain.
  - apply class_ccc in A. apply class_ccc in B. rewrite !fds_app, !fds_cons. apply (osort_swap_all ca cb); try assumption.
    + rewrite <- A. apply fd_class. lia.
    + rewrite <- B. apply fd_class. lia.
Qed.

(** * A string is equivalent to its normal forms *)

Lemma decomposed_equivalent : (forall cp r, decomposed cp r -> equivalent [cp] r) /\ (forall s r, decomposed_all s r -> equivalent s r).
Proof.
  apply (decomposed_mutual (fun cp r _ => equivalent [cp] r) (fun s r _ => equivalent s r)).
  - intros cp _ _. apply E_refl.
  - intros cp l v t S. pose proof (E_hangul [] cp l v t [] S) as H. cbn [app] in H. rewrite app_nil_r in H. exact H.
  - intros cp d r I _ H. pose proof (E_mapped [] cp d [] I) as H'. cbn [app] in H'. rewrite app_nil_r in H'. eapply E_trans; eassumption.
  - apply E_refl.
  - intros cp cps r rs _ H _ H'. apply (equivalent_app [cp] r cps rs); assumption.
Qed.
Lemma exchange_equivalent s t : exchange s t -> equivalent s t.
Proof. intros [pre a b post ca cb A B G P]. apply (E_order pre a b post ca cb); try assumption; lia. Qed.
Lemma exchanges_equivalent s t : exchanges s t -> equivalent s t.
Proof. induction 1 as [s|s t u H _ IH]; [apply E_refl|]. eapply E_trans; [apply exchange_equivalent; exact H|exact IH]. Qed.
Lemma nfd_equivalent s t : nfd s t -> equivalent s t.
Proof. intros (u & D & X & _). eapply E_trans; [apply decomposed_equivalent; exact D|apply exchanges_equivalent; exact X]. Qed.
Lemma equivalent_iff s s' t t' : nfd s t -> nfd s' t' -> (t = t' <-> equivalent s s').
Proof.
  intros N N'. split.
  - intros ->. eapply E_trans; [apply nfd_equivalent; exact N|]. apply E_sym, nfd_equivalent. exact N'.
  - intros E. apply nfd_iff in N as ->. apply nfd_iff in N' as ->. apply equivalent_nfd. exact E.
Qed.

Lemma move_left c cc mid : class c cc -> (forall b cb, In b mid -> class b cb -> 0 < cb < cc) -> forall pre post,
  equivalent (pre ++ mid ++ c :: post) (pre ++ c :: mid ++ post).
Proof.
  intros C. induction mid as [|b mid IH]; intros H pre post; [apply E_refl|]. cbn [app].
  apply E_trans with (pre ++ b :: c :: mid ++ post).
  - pose proof (IH (fun x cx I => H x cx (or_intror I)) (pre ++ [b]) post) as K. rewrite <- !app_assoc in K. exact K.
  - assert (B : class b (ccc b)) by (apply class_ccc; reflexivity). pose proof (H b _ (or_introl eq_refl) B).
    apply (E_order pre b c (mid ++ post) (ccc b) cc); try assumption; lia.
Qed.
Lemma composite_equivalent l c p pre post : primary_composite l c p -> equivalent (pre ++ l :: c :: post) (pre ++ p :: post).
Proof.
  intros [l' c' p' I _ _ _|l' v p' S|l' v t lv p' S S' N].
  - apply E_sym. apply (E_mapped pre p' [l'; c'] post I).
  - apply E_sym. apply (E_hangul pre p' l' v 0 post S).
  - eapply E_trans; [apply (E_hangul pre lv l' v 0 (0x11A7 + t :: post) S)|]. apply E_sym.
    eapply E_trans; [apply (E_hangul pre p' l' v t post S')|]. unfold jamo. replace (t =? 0) with false by lia. apply E_refl.
Qed.
Lemma compose_equivalent d s r : compose d s r -> equivalent (d ++ s) r.
Proof.
  induction 1 as [d|pre l mid c p s r B P _ IH|d c s r _ _ IH].
  - rewrite app_nil_r. apply E_refl.
  - eapply E_trans; [|exact IH]. rewrite <- !app_assoc. cbn [app]. destruct B as [_ B].
    apply E_trans with (pre ++ l :: c :: mid ++ s).
    + assert (C : class c (ccc c)) by (apply class_ccc; reflexivity). pose proof (move_left c _ mid C (fun b cb I K => B b cb _ I K C) (pre ++ [l]) s) as H.
      rewrite <- !app_assoc in H. exact H.
    + apply composite_equivalent. exact P.
  - rewrite <- app_assoc in IH. exact IH.
Qed.
Lemma nfc_equivalent s t : nfc s t -> equivalent s t.
Proof. intros (u & N & C). eapply E_trans; [apply nfd_equivalent; exact N|]. apply (compose_equivalent [] u t C). Qed.
Lemma equivalent_iff_nfc s s' t t' : nfc s t -> nfc s' t' -> (t = t' <-> equivalent s s').
Proof.
  intros N N'. split.
  - intros ->. eapply E_trans; [apply nfc_equivalent; exact N|]. apply E_sym, nfc_equivalent. exact N'.
  - intros E. apply nfc_iff in N as ->. apply nfc_iff in N' as ->. rewrite (equivalent_nfd _ _ E). reflexivity.
Qed.

Lemma encoding_inj t t' : Forall scalar t -> Forall scalar t' -> encoding t = encoding t' -> t = t'.
Proof.
  intros S S' E. apply (encodes_det (encoding t)); [apply encodes_encs; exact S|]. rewrite E. apply encodes_encs. exact S'.
Qed.
Lemma same_prefix (x y u v : list Z) : x ++ u = y ++ v -> zlen x = zlen y -> x = y.
Proof.
  intros E L. assert (EL : length x = length y) by (unfold zlen in L; lia). pose proof (f_equal (firstn (length x)) E) as F.
  rewrite firstn_app, firstn_all, Nat.sub_diag, firstn_O, app_nil_r in F. rewrite EL in F. rewrite firstn_app, firstn_all, Nat.sub_diag, firstn_O, app_nil_r in F. exact F.
Qed.
