(** More about charstr_idna_encode: the result is determined, and which names are accepted *)
From Verif Require Import Base CMem CharstrModel CharstrSpec CharstrProofs Utf8Model Utf8Spec Utf8Proofs UcdData NormModel NormSpec NormTables NormFacts NormOrder NormBytes NormDecompose NormRecompose NormMain NormSyllable.
From Verif Require Import CategoryModel CategorySpec CategoryProofs CategoryData CategoryProps IdnaTabModel IdnaTabSpec IdnaTabProofs IdnaData IdnaModel IdnaProofs.
From Verif Require Import PunyModel PunySpec PunyProofs PunyPass PunyHost PunyName PunyNfc PunyTop PunyLe PunyUnique IdnaEncodeModel IdnaEncodeSpec IdnaEncodeProofs.
From Coq Require Import ZifyBool ZifyNat.

Definition low_b (r : idna_row) : bool :=
  let '(lo, hi, st, m) := r in
  match st with Valid | Deviation | Ignored | Mapped => hi <? 0xE01F0 | _ => true end.
Lemma low_check : forallb low_b idna_data = true.
Proof. vm_compute. reflexivity. Qed.
Lemma ascii_not_Mc : forallb (fun n => match cat_of category_data (Z.of_nat n) with Some k => negb (category_eqb k Mc) | None => true end) (seq 0 128) = true.
Proof. vm_compute. reflexivity. Qed.
#[local] Opaque idna_data gen_idna_table decomposition_data ccc_data exclusion_data nfc_qc_data nfd_qc_data category_data.

Lemma replaced_low cp l : replaced cp l -> cp < 0xE01F0.
Proof.
  assert (R : forall st m, says idna_data cp st m -> exists lo hi, low_b (lo, hi, st, m) = true /\ lo <= cp <= hi).
  { intros st m (lo & hi & I & H). exists lo, hi. split; [|exact H]. exact (proj1 (forallb_forall _ _) low_check _ I). }
  intros [m S|m S|m S|l' S]; apply R in S as (lo & hi & B & H); cbn [low_b] in B; lia.
Qed.
Lemma mapped_found t m : mapped_name t m -> ~ In 0x3134A t -> ~ In 0x2FA1D t -> images image t = Some m.
Proof.
  intros M N1 N2. apply mapped_images; [exact M|]. destruct M as (parts & F & _). induction F as [|c l t parts R _ IH]; [constructor|]. constructor.
  - apply replaced_low in R. unfold lost. assert (c <> 0x3134A) by (intros ->; apply N1; left; reflexivity). assert (c <> 0x2FA1D) by (intros ->; apply N2; left; reflexivity). lia.
  - apply IH; intros I; [apply N1|apply N2]; right; exact I.
Qed.

(** * Spacing marks *)

Lemma spacing_mark_iff c : assigned category_data c Mc -> spacing_mark c = true.
Proof. intros A. unfold spacing_mark. rewrite (C68_category_partial category_data c Mc (proj1 the_file) A : charstr_unicode_category c = Ok Mc). reflexivity. Qed.
Lemma ascii_no_mark c : 0 <= c < 128 -> ~ assigned category_data c Mc.
Proof.
  intros H A. apply (assigned_cat _ _ (proj1 the_file)) in A.
  pose proof (proj1 (forallb_forall _ _) ascii_not_Mc (Z.to_nat c) (proj2 (in_seq 128 0 (Z.to_nat c)) ltac:(lia))) as K. cbv beta in K. rewrite Z2Nat.id, A in K by lia. discriminate.
Qed.

(** * Labels have one encoding *)

Lemma ace_unique l e e' : ace l e -> ace l e' -> e = e'.
Proof.
  unfold ace. destruct (all_ascii l); [congruence|]. intros (p & -> & D & F & _) (p' & -> & D' & F' & _). f_equal. exact (decode_injective p p' _ F F' D D').
Qed.
Lemma host_name_char c : host_char c <-> lower_alnum c \/ c = 45.
Proof. unfold host_char, lower_alnum. lia. Qed.
Lemma label_unique l e e' : encoded_label l e -> encoded_label l e' -> e = e'.
Proof.
  intros [[A ->]|[A (p & -> & F & D)]] [[A' ->]|[A' (p' & -> & F' & D')]]; try contradiction; [reflexivity|]. f_equal.
  apply (decode_injective p p' l); [| |exact D|exact D']; (eapply Forall_impl; [|eassumption]); intros c K; apply host_name_char; exact K.
Qed.
Lemma label_injective l l' e : encoded_label l e -> encoded_label l' e -> firstn 4 l <> [120; 110; 45; 45] -> firstn 4 l' <> [120; 110; 45; 45] -> l = l'.
Proof.
  intros [[A ->]|[A (p & -> & F & D)]] [[A' K]|[A' (p' & K & F' & D')]] N N'.
  - exact K.
  - subst l. exfalso. apply N. reflexivity.
  - exfalso. apply N'. rewrite <- K. reflexivity.
  - apply app_inv_head in K. subst p'. congruence.
Qed.
Lemma labels_same_encoding ls : forall es es', Forall2 encoded_label ls es -> Forall2 encoded_label ls es' -> es = es'.
Proof.
  induction ls as [|l ls IH]; intros es es' H H'; inversion_clear H as [|? ? ? ? A B]; inversion_clear H' as [|? ? ? ? A' B']; [reflexivity|].
  rewrite (label_unique _ _ _ A A'), (IH _ _ B B'). reflexivity.
Qed.

Lemma judge_same ls : forall es es' h size, Forall2 (fun l e => fine_label spacing_mark l = true -> ace l e) ls es ->
  Forall2 (fun l e => fine_label spacing_mark l = true -> ace l e) ls es' -> judge spacing_mark h size ls es = judge spacing_mark h size ls es'.
Proof.
  induction ls as [|l ls IH]; intros es es' h size H H'; inversion_clear H as [|? e ? es1 A B]; inversion_clear H' as [|? e' ? es1' A' B']; [reflexivity|].
  cbn [judge]. unfold refuses. destruct (fine_label spacing_mark l) eqn:F; [|rewrite !orb_true_r; reflexivity].
  rewrite (ace_unique l e e' (A eq_refl) (A' eq_refl)).
  rewrite (IH es1 es1' h (size + (zlen e' + 1)) B B'). reflexivity.
Qed.
Lemma answer_unique m r r' : answer spacing_mark m r -> answer spacing_mark m r' -> r = r'.
Proof.
  unfold answer. destruct (zlen (encs m) >? 254); [congruence|]. destruct (zlen m =? 0) eqn:E0; [congruence|].
  intros (ls & es & Lb & A & ->) (ls' & es' & Lb' & A' & ->). rewrite <- (labels_unique _ _ _ Lb Lb') in *. clear ls' Lb'.
  rewrite (judge_same ls es es' _ _ A A'). destruct (judge spacing_mark (ends_hyphen m) 0 ls es') eqn:J; try reflexivity.
  do 4 f_equal.
  assert (join_dots ls <> []) as NJ by (destruct Lb as (_ & _ & <-); intros ->; discriminate).
  apply (judge_good idna_library spacing_mark real_category ls es' (ends_hyphen m) 0 A' NJ) in J. destruct J as (_ & G & _).
  clear - A A' G. revert es A. induction G as [|l e ls es' (_ & F & _) _ IH]; intros es A; inversion_clear A as [|? e1 ? es1 A1 A2]; [reflexivity|].
  inversion_clear A' as [|? ? ? ? B1 B2]. rewrite (ace_unique l e1 e (A1 F) (B1 F)), (IH B2 es1 A2). reflexivity.
Qed.
Lemma outcome_unique t r r' : outcome spacing_mark image t r -> outcome spacing_mark image t r' -> r = r'.
Proof. unfold outcome. destruct (images image t) as [m|]; [apply answer_unique|congruence]. Qed.

(** * Accepted names *)

Lemma accepted_fine l : accepted_label l -> starts_hyphen l = false /\ fine_label spacing_mark l = true.
Proof.
  intros (H1 & H2). assert (forallb fine_char l = true) as Fc.
  { apply forallb_forall. intros x I. rewrite Forall_forall in H1. specialize (H1 x I). unfold fine_char, ldh, host_char in *. destruct (128 <=? x) eqn:E; [reflexivity|]. specialize (H1 ltac:(lia)). lia. }
  unfold fine_label. rewrite Fc. destruct l as [|c l]; [auto|]. destruct H2 as (N & k & A & Nk). cbn [starts_hyphen fine_first andb].
  split; [lia|]. unfold spacing_mark. rewrite (C68_category_partial category_data c k (proj1 the_file) A : charstr_unicode_category c = Ok k). cbn [is_Mc].
  destruct k; try congruence; apply orb_true_r.
Qed.
Lemma fine_not_mark l : Forall scalar l -> fine_label spacing_mark l = true -> ~ assigned category_data (hd 0 l) Mc.
Proof.
  intros Sc F A. destruct l as [|c l]; [exact (ascii_no_mark 0 ltac:(lia) A)|]. cbn [hd] in A. inversion_clear Sc as [|? ? S _]. unfold fine_label in F. apply andb_true_iff in F as [_ F].
  cbn [fine_first] in F. rewrite (spacing_mark_iff c A) in F. rewrite orb_false_r in F. apply (ascii_no_mark c); [unfold scalar in S; lia|exact A].
Qed.

Lemma encoded_ace l e : Forall (fun c => ascii_lower c = c) l -> (exists e0, ace l e0) -> encoded_label l e -> ace l e.
Proof. intros S (e0 & A) E. rewrite (label_unique l e e0 E (ace_encoded l e0 S A)). exact A. Qed.

Lemma answer_accepts m ls es : Forall scalar m -> Forall (fun c => ascii_lower c = c) m -> forall res, answer spacing_mark m res ->
  m <> [] -> zlen (encoding m) <= 254 -> labels m ls -> Forall accepted_label ls -> last m 0 <> 45 -> Forall2 encoded_label ls es ->
  Forall (fun e => zlen e <= 63) es -> zlen (join_dots es) <= 253 -> (last (join_dots es) 0 <> 46 -> zlen (join_dots es) <= 252) ->
  res = Ok (Some (join_dots es ++ [0])).
Proof.
  intros Sc Sm res A Nm L8 Lb Ac Lh En L63 L1 L2. unfold answer in A. change (encs m) with (encoding m) in A. replace (zlen (encoding m) >? 254) with false in A by lia.
  assert ((zlen m =? 0) = false) as E0 by (destruct m as [|c m]; [congruence|]; rewrite zlen_cons; pose proof (zlen_nonneg m); lia). rewrite E0 in A.
  destruct A as (ls' & es' & Lb' & A & ->). rewrite (labels_unique _ _ _ Lb' Lb) in *. clear ls' Lb'.
  pose proof Lb as (Nl & Dl & El).
  assert (Forall (Forall (fun c => ascii_lower c = c)) ls) as Sl by (apply join_sub; rewrite <- El; exact Sm).
  assert (es' = es) as ->.
  { clear - A En Ac Sl. revert es' A. induction En as [|l e ls es E _ IH]; intros es' A; inversion_clear A as [|? e' ? es1 A1 A2]; [reflexivity|].
    inversion_clear Ac as [|? ? Ac1 Ac2]. inversion_clear Sl as [|? ? Sl1 Sl2]. rewrite (IH Ac2 Sl2 es1 A2). f_equal.
    exact (label_unique l e' e (ace_encoded l e' Sl1 (A1 (proj2 (accepted_fine l Ac1)))) E). }
  assert (join_dots ls <> []) as NJ by congruence.
  assert (judge spacing_mark (ends_hyphen m) 0 ls es = Good) as ->; [|reflexivity].
  apply (judge_good idna_library spacing_mark real_category ls es (ends_hyphen m) 0 A NJ). split; [unfold ends_hyphen; lia|]. split.
  - clear - En Ac L63. induction En as [|l e ls es E _ IH]; [constructor|]. inversion_clear Ac as [|? ? Ac1 Ac2]. inversion_clear L63 as [|? ? L1 L2].
    constructor; [|exact (IH Ac2 L2)]. destruct (accepted_fine l Ac1) as [H1 H2]. split; [exact H1|]. split; [exact H2|exact L1].
  - unfold full_length. destruct (last es [1]) as [|x y] eqn:El'; [lia|].
    enough (last (join_dots es) 0 <> 46) by (specialize (L2 ltac:(assumption)); lia).
    assert (Forall (fun e => ~ In 46 e) es) as Dots.
    { clear - En Dl. induction En as [|l e ls es E _ IH]; [constructor|]. inversion_clear Dl as [|? ? D1 D2]. constructor; [|exact (IH D2)].
      destruct E as [[_ ->]|[_ (p & -> & F & _)]]; [exact D1|]. intros I. apply in_app_or in I as [I|I]; [cbn in I; lia|]. rewrite Forall_forall in F. specialize (F 46 I). unfold host_char in F. lia. }
    assert (es <> []) as Ne by (intros ->; inversion En; subst; congruence).
    assert (In (x :: y) es /\ exists a, join_dots es = a ++ x :: y) as (I & a & Ej).
    { clear - El' Ne. induction es as [|e es IH]; [congruence|]. destruct es as [|e' es].
      - cbn [last] in El'. subst e. split; [left; reflexivity|]. exists []. reflexivity.
      - destruct (IH El' ltac:(discriminate)) as (I & a & Ea). split; [right; exact I|]. rewrite join_cons by discriminate. rewrite Ea.
        exists (e ++ 46 :: a). rewrite <- app_assoc. reflexivity. }
    rewrite Ej. destruct (exists_last (l := x :: y) ltac:(discriminate)) as (b & z & Eb). rewrite Eb, app_assoc, last_last. intros ->.
    rewrite Forall_forall in Dots. apply (Dots _ I). rewrite Eb. apply in_or_app. right. left. reflexivity.
Qed.

(** * The name that is encoded *)

Lemma nfc_idem s t : nfc s t -> nfc t t.
Proof. intros (u & N & C). exists u. split; [exact (nfd_of_composed s u t N C)|exact C]. Qed.
Lemma nfc_det s t t' : nfc s t -> nfc s t' -> t = t'.
Proof. intros N N'. destruct (nfc_exists s) as (x & _ & U). rewrite (U t N), (U t' N'). reflexivity. Qed.
Lemma first_part a b a' b' : ~ In 0 a -> ~ In 0 a' -> a ++ 0 :: b = a' ++ 0 :: b' -> a = a'.
Proof.
  revert a'. induction a as [|x a IH]; intros [|x' a'] N N' E; cbn [app] in E; [reflexivity| | |].
  - injection E as <- _. destruct N'. left. reflexivity.
  - injection E as -> _. destruct N. left. reflexivity.
  - injection E as -> E. f_equal. apply IH; [intros I; apply N|intros I; apply N'|exact E]; right; exact I.
Qed.
Lemma normalized_unique s t t' : normalized s t -> normalized s t' -> t = t'.
Proof.
  intros (cps & a & E & N & Z & C) (cps' & a' & E' & N' & Z' & C'). rewrite (encodes_det _ _ _ E' E) in C'. clear cps' E'.
  enough (a = a') by (subst a'; exact (nfc_det a t t' N N')).
  destruct C as [C|(b & C)], C' as [C'|(b' & C')]; subst cps.
  - exact C'.
  - exfalso. apply Z. rewrite C'. apply in_or_app. right. left. reflexivity.
  - exfalso. apply Z'. rewrite <- C'. apply in_or_app. right. left. reflexivity.
  - exact (first_part a b a' b' Z Z' C').
Qed.
Lemma replaced_unique cp l l' : replaced cp l -> replaced cp l' -> l = l'.
Proof.
  intros [m H|m H|m H|x H] [m' H'|m' H'|m' H'|x' H']; destruct (says_unique _ _ _ _ _ H H') as [K K']; congruence.
Qed.
Lemma mapped_unique t m m' : mapped_name t m -> mapped_name t m' -> m = m'.
Proof.
  intros (ps & F & ->) (ps' & F' & ->). f_equal. revert ps' F'. induction F as [|c l t ps R _ IH]; intros ps' F'; inversion_clear F' as [|? l' ? ps1 R' F1]; [reflexivity|].
  rewrite (replaced_unique c l l' R R'), (IH ps1 F1). reflexivity.
Qed.
Lemma name_unique s m m' : name_of s m -> name_of s m' -> m = m'.
Proof.
  intros [[A ->]|[A (t & N & M)]] [[A' ->]|[A' (t' & N' & M')]]; try contradiction; [reflexivity|].
  rewrite <- (normalized_unique s t t' N N') in M'. exact (mapped_unique t m m' M M').
Qed.
Lemma ascii_dec s : {ascii s} + {~ ascii s}.
Proof. apply Forall_dec. intros x. destruct (Z_lt_dec x 128); [left|right]; assumption. Qed.

Lemma ascii_label l e : ascii l -> encoded_label l e -> e = l.
Proof. intros A [[_ E]|[N _]]; [exact E|contradiction]. Qed.

Lemma ascii_encodes s : text s -> ascii s -> encodes s s.
Proof.
  intros T A. assert (encs s = s) as E.
  { induction T as [|c s C _ IH]; [reflexivity|]. inversion_clear A as [|? ? A1 A2]. rewrite encs_cons, (IH A2). unfold utf8. replace (c <? 0x80) with true by lia. reflexivity. }
  rewrite <- E at 1. apply encodes_encs. clear E. induction T as [|c s C _ IH]; [constructor|]. inversion_clear A as [|? ? A1 A2]. constructor; [unfold scalar; lia|exact (IH A2)].
Qed.

Section Real3.
Variables (junk : nat -> Z) (r : recomposer) (h : hangul_recomposer) (errno : Z).
Hypothesis r_size : zlen (r_ccs r) = 100.
Notation idna s := (charstr_idna_encode junk r h errno s).

(** Success, ASCII or not *)
Lemma real_labels s q out : text s -> 3 * zlen s + 1 < 2 ^ 64 -> idna (s ++ 0 :: q) = Ok (Some out) ->
  exists m ls es, name_of s m /\ labels m ls /\ Forall2 encoded_label ls es /\ labels (join_dots es) es /\ out = join_dots es ++ [0].
Proof.
  intros T L R. destruct (ascii_dec s) as [A|A].
  - rewrite (idna_ascii idna_library spacing_mark real_category junk image image_ok r h errno s q T A ltac:(pose proof (zlen_nonneg s); lia) : idna (s ++ 0 :: q) = _) in R.
    injection R as <-. destruct (labels_exist (map ascii_lower s)) as (ls & Lb). exists (map ascii_lower s), ls, ls. split; [left; auto|]. split; [exact Lb|].
    pose proof Lb as (_ & _ & El). rewrite El in Lb. split; [|split; [exact Lb|rewrite El; reflexivity]].
    assert (Forall (fun c => c < 128) (join_dots ls)) as F.
    { rewrite <- El. apply Forall_forall. intros x I. apply in_map_iff in I as (y & <- & I). unfold ascii in A. rewrite Forall_forall in A. specialize (A y I). cbv beta in A. unfold ascii_lower.
      destruct ((65 <=? y) && (y <=? 90)) eqn:E; lia. }
    apply join_sub in F. clear - F. induction F as [|l ls H _ IH]; constructor; [left; auto|exact IH].
  - destruct (real_success junk r h errno r_size s q out T A L R) as (t & m & ls & es & N & M & Lb & F & O & Lb' & _).
    exists m, ls, es. split; [right; split; [exact A|eauto]|]. auto.
Qed.

Lemma real_accepts s q cps t u m ls es : text s -> ~ ascii s -> 3 * zlen s + 1 < 2 ^ 64 -> encodes s cps -> ~ In 0 cps -> nfc cps t -> ~ crowded t ->
  nfd cps u -> zlen (encoding u) < 3 * zlen s -> mapped_name t m -> ~ In 0x3134A t -> ~ In 0x2FA1D t ->
  m <> [] -> zlen (encoding m) <= 254 -> labels m ls -> Forall accepted_label ls -> last m 0 <> 45 -> Forall2 encoded_label ls es ->
  Forall (fun e => zlen e <= 63) es -> zlen (join_dots es) <= 253 -> (last (join_dots es) 0 <> 46 -> zlen (join_dots es) <= 252) ->
  idna (s ++ 0 :: q) = Ok (Some (join_dots es ++ [0])).
Proof.
  intros T A L E Nz N NC Nd Lu M N1 N2 Nm L8 Lb Ac Lh En L63 L1 L2.
  pose proof (real_complete junk r h errno r_size s q cps t u T A L E Nz N NC Nd Lu) as O. unfold outcome in O. rewrite (mapped_found t m M N1 N2) in O.
  assert (normalized s t) as Nt by (exists cps, cps; auto).
  exact (answer_accepts m ls es (mapped_scalar t m (normalized_scalar s t Nt) M) (mapped_small t m M) _ O Nm L8 Lb Ac Lh En L63 L1 L2).
Qed.

Lemma real_bad s q : text s -> 3 * zlen s + 1 < 2 ^ 64 -> (~ exists cps, encodes s cps) -> idna (s ++ 0 :: q) = Ok None.
Proof.
  intros T L N. destruct (ascii_dec s) as [A|A].
  - exfalso. apply N. exists s. exact (ascii_encodes s T A).
  - destruct (idna_other idna_library spacing_mark real_category junk image image_ok r h errno r_size s q T A L) as [[_ K]|(cps & E & _)]; [exact K|]. destruct N. eauto.
Qed.
End Real3.

(** * The result is a fixed point *)
Lemma lower_lower c : ascii_lower (ascii_lower c) = ascii_lower c.
Proof. unfold ascii_lower. destruct ((65 <=? c) && (c <=? 90)) eqn:E; [|rewrite E; reflexivity]. replace ((65 <=? c + 32) && (c + 32 <=? 90)) with false by lia. reflexivity. Qed.
Lemma fixed_point junk r h errno s q name : text s -> 3 * zlen s + 1 < 2 ^ 64 -> zlen (r_ccs r) = 100 ->
  charstr_idna_encode junk r h errno (s ++ 0 :: q) = Ok (Some (name ++ [0])) ->
  forall junk' r' h' errno' q', charstr_idna_encode junk' r' h' errno' (name ++ 0 :: q') = Ok (Some (name ++ [0])).
Proof.
  intros T L Rs R junk' r' h' errno' q'.
  assert (text name /\ ascii name /\ zlen name + 1 < 2 ^ 64 /\ map ascii_lower name = name) as (Tn & An & Ln & En).
  { destruct (ascii_dec s) as [A|A].
    - rewrite (idna_ascii idna_library spacing_mark real_category junk image image_ok r h errno s q T A ltac:(pose proof (zlen_nonneg s); lia) : charstr_idna_encode junk r h errno (s ++ 0 :: q) = _) in R.
      injection R as R. apply app_inv_tail in R. subst name. split; [|split; [|split]].
      + apply Forall_forall. intros x I. apply in_map_iff in I as (y & <- & I). unfold text in T. rewrite Forall_forall in T. specialize (T y I). cbv beta in T.
        unfold ascii in A. rewrite Forall_forall in A. specialize (A y I). cbv beta in A. unfold ascii_lower. destruct ((65 <=? y) && (y <=? 90)) eqn:E; lia.
      + apply Forall_forall. intros x I. apply in_map_iff in I as (y & <- & I).
        unfold ascii in A. rewrite Forall_forall in A. specialize (A y I). cbv beta in A. unfold ascii_lower. destruct ((65 <=? y) && (y <=? 90)) eqn:E; lia.
      + unfold zlen in *. rewrite map_length. lia.
      + rewrite map_map. apply map_ext. exact lower_lower.
    - destruct (real_success junk r h errno Rs s q _ T A L R) as (t & m & ls & es & _ & _ & _ & _ & O & _ & _ & _ & _ & F & L1 & _).
      apply app_inv_tail in O. subst name.
      assert (Forall (fun c => host_char c \/ c = 46) (join_dots es)) as H.
      { apply (join_forall (fun c => host_char c \/ c = 46) es); [right; reflexivity|]. eapply Forall_impl; [|exact F]. intros e [He _]. eapply Forall_impl; [|exact He]. intros c K. left. exact K. }
      split; [eapply Forall_impl; [|exact H]; unfold host_char; intros c K; lia|].
      split; [eapply Forall_impl; [|exact H]; unfold host_char; intros c K; cbv beta in *; lia|].
      split; [lia|]. rewrite <- (map_id (join_dots es)) at 2. apply map_ext_in. intros c I. rewrite Forall_forall in H. specialize (H c I). unfold host_char in H. unfold ascii_lower.
      replace ((65 <=? c) && (c <=? 90)) with false by lia. reflexivity. }
  rewrite (idna_ascii idna_library spacing_mark real_category junk' image image_ok r' h' errno' name q' Tn An Ln : charstr_idna_encode junk' r' h' errno' (name ++ 0 :: q') = _).
  rewrite En. reflexivity.
Qed.

(** * Injectivity *)
Lemma labels_injective es : forall ls ls', Forall2 encoded_label ls es -> Forall2 encoded_label ls' es ->
  Forall (fun l => firstn 4 l <> [120; 110; 45; 45]) ls -> Forall (fun l => firstn 4 l <> [120; 110; 45; 45]) ls' -> ls = ls'.
Proof.
  induction es as [|e es IH]; intros ls ls' H H' F F'; inversion H; inversion H'; subst; [reflexivity|]. inversion_clear F as [|? ? F1 F2]. inversion_clear F' as [|? ? F1' F2'].
  f_equal; [|apply IH; assumption]. eapply label_injective; eassumption.
Qed.
Lemma same_encoding junk r h errno junk' r' h' errno' s q s' q' out m ls m' ls' :
  text s -> 3 * zlen s + 1 < 2 ^ 64 -> zlen (r_ccs r) = 100 -> text s' -> 3 * zlen s' + 1 < 2 ^ 64 -> zlen (r_ccs r') = 100 ->
  charstr_idna_encode junk r h errno (s ++ 0 :: q) = Ok (Some out) -> charstr_idna_encode junk' r' h' errno' (s' ++ 0 :: q') = Ok (Some out) ->
  name_of s m -> labels m ls -> name_of s' m' -> labels m' ls' ->
  Forall (fun l => firstn 4 l <> [120; 110; 45; 45]) ls -> Forall (fun l => firstn 4 l <> [120; 110; 45; 45]) ls' -> m = m'.
Proof.
  intros T L Rs T' L' Rs' R R' Nm Lb Nm' Lb' F F'.
  destruct (real_labels junk r h errno Rs s q out T L R) as (m1 & l1 & es & Nm1 & Lb1 & E & Le & O).
  destruct (real_labels junk' r' h' errno' Rs' s' q' out T' L' R') as (m2 & l2 & es' & Nm2 & Lb2 & E' & Le' & O').
  rewrite (name_unique s m1 m Nm1 Nm) in Lb1. rewrite (name_unique s' m2 m' Nm2 Nm') in Lb2.
  rewrite (labels_unique _ _ _ Lb1 Lb) in E. rewrite (labels_unique _ _ _ Lb2 Lb') in E'.
  rewrite O in O'. apply app_inv_tail in O'. rewrite <- O' in Le'. rewrite (labels_unique _ _ _ Le' Le) in E'.
  rewrite (labels_injective es ls ls' E E' F F') in Lb. destruct Lb as (_ & _ & ->). destruct Lb' as (_ & _ & ->). reflexivity.
Qed.
