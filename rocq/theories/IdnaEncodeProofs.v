(** Proofs about charstr_idna_encode *)
From Verif Require Import Base CMem CharstrModel CharstrSpec CharstrProofs Utf8Model Utf8Spec Utf8Proofs UcdData NormModel NormSpec NormTables NormFacts NormOrder NormBytes NormDecompose NormRecompose NormMain NormSyllable.
From Verif Require Import CategoryModel CategorySpec CategoryProofs CategoryData CategoryProps IdnaTabModel IdnaTabSpec IdnaTabProofs IdnaData IdnaModel IdnaProofs.
From Verif Require Import PunyModel PunySpec PunyProofs PunyPass PunyHost PunyName PunyNfc PunyTop PunyLe IdnaEncodeModel IdnaEncodeSpec.
From Coq Require Import ZifyBool ZifyNat.

(** No upper-case letter comes out of the mapping. *)
Definition small_b (r : idna_row) : bool :=
  let '(lo, hi, st, m) := r in
  match st with
  | Valid | Deviation => (90 <? lo) || (hi <? 65)
  | Mapped => match m with Some l => forallb (fun c => (90 <? c) || (c <? 65)) l | None => false end
  | _ => true
  end.
Lemma small_check : forallb small_b idna_data = true.
Proof. vm_compute. reflexivity. Qed.
#[local] Opaque idna_data gen_idna_table decomposition_data ccc_data exclusion_data nfc_qc_data nfd_qc_data category_data.

Lemma replaced_small cp l : replaced cp l -> Forall (fun c => ascii_lower c = c) l.
Proof.
  assert (L : forall c, (90 <? c) || (c <? 65) = true -> ascii_lower c = c).
  { intros c H. unfold ascii_lower. replace ((65 <=? c) && (c <=? 90)) with false by lia. reflexivity. }
  assert (R : forall st m, says idna_data cp st m -> exists lo hi, small_b (lo, hi, st, m) = true /\ lo <= cp <= hi).
  { intros st m (lo & hi & I & H). exists lo, hi. split; [|exact H]. exact (proj1 (forallb_forall _ _) small_check _ I). }
  intros [m S|m S|m S|l' S]; apply R in S as (lo & hi & B & H); cbn [small_b] in B.
  - constructor; [apply L; lia|constructor].
  - constructor; [apply L; lia|constructor].
  - constructor.
  - apply Forall_forall. intros x I. rewrite forallb_forall in B. apply L, B, I.
Qed.
Lemma mapped_small t m : mapped_name t m -> Forall (fun c => ascii_lower c = c) m.
Proof.
  intros (parts & F & ->). induction F as [|c l t parts R _ IH]; [constructor|]. cbn [concat]. apply Forall_app. split; [exact (replaced_small c l R)|exact IH].
Qed.

(** The library *)
Definition image (cp : Z) : option (list Z) :=
  match lookup idna_data cp with
  | Some (st, m) =>
      if lost cp then None
      else match st with
           | Valid | Deviation => Some [cp]
           | Ignored => Some []
           | Mapped => m
           | _ => None
           end
  | None => None
  end.
Definition is_Mc (k : res category) : bool := match k with Ok k => category_eqb k Mc | _ => false end.
Definition spacing_mark (c : Z) : bool := is_Mc (charstr_unicode_category c).

Lemma fine_row lo0 rows : idna_file lo0 rows -> forall lo hi st m, In (lo, hi, st, m) rows -> fine_mapping m.
Proof.
  induction 1 as [|a b st' m' rows R Fm F IH]; intros lo hi st m; [intros []|]. intros [E|I]; [|exact (IH lo hi st m I)].
  injection E as _ _ _ ->. exact Fm.
Qed.
Lemma fine_of cp st m : says idna_data cp st m -> fine_mapping m.
Proof. intros (lo & hi & I & _). exact (fine_row _ _ the_idna_file lo hi st m I). Qed.

Lemma image_ok c : scalar c -> treats idna_library c (image c).
Proof.
  intros S. destruct (says_some c) as (st & m & Sy); [unfold scalar in S; lia|].
  unfold image. rewrite (proj1 (says_lookup _ _ the_idna_file c st m) Sy).
  pose proof (flag_ok c st m Valid Sy) as F1. pose proof (flag_ok c st m Deviation Sy) as F2.
  pose proof (flag_ok c st m Ignored Sy) as F3. pose proof (flag_ok c st m Mapped Sy) as F4. cbn [flag] in *.
  destruct (lost c) eqn:L; rewrite ?andb_false_r, ?andb_true_r in *.
  { apply T_refused; [exact F1|exact F2|exact F3|exact F4]. }
  destruct st; cbn [status_eqb] in *.
  1: apply T_valid; exact F1.
  1: apply T_ignored; [exact F1|exact F2|exact F3].
  1: { pose proof (says_bound _ _ _ Sy) as (_ & (x & l & E) & _). subst m. pose proof (fine_of _ _ _ Sy) as [Fm _].
       apply T_mapped; [exact F1|exact F2|exact F3|exact F4| | |].
       - exact (mapping_ok _ _ _ Sy).
       - eapply Forall_impl; [|exact Fm]. intros y H. apply H.
       - eapply Forall_impl; [|exact Fm]. intros y H. apply H. }
  1: apply T_deviation; [exact F1|exact F2].
  all: apply T_refused; [exact F1|exact F2|exact F3|exact F4].
Qed.
Lemma image_replaced c l : image c = Some l -> replaced c l.
Proof.
  unfold image. destruct (lookup idna_data c) as [[st m]|] eqn:E; [|discriminate]. apply (says_lookup _ _ the_idna_file) in E.
  destruct (lost c); [discriminate|]. destruct st; try discriminate.
  - intros K. injection K as <-. exact (replaced_valid c m E).
  - intros K. injection K as <-. exact (replaced_ignored c m E).
  - intros ->. exact (replaced_mapped c l E).
  - intros K. injection K as <-. exact (replaced_deviation c m E).
Qed.
Lemma replaced_image c l : replaced c l -> lost c = false -> image c = Some l.
Proof.
  intros R L. unfold image. destruct R as [m S|m S|m S|l S]; rewrite (proj1 (says_lookup _ _ the_idna_file c _ _) S), L; reflexivity.
Qed.
Lemma images_mapped t : forall m, images image t = Some m -> mapped_name t m.
Proof.
  induction t as [|c t IH]; intros m E; cbn [images] in E.
  - injection E as <-. exists []. split; [constructor|reflexivity].
  - destruct (image c) as [l|] eqn:Ei; [|discriminate]. destruct (images image t) as [k|]; [|discriminate]. injection E as <-.
    destruct (IH k eq_refl) as (parts & F & ->). exists (l :: parts). split; [constructor; [exact (image_replaced c l Ei)|exact F]|reflexivity].
Qed.
Lemma mapped_images t m : mapped_name t m -> Forall (fun c => lost c = false) t -> images image t = Some m.
Proof.
  intros (parts & F & ->). induction F as [|c l t parts R _ IH]; intros L; [reflexivity|]. inversion_clear L as [|? ? L1 L2].
  cbn [images concat]. rewrite (replaced_image c l R L1), (IH L2). reflexivity.
Qed.

Lemma real_category c : 128 <= c -> exists k, unicode_category_of idna_library c = Ok k /\ category_eqb k Mc = spacing_mark c.
Proof.
  intros _. cbn [unicode_category_of idna_library]. unfold spacing_mark, charstr_unicode_category.
  destruct (unicode_category_ok category_data c (proj1 the_file) (proj2 the_file)) as (k & E & _). exists k. rewrite E. split; [reflexivity|]. reflexivity.
Qed.

(** A NUL stays through normalization, and it is refused. *)
Lemma zero_image : image 0 = None.
Proof.
  assert (says idna_data 0 Std3_valid None) as S by (apply (says_data 0 (Std3_valid, None)); vm_compute; reflexivity).
  unfold image. rewrite (proj1 (says_lookup _ _ the_idna_file 0 _ _) S). destruct (lost 0); reflexivity.
Qed.
Lemma zero_images t : In 0 t -> images image t = None.
Proof.
  induction t as [|c t IH]; [intros []|]. intros [->|I]; cbn [images].
  - rewrite zero_image. reflexivity.
  - rewrite (IH I). destruct (image c); reflexivity.
Qed.
Lemma join_zero_r l : join l 0 = None.
Proof.
  unfold join. destruct (tb l 0) as [p|] eqn:E; [|apply hg_none_r; reflexivity]. apply tb_in, composite_row in E. lia.
Qed.
Lemma join_zero_l c : join 0 c = None.
Proof.
  unfold join. destruct (tb 0 c) as [p|] eqn:E; [|apply hg_none_l; reflexivity]. apply tb_in, composite_row in E. lia.
Qed.
Lemma cst_zero st c : In 0 (cflat st) -> In 0 (cflat (cst st c)).
Proof.
  intros I. destruct st as [out|pre l mid]; unfold cst; cbn [cstep].
  - destruct (ccc c =? 0); cbn [cflat] in *; apply in_or_app; left; exact I.
  - assert (K : In 0 (cflat (ckeep pre l mid c))) by (rewrite ckeep_flat; apply in_or_app; left; exact I).
    destruct (cblocked mid c); [exact K|]. destruct (join l c) as [p|] eqn:E; [|exact K]. cbn [cflat] in *. apply in_app_or in I as [I|[->|I]].
    + apply in_or_app. left. exact I.
    + rewrite join_zero_l in E. discriminate.
    + apply in_or_app. right. right. exact I.
Qed.
Lemma cfold_zero s : forall st, In 0 (cflat st) -> In 0 (cflat (fold_left cst s st)).
Proof. induction s as [|c s IH]; intros st I; [exact I|]. cbn [fold_left]. apply IH, cst_zero, I. Qed.
Lemma nfc_zero a b t : nfc (a ++ 0 :: b) t -> In 0 t.
Proof.
  intros N. apply nfc_iff in N as ->. rewrite fds_app, fds_cons, fd_0. cbn [app]. rewrite (osort_starter _ _ _ ccc_0).
  unfold composed. rewrite fold_left_app. cbn [fold_left]. apply cfold_zero.
  destruct (fold_left cst (osort (fds a)) (CI [])) as [out|pre l mid]; unfold cst; cbn [cstep].
  - rewrite ccc_0. cbn [cflat Z.eqb]. apply in_or_app. right. left. reflexivity.
  - rewrite join_zero_r. assert (K : In 0 (cflat (ckeep pre l mid 0))) by (rewrite ckeep_flat; apply in_or_app; right; left; reflexivity).
    destruct (cblocked mid 0); exact K.
Qed.

Section Real.
Variables (junk : nat -> Z) (r : recomposer) (h : hangul_recomposer) (errno : Z).
Hypothesis r_size : zlen (r_ccs r) = 100.
Notation idna s := (charstr_idna_encode junk r h errno s).

Definition host_answer (m : list Z) (res : res (option (list Z))) : Prop := answer spacing_mark m res.

Lemma real_cases s q : text s -> ~ ascii s -> 3 * zlen s + 1 < 2 ^ 64 ->
  idna (s ++ 0 :: q) = Ok None \/ exists t m, normalized s t /\ mapped_name t m /\ host_answer m (idna (s ++ 0 :: q)).
Proof.
  intros T A L. unfold charstr_idna_encode.
  destruct (idna_other idna_library spacing_mark real_category junk image image_ok r h errno r_size s q T A L) as [[_ K]|(cps & E & K)]; [left; exact K|].
  assert (G : forall a t, nfc a t -> ~ In 0 a -> (cps = a \/ exists b, cps = a ++ 0 :: b) ->
    outcome spacing_mark image t (idna_encode idna_library junk r h errno (s ++ 0 :: q)) ->
    idna_encode idna_library junk r h errno (s ++ 0 :: q) = Ok None \/
    exists t m, normalized s t /\ mapped_name t m /\ host_answer m (idna_encode idna_library junk r h errno (s ++ 0 :: q))).
  { intros a t N I0 C O. unfold outcome in O. destruct (images image t) as [m|] eqn:Em; [|left; exact O].
    right. exists t, m. split; [exists cps, a; auto|]. split; [exact (images_mapped t m Em)|exact O]. }
  destruct K as [(t & N & K)|[(t & N & Lt & K)|(a & b & t & -> & I0 & N & K)]].
  - destruct K as [K|[_ K]]; [|left; exact K].
    destruct (first_nul cps) as [Z|(a & b & -> & Z)].
    + apply (G cps t N); [|left; reflexivity|exact K]. intros I0. rewrite Forall_forall in Z. exact (Z 0 I0 eq_refl).
    + left. unfold outcome in K. rewrite (zero_images t (nfc_zero _ _ _ N)) in K. exact K.
  - left. exact K.
  - destruct K as [K|[_ K]]; [|left; exact K]. apply (G a t N I0); [right; exists b; reflexivity|exact K].
Qed.

(** A name that gets to the end *)
Lemma real_complete s q cps t u : text s -> ~ ascii s -> 3 * zlen s + 1 < 2 ^ 64 -> encodes s cps -> ~ In 0 cps -> nfc cps t -> ~ crowded t ->
  nfd cps u -> zlen (encoding u) < 3 * zlen s -> outcome spacing_mark image t (idna (s ++ 0 :: q)).
Proof.
  intros T A L E I0 N NC Nd Lu. unfold charstr_idna_encode.
  destruct (idna_other idna_library spacing_mark real_category junk image image_ok r h errno r_size s q T A L) as [[K _]|(cps' & E' & K)]; [exfalso; apply K; eauto|].
  assert (cps' = cps) as -> by (exact (encodes_det _ _ _ E' E)).
  destruct K as [(t' & N' & K)|[(t' & N' & Lt & _)|(a & b & t' & -> & _)]].
  - destruct (nfc_exists cps) as (x & _ & U). rewrite (U t N), <- (U t' N') in *. destruct K as [K|[C _]]; [exact K|].
    contradiction.
  - destruct (nfd_exists cps) as (x & _ & U). rewrite (U t' N'), <- (U u Nd) in Lt. lia.
  - exfalso. apply I0. apply in_or_app. right. left. reflexivity.
Qed.
End Real.

(** * Success *)

Lemma ace_encoded l e : Forall (fun c => ascii_lower c = c) l -> ace l e -> encoded_label l e.
Proof.
  intros S. assert (map ascii_lower l = l) as E by (induction S as [|c l H _ IH]; [reflexivity|]; cbn [map]; congruence).
  assert (all_ascii l = true <-> ascii l) as A.
  { unfold all_ascii, ascii. rewrite forallb_forall, Forall_forall. split; intros H x I; specialize (H x I); lia. }
  unfold ace. rewrite E. destruct (all_ascii l).
  - intros ->. left. split; [apply A; reflexivity|reflexivity].
  - intros (p & -> & D & F & _). right. split; [intros K; apply A in K; discriminate|]. exists p. split; [reflexivity|]. split; [|exact D].
    eapply Forall_impl; [|exact F]. unfold lower_alnum, host_char. intros; lia.
Qed.
Lemma Forall2_map2 {A B} (P Q R : A -> B -> Prop) (S : A -> Prop) l m : (forall a b, S a -> P a b -> Q a b -> R a b) -> Forall S l ->
  Forall2 P l m -> Forall2 Q l m -> Forall2 R l m.
Proof.
  intros H F P2. revert F. induction P2 as [|a b l m Pab _ IH]; intros F Q2; [constructor|].
  inversion_clear F as [|? ? F1 F2]. inversion_clear Q2 as [|? ? ? ? Q1 Q3]. constructor; [apply H; assumption|apply IH; assumption].
Qed.
Lemma name_host c : name_char c -> host_char c.
Proof. unfold name_char, host_char, lower_alnum. lia. Qed.

Lemma join_final es : es <> [] -> last es [1] = [] -> join_dots es <> [] -> exists a, join_dots es = a ++ [46].
Proof.
  induction es as [|e es IH]; [congruence|]. intros _ L N. destruct es as [|e' es].
  - cbn [last] in L. subst e. cbn in N. congruence.
  - rewrite join_cons in * by discriminate. change (last (e :: e' :: es) [1]) with (last (e' :: es) [1]) in L.
    destruct (join_dots (e' :: es)) as [|x y] eqn:E.
    + exists e. reflexivity.
    + destruct (IH ltac:(discriminate) L ltac:(discriminate)) as (a & Ea). exists (e ++ 46 :: a). rewrite Ea, <- app_assoc. reflexivity.
Qed.

Lemma success m out : Forall scalar m -> Forall (fun c => ascii_lower c = c) m -> host_answer m (Ok (Some out)) ->
  exists ls es, labels m ls /\ Forall2 encoded_label ls es /\ out = join_dots es ++ [0] /\ labels (join_dots es) es /\
    Forall (fun l => starts_hyphen l = false) ls /\ ends_hyphen m = false /\
    Forall (fun l => fine_label spacing_mark l = true) ls /\
    Forall (fun e => Forall host_char e /\ zlen e <= 63) es /\
    zlen (join_dots es) <= 253 /\ (last (join_dots es) 0 <> 46 -> zlen (join_dots es) <= 252).
Proof.
  intros Sc Sm H. unfold host_answer, answer in H. destruct (zlen (encs m) >? 254) eqn:E1; [discriminate|].
  destruct (zlen m =? 0) eqn:E2; [discriminate|]. destruct H as (ls & es & Lb & A & R).
  destruct (judge spacing_mark (ends_hyphen m) 0 ls es) eqn:J; try discriminate. injection R as ->.
  assert (join_dots ls <> []) as NJ by (destruct Lb as (_ & _ & <-); intros ->; discriminate).
  apply (judge_good idna_library spacing_mark real_category ls es (ends_hyphen m) 0 A NJ) in J. destruct J as (Eh & G & Fl).
  exists ls, es. split; [exact Lb|].
  destruct Lb as (Nl & Dl & El).
  assert (Forall (Forall (fun c => ascii_lower c = c)) ls) as Sl by (apply join_sub; rewrite <- El; exact Sm).
  assert (Forall (Forall (fun c => 0 <= c)) ls) as Pl.
  { apply join_sub. rewrite <- El. eapply Forall_impl; [|exact Sc]. unfold scalar. intros; lia. }
  pose proof (chars_all spacing_mark ls es Pl G A) as Ch.
  assert (es <> []) as Ne by (intros ->; inversion G; subst; congruence).
  split; [|split; [reflexivity|split; [|split; [|split; [exact Eh|split; [|split; [|split]]]]]]].
  - apply (Forall2_map2 (fun l e => fine_label spacing_mark l = true -> ace l e) (good_label spacing_mark) encoded_label _ ls es
      (fun l e S P Q => ace_encoded l e S (P (proj1 (proj2 Q)))) Sl A G).
  - split; [exact Ne|]. split; [|reflexivity]. eapply Forall_impl; [|exact Ch]. intros e He I.
    rewrite Forall_forall in He. specialize (He 46 I). unfold name_char, lower_alnum in He. lia.
  - clear - G. induction G as [|l e ls es (H & _) _ IH]; constructor; assumption.
  - clear - G. induction G as [|l e ls es (_ & H & _) _ IH]; constructor; assumption.
  - clear - G Ch. induction G as [|l e ls es (_ & _ & H) _ IH]; [constructor|]. inversion_clear Ch as [|? ? C1 C2].
    constructor; [split; [eapply Forall_impl; [|exact C1]; exact name_host|exact H]|apply IH; exact C2].
  - unfold full_length in Fl. destruct (last es [1]); lia.
  - intros K. unfold full_length in Fl. destruct (last es [1]) as [|x y] eqn:El'; [|lia].
    destruct (join_dots es) as [|x y] eqn:Ej; [change (zlen (@nil Z)) with 0; lia|].
    destruct (join_final es Ne El') as (a & Ea); [rewrite Ej; discriminate|]. rewrite Ej in Ea. rewrite Ea in K. rewrite last_last in K. congruence.
Qed.

Lemma replaced_scalar c l : scalar c -> replaced c l -> Forall scalar l.
Proof.
  intros S [m H|m H|m H|l' H]; [constructor; [exact S|constructor]..|constructor|].
  pose proof (fine_of _ _ _ H) as [F _]. eapply Forall_impl; [|exact F]. intros x K. apply K.
Qed.
Lemma mapped_scalar t m : Forall scalar t -> mapped_name t m -> Forall scalar m.
Proof.
  intros S (parts & F & ->). induction F as [|c l t parts R _ IH]; [constructor|]. inversion_clear S as [|? ? S1 S2]. cbn [concat].
  apply Forall_app. split; [exact (replaced_scalar c l S1 R)|exact (IH S2)].
Qed.
Lemma normalized_scalar s t : normalized s t -> Forall scalar t.
Proof.
  intros (cps & a & E & N & _ & C). apply encodes_scalar in E.
  assert (Forall scalar a) as S by (destruct C as [<-|(b & ->)]; [exact E|apply Forall_app in E; tauto]).
  apply nfc_iff in N as ->. apply composed_scalar, osort_forall, fds_scalars, S.
Qed.

Section Real2.
Variables (junk : nat -> Z) (r : recomposer) (h : hangul_recomposer) (errno : Z).
Hypothesis r_size : zlen (r_ccs r) = 100.
Notation idna s := (charstr_idna_encode junk r h errno s).

Lemma real_success s q out : text s -> ~ ascii s -> 3 * zlen s + 1 < 2 ^ 64 -> idna (s ++ 0 :: q) = Ok (Some out) ->
  exists t m ls es, normalized s t /\ mapped_name t m /\ labels m ls /\ Forall2 encoded_label ls es /\ out = join_dots es ++ [0] /\ labels (join_dots es) es /\
    Forall (fun l => starts_hyphen l = false) ls /\ ends_hyphen m = false /\
    Forall (fun l => fine_label spacing_mark l = true) ls /\
    Forall (fun e => Forall host_char e /\ zlen e <= 63) es /\
    zlen (join_dots es) <= 253 /\ (last (join_dots es) 0 <> 46 -> zlen (join_dots es) <= 252).
Proof.
  intros T A L R. destruct (real_cases junk r h errno r_size s q T A L) as [K|(t & m & N & M & K)]; [congruence|]. rewrite R in K.
  destruct (success m out (mapped_scalar t m (normalized_scalar s t N) M) (mapped_small t m M) K) as (ls & es & H). exists t, m, ls, es. split; [exact N|split; [exact M|exact H]].
Qed.

Lemma real_safe s q : text s -> 3 * zlen s + 1 < 2 ^ 64 ->
  (exists o, idna (s ++ 0 :: q) = Ok o) \/
  ~ ascii s /\ exists t m, normalized s t /\ mapped_name t m /\
    ((m = [] /\ idna (s ++ 0 :: q) = UB) \/
     (idna (s ++ 0 :: q) = Abort /\ exists ls l, labels m ls /\ In l ls /\ ascii l /\ zlen l > 63)).
Proof.
  intros T L. destruct (forallb (fun c => c <? 128) s) eqn:Ea.
  { left. eexists. apply (idna_ascii idna_library spacing_mark real_category junk image image_ok); [exact T| |pose proof (zlen_nonneg s); lia].
    apply Forall_forall. rewrite forallb_forall in Ea. intros x I. specialize (Ea x I). lia. }
  assert (~ ascii s) as A.
  { intros K. apply not_true_iff_false in Ea. apply Ea. apply forallb_forall. unfold ascii in K. rewrite Forall_forall in K. intros x I. specialize (K x I). cbv beta in K. lia. }
  destruct (real_cases junk r h errno r_size s q T A L) as [K|(t & m & N & M & K)]; [left; eauto|].
  unfold host_answer, answer in K. destruct (zlen (encs m) >? 254); [left; eauto|]. destruct (zlen m =? 0) eqn:E0.
  { right. split; [exact A|]. exists t, m. split; [exact N|]. split; [exact M|]. left. split; [apply zlen_0_nil; lia|exact K]. }
  destruct K as (ls & es & Lb & Ac & K). destruct (judge spacing_mark (ends_hyphen m) 0 ls es) eqn:J; [left; eauto|left; eauto|].
  right. split; [exact A|]. exists t, m. split; [exact N|]. split; [exact M|]. right. split; [exact K|].
  destruct (judge_crash idna_library spacing_mark real_category ls es _ _ Ac J) as (_ & l & I & Al & _ & Ll). exists ls, l. split; [exact Lb|]. split; [exact I|]. split; [|exact Ll].
  apply Forall_forall. unfold all_ascii in Al. rewrite forallb_forall in Al. intros x Ix. specialize (Al x Ix). lia.
Qed.
End Real2.

(** * A library for examples, of a few codepoints *)

Definition few : Type := list (Z * (status * option (list Z) * category)).
Fixpoint find_few (rows : few) (c : Z) : option (status * option (list Z) * category) :=
  match rows with
  | [] => None
  | (c', e) :: rows => if c =? c' then Some e else find_few rows c
  end.
Definition ask {A} (rows : few) (f : status * option (list Z) * category -> A) (c : Z) : res A :=
  match find_few rows c with Some e => Ok (f e) | None => UB end.
Definition few_library (rows : few) : library := {|
  is_valid := ask rows (fun e => status_eqb (fst (fst e)) Valid);
  is_deviation := ask rows (fun e => status_eqb (fst (fst e)) Deviation);
  is_ignored := ask rows (fun e => status_eqb (fst (fst e)) Ignored);
  is_mapped := ask rows (fun e => status_eqb (fst (fst e)) Mapped);
  mapping := ask rows (fun e => mapping_of (snd (fst e)));
  unicode_category_of := ask rows (fun e => snd e) |}.
Definition few_right (rows : few) : Prop :=
  Forall (fun '(c, (st, m, k)) => says idna_data c st m /\ lost c = false /\ charstr_unicode_category c = Ok k) rows.
Lemma find_few_right rows c e : few_right rows -> find_few rows c = Some e ->
  says idna_data c (fst (fst e)) (snd (fst e)) /\ lost c = false /\ charstr_unicode_category c = Ok (snd e).
Proof.
  intros F. induction F as [|[c' [[st m] k]] rows H _ IH]; [discriminate|]. cbn [find_few]. destruct (Z.eqb_spec c c') as [->|].
  - intros E. injection E as <-. exact H.
  - exact IH.
Qed.
Lemma few_le rows : few_right rows -> lib_le (few_library rows) idna_library.
Proof.
  intros F.
  assert (G : forall st' c, le (ask rows (fun e => status_eqb (fst (fst e)) st') c) (flag st' c)).
  { intros st' c. unfold ask. destruct (find_few rows c) as [e|] eqn:E; [|left; reflexivity]. right.
    destruct (find_few_right rows c e F E) as (S & L & _). rewrite (flag_ok _ _ _ _ S), L, andb_true_r. reflexivity. }
  constructor.
  - exact (G Valid).
  - exact (G Deviation).
  - exact (G Ignored).
  - exact (G Mapped).
  - intros c. cbn [mapping few_library idna_library]. unfold ask. destruct (find_few rows c) as [e|] eqn:E; [|left; reflexivity]. right.
    destruct (find_few_right rows c e F E) as (S & _). rewrite (mapping_ok _ _ _ S). reflexivity.
  - intros c. cbn [unicode_category_of few_library idna_library]. unfold ask. destruct (find_few rows c) as [e|] eqn:E; [|left; reflexivity]. right.
    destruct (find_few_right rows c e F E) as (_ & _ & K). rewrite K. reflexivity.
Qed.
Lemma few_encode rows junk r h errno s x : few_right rows -> idna_encode (few_library rows) junk r h errno s = x -> x <> UB ->
  charstr_idna_encode junk r h errno s = x.
Proof.
  intros F E N. destruct (idna_encode_le _ _ (few_le rows F) junk r h errno s) as [K|K]; [congruence|]. unfold charstr_idna_encode. congruence.
Qed.
Lemma few_row c st m k : lookup idna_data c = Some (st, m) -> lost c = false -> assigned category_data c k ->
  says idna_data c st m /\ lost c = false /\ charstr_unicode_category c = Ok k.
Proof.
  intros E L A. split; [exact (says_data c (st, m) E)|]. split; [exact L|]. exact (C68_category_partial category_data c k (proj1 the_file) A).
Qed.
Lemma short_not_crowded t : zlen t <= 100 -> ~ crowded t.
Proof.
  intros L (pre & l & mid & post & -> & _ & _ & K). rewrite zlen_app, zlen_cons, zlen_app in L.
  pose proof (zlen_nonneg pre). pose proof (zlen_nonneg post). lia.
Qed.
