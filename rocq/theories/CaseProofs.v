(** Proofs about the simple case conversions of Unicode codepoints. *)
From Verif Require Import Base CategoryModel CategoryProofs CaseModel CaseData Ptree CharstrModel.
From Coq Require Import ZifyBool ZifyNat.

Definition codepoints (rows : list case_row) : list Z := map (fun '(cp, _, _, _) => cp) rows.

(** * Any file *)

Lemma switch_in cases cp v : NoDup (map fst cases) -> In (cp, v) cases -> switch cases cp = v.
Proof.
  induction cases as [|[l w] cases IH]; intros D I; [destruct I|]. cbn [map fst] in D. inversion D as [|? ? N D']; subst.
  cbn [switch]. destruct I as [[= -> ->]|I]; [rewrite Z.eqb_refl; reflexivity|].
  destruct (Z.eqb_spec cp l) as [->|]; [|apply IH; assumption].
  destruct N. apply (in_map fst) in I. exact I.
Qed.
Lemma switch_out cases cp : (forall v, ~ In (cp, v) cases) -> switch cases cp = cp.
Proof.
  induction cases as [|[l w] cases IH]; intros N; [reflexivity|]. cbn [switch].
  destruct (Z.eqb_spec cp l) as [->|]; [destruct (N w); left; reflexivity|].
  apply IH. intros v I. apply (N v). right. exact I.
Qed.

Lemma lower_in rows cp l : In (cp, l) (lower_cases rows) <-> exists u, In (cp, Lu, u, Some l) rows.
Proof.
  induction rows as [|[[[c k] u] lo] rows IH]; cbn [lower_cases].
  - split; [intros []|intros (u & [])].
  - rewrite in_app_iff, IH. split.
    + intros [I|(u' & I)]; [|exists u'; right; exact I].
      destruct (category_eqb k Lu) eqn:E; [|destruct I]. apply category_eqb_eq in E. subst k.
      destruct lo as [l'|]; [|destruct I]. destruct I as [[= -> ->]|[]]. exists u. left. reflexivity.
    + intros (u' & [E|I]); [|right; exists u'; exact I]. left. injection E as -> -> -> ->.
      cbn. left. reflexivity.
Qed.
Lemma upper_in rows cp l : In (cp, l) (upper_cases rows) <-> exists o, In (cp, Ll, Some l, o) rows.
Proof.
  induction rows as [|[[[c k] u] lo] rows IH]; cbn [upper_cases].
  - split; [intros []|intros (u & [])].
  - rewrite in_app_iff, IH. split.
    + intros [I|(u' & I)]; [|exists u'; right; exact I].
      destruct (category_eqb k Ll) eqn:E; [|destruct I]. apply category_eqb_eq in E. subst k.
      destruct u as [l'|]; [|destruct I]. destruct I as [[= -> ->]|[]]. exists lo. left. reflexivity.
    + intros (u' & [E|I]); [|right; exists u'; exact I]. left. injection E as -> -> -> ->.
      cbn. left. reflexivity.
Qed.

Lemma lower_sub rows cp l : In (cp, l) (lower_cases rows) -> In cp (codepoints rows).
Proof. intros I. apply lower_in in I. destruct I as (u & I). apply (in_map (fun '(cp, _, _, _) => cp)) in I. exact I. Qed.
Lemma upper_sub rows cp l : In (cp, l) (upper_cases rows) -> In cp (codepoints rows).
Proof. intros I. apply upper_in in I. destruct I as (u & I). apply (in_map (fun '(cp, _, _, _) => cp)) in I. exact I. Qed.

Lemma lower_nodup rows : NoDup (codepoints rows) -> NoDup (map fst (lower_cases rows)).
Proof.
  induction rows as [|[[[c k] u] lo] rows IH]; cbn [lower_cases codepoints map]; intros D; [constructor|].
  inversion D as [|? ? N D']; subst. specialize (IH D').
  destruct (category_eqb k Lu), lo as [l|]; cbn [app map fst]; try exact IH.
  constructor; [|exact IH]. intros I. apply in_map_iff in I. destruct I as ([x y] & E & I). cbn in E. subst x.
  apply N. apply (lower_sub _ _ _ I).
Qed.
Lemma upper_nodup rows : NoDup (codepoints rows) -> NoDup (map fst (upper_cases rows)).
Proof.
  induction rows as [|[[[c k] u] lo] rows IH]; cbn [upper_cases codepoints map]; intros D; [constructor|].
  inversion D as [|? ? N D']; subst. specialize (IH D').
  destruct (category_eqb k Ll), u as [l|]; cbn [app map fst]; try exact IH.
  constructor; [|exact IH]. intros I. apply in_map_iff in I. destruct I as ([x y] & E & I). cbn in E. subst x.
  apply N. apply (upper_sub _ _ _ I).
Qed.

Lemma lcase_row rows cp u l :
  NoDup (codepoints rows) -> In (cp, Lu, u, Some l) rows -> naive_lcase_unicode rows cp = l.
Proof. intros D I. apply switch_in; [apply lower_nodup; exact D|]. apply lower_in. exists u. exact I. Qed.
Lemma lcase_other rows cp :
  (forall u l, ~ In (cp, Lu, u, Some l) rows) -> naive_lcase_unicode rows cp = cp.
Proof. intros N. apply switch_out. intros v I. apply lower_in in I. destruct I as (u & I). exact (N u v I). Qed.
Lemma ucase_row rows cp u l :
  NoDup (codepoints rows) -> In (cp, Ll, Some u, l) rows -> naive_ucase_unicode rows cp = u.
Proof. intros D I. apply switch_in; [apply upper_nodup; exact D|]. apply upper_in. exists l. exact I. Qed.
Lemma ucase_other rows cp :
  (forall u l, ~ In (cp, Ll, Some u, l) rows) -> naive_ucase_unicode rows cp = cp.
Proof. intros N. apply switch_out. intros v I. apply upper_in in I. destruct I as (u & I). exact (N v u I). Qed.

(** * The file of the repository *)

Fixpoint ascendingb (lo : Z) (l : list Z) : bool :=
  match l with [] => true | x :: l => (lo <? x) && ascendingb x l end.
Lemma ascending_low lo l : ascendingb lo l = true -> forall x, In x l -> lo < x.
Proof.
  revert lo. induction l as [|y l IH]; intros lo H x I; [destruct I|]. cbn in H. apply andb_prop in H as [H H'].
  destruct I as [->|I]; [lia|]. specialize (IH y H' x I). lia.
Qed.
Lemma ascending_nodup lo l : ascendingb lo l = true -> NoDup l.
Proof.
  revert lo. induction l as [|y l IH]; intros lo H; constructor; cbn in H; apply andb_prop in H as [H H'].
  - intros I. pose proof (ascending_low y l H' y I). lia.
  - apply (IH y H').
Qed.

Lemma case_data_nodup : NoDup (codepoints case_data).
Proof. apply (ascending_nodup 0). vm_compute. reflexivity. Qed.

(** The switch statement as a search tree. *)
Definition find (t : ptree Z) (cp : Z) : Z := match zget cp t with Some v => v | None => cp end.
Lemma switch_tree (cases : list (Z * Z)) : Forall (fun c => 0 < fst c) cases -> forall cp, switch cases cp = find (tree_of cases) cp.
Proof.
  unfold find. induction 1 as [|[l v] cases P F IH]; intros cp; cbn [switch tree_of].
  - rewrite zget_leaf. reflexivity.
  - cbn in P. destruct (Z.eqb_spec cp l) as [->|N]; [rewrite zget_same by exact P; reflexivity|].
    rewrite zget_other by exact N. apply IH.
Qed.
Lemma positive_keys (cases : list (Z * Z)) : forallb (fun c => 0 <? fst c) cases = true -> Forall (fun c => 0 < fst c) cases.
Proof. intros H. apply Forall_forall. intros c I. apply (proj1 (forallb_forall _ _) H) in I. lia. Qed.

Definition lower_tree : ptree Z := Eval vm_compute in tree_of (lower_cases case_data).
Definition upper_tree : ptree Z := Eval vm_compute in tree_of (upper_cases case_data).
Lemma lcase_find cp : naive_lcase_unicode case_data cp = find lower_tree cp.
Proof.
  unfold naive_lcase_unicode. rewrite switch_tree.
  - replace (tree_of (lower_cases case_data)) with lower_tree by (vm_compute; reflexivity). reflexivity.
  - apply positive_keys. vm_compute. reflexivity.
Qed.
Lemma ucase_find cp : naive_ucase_unicode case_data cp = find upper_tree cp.
Proof.
  unfold naive_ucase_unicode. rewrite switch_tree.
  - replace (tree_of (upper_cases case_data)) with upper_tree by (vm_compute; reflexivity). reflexivity.
  - apply positive_keys. vm_compute. reflexivity.
Qed.

(** A statement about all labels and values. *)
Lemma switch_dec cases cp : (exists v, In (cp, v) cases /\ switch cases cp = v) \/ switch cases cp = cp.
Proof.
  induction cases as [|[l v] cases IH]; [right; reflexivity|]. cbn [switch].
  destruct (Z.eqb_spec cp l) as [->|]; [left; exists v; split; [left|]; reflexivity|].
  destruct IH as [(w & I & E)|E]; [left; exists w; split; [right|]; assumption|right; exact E].
Qed.

Lemma lcase_targets : forallb (fun '(cp, l) => (find lower_tree l =? l) && (0 <? l) && (l <=? 0x10FFFF)
    && (cp <=? 0x10FFFF)) (lower_cases case_data) = true.
Proof. vm_compute. reflexivity. Qed.
Lemma ucase_targets : forallb (fun '(cp, l) => (find upper_tree l =? l) && (0 <? l) && (l <=? 0x10FFFF)
    && (cp <=? 0x10FFFF)) (upper_cases case_data) = true.
Proof. vm_compute. reflexivity. Qed.

Lemma lcase_twice cp : naive_lcase_unicode case_data (naive_lcase_unicode case_data cp) = naive_lcase_unicode case_data cp.
Proof.
  destruct (switch_dec (lower_cases case_data) cp) as [(v & I & E)|E].
  - unfold naive_lcase_unicode at 2 3. rewrite E. rewrite lcase_find.
    apply (proj1 (forallb_forall _ _) lcase_targets) in I. cbv beta iota in I. lia.
  - unfold naive_lcase_unicode at 2 3. rewrite E. exact E.
Qed.
Lemma ucase_twice cp : naive_ucase_unicode case_data (naive_ucase_unicode case_data cp) = naive_ucase_unicode case_data cp.
Proof.
  destruct (switch_dec (upper_cases case_data) cp) as [(v & I & E)|E].
  - unfold naive_ucase_unicode at 2 3. rewrite E. rewrite ucase_find.
    apply (proj1 (forallb_forall _ _) ucase_targets) in I. cbv beta iota in I. lia.
  - unfold naive_ucase_unicode at 2 3. rewrite E. exact E.
Qed.

Lemma lcase_range cp : 0 <= cp <= 0x10FFFF -> 0 <= naive_lcase_unicode case_data cp <= 0x10FFFF.
Proof.
  intros R. unfold naive_lcase_unicode. destruct (switch_dec (lower_cases case_data) cp) as [(v & I & E)|E]; rewrite E; [|exact R].
  apply (proj1 (forallb_forall _ _) lcase_targets) in I. cbv beta iota in I. lia.
Qed.
Lemma ucase_range cp : 0 <= cp <= 0x10FFFF -> 0 <= naive_ucase_unicode case_data cp <= 0x10FFFF.
Proof.
  intros R. unfold naive_ucase_unicode. destruct (switch_dec (upper_cases case_data) cp) as [(v & I & E)|E]; rewrite E; [|exact R].
  apply (proj1 (forallb_forall _ _) ucase_targets) in I. cbv beta iota in I. lia.
Qed.

Definition odd_capitals : list Z := [0x130; 0x3f4; 0x1e9e; 0x2126; 0x212a; 0x212b].
Lemma there_and_back : forallb (fun '(cp, l) => (find upper_tree l =? cp) || existsb (Z.eqb cp) odd_capitals)
  (lower_cases case_data) = true.
Proof. vm_compute. reflexivity. Qed.
Lemma case_round_trip cp u l : In (cp, Lu, u, Some l) case_data -> ~ In cp odd_capitals ->
  naive_ucase_unicode case_data (naive_lcase_unicode case_data cp) = cp.
Proof.
  intros I O. rewrite (lcase_row _ _ _ _ case_data_nodup I). rewrite ucase_find.
  assert (In (cp, l) (lower_cases case_data)) as I' by (apply lower_in; exists u; exact I).
  apply (proj1 (forallb_forall _ _) there_and_back) in I'. cbv beta iota in I'. apply orb_prop in I' as [E|E]; [lia|].
  apply existsb_exists in E. destruct E as (x & Ix & Ex). apply Z.eqb_eq in Ex. subst x. destruct (O Ix).
Qed.

Lemma ascii_check : forallb (fun i => let cp := Z.of_nat i in
  (find lower_tree cp =? charstr_lcase_char cp) && (find upper_tree cp =? charstr_ucase_char cp)) (seq 0 128) = true.
Proof. vm_compute. reflexivity. Qed.
Lemma ascii_agrees cp : 0 <= cp < 128 ->
  naive_lcase_unicode case_data cp = charstr_lcase_char cp /\ naive_ucase_unicode case_data cp = charstr_ucase_char cp.
Proof.
  intros R. rewrite lcase_find, ucase_find.
  assert (In (Z.to_nat cp) (seq 0 128)) as I by (apply in_seq; lia).
  apply (proj1 (forallb_forall _ _) ascii_check) in I. cbv beta iota zeta in I. rewrite Z2Nat.id in I by lia. lia.
Qed.

(** Rows of the file, for the examples. *)
Definition row_eqb (x y : case_row) : bool :=
  let opt o p := match o, p with Some a, Some b => a =? b | None, None => true | _, _ => false end in
  let '(a, c, u, l) := x in let '(a', c', u', l') := y in
  (a =? a') && category_eqb c c' && opt u u' && opt l l'.
Lemma row_in r rows : existsb (row_eqb r) rows = true -> In r rows.
Proof.
  intros H. apply existsb_exists in H as (x & I & E). replace r with x; [exact I|].
  destruct r as [[[a c] u] l], x as [[[a' c'] u'] l']. unfold row_eqb in E.
  apply andb_prop in E as [E E4]. apply andb_prop in E as [E E3]. apply andb_prop in E as [E1 E2].
  apply Z.eqb_eq in E1. apply category_eqb_eq in E2. subst a' c'.
  replace u' with u by (destruct u, u'; try discriminate; f_equal; lia).
  replace l' with l by (destruct l, l'; try discriminate; f_equal; lia). reflexivity.
Qed.
