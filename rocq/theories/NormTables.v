(** The Unicode tables: the functions of NormModel.v against the relations of
    NormSpec.v, and facts about the data of unicode/ that are checked by
    computation. *)
From Verif Require Import Base UcdData NormModel NormSpec Utf8Spec Ptree.
From Coq Require Import ZifyBool ZifyNat.

(** * Association lists with increasing keys *)

Fixpoint increasing_keys {A} (low : Z) (rows : list (Z * A)) : bool :=
  match rows with
  | [] => true
  | (k, _) :: rows => (low <? k) && increasing_keys k rows
  end.

Lemma keys_above {A} (rows : list (Z * A)) : forall low k a, increasing_keys low rows = true -> In (k, a) rows -> low < k.
Proof.
  induction rows as [|[k' a'] rows IH]; intros low k a H; [intros []|]. cbn in H. apply andb_prop in H as [H1 H2].
  intros [E|I]; [injection E as -> _; lia|]. pose proof (IH _ _ _ H2 I). lia.
Qed.
Lemma switch_in {A} (rows : list (Z * A)) : forall k a, switch rows k = Some a -> In (k, a) rows.
Proof.
  induction rows as [|[k' a'] rows IH]; intros k a H; [discriminate|]. cbn [switch] in H. destruct (k =? k') eqn:E.
  - injection H as ->. left. f_equal. lia.
  - right. auto.
Qed.
Lemma in_switch {A} (rows : list (Z * A)) : forall low k a, increasing_keys low rows = true -> In (k, a) rows -> switch rows k = Some a.
Proof.
  induction rows as [|[k' a'] rows IH]; intros low k a H; [intros []|]. cbn in H. apply andb_prop in H as [H1 H2]. cbn [switch].
  intros [E|I]; [injection E as -> ->; rewrite Z.eqb_refl; reflexivity|]. pose proof (keys_above rows _ _ _ H2 I).
  replace (k =? k') with false by lia. eapply IH; eauto.
Qed.
Lemma not_in_switch {A} (rows : list (Z * A)) k : (forall a, ~ In (k, a) rows) -> switch rows k = None.
Proof. intros H. destruct (switch rows k) eqn:E; [|reflexivity]. apply switch_in in E. destruct (H a E). Qed.
Lemma switch_tree {A} (rows : list (Z * A)) k : 0 < k -> switch rows k = zget k (tree_of rows).
Proof.
  intros P. induction rows as [|[k' a'] rows IH]; cbn [switch tree_of]; [symmetry; apply zget_leaf|].
  destruct (k =? k') eqn:E.
  - assert (k = k') by lia. subst. rewrite zget_same by exact P. reflexivity.
  - rewrite zget_other by lia. exact IH.
Qed.
Lemma switch_nonpos {A} (rows : list (Z * A)) k : increasing_keys 0 rows = true -> k <= 0 -> switch rows k = None.
Proof. intros H L. apply not_in_switch. intros a I. pose proof (keys_above rows 0 k a H I). lia. Qed.
Lemma switch_zget {A} (rows : list (Z * A)) k : increasing_keys 0 rows = true -> switch rows k = zget k (tree_of rows).
Proof.
  intros H. destruct (Z_lt_le_dec 0 k) as [P|P]; [apply switch_tree; exact P|]. rewrite switch_nonpos by assumption. destruct k; [reflexivity|lia|reflexivity].
Qed.

(** * Combining classes *)

Notation ccc := charstr_unicode_canonical_combining_class.

Lemma ccc_keys : increasing_keys 0 ccc_data = true.
Proof. vm_compute. reflexivity. Qed.
Lemma ccc_positive : forallb (fun '(_, c) => 0 <? c) ccc_data = true.
Proof. vm_compute. reflexivity. Qed.

Lemma class_ccc cp c : class cp c <-> ccc cp = c.
Proof.
  unfold class, ccc. split.
  - intros [I|[-> N]]; [rewrite (in_switch _ _ _ _ ccc_keys I); reflexivity|rewrite (not_in_switch _ _ N); reflexivity].
  - destruct (switch ccc_data cp) as [d|] eqn:E; intros <-.
    + left. apply switch_in. exact E.
    + right. split; [reflexivity|]. intros d I. rewrite (in_switch _ _ _ _ ccc_keys I) in E. discriminate.
Qed.
Lemma ccc_nonneg cp : 0 <= ccc cp.
Proof.
  unfold ccc. destruct (switch ccc_data cp) as [d|] eqn:E; [|lia]. apply switch_in in E.
  pose proof (proj1 (forallb_forall _ _) ccc_positive _ E) as H. cbn in H. lia.
Qed.
Definition ccc_tree : ptree Z := tree_of ccc_data.
Definition ccc_t (cp : Z) : Z := match zget cp ccc_tree with Some c => c | None => 0 end.
Lemma ccc_t_ok cp : ccc_t cp = ccc cp.
Proof. unfold ccc_t, ccc, ccc_tree. rewrite (switch_zget _ _ ccc_keys). reflexivity. Qed.

(** Hangul has no combining characters. *)
Definition hangul (cp : Z) : bool :=
  ((0x1100 <=? cp) && (cp <? 0x1100 + 19)) || ((0x1161 <=? cp) && (cp <? 0x1161 + 21)) ||
  ((0x11A7 <=? cp) && (cp <? 0x11A7 + 28)) || ((0xAC00 <=? cp) && (cp <? 0xAC00 + 19 * 21 * 28)).
Lemma ccc_hangul_check : forallb (fun '(k, _) => negb (hangul k)) ccc_data = true.
Proof. vm_compute. reflexivity. Qed.
Lemma ccc_hangul cp : hangul cp = true -> ccc cp = 0.
Proof.
  intros H. unfold ccc. destruct (switch ccc_data cp) as [d|] eqn:E; [|reflexivity]. apply switch_in in E.
  pose proof (proj1 (forallb_forall _ _) ccc_hangul_check _ E) as K. cbn in K. rewrite H in K. discriminate.
Qed.

(** * Decompositions *)

Lemma decomposition_keys : increasing_keys 0 decomposition_data = true.
Proof. vm_compute. reflexivity. Qed.
Definition scalar_b (cp : Z) : bool := ((0 <? cp) && (cp <=? 0xd7ff)) || ((0xe000 <=? cp) && (cp <=? 0x10ffff)).
Lemma decomposition_check : forallb (fun '(k, d) => scalar_b k && negb (hangul k) && forallb (fun c => scalar_b c && negb (hangul c)) d &&
  negb (match d with [] => true | _ => false end)) decomposition_data = true.
Proof. vm_compute. reflexivity. Qed.

Definition is_syllable (cp : Z) : bool := (0xAC00 <=? cp) && (cp <? 0xAC00 + 19 * 21 * 28).
Definition syllable_jamo (cp : Z) : list Z :=
  let i := cp - 0xAC00 in jamo (i / (21 * 28)) (i mod (21 * 28) / 28) (i mod 28).

(** The full decomposition as a function. *)
Fixpoint full (n : nat) (cp : Z) : list Z :=
  match n with
  | O => [cp]
  | S n =>
      match switch decomposition_data cp with
      | Some d => flat_map (full n) d
      | None => if is_syllable cp then syllable_jamo cp else [cp]
      end
  end.
Definition depth : nat := 4.

Definition decomposition_tree : ptree (list Z) := tree_of decomposition_data.
Fixpoint full_t (n : nat) (cp : Z) : list Z :=
  match n with
  | O => [cp]
  | S n =>
      match zget cp decomposition_tree with
      | Some d => flat_map (full_t n) d
      | None => if is_syllable cp then syllable_jamo cp else [cp]
      end
  end.
Lemma full_t_ok n : forall cp, full_t n cp = full n cp.
Proof.
  induction n as [|n IH]; intros cp; [reflexivity|]. cbn [full_t full]. unfold decomposition_tree. rewrite <- (switch_zget _ _ decomposition_keys).
  destruct (switch decomposition_data cp); [|reflexivity]. apply flat_map_ext. exact IH.
Qed.

(** No decomposition is left after [depth] levels. *)
Definition stable_t (n : nat) (cp : Z) : bool :=
  forallb (fun x => match zget x decomposition_tree with Some _ => false | None => negb (is_syllable x) end) (full_t n cp).
Definition width (cp : Z) : Z := if cp <? 0x80 then 1 else if cp <? 0x800 then 2 else if cp <? 0x10000 then 3 else 4.
Definition total (l : list Z) : Z := fold_right (fun c n => width c + n) 0 l.
Lemma full_check : forallb (fun '(k, d) => stable_t 4 k && (total (full_t 4 k) <=? 3 * width k)) decomposition_data = true.
Proof. vm_compute. reflexivity. Qed.

(** * Composites *)

Definition composite_key (l c : Z) : Z := l * 0x200000 + c.
Definition composite_tree : ptree Z := tree_of (map (fun '(c, l, p) => (composite_key l c, p)) recompositions).
Definition composite_t (l c : Z) : option Z := zget (composite_key l c) composite_tree.
Lemma composite_check : forallb (fun '(c, l, p) =>
    (0 <? c) && (c <? 0x200000) && (0 <? l) && (0 <=? p) &&
    match composite_t l c with Some q => q =? p | None => false end &&
    negb (hangul l) && negb (hangul c) && negb (hangul p) &&
    (width p <=? width l + width c) && scalar_b p &&
    (negb (ccc_t l =? 0) || (ccc_t p =? 0)) &&
    match zget c decomposition_tree with Some _ => false | None => true end) recompositions = true.
Proof. vm_compute. reflexivity. Qed.

(** * Quick checks *)

Definition small_ranges (rows : list (Z * Z * bool)) : list (Z * Z) :=
  flat_map (fun '(a, b, _) => if b - a <? 1000 then [(a, b)] else []) rows.
Definition nfd_qc_tree : ptree unit := ranges_tree (small_ranges nfd_qc_data).
Definition nfc_qc_tree : ptree unit := ranges_tree (small_ranges nfc_qc_data).
Definition some {A} (o : option A) : bool := match o with Some _ => true | None => false end.

Lemma nfd_qc_check : forallb (fun '(k, _) => some (zget k nfd_qc_tree)) decomposition_data = true.
Proof. vm_compute. reflexivity. Qed.
Lemma nfd_qc_hangul : existsb (fun '(a, b, _) => (a =? 0xAC00) && (b =? 0xAC00 + 19 * 21 * 28 - 1)) nfd_qc_data = true.
Proof. vm_compute. reflexivity. Qed.
Lemma nfc_qc_seconds : forallb (fun '(c, l, p) => negb (ccc_t l =? 0) || some (zget c nfc_qc_tree)) recompositions = true.
Proof. vm_compute. reflexivity. Qed.
Lemma nfc_qc_hangul :
  existsb (fun '(a, b, _) => (a =? 0x1161) && (b =? 0x1161 + 21 - 1)) nfc_qc_data &&
  existsb (fun '(a, b, _) => (a =? 0x11A7 + 1) && (b =? 0x11A7 + 28 - 1)) nfc_qc_data &&
  forallb (fun '(a, b, _) => (b <? 0x1100) || (0x1100 + 19 <=? a)) nfc_qc_data = true.
Proof. vm_compute. reflexivity. Qed.

Fixpoint nondecreasing_t (last : Z) (l : list Z) : bool :=
  match l with
  | [] => true
  | c :: l => (last <=? ccc_t c) && nondecreasing_t (ccc_t c) l
  end.
Definition join_t (o : option Z) (c : Z) : option Z := match o with Some l => composite_t l c | None => None end.
Definition recomposes_t (cp : Z) : bool :=
  (ccc_t cp =? 0) &&
  match full_t 4 cp with
  | [] => false
  | d :: t => (ccc_t d =? 0) && negb (some (zget d nfc_qc_tree)) && nondecreasing_t 0 t &&
      match fold_left join_t t (Some d) with Some p => p =? cp | None => false end
  end.
Lemma nfc_qc_check : forallb (fun '(k, _) => some (zget k nfc_qc_tree) || recomposes_t k) decomposition_data = true.
Proof. vm_compute. reflexivity. Qed.
