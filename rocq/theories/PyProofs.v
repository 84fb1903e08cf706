(** Lemmas about the part of Python in PyModel.v. *)
From Verif Require Import Base PyModel CharstrSpec CharstrProofs IdnaTextSpec IdnaTextProofs UcdTextSpec.
From Coq Require Import ZifyBool String List.
Open Scope list_scope.
Open Scope Z_scope.

Lemma py_eq_ok a : forall b, py_eq a b = true <-> a = b.
Proof.
  induction a as [|x a IH]; intros [|y b]; cbn [py_eq]; try (split; congruence).
  rewrite andb_true_iff, IH, Z.eqb_eq. split; [intros [-> ->]; reflexivity|intros E; injection E; auto].
Qed.
Lemma py_eq_refl a : py_eq a a = true.
Proof. apply py_eq_ok. reflexivity. Qed.
Lemma py_eq_no a b : a <> b -> py_eq a b = false.
Proof. intros N. destruct (py_eq a b) eqn:E; [|reflexivity]. apply py_eq_ok in E. contradiction. Qed.

(** * Blanks *)
Lemma blank_space c : blank c -> py_space c = true.
Proof. unfold blank, py_space. lia. Qed.
Definition solid (s : list Z) : Prop := Forall (fun c => py_space c = false) s.
Definition spaces (s : list Z) : Prop := Forall (fun c => py_space c = true) s.
Lemma blank_spaces s : Forall blank s -> spaces s.
Proof. apply Forall_impl, blank_space. Qed.
Lemma lstrip_spaces w s : spaces w -> py_lstrip (w ++ s) = py_lstrip s.
Proof. induction 1 as [|c w H _ IH]; cbn [app py_lstrip]; [reflexivity|]. rewrite H. assumption. Qed.
Lemma lstrip_solid c s : py_space c = false -> py_lstrip (c :: s) = c :: s.
Proof. intros H. cbn [py_lstrip]. rewrite H. reflexivity. Qed.
Lemma lstrip_all w : spaces w -> py_lstrip w = [].
Proof. intros H. rewrite <- (app_nil_r w). rewrite lstrip_spaces by assumption. reflexivity. Qed.
Lemma strip_all w : spaces w -> py_strip w = [].
Proof. intros H. unfold py_strip. rewrite (lstrip_all w) by assumption. reflexivity. Qed.
(** What begins and ends with something else than a blank stays. *)
Definition framed (s : list Z) : Prop :=
  (exists c t, s = c :: t /\ py_space c = false) /\ exists c t, s = t ++ [c] /\ py_space c = false.
Lemma strip_framed w1 s w2 : spaces w1 -> spaces w2 -> framed s -> py_strip (w1 ++ s ++ w2) = s.
Proof.
  intros H1 H2 [(c & t & E1 & C1) (d & u & E2 & C2)]. unfold py_strip. rewrite lstrip_spaces by assumption.
  assert (py_lstrip (s ++ w2) = s ++ w2) as -> by (rewrite E1; apply lstrip_solid; assumption).
  rewrite rev_app_distr. rewrite lstrip_spaces by (apply Forall_rev; assumption).
  assert (py_lstrip (rev s) = rev s) as -> by (rewrite E2, rev_app_distr; apply lstrip_solid; assumption).
  apply rev_involutive.
Qed.
Lemma solid_framed s : solid s -> s <> [] -> framed s.
Proof.
  intros H N. split.
  - destruct s as [|c s]; [congruence|]. inversion H. subst. eauto.
  - destruct (exists_last N) as (t & c & ->). apply Forall_app in H. destruct H as [_ H]. inversion H. subst. eauto.
Qed.
Lemma strip_padded s f : solid s -> s <> [] -> padded s f -> py_strip f = s.
Proof.
  intros H N (w1 & w2 & -> & W1 & W2). apply strip_framed; [apply blank_spaces; assumption|apply blank_spaces; assumption|].
  apply solid_framed; assumption.
Qed.
Lemma strip_self s : solid s -> s <> [] -> py_strip s = s.
Proof.
  intros H N. apply strip_padded; try assumption. exists [], []. rewrite app_nil_r. repeat split; constructor.
Qed.

(** * Numbers *)
Lemma xdigit_solid ds : Forall xdigit ds -> solid ds.
Proof. apply Forall_impl. unfold xdigit, py_space. lia. Qed.
Lemma py_digit_hex c v : hex_value c v -> py_digit 16 c = Some v /\ c <> 95.
Proof.
  intros H. unfold py_digit. inversion H; subst.
  - replace ((48 <=? 48 + v) && (48 + v <=? 57)) with true by lia. replace (48 + v - 48) with v by lia.
    replace (v <? 16) with true by lia. split; [reflexivity|lia].
  - replace ((48 <=? 65 + (v - 10)) && (65 + (v - 10) <=? 57)) with false by lia.
    replace ((65 <=? 65 + (v - 10)) && (65 + (v - 10) <=? 90)) with true by lia.
    replace (65 + (v - 10) - 55) with v by lia. replace (v <? 16) with true by lia. split; [reflexivity|lia].
  - replace ((48 <=? 97 + (v - 10)) && (97 + (v - 10) <=? 57)) with false by lia.
    replace ((65 <=? 97 + (v - 10)) && (97 + (v - 10) <=? 90)) with false by lia.
    replace ((97 <=? 97 + (v - 10)) && (97 + (v - 10) <=? 122)) with true by lia.
    replace (97 + (v - 10) - 87) with v by lia. replace (v <? 16) with true by lia. split; [reflexivity|lia].
Qed.
Lemma digits_hex ds n : hex_number ds n -> forall t acc b,
  py_digits 16 (ds ++ t) acc b = py_digits 16 t (16 ^ zlen ds * acc + n) false.
Proof.
  induction 1 as [c v H|ds n c v H1 IH H2]; intros t acc b.
  - apply py_digit_hex in H. destruct H as [E N]. cbn [app py_digits]. replace (c =? 95) with false by lia. rewrite E. reflexivity.
  - rewrite <- app_assoc. rewrite IH. apply py_digit_hex in H2. destruct H2 as [E N]. cbn [app py_digits].
    replace (c =? 95) with false by lia. rewrite E. f_equal. rewrite zlen_app. change (zlen [c]) with 1.
    rewrite Z.pow_add_r by (try apply zlen_nonneg; lia). change (16 ^ 1) with 16. ring.
Qed.
Lemma prefix_hex ds : Forall xdigit ds -> py_prefix 16 ds = ds.
Proof.
  intros H. unfold py_prefix. destruct ds as [|z [|x ds]]; try reflexivity. inversion H as [|? ? _ H2]. inversion H2 as [|? ? X _]. subst.
  unfold xdigit in X. replace ((16 =? 16) && (z =? 48) && ((x =? 120) || (x =? 88))) with false by lia. reflexivity.
Qed.
Lemma int_hex ds n f : hex_number ds n -> py_strip f = ds -> py_int 16 f = Some n.
Proof.
  intros H E. pose proof (hex_number_x ds n H) as (_ & F & N). unfold py_int. rewrite E.
  destruct ds as [|c ds]; [congruence|]. assert (xdigit c) as X by (inversion F; assumption).
  replace (c =? 43) with false by (unfold xdigit in X; lia). replace (c =? 45) with false by (unfold xdigit in X; lia).
  rewrite prefix_hex by assumption. pose proof (digits_hex _ _ H [] 0 true) as D. rewrite app_nil_r in D. rewrite D.
  cbn [py_digits]. f_equal. lia.
Qed.
Lemma int_hex_self ds n : hex_number ds n -> py_int 16 ds = Some n.
Proof.
  intros H. apply (int_hex ds n ds H). apply strip_self; [apply xdigit_solid|]; apply (hex_number_x ds n H).
Qed.
Lemma int_padded ds n f : hex_number ds n -> padded ds f -> py_int 16 f = Some n.
Proof.
  intros H P. apply (int_hex ds n f H). apply strip_padded; [apply xdigit_solid; apply (hex_number_x ds n H)|apply (hex_number_x ds n H)|assumption].
Qed.
Lemma int_empty base : py_int base [] = None.
Proof. reflexivity. Qed.
Lemma dec_chars ds n : dec_number ds n -> Forall (fun c => 48 <= c <= 57) ds /\ ds <> [].
Proof.
  induction 1 as [v B|ds n v H IH B].
  - split; [apply Forall_cons; [lia|constructor]|discriminate].
  - split; [apply Forall_app; split; [apply IH|apply Forall_cons; [lia|constructor]]|destruct ds; discriminate].
Qed.
Lemma digits_dec ds n : dec_number ds n -> forall t acc b,
  py_digits 10 (ds ++ t) acc b = py_digits 10 t (10 ^ zlen ds * acc + n) false.
Proof.
  assert (forall v, 0 <= v <= 9 -> py_digit 10 (48 + v) = Some v) as D.
  { intros v B. unfold py_digit. replace ((48 <=? 48 + v) && (48 + v <=? 57)) with true by lia. replace (48 + v - 48) with v by lia.
    replace (v <? 10) with true by lia. reflexivity. }
  induction 1 as [v B|ds n v H IH B]; intros t acc b.
  - cbn [app py_digits]. replace (48 + v =? 95) with false by lia. rewrite D by assumption. reflexivity.
  - rewrite <- app_assoc. rewrite IH. cbn [app py_digits]. replace (48 + v =? 95) with false by lia. rewrite D by assumption.
    f_equal. rewrite zlen_app. change (zlen [48 + v]) with 1.
    rewrite Z.pow_add_r by (try apply zlen_nonneg; lia). change (10 ^ 1) with 10. ring.
Qed.
Lemma int_dec ds n : dec_number ds n -> py_int 10 ds = Some n.
Proof.
  intros H. pose proof (dec_chars ds n H) as (F & N). unfold py_int.
  rewrite strip_self; [|revert F; apply Forall_impl; unfold py_space; lia|assumption].
  destruct ds as [|c ds]; [congruence|]. assert (48 <= c <= 57) as X by (inversion F; assumption).
  replace (c =? 43) with false by lia. replace (c =? 45) with false by lia.
  replace (py_prefix 10 (c :: ds)) with (c :: ds) by (unfold py_prefix; destruct ds; reflexivity).
  pose proof (digits_dec _ _ H [] 0 true) as D. rewrite app_nil_r in D. rewrite D.
  cbn [py_digits]. f_equal. lia.
Qed.

(** * Splitting *)
Lemma push_app p a l : fold_right push (a :: l) p = (p ++ a) :: l.
Proof. induction p as [|c p IH]; cbn [fold_right app]; [reflexivity|]. rewrite IH. reflexivity. Qed.
Lemma split_pre sep p s : ~ In sep p -> py_split sep (p ++ s) = fold_right push (py_split sep s) p.
Proof.
  induction p as [|c p IH]; intros N; cbn [app py_split fold_right]; [reflexivity|].
  destruct (Z.eqb_spec c sep) as [->|]; [exfalso; apply N; left; reflexivity|].
  rewrite IH; [reflexivity|]. intros I. apply N. right. assumption.
Qed.
Lemma split_one sep p : ~ In sep p -> py_split sep p = [p].
Proof. intros N. rewrite <- (app_nil_r p) at 1. rewrite split_pre by assumption. cbn [py_split]. rewrite push_app, app_nil_r. reflexivity. Qed.
Lemma split_cons sep p s : ~ In sep p -> py_split sep (p ++ sep :: s) = p :: py_split sep s.
Proof. intros N. rewrite split_pre by assumption. cbn [py_split]. rewrite Z.eqb_refl. rewrite push_app, app_nil_r. reflexivity. Qed.
Lemma split_join sep fields : fields <> [] -> Forall (fun f => ~ In sep f) fields -> py_split sep (join [sep] fields) = fields.
Proof.
  induction fields as [|p fields IH]; intros N H; [congruence|]. inversion H as [|? ? Hp Hf]. subst. destruct fields as [|q fields].
  - cbn [join]. apply split_one. assumption.
  - rewrite join_cons by discriminate. cbn [app]. rewrite split_cons by assumption. rewrite IH by (assumption || discriminate). reflexivity.
Qed.
Lemma split_max_cons sep n p s : ~ In sep p -> py_split_max sep (S n) (p ++ sep :: s) = p :: py_split_max sep n s.
Proof.
  induction p as [|c p IH]; intros N.
  - cbn [app]. cbn [py_split_max]. rewrite Z.eqb_refl. destruct n; reflexivity.
  - cbn [app]. destruct (Z.eqb_spec c sep) as [->|E]; [exfalso; apply N; left; reflexivity|].
    assert (py_split_max sep (S n) (c :: p ++ sep :: s) = push c (py_split_max sep (S n) (p ++ sep :: s))) as ->.
    { cbn [py_split_max]. replace (c =? sep) with false by lia. reflexivity. }
    rewrite IH; [reflexivity|]. intros I. apply N. right. assumption.
Qed.
Lemma split_max_one sep n p : ~ In sep p -> py_split_max sep n p = [p].
Proof.
  destruct n as [|n]; [reflexivity|]. induction p as [|c p IH]; intros N; [reflexivity|].
  destruct (Z.eqb_spec c sep) as [->|E]; [exfalso; apply N; left; reflexivity|].
  assert (py_split_max sep (S n) (c :: p) = push c (py_split_max sep (S n) p)) as ->.
  { cbn [py_split_max]. replace (c =? sep) with false by lia. reflexivity. }
  rewrite IH; [reflexivity|]. intros I. apply N. right. assumption.
Qed.
Lemma words_solid w : solid w -> forall acc s, py_words acc (w ++ s) = py_words (acc ++ w) s.
Proof.
  induction 1 as [|c w H _ IH]; intros acc s; [rewrite app_nil_r; reflexivity|].
  cbn [app py_words]. rewrite H. rewrite IH. rewrite <- app_assoc. reflexivity.
Qed.
Lemma words_join numbers : Forall (fun w => solid w /\ w <> []) numbers -> py_words [] (join [32] numbers) = numbers.
Proof.
  induction 1 as [|w numbers [H N] _ IH]; [reflexivity|]. destruct numbers as [|v numbers].
  - cbn [join]. rewrite <- (app_nil_r w) at 1. rewrite words_solid by assumption. cbn [app py_words]. destruct w; [congruence|reflexivity].
  - rewrite join_cons by discriminate. rewrite words_solid by assumption. cbn [app py_words].
    change (py_space 32) with true. destruct w; [congruence|]. f_equal. assumption.
Qed.
Lemma words_first w s : solid w -> w <> [] -> (s = [] \/ exists c t, s = c :: t /\ py_space c = true) ->
  hd_error (py_words [] (w ++ s)) = Some w.
Proof.
  intros H N [->|(c & t & -> & C)]; rewrite words_solid by assumption; cbn [app py_words].
  - destruct w; [congruence|reflexivity].
  - rewrite C. destruct w; [congruence|reflexivity].
Qed.

(** * Suffixes *)
Lemma startswith_ok p : forall s, py_startswith s p = true <-> exists t, s = p ++ t.
Proof.
  induction p as [|x p IH]; intros s.
  - split; [intros _; exists s; reflexivity|intros _; destruct s; reflexivity].
  - destruct s as [|y s]; cbn [py_startswith].
    + split; [discriminate|intros [t E]; discriminate].
    + rewrite andb_true_iff, IH, Z.eqb_eq. split.
      * intros [-> [t ->]]. exists t. reflexivity.
      * intros [t E]. injection E as -> ->. split; [reflexivity|exists t; reflexivity].
Qed.
Lemma endswith_ok s p : py_endswith s p = true <-> exists t, s = t ++ p.
Proof.
  unfold py_endswith. rewrite startswith_ok. split; intros [t E].
  - exists (rev t). apply (f_equal (@rev Z)) in E. rewrite rev_involutive, rev_app_distr, rev_involutive in E. assumption.
  - exists (rev t). rewrite E, rev_app_distr. reflexivity.
Qed.

(** * Lines *)
Lemma py_lines_pre l s : ~ In 10 l -> py_lines (l ++ s) = fold_right push (py_lines s) l.
Proof.
  induction l as [|c l IH]; intros N; cbn [app py_lines fold_right]; [reflexivity|].
  destruct (Z.eqb_spec c 10) as [->|]; [exfalso; apply N; left; reflexivity|].
  rewrite IH; [reflexivity|]. intros I. apply N. right. assumption.
Qed.
Lemma push_nil l : l <> [] -> fold_right push [] l = [l].
Proof.
  induction l as [|c l IH]; intros N; [congruence|]. cbn [fold_right]. destruct l as [|d l]; [reflexivity|].
  rewrite IH by discriminate. reflexivity.
Qed.
Lemma lines_ok file lines : lines_of file lines -> py_lines file = lines.
Proof.
  induction 1 as [|line file lines W _ IH]; [reflexivity|]. destruct W as [(l & -> & N)|(E & N & ->)].
  - rewrite <- app_assoc. rewrite py_lines_pre by assumption. cbn [app py_lines]. rewrite Z.eqb_refl. rewrite push_app, IH. reflexivity.
  - rewrite py_lines_pre by assumption. rewrite IH. cbn [py_lines] in IH. subst lines. apply push_nil. assumption.
Qed.

(** * Dictionaries *)
Lemma get_set {A} k (v : A) d k' : dict_get k' (dict_set k v d) = if k' =? k then Some v else dict_get k' d.
Proof.
  induction d as [|[k0 v0] d IH]; cbn [dict_set dict_get].
  - rewrite (Z.eqb_sym k k'). reflexivity.
  - destruct (Z.eqb_spec k0 k) as [->|N].
    + cbn [dict_get]. rewrite (Z.eqb_sym k k'). destruct (Z.eqb_spec k' k); reflexivity.
    + cbn [dict_get]. rewrite IH. destruct (Z.eqb_spec k0 k') as [->|]; [|reflexivity].
      destruct (Z.eqb_spec k' k); [congruence|reflexivity].
Qed.
Lemma set_keys {A} k (v : A) d x : In x (map fst (dict_set k v d)) <-> x = k \/ In x (map fst d).
Proof.
  induction d as [|[k0 v0] d IH]; cbn [dict_set map fst In]; [intuition|].
  destruct (Z.eqb_spec k0 k) as [->|N]; cbn [map fst In]; [intuition|]. rewrite IH. intuition.
Qed.
Lemma set_nodup {A} k (v : A) d : NoDup (map fst d) -> NoDup (map fst (dict_set k v d)).
Proof.
  induction d as [|[k0 v0] d IH]; cbn [dict_set map fst]; intros H.
  - repeat constructor. intros [].
  - inversion H as [|? ? H1 H2]. subst. destruct (Z.eqb_spec k0 k) as [->|N]; cbn [map fst]; constructor; try assumption; [|apply IH; assumption].
    rewrite set_keys. intros [|]; [congruence|contradiction].
Qed.
Lemma insert_keys {A} (e : Z * A) d x : In x (map fst (dict_insert e d)) <-> x = fst e \/ In x (map fst d).
Proof.
  induction d as [|e' d IH]; cbn [dict_insert map In]; [intuition|].
  destruct (fst e <? fst e'); cbn [map In]; [intuition|]. rewrite IH. intuition.
Qed.
Lemma get_insert {A} k (v : A) d k' : ~ In k (map fst d) ->
  dict_get k' (dict_insert (k, v) d) = if k' =? k then Some v else dict_get k' d.
Proof.
  induction d as [|[k0 v0] d IH]; intros N; cbn [dict_insert dict_get].
  - rewrite (Z.eqb_sym k k'). reflexivity.
  - cbn [fst]. destruct (k <? k0) eqn:L; cbn [dict_get].
    + rewrite (Z.eqb_sym k k'). reflexivity.
    + rewrite IH by (intros I; apply N; right; assumption). destruct (Z.eqb_spec k0 k') as [E1|]; [|reflexivity].
      destruct (Z.eqb_spec k' k) as [E2|]; [|reflexivity]. exfalso. apply N. left. cbn [fst]. congruence.
Qed.
Lemma sorted_keys {A} (d : list (Z * A)) x : In x (map fst (dict_sorted d)) <-> In x (map fst d).
Proof.
  induction d as [|e d IH]; [reflexivity|]. unfold dict_sorted. cbn [fold_right]. rewrite insert_keys. fold (dict_sorted d). rewrite IH.
  cbn [map In]. intuition.
Qed.
Lemma get_sorted {A} (d : list (Z * A)) k : NoDup (map fst d) -> dict_get k (dict_sorted d) = dict_get k d.
Proof.
  induction d as [|[k0 v0] d IH]; intros H; [reflexivity|]. inversion H as [|? ? H1 H2]. subst.
  unfold dict_sorted. cbn [fold_right]. fold (dict_sorted d). rewrite get_insert by (rewrite sorted_keys; assumption).
  rewrite IH by assumption. cbn [dict_get]. rewrite (Z.eqb_sym k0 k). reflexivity.
Qed.
