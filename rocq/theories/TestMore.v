(** The other tests pass: proofs. *)
From Verif Require Import Base CMem CharstrModel CharstrSpec CharstrProofs Utf8Model Utf8Spec IntsetModel IntsetSpec IntsetProps Base64Model Base64Spec Base64Proofs Base64Round Base64Props.
From Verif Require Import NormModel NormSpec NormFacts NormOrder NormBytes NormDecompose NormRecompose NormMain NormProps TestMoreModel TestSpec.
From Coq Require Import ZifyBool ZifyNat.

(** * Sets *)
Section sets.
  Variable elements : list bool.
  Notation n := (zlen elements).
  Hypothesis Small : n <= INT_MAX.
  Notation at_ e := (nth (Z.to_nat e) elements false).

  Lemma run_app s ops1 : forall s1 ops2, run s ops1 = Ok s1 -> run s (ops1 ++ ops2) = run s1 ops2.
  Proof.
    revert s. induction ops1 as [|o ops1 IH]; intros s s1 ops2 H; cbn [run app] in *; [injection H as <-; reflexivity|].
    destruct (step s o) as [s2| | |]; try discriminate. cbn [bind] in *. apply IH. exact H.
  Qed.

  Fixpoint adds (k : nat) (i : Z) : list op :=
    match k with
    | O => []
    | S k => (if at_ i then [Add i] else []) ++ adds k (i + 1)
    end.
  Fixpoint removes (k : nat) (i : Z) : list op :=
    match k with
    | O => []
    | S k => Remove i :: removes k (i + 1)
    end.

  Lemma adds_ok k : forall i, 0 <= i -> i + Z.of_nat k <= n -> Forall op_ok (adds k i).
  Proof.
    unfold INT_MAX in Small. induction k as [|k IH]; intros i Hi Hk; [constructor|]. cbn [adds]. apply Forall_app. split; [|apply IH; lia].
    destruct (at_ i); repeat constructor; cbn; lia.
  Qed.
  Lemma removes_ok k : forall i, 0 <= i -> i + Z.of_nat k <= n -> Forall op_ok (removes k i).
  Proof.
    unfold INT_MAX in Small. induction k as [|k IH]; intros i Hi Hk; [constructor|]. cbn [removes]. constructor; [cbn; lia|apply IH; lia].
  Qed.
  Lemma adds_member k : forall i before e, 0 <= i ->
    fold_left (effect e) (adds k i) before = before || ((i <=? e) && (e <? i + Z.of_nat k) && at_ e).
  Proof.
    induction k as [|k IH]; intros i before e Hi; cbn [adds].
    - cbn [fold_left]. replace ((i <=? e) && (e <? i + Z.of_nat 0)) with false by lia. cbn [andb]. rewrite orb_false_r. reflexivity.
    - rewrite fold_left_app, IH by lia. destruct (Z.eq_dec i e) as [->|D].
      + replace ((e + 1 <=? e) && (e <? e + 1 + Z.of_nat k)) with false by lia. replace ((e <=? e) && (e <? e + Z.of_nat (S k))) with true by lia.
        cbn [andb]. rewrite orb_false_r. destruct (at_ e); cbn [fold_left effect]; [rewrite Z.eqb_refl, orb_true_r; reflexivity|rewrite orb_false_r; reflexivity].
      + replace (fold_left (effect e) (if at_ i then [Add i] else []) before) with before.
        * do 2 f_equal. lia.
        * destruct (at_ i); cbn [fold_left effect]; [|reflexivity]. rewrite (proj2 (Z.eqb_neq _ _) D). reflexivity.
  Qed.
  Lemma removes_member k : forall i before e, 0 <= i ->
    fold_left (effect e) (removes k i) before = before && negb ((i <=? e) && (e <? i + Z.of_nat k)).
  Proof.
    induction k as [|k IH]; intros i before e Hi; cbn [removes fold_left].
    - replace ((i <=? e) && (e <? i + Z.of_nat 0)) with false by lia. rewrite andb_true_r. reflexivity.
    - rewrite IH by lia. cbn [effect]. destruct (Z.eq_dec i e) as [->|D].
      + rewrite Z.eqb_refl. replace ((e <=? e) && (e <? e + Z.of_nat (S k))) with true by lia. rewrite andb_false_r. reflexivity.
      + rewrite (proj2 (Z.eqb_neq _ _) D). do 2 f_equal. lia.
  Qed.

  Lemma element_ok i : 0 <= i < n -> element elements i = Ok (at_ i).
  Proof. intros H. unfold element. replace ((0 <=? i) && (i <? n)) with true by lia. reflexivity. Qed.

  Lemma add_loop_run k : forall i s, 0 <= i -> i + Z.of_nat k <= n -> add_loop elements k i s = run s (adds k i).
  Proof.
    induction k as [|k IH]; intros i s Hi Hk; [reflexivity|]. cbn [add_loop adds]. rewrite element_ok by lia. cbn [bind].
    destruct (at_ i); cbn [app run step bind].
    - destruct (intset_add s i); cbn [bind]; [apply IH; lia|reflexivity..].
    - apply IH; lia.
  Qed.
  Lemma remove_loop_run k : forall i s, remove_loop k i s = run s (removes k i).
  Proof.
    induction k as [|k IH]; intros i s; [reflexivity|]. cbn [remove_loop removes run step]. destruct (intset_remove s i); cbn [bind]; [apply IH|reflexivity..].
  Qed.
  Lemma has_loop_ok s k : forall i, (forall e, 0 <= e < n -> intset_has s e = Ok (at_ e)) -> 0 <= i -> i + Z.of_nat k <= n ->
    has_loop elements k i s = Ok tt.
  Proof.
    induction k as [|k IH]; intros i H Hi Hk; [reflexivity|]. cbn [has_loop]. rewrite H by lia. cbn [bind]. rewrite element_ok by lia. cbn [bind].
    rewrite Bool.eqb_reflx. cbn [assert_that bind]. apply IH; [exact H|lia|lia].
  Qed.
  Lemma search_loop_ok P (hit : bool) s : (forall e, 0 <= e < n -> P e = at_ e) ->
    (forall e, 0 <= e < 2 ^ 32 -> exists r, (if hit then intset_find_next_hit s e else intset_find_next_miss s e) = Ok r /\ first_from P hit e n r) ->
    forall fuel e, 0 <= e <= n -> n < e + Z.of_nat fuel -> search_loop elements hit fuel s e = Ok tt.
  Proof.
    intros HP H. unfold INT_MAX in Small. induction fuel as [|fuel IH]; intros e He Hf; [lia|]. cbn [search_loop].
    destruct (H e ltac:(lia)) as (r & -> & F). cbn [bind]. destruct F as [(R & E & _)|(-> & _)]; [|reflexivity].
    replace (r <? 0) with false by lia. rewrite element_ok by lia. cbn [bind]. rewrite HP in E by lia. rewrite E.
    replace (if hit then hit else negb hit) with true by (destruct hit; reflexivity). cbn [assert_that bind]. apply IH; lia.
  Qed.

  Lemma intset_test_ok : intset_test elements = Ok tt.
  Proof.
    unfold intset_test. cbv zeta. assert (L : Z.of_nat (length elements) = n) by reflexivity. pose proof (zlen_nonneg elements) as Nn.
    assert (B : 0 <= n <= INT_MAX + 1) by lia. assert (B' : 0 <= n <= 64 * (2 ^ 32 - 1)) by (unfold INT_MAX in *; lia).
    set (A := adds (length elements) 0). set (R := removes (length elements) 0).
    assert (FA : Forall op_ok A) by (apply adds_ok; lia). assert (FR : Forall op_ok R) by (apply removes_ok; lia).
    assert (M : forall e, 0 <= e < n -> member n A e = at_ e).
    { intros e He. unfold member, A. rewrite adds_member by lia. replace (e <? n) with true by lia.
      replace ((0 <=? e) && (e <? 0 + Z.of_nat (length elements))) with true by lia. reflexivity. }
    destruct (C12_intset_search n [] B (Forall_nil _)) as (s0 & E0 & _ & _ & b0 & Em0 & Eq0). cbn [run] in E0. injection E0 as <-.
    rewrite Em0. cbn [bind]. rewrite (proj2 Eq0) by (intros e _; unfold member; cbn; apply andb_false_r). cbn [assert_that bind].
    destruct (C12_intset_search n A B FA) as (s1 & E1 & Hit & Miss & _). destruct (C11_intset_is_a_set n A B' FA) as (s1' & E1' & Has).
    rewrite E1 in E1'. injection E1' as <-.
    rewrite add_loop_run by lia. fold A. rewrite E1. cbn [bind].
    rewrite (has_loop_ok s1) by (lia || (intros e He; rewrite Has, M by (unfold INT_MAX in *; lia); reflexivity)). cbn [bind].
    rewrite (search_loop_ok (member n A) true s1 M Hit) by lia. cbn [bind].
    rewrite (search_loop_ok (member n A) false s1 M Miss) by lia. cbn [bind].
    destruct (C12_intset_search n (A ++ R) B ltac:(apply Forall_app; auto)) as (s2 & E2 & _ & _ & b & Em & Eq).
    rewrite (run_app _ _ _ _ E1) in E2. rewrite remove_loop_run. fold R. rewrite E2. cbn [bind]. rewrite Em. cbn [bind].
    rewrite (proj2 Eq); [reflexivity|]. intros e He. unfold member, R. rewrite fold_left_app, removes_member by lia. destruct (e <? n) eqn:D; [|reflexivity].
    replace ((0 <=? e) && (e <? 0 + Z.of_nat (length elements))) with true by lia. cbn [negb andb]. apply andb_false_r.
  Qed.
End sets.

(** * Base64 *)
Lemma same_bytes_ok k : forall a b, (k <= length a)%nat -> (k <= length b)%nat -> firstn k a = firstn k b -> same_bytes k a b = Ok true.
Proof.
  induction k as [|k IH]; intros a b La Lb E; [reflexivity|]. destruct a as [|x a]; [cbn in La; lia|]. destruct b as [|y b]; [cbn in Lb; lia|].
  cbn [firstn] in E. injection E as -> E. cbn [same_bytes]. rewrite Z.eqb_refl. apply IH; cbn in *; lia || exact E.
Qed.
Lemma carets_zlen k : 0 <= k -> zlen (carets k) = k.
Proof. intros H. unfold carets, zlen. rewrite repeat_length. lia. Qed.

Section base64.
  Variable d : list Z.
  Notation e := (base64 43 47 d).
  Hypotheses (Hd : text d) (He : zlen e <= INT_MAX).

  Lemma d_small : zlen d < 2 ^ 31.
  Proof.
    pose proof (C03_encoding_size_is_length 43 47 d) as L. pose proof (zlen_nonneg d). unfold INT_MAX in *.
    assert (zlen d + 2 < 3 * ((zlen d + 2) / 3 + 1)) by (pose proof (Z.mod_pos_bound (zlen d + 2) 3 ltac:(lia)); pose proof (Z.div_mod (zlen d + 2) 3); lia). lia.
  Qed.
  Lemma d_bytes : bytes d.
  Proof. eapply Forall_impl; [|exact Hd]. cbv beta. unfold byte. lia. Qed.
  Lemma d_nonul : no_nul d.
  Proof. eapply Forall_impl; [|exact Hd]. cbv beta. lia. Qed.
  Lemma e_text : Forall (fun c => byte c /\ c <> 0) e.
  Proof. apply base64_text; [exact good_43|exact good_47|exact d_bytes]. Qed.
  Lemma e_nonul : no_nul e.
  Proof. eapply Forall_impl; [|exact e_text]. cbv beta. tauto. Qed.
  Lemma d_len : strlen (d ++ [0]) = Ok (zlen d).
  Proof. apply strlen_ok. exact d_nonul. Qed.
  Lemma e_len : strlen (e ++ [0]) = Ok (zlen e).
  Proof. apply strlen_ok. exact e_nonul. Qed.

  Lemma encode_run dest size : 0 <= size <= zlen dest ->
    base64_encode_buffer (d ++ [0]) (zlen d) dest size (-1) (-1) =
    Ok (if size =? 0 then dest else firstn (Z.to_nat (Z.min (zlen e) (size - 1))) e ++ 0 :: skipn (S (Z.to_nat (Z.min (zlen e) (size - 1)))) dest, zlen e).
  Proof. intros H. pose proof d_small. exact (C02_encode_buffer d [0] dest size (-1) (-1) d_bytes ltac:(lia) H). Qed.
  Lemma decode_run n dest size : n = zlen e \/ n = u64 (-1) -> 0 <= size <= zlen dest ->
    base64_decode_buffer (e ++ [0]) n dest size (-1) (-1) false =
    Ok (DecOk (zlen d) (firstn (Z.to_nat (Z.min size (zlen d))) d ++ skipn (Z.to_nat (Z.min size (zlen d))) dest)).
  Proof.
    intros Hn H. unfold INT_MAX in *. refine (C05_short_buffer (e ++ [0]) n e dest size (-1) (-1) false _ _ H _ _ good_43 good_47 d _); try lia.
    - split; [exact e_text|]. exists [0]. split; [reflexivity|]. destruct Hn as [->| ->]; [left; reflexivity|right]. split; [change (u64 (-1)) with (2 ^ 64 - 1); lia|eauto].
    - apply (base64_decodes 43 47 d false good_43 good_47); try discriminate; try reflexivity. exact d_bytes.
  Qed.

  Lemma encoding_length_ok : encoding_length_row (d ++ [0]) (e ++ [0]) = Ok true.
  Proof.
    unfold encoding_length_row. rewrite d_len. cbn [bind]. rewrite encode_run by (change (zlen []) with 0; lia). cbn [bind]. rewrite e_len. cbn [bind].
    rewrite Z.eqb_refl. cbn [negb]. pose proof d_small. pose proof (zlen_nonneg d).
    pose proof (C03_encoding_size (zlen d) ltac:(unfold SIZE_MAX; lia)) as S. pose proof (C03_encoding_size_is_length 43 47 d) as L. rewrite <- L in S.
    unfold INT_MAX in *. replace (zlen e <=? SIZE_MAX) with true in S by (unfold SIZE_MAX; lia). rewrite S, Z.eqb_refl. reflexivity.
  Qed.
  Lemma decoding_length_ok : decoding_length_row (d ++ [0]) (e ++ [0]) = Ok true.
  Proof.
    unfold decoding_length_row. rewrite e_len. cbn [bind]. rewrite decode_run by (auto || (change (zlen []) with 0; lia)). cbn [bind count_of fst]. rewrite d_len. cbn [bind].
    rewrite Z.eqb_refl. cbn [negb]. rewrite decode_run by (auto || (change (zlen []) with 0; lia)). cbn [bind count_of fst]. rewrite Z.eqb_refl. reflexivity.
  Qed.
  Lemma truncated_encodings_ok k : forall j, 0 <= j -> j + Z.of_nat k <= zlen e ->
    truncated_encodings (d ++ [0]) (e ++ [0]) (zlen d) (zlen e) k j = Ok true.
  Proof.
    induction k as [|k IH]; intros j Hj Hk; [reflexivity|]. cbn [truncated_encodings]. cbv zeta. pose proof (zlen_nonneg e).
    rewrite encode_run by (rewrite carets_zlen by lia; lia). cbn [bind]. rewrite Z.eqb_refl. cbn [negb]. replace (j + 1 =? 0) with false by lia.
    replace (Z.min (zlen e) (j + 1 - 1)) with j by lia.
    assert (Lf : length (firstn (Z.to_nat j) e) = Z.to_nat j) by (rewrite firstn_length; unfold zlen in *; lia).
    match goal with |- context [rd ?b j] => assert (Rd : rd b j = Ok 0) end.
    { unfold rd, inb. rewrite zlen_app, zlen_cons. unfold zlen at 1. rewrite Lf. match goal with |- context [zlen (skipn ?a ?b)] => pose proof (zlen_nonneg (skipn a b)) end.
      match goal with |- (if ?c then _ else _) = _ => replace c with true by lia end. f_equal.
      rewrite app_nth2 by lia. rewrite Lf, Nat.sub_diag. reflexivity. }
    rewrite Rd. cbn [bind truth negb Z.eqb].
    rewrite same_bytes_ok; [cbn [bind negb]; apply IH; lia|rewrite app_length; lia|rewrite app_length; unfold zlen in *; lia|].
    rewrite !firstn_app, Lf, Nat.sub_diag, firstn_O, app_nil_r, firstn_firstn, Nat.min_id.
    replace (Z.to_nat j - length e)%nat with O by (unfold zlen in *; lia). rewrite firstn_O, app_nil_r. reflexivity.
  Qed.
  Lemma truncated_encoding_ok : truncated_encoding_row (d ++ [0]) (e ++ [0]) = Ok true.
  Proof.
    unfold truncated_encoding_row. rewrite d_len. cbn [bind]. rewrite e_len. cbn [bind]. pose proof (zlen_nonneg e).
    rewrite truncated_encodings_ok by lia. cbn [bind negb]. cbv zeta. rewrite encode_run by (rewrite carets_zlen by lia; lia). cbn [bind]. rewrite Z.eqb_refl. cbn [negb].
    replace (zlen e + 10 =? 0) with false by lia. replace (Z.min (zlen e) (zlen e + 10 - 1)) with (zlen e) by lia.
    replace (firstn (Z.to_nat (zlen e)) e) with e by (symmetry; apply firstn_all2; unfold zlen; lia).
    assert (T : text e) by (eapply Forall_impl; [|exact e_text]; cbv beta; unfold byte; lia).
    match goal with |- strcmp_eq (_ ++ 0 :: ?r) _ = _ => destruct (strcmp_eq_ok e e r [] T T) as (b & -> & B) end. rewrite (proj2 B eq_refl). reflexivity.
  Qed.
  Lemma truncated_decodings_ok k : forall j, 0 <= j -> j + Z.of_nat k <= zlen d ->
    truncated_decodings (d ++ [0]) (e ++ [0]) (zlen d) (zlen e) k j = Ok true.
  Proof.
    induction k as [|k IH]; intros j Hj Hk; [reflexivity|]. cbn [truncated_decodings]. cbv zeta. pose proof (zlen_nonneg d).
    rewrite decode_run by (auto || (rewrite carets_zlen by lia; lia)). cbn [bind count_of]. rewrite Z.eqb_refl. cbn [negb].
    replace (Z.min j (zlen d)) with j by lia.
    assert (Lf : length (firstn (Z.to_nat j) d) = Z.to_nat j) by (rewrite firstn_length; unfold zlen in *; lia).
    match goal with |- context [rd ?b j] => assert (Rd : rd b j = Ok 94) end.
    { unfold rd, inb. rewrite zlen_app. unfold zlen at 1 2. rewrite Lf, skipn_length. unfold carets. rewrite repeat_length.
      match goal with |- (if ?c then _ else _) = _ => replace c with true by lia end. f_equal.
      rewrite app_nth2 by lia. rewrite Lf, Nat.sub_diag. replace (Z.to_nat (zlen d + 10)) with (Z.to_nat j + S (Z.to_nat (zlen d + 10) - Z.to_nat j - 1))%nat by lia.
      rewrite repeat_app, skipn_app, skipn_all2 by (rewrite repeat_length; lia). rewrite repeat_length, Nat.sub_diag. reflexivity. }
    rewrite Rd. cbn [bind negb Z.eqb]. change (94 =? 94) with true. cbn [negb].
    rewrite same_bytes_ok; [cbn [bind negb]; apply IH; lia|rewrite app_length; lia|rewrite app_length; unfold zlen in *; lia|].
    rewrite !firstn_app, Lf, Nat.sub_diag, firstn_O, app_nil_r, firstn_firstn, Nat.min_id.
    replace (Z.to_nat j - length d)%nat with O by (unfold zlen in *; lia). rewrite firstn_O, app_nil_r. reflexivity.
  Qed.
  Lemma truncated_decoding_ok : truncated_decoding_row (d ++ [0]) (e ++ [0]) = Ok true.
  Proof.
    unfold truncated_decoding_row. rewrite d_len. cbn [bind]. rewrite e_len. cbn [bind]. pose proof (zlen_nonneg d).
    rewrite truncated_decodings_ok by lia. cbn [bind negb]. cbv zeta. rewrite decode_run by (auto || (rewrite carets_zlen by lia; lia)). cbn [bind count_of]. rewrite Z.eqb_refl. cbn [negb].
    replace (Z.min (zlen d + 10) (zlen d)) with (zlen d) by lia.
    replace (firstn (Z.to_nat (zlen d)) d) with d by (symmetry; apply firstn_all2; unfold zlen; lia).
    apply same_bytes_ok; rewrite ?app_length; unfold zlen; try lia. rewrite Nat2Z.id, !firstn_app, Nat.sub_diag, !firstn_O. reflexivity.
  Qed.
End base64.

Lemma all_rows_ok test ds : Forall (fun d => test (d ++ [0]) (base64 43 47 d ++ [0]) = Ok true) ds -> all_rows test (map row ds) = Ok true.
Proof. intros F. induction F as [|d ds H F IH]; [reflexivity|]. cbn [map row all_rows]. rewrite H. cbn [bind negb]. exact IH. Qed.
Lemma base64_test_ok ds : Forall (fun d => text d /\ zlen (base64 43 47 d) <= INT_MAX) ds -> base64_test (map row ds) = Ok true.
Proof.
  intros F. unfold base64_test.
  rewrite (all_rows_ok encoding_length_row) by (eapply Forall_impl; [|exact F]; cbv beta; intros d [A B]; apply encoding_length_ok; assumption). cbn [bind negb].
  rewrite (all_rows_ok decoding_length_row) by (eapply Forall_impl; [|exact F]; cbv beta; intros d [A B]; apply decoding_length_ok; assumption). cbn [bind negb].
  rewrite (all_rows_ok truncated_encoding_row) by (eapply Forall_impl; [|exact F]; cbv beta; intros d [A B]; apply truncated_encoding_ok; assumption). cbn [bind negb].
  rewrite (all_rows_ok truncated_decoding_row) by (eapply Forall_impl; [|exact F]; cbv beta; intros d [A B]; apply truncated_decoding_ok; assumption). reflexivity.
Qed.

(** * Normalization *)

Lemma codepoints_text cps : codepoints cps -> text (encoding cps).
Proof. intros [S N]. apply encs_text; [exact S|]. apply not_in_nonzero. exact N. Qed.
Lemma encoding_inj a b : Forall scalar a -> Forall scalar b -> encoding a = encoding b -> a = b.
Proof. intros Sa Sb E. pose proof (encodes_encs _ Sa) as A. pose proof (encodes_encs _ Sb) as B. rewrite E in A. exact (encodes_det _ _ _ A B). Qed.
Lemma compare_strings a b r : codepoints a -> codepoints b -> exists x, strcmp_eq (encoding a ++ 0 :: r) (cstring b) = Ok x /\ (x = true <-> a = b).
Proof.
  intros A B. destruct (strcmp_eq_ok (encoding a) (encoding b) r [] (codepoints_text _ A) (codepoints_text _ B)) as (x & E & X). exists x. split; [exact E|].
  rewrite X. split; [apply encoding_inj; [apply A|apply B]|congruence].
Qed.
Lemma nonzero_not_in l : Forall nonzero l -> ~ In 0 l.
Proof. intros F I. rewrite Forall_forall in F. exact (F 0 I eq_refl). Qed.
Lemma nfd_codepoints cps t : codepoints cps -> nfd cps t -> codepoints t.
Proof.
  intros [S N] H. destruct (nfd_text _ _ S N H) as [St T]. split; [exact St|]. intros I. unfold text in T. rewrite Forall_forall in T.
  assert (X : In 0 (encoding t)) by (unfold encoding; apply in_flat_map; exists 0; split; [exact I|left; reflexivity]). specialize (T 0 X). lia.
Qed.
Lemma nfc_codepoints t u : codepoints t -> compose [] t u -> codepoints u.
Proof.
  intros [S N] C. apply compose_composed in C. subst u. split; [apply composed_scalar; exact S|]. apply nonzero_not_in, composed_nonzero, not_in_nonzero, N.
Qed.

Lemma verify_normalization_ok l cps a b : sound l -> codepoints cps -> codepoints a -> codepoints b ->
  (exists t, nfd cps t /\ zlen (encoding t) < 1000) -> ~ (exists t, nfc cps t /\ crowded t) ->
  exists x, verify_normalization l (cstring cps) (cstring a) (cstring b) = Ok x /\ (x = true <-> nfd cps a /\ nfc cps b).
Proof.
  intros (L1 & L2 & L3) C A B (t & N & Lt) NC. pose proof (nfd_codepoints _ _ C N) as Ct.
  assert (Ud : forall v, nfd cps v -> v = t) by (destruct (nfd_exists cps) as (t' & _ & U); intros v V; rewrite (U v V); symmetry; apply U; exact N).
  destruct (decompose_fits (encoding cps) cps t [0] None [] (l_nfd_output l) [] (text_input _ [] (codepoints_text _ C)) (encodes_encs _ (proj1 C)) N ltac:(lia)) as (rest & R & _).
  rewrite !app_nil_r, L1 in R. cbn [app] in R. change (zlen (@nil Z)) with 0 in R. rewrite !Z.add_0_l in R.
  unfold verify_normalization. unfold cstring at 1. rewrite R. cbn [bind].
  destruct (compare_strings t a rest Ct A) as (x & -> & X). cbn [bind]. destruct x; cbn [negb].
  2: { exists false. split; [reflexivity|]. split; [discriminate|]. intros [Na _]. apply X. symmetry. exact (Ud a Na). }
  pose proof (proj1 X eq_refl) as <-. 
  destruct (C59_nfc (encoding t) t (0 :: rest) None [] (l_nfc_output l) [] (l_recomposer l) (l_hangul l) (l_errno l) (text_input _ _ (codepoints_text _ Ct)) (encodes_encs _ (proj1 Ct)) (nfd_idem _ _ N) L3 ltac:(lia))
    as (u & (v & Nv & Cv) & _ & K).
  assert (v = t) as ->. { destruct (nfd_exists t) as (t' & _ & U). rewrite (U v Nv). symmetry. apply U. exact (nfd_idem _ _ N). }
  assert (Nu : nfc cps u) by (exists t; auto).
  destruct K as (rest2 & K); [intros Cr; apply NC; eauto|]. rewrite !app_nil_r, L2 in K. cbn [app] in K. change (zlen (@nil Z)) with 0 in K. rewrite !Z.add_0_l in K.
  rewrite K. cbn [bind].
  destruct (compare_strings u b rest2 (nfc_codepoints _ _ Ct Cv) B) as (y & -> & Y). exists y. split; [reflexivity|]. rewrite Y. split; [intros <-; auto|].
  intros [_ Nb]. destruct (nfc_exists cps) as (u' & _ & U). rewrite (U u Nu). symmetry. exact (U b Nb).
Qed.


Lemma test_normalization_ok l c1 c2 c3 c4 c5 : sound l -> Forall (fun c => codepoints c /\ fits c) [c1; c2; c3; c4; c5] ->
  exists x, test_normalization l (cstring c1) (cstring c2) (cstring c3) (cstring c4) (cstring c5) = Ok x /\
    (x = true <-> (forall c, In c [c1; c2; c3] -> nfd c c3 /\ nfc c c2) /\ (forall c, In c [c4; c5] -> nfd c c5 /\ nfc c c4)).
Proof.
  intros L F. rewrite Forall_forall in F.
  assert (V : forall c a b, In c [c1; c2; c3; c4; c5] -> In a [c1; c2; c3; c4; c5] -> In b [c1; c2; c3; c4; c5] ->
    exists x, verify_normalization l (cstring c) (cstring a) (cstring b) = Ok x /\ (x = true <-> nfd c a /\ nfc c b)).
  { intros c a b Ic Ia Ib. apply verify_normalization_ok; [exact L|apply F..| |]; try assumption; apply (F c Ic). }
  unfold test_normalization.
  Ltac one V c a b := let x := fresh "x" in let X := fresh "X" in destruct (V c a b) as (x & -> & X); [cbn; tauto|cbn; tauto|cbn; tauto|]; cbn [bind];
    destruct x; cbn [negb]; [|exists false; split; [reflexivity|]; split; [discriminate|]; intros [P Q]; apply X; first [apply P; cbn; tauto|apply Q; cbn; tauto]].
  one V c1 c3 c2. one V c2 c3 c2. one V c3 c3 c2. one V c4 c5 c4. one V c5 c5 c4.
  exists true. split; [reflexivity|]. split; [intros _|reflexivity]. split.
  - intros c [<-|[<-|[<-|[]]]]; tauto.
  - intros c [<-|[<-|[]]]; tauto.
Qed.
