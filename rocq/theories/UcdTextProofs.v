(** Proofs about the scripts that read the files in unicode/. *)
From Verif Require Import Base CharstrSpec CharstrProofs PyModel CategoryModel CategorySpec CategoryData CategoryProofs CaseModel CaseData UcdData NormModel IdnaTextSpec IdnaTextProofs UcdTextModel UcdTextSpec PyProofs.
From Coq Require Import ZifyBool String List.
Open Scope list_scope.
Open Scope Z_scope.

(** * Lines of UnicodeData.txt *)
Lemma plain_free f : Forall (fun c => c <> 59 /\ c <> 10 /\ c <> 13) f -> ~ In 59 f.
Proof. intros H I. rewrite Forall_forall in H. specialize (H 59 I). lia. Qed.
Record parsed (line : list Z) (r : ucd_row) (name f3 f5 f12 f13 : list Z) : Prop := {
  p_start : line_start line = Ok (u_cp r, name, chars (category_name (u_category r)));
  p_name : name_kind name (u_kind r);
  p_cp : exists f0, field 0 line = Ok f0 /\ py_int 16 f0 = Some (u_cp r);
  p_3 : field 3 line = Ok f3;
  p_class : dec_number f3 (u_class r);
  p_5 : field 5 line = Ok f5;
  p_mapping : decomposition_field f5 (u_mapping r);
  p_12 : field 12 line = Ok f12;
  p_upper : optional_number f12 (u_upper r);
  p_13 : field 13 line = Ok f13;
  p_lower : optional_number f13 (u_lower r) }.
Lemma ucd_line_ok line r : ucd_line line r -> exists name f3 f5 f12 f13, parsed line r name f3 f5 f12 f13.
Proof.
  intros (fields & newline & -> & L & NL & P & H0 & H1 & H2 & H3 & H5 & H12 & H13).
  do 15 (destruct fields as [|? fields]; [discriminate L|]). destruct fields as [|? fields]; [|discriminate L].
  cbn [nth] in *.
  match goal with |- context [join [59] [?a0; ?a1; ?a2; ?a3; ?a4; ?a5; ?a6; ?a7; ?a8; ?a9; ?a10; ?a11; ?a12; ?a13; ?a14]] =>
    rename a0 into f0, a1 into f1, a2 into f2, a3 into f3, a4 into f4, a5 into f5, a6 into f6, a7 into f7, a8 into f8, a9 into f9,
      a10 into f10, a11 into f11, a12 into f12, a13 into f13, a14 into f14 end.
  set (fs := [f0; f1; f2; f3; f4; f5; f6; f7; f8; f9; f10; f11; f12; f13; f14 ++ newline]).
  assert (join [59] [f0; f1; f2; f3; f4; f5; f6; f7; f8; f9; f10; f11; f12; f13; f14] ++ newline = join [59] fs) as ->.
  { subst fs. cbn [join]. rewrite <- !app_assoc. reflexivity. }
  assert (Forall (fun f => ~ In 59 f) fs) as F.
  { assert (forall f, In f [f0; f1; f2; f3; f4; f5; f6; f7; f8; f9; f10; f11; f12; f13; f14] -> ~ In 59 f) as Q.
    { intros f I. apply plain_free. rewrite Forall_forall in P. apply P. assumption. }
    subst fs. repeat (apply Forall_cons; [try (apply Q; cbn [In]; tauto)|]); [|constructor].
    rewrite in_app_iff. intros [I|I]; [apply (Q f14); [cbn [In]; tauto|assumption]|]. destruct NL as [-> | ->]; [destruct I as [I|[]]; lia|destruct I]. }
  pose proof (split_join 59 fs ltac:(discriminate) F) as S.
  exists f1, f3, f5, f12, f13. constructor; try assumption; try (unfold field; rewrite S; reflexivity).
  - assert (~ In 59 f0 /\ ~ In 59 f1 /\ ~ In 59 f2) as (N0 & N1 & N2).
    { subst fs. inversion F as [|? ? N0 F1]. inversion F1 as [|? ? N1 F2]. inversion F2 as [|? ? N2 _]. auto. }
    unfold line_start. subst fs.
    assert (forall a l, l <> [] -> join [59] (a :: l) = a ++ 59 :: join [59] l) as J by (intros a l Nl; rewrite join_cons by assumption; reflexivity).
    rewrite (J f0), (J f1), (J f2) by discriminate. rewrite !split_max_cons by assumption. cbn [py_split_max].
    rewrite (int_hex_self _ _ H0). cbn [or_raise bind]. rewrite H2. reflexivity.
  - exists f0. split; [unfold field; rewrite S; reflexivity|]. apply int_hex_self. assumption.
Qed.
Lemma suffixes_differ p : py_endswith (p ++ chars ", First>") (py ", Last>") = false.
Proof. unfold py_endswith. rewrite rev_app_distr. reflexivity. Qed.
Lemma kind_last n : name_kind n Last -> py_endswith n (py ", Last>") = true.
Proof. intros [p ->]. apply endswith_ok. exists p. reflexivity. Qed.
Lemma kind_first n : name_kind n First -> py_endswith n (py ", Last>") = false /\ py_endswith n (py ", First>") = true.
Proof. intros [p ->]. split; [apply suffixes_differ|]. apply endswith_ok. exists p. reflexivity. Qed.
Lemma kind_single n : name_kind n Single -> py_endswith n (py ", Last>") = false /\ py_endswith n (py ", First>") = false.
Proof.
  intros [H1 H2]. split.
  - destruct (py_endswith n (py ", Last>")) eqn:E; [|reflexivity]. apply endswith_ok in E. destruct E as [p E]. destruct (H2 p E).
  - destruct (py_endswith n (py ", First>")) eqn:E; [|reflexivity]. apply endswith_ok in E. destruct E as [p E]. destruct (H1 p E).
Qed.
Lemma pairing_single n c : name_kind n Single -> pairing n c None = Ok None.
Proof. intros H. apply kind_single in H. destruct H as [H1 H2]. unfold pairing. rewrite H1, H2. reflexivity. Qed.
Lemma pairing_first n c : name_kind n First -> pairing n c None = Ok (Some c).
Proof. intros H. apply kind_first in H. destruct H as [H1 H2]. unfold pairing. rewrite H1, H2. reflexivity. Qed.
Lemma pairing_last n c : name_kind n Last -> pairing n c (Some c) = Ok None.
Proof. intros H. apply kind_last in H. unfold pairing. rewrite H, py_eq_refl. reflexivity. Qed.

(** * Combining classes and cases *)
Definition class_case (r : ucd_row) : Z * Z := (u_cp r, u_class r).
Lemma class_cases_ok lo rs : ucd_file lo rs -> forall lines rows, map simple rows = rs -> Forall2 ucd_line lines rows ->
  class_cases lines None = Ok (map class_case rows).
Proof.
  induction 1 as [lo|lo cp c rs B _ IH|lo first last c rs B1 B2 _ IH]; intros lines rows E H.
  - destruct rows; [|discriminate]. inversion H. reflexivity.
  - destruct rows as [|r rows]; [discriminate|]. cbn [map] in E. injection E as E1 E2 E3 E.
    inversion H as [|line ? lines' ? U H']. subst. destruct (ucd_line_ok _ _ U) as (name & f3 & f5 & f12 & f13 & Q).
    cbn [class_cases]. rewrite (p_start _ _ _ _ _ _ _ Q). cbn [bind]. rewrite pairing_single by (rewrite <- E2; apply (p_name _ _ _ _ _ _ _ Q)).
    cbn [bind]. rewrite (p_3 _ _ _ _ _ _ _ Q). cbn [bind]. rewrite (int_dec _ _ (p_class _ _ _ _ _ _ _ Q)). cbn [or_raise bind].
    rewrite (IH lines' rows eq_refl H'). reflexivity.
  - destruct rows as [|r rows]; [discriminate|]. cbn [map] in E. injection E as E1 E2 E3 E.
    destruct rows as [|r' rows]; [discriminate|]. cbn [map] in E. injection E as E1' E2' E3' E.
    inversion H as [|line ? lines' ? U H']. inversion H' as [|line' ? lines'' ? U' H'']. subst.
    destruct (ucd_line_ok _ _ U) as (name & f3 & f5 & f12 & f13 & Q). destruct (ucd_line_ok _ _ U') as (name' & f3' & f5' & f12' & f13' & Q').
    cbn [class_cases]. rewrite (p_start _ _ _ _ _ _ _ Q). cbn [bind]. rewrite pairing_first by (rewrite <- E2; apply (p_name _ _ _ _ _ _ _ Q)).
    cbn [bind]. rewrite (p_3 _ _ _ _ _ _ _ Q). cbn [bind]. rewrite (int_dec _ _ (p_class _ _ _ _ _ _ _ Q)). cbn [or_raise bind].
    rewrite (p_start _ _ _ _ _ _ _ Q'). cbn [bind]. rewrite E3'. rewrite pairing_last by (rewrite <- E2'; apply (p_name _ _ _ _ _ _ _ Q')).
    cbn [bind]. rewrite (p_3 _ _ _ _ _ _ _ Q'). cbn [bind]. rewrite (int_dec _ _ (p_class _ _ _ _ _ _ _ Q')). cbn [or_raise bind].
    rewrite (IH lines'' rows eq_refl H''). reflexivity.
Qed.
Definition case_case (letter : category) (value : ucd_row -> option Z) (r : ucd_row) : list (Z * Z) :=
  if category_eqb (u_category r) letter then match value r with Some n => [(u_cp r, n)] | None => [] end else [].
Lemma names_differ c d : py_eq (chars (category_name c)) (chars (category_name d)) = category_eqb c d.
Proof. destruct c; destruct d; vm_compute; reflexivity. Qed.
Lemma case_cases_ok letter i value : 
  (forall line r, ucd_line line r -> exists f, field i line = Ok f /\ optional_number f (value r)) ->
  forall lo rs, ucd_file lo rs -> forall lines rows, map simple rows = rs -> Forall2 ucd_line lines rows ->
  case_cases (chars (category_name letter)) i lines None = Ok (flat_map (case_case letter value) rows).
Proof.
  intros V.
  assert (forall line r, ucd_line line r ->
    (if py_eq (chars (category_name (u_category r))) (chars (category_name letter)) then
       f <- field i line ;; Ok (match py_int 16 f with Some n => [(u_cp r, n)] | None => [] end)
     else Ok []) = Ok (case_case letter value r)) as C.
  { intros line r U. rewrite names_differ. unfold case_case. destruct (category_eqb (u_category r) letter); [|reflexivity].
    destruct (V line r U) as (f & -> & O). cbn [bind]. destruct (value r) as [n|]; cbn [optional_number] in O.
    - rewrite (int_hex_self _ _ O). reflexivity.
    - subst f. reflexivity. }
  induction 1 as [lo|lo cp c rs B _ IH|lo first last c rs B1 B2 _ IH]; intros lines rows E H.
  - destruct rows; [|discriminate]. inversion H. reflexivity.
  - destruct rows as [|r rows]; [discriminate|]. cbn [map] in E. injection E as E1 E2 E3 E.
    inversion H as [|line ? lines' ? U H']. subst. destruct (ucd_line_ok _ _ U) as (name & f3 & f5 & f12 & f13 & Q).
    cbn [case_cases]. rewrite (p_start _ _ _ _ _ _ _ Q). cbn [bind]. rewrite pairing_single by (rewrite <- E2; apply (p_name _ _ _ _ _ _ _ Q)).
    cbn [bind]. rewrite (C _ _ U). cbn [bind]. rewrite (IH lines' rows eq_refl H'). reflexivity.
  - destruct rows as [|r rows]; [discriminate|]. cbn [map] in E. injection E as E1 E2 E3 E.
    destruct rows as [|r' rows]; [discriminate|]. cbn [map] in E. injection E as E1' E2' E3' E.
    inversion H as [|line ? lines' ? U H']. inversion H' as [|line' ? lines'' ? U' H'']. subst.
    destruct (ucd_line_ok _ _ U) as (name & f3 & f5 & f12 & f13 & Q). destruct (ucd_line_ok _ _ U') as (name' & f3' & f5' & f12' & f13' & Q').
    cbn [case_cases]. rewrite (p_start _ _ _ _ _ _ _ Q). cbn [bind]. rewrite pairing_first by (rewrite <- E2; apply (p_name _ _ _ _ _ _ _ Q)).
    cbn [bind]. rewrite (C _ _ U). cbn [bind].
    rewrite (p_start _ _ _ _ _ _ _ Q'). cbn [bind]. rewrite <- E3'. rewrite pairing_last by (rewrite <- E2'; apply (p_name _ _ _ _ _ _ _ Q')).
    cbn [bind]. rewrite (C _ _ U'). cbn [bind]. rewrite (IH lines'' rows eq_refl H''). reflexivity.
Qed.
(** * Switch statements *)
Lemma switch_get {A} (d : list (Z * A)) k : NormModel.switch d k = dict_get k d.
Proof. induction d as [|[k' v] d IH]; [reflexivity|]. cbn [NormModel.switch dict_get]. rewrite Z.eqb_sym, IH. reflexivity. Qed.
Lemma get_in {A} (d : list (Z * A)) k v : NoDup (map fst d) -> In (k, v) d -> dict_get k d = Some v.
Proof.
  induction d as [|[k' v'] d IH]; intros N I; [destruct I|]. cbn [dict_get]. cbn [map fst] in N. inversion N as [|? ? N1 N2]. destruct I as [I|I].
  - injection I as -> ->. rewrite Z.eqb_refl. reflexivity.
  - destruct (Z.eqb_spec k' k) as [E|_]; [|apply IH; assumption]. destruct N1. rewrite E. apply (in_map fst) in I. exact I.
Qed.
Lemma get_none {A} (d : list (Z * A)) k : ~ In k (map fst d) -> dict_get k d = None.
Proof.
  induction d as [|[k' v'] d IH]; intros N; [reflexivity|]. cbn [dict_get]. cbn [map fst In] in N.
  destruct (Z.eqb_spec k' k); [tauto|]. apply IH. tauto.
Qed.
Lemma get_some {A} (d : list (Z * A)) k v : dict_get k d = Some v -> In (k, v) d.
Proof.
  induction d as [|[k' v'] d IH]; intros H; [discriminate H|]. cbn [dict_get] in H. destruct (Z.eqb_spec k' k) as [E|_].
  - left. congruence.
  - right. apply IH. assumption.
Qed.
Lemma file_codepoints lo rs : ucd_file lo rs ->
  NoDup (map (fun r => fst (fst r)) rs) /\ forall x, In x (map (fun r => fst (fst r)) rs) -> lo <= x <= 0x10FFFF.
Proof.
  induction 1 as [lo|lo cp c rs B _ [IH1 IH2]|lo first last c rs B1 B2 _ [IH1 IH2]].
  - split; [constructor|intros x []].
  - cbn [map fst]. split.
    + constructor; [|assumption]. intros I. apply IH2 in I. lia.
    + intros x [<- |I]; [lia|]. apply IH2 in I. lia.
  - cbn [map fst]. split.
    + constructor; [|constructor; [|assumption]].
      * intros [I|I]; [lia|]. apply IH2 in I. lia.
      * intros I. apply IH2 in I. lia.
    + intros x [<- |[<- |I]]; [lia|lia|]. apply IH2 in I. lia.
Qed.
Lemma codepoints file rows : ucd_text file rows -> NoDup (map u_cp rows) /\ forall r, In r rows -> 0 <= u_cp r <= 0x10FFFF.
Proof.
  intros [_ U]. apply file_codepoints in U. rewrite map_map in U. cbn [simple fst] in U. destruct U as [U1 U2]. split; [assumption|].
  intros r I. apply U2. apply (in_map u_cp) in I. exact I.
Qed.
(** The row of a codepoint. *)
Lemma row_unique rows r r' : NoDup (map u_cp rows) -> In r rows -> In r' rows -> u_cp r = u_cp r' -> r = r'.
Proof.
  induction rows as [|a rows IH]; intros N I I' E; [destruct I|]. cbn [map] in N. inversion N as [|? ? N1 N2].
  destruct I as [I|I]; destruct I' as [I'|I'].
  - congruence.
  - destruct N1. rewrite I, E. apply in_map. assumption.
  - destruct N1. rewrite I', <- E. apply in_map. assumption.
  - apply IH; assumption.
Qed.
Lemma combining_class_ok file rows : ucd_text file rows -> exists cases, canonical_combining_classes file = Ok cases /\
  (forall r, In r rows -> run_class cases (u_cp r) = u_class r) /\
  forall cp, (forall r, In r rows -> u_cp r <> cp) -> run_class cases cp = 0.
Proof.
  intros U. destruct (codepoints _ _ U) as [N _]. destruct U as [(lines & L & H) U]. exists (map class_case rows). split; [|split].
  - unfold canonical_combining_classes. rewrite (lines_ok _ _ L). apply (class_cases_ok 0 (map simple rows)); [assumption|reflexivity|assumption].
  - intros r I. unfold run_class. rewrite switch_get. rewrite (get_in _ _ (u_class r)).
    + reflexivity.
    + rewrite map_map. exact N.
    + apply (in_map class_case) in I. exact I.
  - intros cp F. unfold run_class. rewrite switch_get, get_none; [reflexivity|]. rewrite map_map. cbn [class_case fst].
    intros I. apply in_map_iff in I. destruct I as (r & E & I). apply (F r I E).
Qed.
Definition case_of (r : ucd_row) : case_row := (u_cp r, u_category r, u_upper r, u_lower r).
Lemma lower_case_ok file rows : ucd_text file rows -> lower_case file = Ok (lower_cases (map case_of rows)).
Proof.
  intros [(lines & L & H) U]. unfold lower_case. rewrite (lines_ok _ _ L).
  rewrite (case_cases_ok Lu 13 u_lower) with (lo := 0) (rs := map simple rows) (rows := rows); [| |assumption|reflexivity|assumption].
  - f_equal. clear. induction rows as [|r rows IH]; [reflexivity|]. cbn [flat_map map lower_cases]. rewrite IH.
    unfold case_case, case_of. destruct (u_category r); destruct (u_lower r); reflexivity.
  - intros line r Hl. destruct (ucd_line_ok _ _ Hl) as (name & f3 & f5 & f12 & f13 & Q). exists f13.
    split; [apply (p_13 _ _ _ _ _ _ _ Q)|apply (p_lower _ _ _ _ _ _ _ Q)].
Qed.
Lemma upper_case_ok file rows : ucd_text file rows -> upper_case file = Ok (upper_cases (map case_of rows)).
Proof.
  intros [(lines & L & H) U]. unfold upper_case. rewrite (lines_ok _ _ L).
  rewrite (case_cases_ok Ll 12 u_upper) with (lo := 0) (rs := map simple rows) (rows := rows); [| |assumption|reflexivity|assumption].
  - f_equal. clear. induction rows as [|r rows IH]; [reflexivity|]. cbn [flat_map map upper_cases]. rewrite IH.
    unfold case_case, case_of. destruct (u_category r); destruct (u_upper r); reflexivity.
  - intros line r Hl. destruct (ucd_line_ok _ _ Hl) as (name & f3 & f5 & f12 & f13 & Q). exists f12.
    split; [apply (p_12 _ _ _ _ _ _ _ Q)|apply (p_upper _ _ _ _ _ _ _ Q)].
Qed.

(** * Categories *)
Lemma category_of_name c : category_of (chars (category_name c)) = Some c.
Proof. destruct c; vm_compute; reflexivity. Qed.
Lemma category_rows_ok lines rows : Forall2 ucd_line lines rows -> category_rows lines = Ok (map simple rows).
Proof.
  induction 1 as [|line r lines rows U _ IH]; [reflexivity|]. destruct (ucd_line_ok _ _ U) as (name & f3 & f5 & f12 & f13 & Q).
  cbn [category_rows]. rewrite (p_start _ _ _ _ _ _ _ Q). cbn [bind]. rewrite category_of_name. cbn [or_raise bind]. rewrite IH. cbn [bind map].
  unfold simple at 2. pose proof (p_name _ _ _ _ _ _ _ Q) as K. destruct (u_kind r).
  - apply kind_single in K. destruct K as [-> ->]. reflexivity.
  - apply kind_first in K. destruct K as [-> ->]. reflexivity.
  - apply kind_last in K. rewrite K. reflexivity.
Qed.
Lemma categorize_text_ok file rows : ucd_text file rows -> categorize_text file = categorize (map simple rows).
Proof. intros [(lines & L & H) _]. unfold categorize_text. rewrite (lines_ok _ _ L), (category_rows_ok _ _ H). reflexivity. Qed.

(** * Decompositions *)
Lemma ints_ok numbers cps : Forall2 hex_number numbers cps -> ints numbers = Ok cps.
Proof. induction 1 as [|ds n numbers cps H _ IH]; [reflexivity|]. cbn [ints]. rewrite (int_hex_self _ _ H). cbn [or_raise bind]. rewrite IH. reflexivity. Qed.
Lemma numbers_x numbers cps : Forall2 hex_number numbers cps -> Forall (fun w => Forall xdigit w /\ w <> []) numbers.
Proof. induction 1 as [|ds n ? ? H _ IH]; [constructor|]. constructor; [|assumption]. apply hex_number_x in H. tauto. Qed.
Definition canonical (r : ucd_row) : option (list Z) := match u_mapping r with Canonical cps => Some cps | _ => None end.
Lemma decomposition_line_ok line r : ucd_line line r -> decomposition_line line = Ok (u_cp r, canonical r).
Proof.
  intros U. destruct (ucd_line_ok _ _ U) as (name & f3 & f5 & f12 & f13 & Q). destruct (p_cp _ _ _ _ _ _ _ Q) as (f0 & F0 & I0).
  unfold decomposition_line. rewrite F0. cbn [bind]. rewrite I0. cbn [or_raise bind]. rewrite (p_5 _ _ _ _ _ _ _ Q). cbn [bind].
  pose proof (p_mapping _ _ _ _ _ _ _ Q) as M. clear Q. unfold canonical. destruct (u_mapping r) as [|cps|]; cbn [decomposition_field] in M.
  - subst f5. reflexivity.
  - destruct M as (Ne & numbers & -> & F).
    pose proof (numbers_x _ _ F) as X.
    assert (join [32] numbers <> []) as J.
    { destruct F as [|ds n ns cs H F]; [destruct (Ne eq_refl)|]. inversion X as [|? ? [_ X1] _]. destruct ds; [destruct (X1 eq_refl)|].
      destruct ns; cbn [join]; discriminate. }
    assert (py_startswith (join [32] numbers) (py "<") = false) as S.
    { destruct (py_startswith (join [32] numbers) (py "<")) eqn:S; [|reflexivity]. exfalso. apply startswith_ok in S. destruct S as [t S].
      destruct F as [|ds n ns cs H F]; [destruct (Ne eq_refl)|]. inversion X as [|? ? [X1 X2] _]. destruct ds as [|d ds]; [destruct (X2 eq_refl)|].
      assert (exists t', join [32] ((d :: ds) :: ns) = d :: t') as [t' T] by (destruct ns; eexists; reflexivity).
      rewrite T in S. cbn in S. injection S as S _. inversion X1 as [|? ? D _]. unfold xdigit in D. lia. }
    assert (py_words [] (join [32] numbers) = numbers) as W.
    { apply words_join. revert X. apply Forall_impl. intros w [X1 X2]. split; [apply xdigit_solid|]; assumption. }
    rewrite S, W, (ints_ok _ _ F). destruct (join [32] numbers); [destruct (J eq_refl)|]. reflexivity.
  - destruct M as [t ->]. change (chars "<") with [60]. cbn [app]. replace (py_startswith (60 :: t) (py "<")) with true by (destruct t; reflexivity). reflexivity.
Qed.
Definition array (r : ucd_row) : list (Z * list Z) := match canonical r with Some cps => [(u_cp r, cps ++ [0])] | None => [] end.
Lemma arrays_ok lines rows : Forall2 ucd_line lines rows -> arrays lines = Ok (flat_map array rows).
Proof.
  induction 1 as [|line r lines rows U _ IH]; [reflexivity|]. cbn [arrays flat_map]. rewrite (decomposition_line_ok _ _ U). cbn [bind]. rewrite IH.
  cbn [bind]. unfold array. destruct (canonical r); reflexivity.
Qed.
Lemma array_in r rows cps : In r rows -> u_mapping r = Canonical cps -> In (u_cp r, cps ++ [0]) (flat_map array rows).
Proof. intros I M. apply in_flat_map. exists r. split; [assumption|]. unfold array, canonical. rewrite M. left. reflexivity. Qed.
Lemma array_keys rows x : In x (map fst (flat_map array rows)) -> exists r cps, In r rows /\ u_cp r = x /\ u_mapping r = Canonical cps.
Proof.
  intros I. apply in_map_iff in I. destruct I as ([k v] & E & I). apply in_flat_map in I. destruct I as (r & I & A). unfold array, canonical in A.
  destruct (u_mapping r) as [|cps|] eqn:M; [destruct A| |destruct A]. destruct A as [A|[]]. injection A as A1 A2. cbn [fst] in E.
  exists r, cps. split; [assumption|]. split; [congruence|assumption].
Qed.
Lemma array_nodup rows : NoDup (map u_cp rows) -> NoDup (map fst (flat_map array rows)).
Proof.
  induction rows as [|r rows IH]; intros N; [constructor|]. cbn [map] in N. inversion N as [|? ? N1 N2]. cbn [flat_map]. unfold array at 1.
  destruct (canonical r) as [cps|]; [|apply IH; assumption]. cbn [app map fst]. constructor; [|apply IH; assumption].
  intros I. apply array_keys in I. destruct I as (r' & c & I & E & _). apply N1. rewrite <- E. apply in_map. assumption.
Qed.
Lemma decomposition_ok file rows : ucd_text file rows -> exists c, decomposition file = Ok c /\
  (forall r cps, In r rows -> u_mapping r = Canonical cps -> run_decomposition c (u_cp r) = Some (cps ++ [0])) /\
  forall cp, (forall r cps, In r rows -> u_mapping r = Canonical cps -> u_cp r <> cp) -> run_decomposition c cp = None.
Proof.
  intros U. destruct (codepoints _ _ U) as [N R]. destruct U as [(lines & L & H) U].
  exists (flat_map array rows, decomposition_cases (flat_map array rows)). split; [|split].
  - unfold decomposition. rewrite (lines_ok _ _ L), (arrays_ok _ _ H). reflexivity.
  - intros r cps I M. pose proof (array_in _ _ _ I M) as A. unfold run_decomposition. cbn [fst snd].
    assert (existsb (fun x => x =? u_cp r) (decomposition_cases (flat_map array rows)) = true) as ->.
    { apply existsb_exists. exists (u_cp r). split; [|apply Z.eqb_refl]. unfold decomposition_cases. apply filter_In. split.
      - apply in_map_iff. exists (Z.to_nat (u_cp r)). specialize (R r I). split; [lia|]. apply in_seq. lia.
      - apply existsb_exists. exists (u_cp r, cps ++ [0]). split; [assumption|]. apply Z.eqb_refl. }
    rewrite switch_get. apply get_in; [apply array_nodup; assumption|assumption].
  - intros cp F. unfold run_decomposition. cbn [fst snd]. destruct (existsb (fun x => x =? cp) (decomposition_cases (flat_map array rows))); [|reflexivity].
    rewrite switch_get. apply get_none. intros I. apply array_keys in I. destruct I as (r & cps & I & E & M). apply (F r cps I M E).
Qed.

(** * Recomposition *)
Lemma exclusion_line_ok line o : exclusion_line line o -> forall lines, exclusions (line :: lines) =
  match o with Some n => r <- exclusions lines ;; Ok (n :: r) | None => exclusions lines end.
Proof.
  intros H lines. cbn [exclusions]. destruct o as [n|]; cbn [exclusion_line] in H.
  - destruct H as (ds & rest & -> & D & R). pose proof (hex_number_x _ _ D) as (_ & X & Ne). pose proof (xdigit_solid _ X) as S.
    destruct ds as [|d ds]; [destruct (Ne eq_refl)|].
    assert (py_space d = false) as Sd by (inversion S; assumption).
    assert (exists rest', py_strip ((d :: ds) ++ rest) = (d :: ds) ++ rest' /\ (rest' = [] \/ exists c t, rest' = c :: t /\ py_space c = true)) as (rest' & E & R').
    { unfold py_strip. cbn [app]. rewrite lstrip_solid by assumption. change (d :: ds ++ rest) with ((d :: ds) ++ rest).
      assert (forall l, (exists m, py_lstrip (rev ((d :: ds) ++ l)) = rev ((d :: ds) ++ m) /\ exists z, l = m ++ z)) as K.
      { intros l. induction l as [|c l IH] using rev_ind.
        - exists []. split; [|exists []; reflexivity]. rewrite app_nil_r. pose proof (solid_framed _ S Ne) as F.
          destruct (rev (d :: ds)) as [|z zs] eqn:Ez; [reflexivity|]. apply lstrip_solid. unfold solid in S. rewrite Forall_forall in S.
          apply S. rewrite in_rev, Ez. left. reflexivity.
        - destruct IH as (m & E & z & Z). destruct (py_space c) eqn:C.
          + exists m. rewrite app_assoc, rev_unit. cbn [py_lstrip]. rewrite C. split; [exact E|]. exists (z ++ [c]). rewrite Z, <- app_assoc. reflexivity.
          + exists (l ++ [c]). rewrite app_assoc, rev_unit. split; [apply lstrip_solid; assumption|]. exists []. rewrite app_nil_r. reflexivity. }
      destruct (K rest) as (m & E & z & Z). exists m. rewrite E, rev_involutive. split; [reflexivity|].
      destruct m as [|c m]; [left; reflexivity|]. right. destruct R as [R|(c' & t & R & B)]; [rewrite R in Z; discriminate Z|].
      rewrite R in Z. cbn [app] in Z. injection Z as Z1 Z2. exists c, m. split; [reflexivity|]. apply blank_space. congruence. }
    rewrite E. cbn [app orb].
    assert (py_startswith (d :: ds ++ rest') (py "#") = false) as ->.
    { change (py "#") with [35]. cbn [py_startswith]. replace (35 =? d) with false; [reflexivity|]. inversion X as [|? ? D' _]. unfold xdigit in D'. lia. }
    change (d :: ds ++ rest') with ((d :: ds) ++ rest'). rewrite (words_first (d :: ds) rest' S Ne R').
    cbn [or_raise bind]. rewrite (int_hex_self _ _ D). reflexivity.
  - destruct H as [B|(w & t & -> & B)].
    + rewrite (strip_all line) by (apply blank_spaces; assumption). reflexivity.
    + assert (exists t', py_strip (w ++ chars "#" ++ t) = 35 :: t') as [t' ->].
      { unfold py_strip. rewrite lstrip_spaces by (apply blank_spaces; assumption). change (chars "#" ++ t) with (35 :: t). rewrite lstrip_solid by reflexivity.
        assert (forall l, exists m, py_lstrip (rev (35 :: l)) = rev (35 :: m)) as K.
        { intros l. induction l as [|c l IH] using rev_ind; [exists []; reflexivity|]. destruct IH as [m E]. destruct (py_space c) eqn:C.
          - exists m. rewrite app_comm_cons, rev_unit. cbn [py_lstrip]. rewrite C. exact E.
          - exists (l ++ [c]). rewrite app_comm_cons, rev_unit. apply lstrip_solid. assumption. }
        destruct (K t) as [m ->]. exists m. apply rev_involutive. }
      replace (py_startswith (35 :: t') (py "#")) with true by (destruct t'; reflexivity). reflexivity.
Qed.
Lemma exclusions_ok file excluded : exclusion_text file excluded -> exclusions (py_lines file) = Ok excluded.
Proof.
  intros (lines & os & L & H & ->). rewrite (lines_ok _ _ L). clear L. induction H as [|line o lines os H _ IH]; [reflexivity|].
  rewrite (exclusion_line_ok _ _ H). cbn [flat_map]. destruct o; rewrite IH; reflexivity.
Qed.
Definition get2 (d : list (Z * list (Z * Z))) (starter cc : Z) : option Z :=
  match dict_get cc d with Some i => dict_get starter i | None => None end.
Definition tidy (d : list (Z * list (Z * Z))) : Prop := NoDup (map fst d) /\ forall k i, dict_get k d = Some i -> NoDup (map fst i).
Definition composed (excluded : list Z) (starter cc : Z) (r : ucd_row) : option Z :=
  match canonical r with
  | Some [s; c] => if (s =? starter) && (c =? cc) && negb (existsb (fun x => x =? u_cp r) excluded) then Some (u_cp r) else None
  | _ => None
  end.
Fixpoint last_composed (excluded : list Z) (starter cc : Z) (rows : list ucd_row) : option Z :=
  match rows with
  | [] => None
  | r :: rows => match last_composed excluded starter cc rows with Some cp => Some cp | None => composed excluded starter cc r end
  end.
Definition short (rows : list ucd_row) : Prop := forall r cps, In r rows -> u_mapping r = Canonical cps -> (length cps <= 2)%nat.
Lemma recomposition_lines_ok excluded lines rows : Forall2 ucd_line lines rows -> short rows -> forall d, tidy d ->
  exists d', recomposition_lines excluded lines d = Ok d' /\ tidy d' /\
    forall starter cc, get2 d' starter cc = match last_composed excluded starter cc rows with Some cp => Some cp | None => get2 d starter cc end.
Proof.
  induction 1 as [|line r lines rows U _ IH]; intros S d T; [exists d; auto|].
  assert (short rows) as S' by (intros r' cps I; apply S; right; assumption).
  cbn [recomposition_lines last_composed]. rewrite (decomposition_line_ok _ _ U). cbn [bind].
  assert (forall starter cc, composed excluded starter cc r = None -> forall d' : list (Z * list (Z * Z)),
    match (match last_composed excluded starter cc rows with Some cp => Some cp | None => composed excluded starter cc r end) with
    | Some cp => Some cp | None => get2 d starter cc end
    = match last_composed excluded starter cc rows with Some cp => Some cp | None => get2 d starter cc end) as Same.
  { intros starter cc E _. rewrite E. destruct (last_composed excluded starter cc rows); reflexivity. }
  assert ((forall starter cc, composed excluded starter cc r = None) -> exists d', recomposition_lines excluded lines d = Ok d' /\ tidy d' /\
    forall starter cc, get2 d' starter cc = match (match last_composed excluded starter cc rows with Some cp => Some cp | None => composed excluded starter cc r end) with
    | Some cp => Some cp | None => get2 d starter cc end) as Skip.
  { intros E. destruct (IH S' d T) as (d' & E' & T' & G). exists d'. split; [assumption|]. split; [assumption|]. intros starter cc.
    rewrite Same by (apply E || exact d). apply G. }
  destruct (canonical r) as [[|s [|c [|x l]]]|] eqn:C.
  - apply Skip. intros. unfold composed. rewrite C. reflexivity.
  - apply Skip. intros. unfold composed. rewrite C. reflexivity.
  - destruct (existsb (fun x => x =? u_cp r) excluded) eqn:X.
    + apply Skip. intros. unfold composed. rewrite C, X. cbn [negb]. rewrite andb_false_r. reflexivity.
    + set (inner := match dict_get c d with Some i => i | None => [] end).
      assert (NoDup (map fst inner)) as Ni.
      { subst inner. destruct (dict_get c d) as [i|] eqn:G; [apply (proj2 T c i G)|constructor]. }
      destruct (IH S' (dict_set c (dict_set s (u_cp r) inner) d)) as (d' & E' & T' & G).
      { split; [apply set_nodup, T|]. intros k i. rewrite get_set. destruct (k =? c).
        - intros E. injection E as <-. apply set_nodup. assumption.
        - apply (proj2 T). }
      exists d'. split; [assumption|]. split; [assumption|]. intros starter cc. rewrite G.
      destruct (last_composed excluded starter cc rows); [reflexivity|]. unfold composed. rewrite C, X. cbn [negb]. rewrite andb_true_r.
      unfold get2. rewrite get_set. destruct (Z.eqb_spec cc c) as [E|E].
      * rewrite get_set. rewrite E, Z.eqb_refl, andb_true_r. rewrite (Z.eqb_sym s). destruct (starter =? s); [reflexivity|].
        subst inner. destruct (dict_get c d); reflexivity.
      * replace (c =? cc) with false by lia. rewrite andb_false_r. reflexivity.
  - exfalso. unfold canonical in C. destruct (u_mapping r) as [|cps|] eqn:M; try discriminate C. injection C as ->.
    specialize (S r _ (or_introl eq_refl) M). cbn [length] in S. lia.
  - apply Skip. intros. unfold composed. rewrite C. reflexivity.
Qed.
Lemma composed_some excluded starter cc r cp : composed excluded starter cc r = Some cp <->
  u_mapping r = Canonical [starter; cc] /\ u_cp r = cp /\ ~ In cp excluded.
Proof.
  unfold composed, canonical. destruct (u_mapping r) as [|cps|]; [split; [discriminate|intros (H & _); discriminate H]| |split; [discriminate|intros (H & _); discriminate H]].
  destruct cps as [|s [|c [|x l]]]; try (split; [discriminate|intros (H & _); discriminate H]).
  destruct (existsb (fun x => x =? u_cp r) excluded) eqn:X.
  - cbn [negb]. rewrite andb_false_r. split; [discriminate|]. intros (_ & E & N). exfalso. apply N. apply existsb_exists in X. destruct X as (x & I & Ex).
    apply Z.eqb_eq in Ex. congruence.
  - cbn [negb]. rewrite andb_true_r. destruct (Z.eqb_spec s starter); destruct (Z.eqb_spec c cc); cbn [andb]; split; intros H; try discriminate H.
    + injection H as H. split; [congruence|]. split; [assumption|]. intros I. rewrite <- not_true_iff_false in X. apply X. apply existsb_exists.
      exists cp. split; [assumption|]. lia.
    + destruct H as (_ & H & _). congruence.
    + destruct H as (H & _). injection H as H1 H2. congruence.
    + destruct H as (H & _). injection H as H1 H2. congruence.
    + destruct H as (H & _). injection H as H1 H2. congruence.
Qed.
Lemma last_none excluded starter cc rows : last_composed excluded starter cc rows = None <->
  forall r, In r rows -> u_mapping r = Canonical [starter; cc] -> In (u_cp r) excluded.
Proof.
  induction rows as [|r rows IH]; [split; [intros _ r []|reflexivity]|]. cbn [last_composed].
  destruct (last_composed excluded starter cc rows) as [x|].
  - split; [discriminate|]. intros H. exfalso. assert (Some x = None) as E; [|discriminate E]. apply IH. intros r' I. apply H. right. assumption.
  - destruct IH as [IH _]. specialize (IH eq_refl). destruct (composed excluded starter cc r) as [x|] eqn:C.
    + split; [discriminate|]. intros H. exfalso. apply composed_some in C. destruct C as (M & E & N). apply N. rewrite <- E. apply H; [left; reflexivity|assumption].
    + split; [|reflexivity]. intros _ r' [<- |I] M; [|apply IH; assumption]. destruct (in_dec Z.eq_dec (u_cp r) excluded) as [I|N]; [assumption|].
      exfalso. assert (composed excluded starter cc r = Some (u_cp r)) as E by (apply composed_some; auto). congruence.
Qed.
Lemma last_some excluded starter cc rows cp : last_composed excluded starter cc rows = Some cp <-> composite rows excluded starter cc cp.
Proof.
  unfold composite. induction rows as [|r rows IH].
  - split; [discriminate|]. intros (before & r & after & E & _). destruct before; discriminate E.
  - cbn [last_composed]. destruct (last_composed excluded starter cc rows) as [x|] eqn:L.
    + split.
      * intros H. injection H as ->. destruct IH as [IH _]. destruct (IH eq_refl) as (before & r' & after & E & R). exists (r :: before), r', after.
        split; [rewrite E; reflexivity|exact R].
      * intros (before & r' & after & E & M & Ec & N & A). destruct before as [|b before]; cbn [app] in E; injection E as E1 E2.
        -- exfalso. subst after. assert (last_composed excluded starter cc rows = None) as K by (apply last_none; exact A). congruence.
        -- apply IH. exists before, r', after. auto.
    + rewrite composed_some. split.
      * intros (M & E & N). exists [], r, rows. split; [reflexivity|]. split; [assumption|]. split; [assumption|]. split; [assumption|]. apply last_none. assumption.
      * intros (before & r' & after & E & M & Ec & N & A). destruct before as [|b before]; cbn [app] in E; injection E as E1 E2.
        -- subst r'. auto.
        -- exfalso. assert (None = Some cp) as K; [|discriminate K]. apply IH. exists before, r', after. auto.
Qed.
Lemma get_map {A B} (f : A -> B) (d : list (Z * A)) k : dict_get k (map (fun '(c, i) => (c, f i)) d) = option_map f (dict_get k d).
Proof. induction d as [|[k' v] d IH]; [reflexivity|]. cbn [map dict_get]. destruct (k' =? k); [reflexivity|]. exact IH. Qed.
Lemma recomposition_ok file file2 rows excluded : ucd_text file rows -> exclusion_text file2 excluded -> short rows ->
  exists c, recomposition file file2 = Ok c /\
    (forall starter cc cp, composite rows excluded starter cc cp -> run_recomposition c starter cc = cp) /\
    forall starter cc, (forall cp, ~ composite rows excluded starter cc cp) -> run_recomposition c starter cc = -1.
Proof.
  intros [(lines & L & H) U] X S. destruct (recomposition_lines_ok excluded lines rows H S []) as (d & E & T & G).
  { split; [constructor|]. intros k i Hk. discriminate Hk. }
  exists (map (fun '(cc, i) => (cc, dict_sorted i)) (dict_sorted d)). split.
  { unfold recomposition. rewrite (exclusions_ok _ _ X). cbn [bind]. rewrite (lines_ok _ _ L), E. reflexivity. }
  assert (forall starter cc, run_recomposition (map (fun '(cc, i) => (cc, dict_sorted i)) (dict_sorted d)) starter cc
    = match get2 d starter cc with Some cp => cp | None => -1 end) as Run.
  { intros starter cc. unfold run_recomposition, get2. rewrite switch_get, get_map, get_sorted by apply T.
    destruct (dict_get cc d) as [i|] eqn:D; [|reflexivity]. cbn [option_map]. rewrite switch_get, get_sorted by apply (proj2 T cc i D). reflexivity. }
  split.
  - intros starter cc cp C. rewrite Run, G. apply last_some in C. rewrite C. reflexivity.
  - intros starter cc N. rewrite Run, G. destruct (last_composed excluded starter cc rows) as [cp|] eqn:C; [|reflexivity].
    apply last_some in C. destruct (N cp C).
Qed.

(** * Quick checks *)
Definition rstrip (s : list Z) : list Z := rev (py_lstrip (rev s)).
Lemma strip_two s : py_strip s = rstrip (py_lstrip s).
Proof. reflexivity. Qed.
Lemma lstrip_before (d : Z) a b : py_space d = false -> py_lstrip (a ++ d :: b) = py_lstrip a ++ d :: b.
Proof. intros S. induction a as [|c a IH]; [apply lstrip_solid; assumption|]. cbn [app py_lstrip]. destruct (py_space c); [exact IH|reflexivity]. Qed.
Lemma rstrip_after (d : Z) a b : py_space d = false -> rstrip (a ++ d :: b) = a ++ d :: rstrip b.
Proof.
  intros S. unfold rstrip. rewrite rev_app_distr. cbn [rev]. rewrite <- app_assoc. cbn [app]. rewrite lstrip_before by assumption.
  rewrite rev_app_distr. cbn [rev]. rewrite rev_involutive, <- app_assoc. reflexivity.
Qed.
Lemma lstrip_in x s : In x (py_lstrip s) -> In x s.
Proof. induction s as [|c s IH]; [auto|]. cbn [py_lstrip]. destruct (py_space c); [right; apply IH; assumption|auto]. Qed.
Lemma rstrip_in x s : In x (rstrip s) -> In x s.
Proof. unfold rstrip. rewrite <- in_rev. intros I. apply lstrip_in in I. rewrite <- in_rev in I. assumption. Qed.
(** The number of fields. *)
Definition marks (s : list Z) : nat := length (filter (fun c => c =? 59) s).
Lemma split_length s : length (py_split 59 s) = S (marks s).
Proof.
  unfold marks. induction s as [|c s IH]; [reflexivity|]. cbn [py_split filter]. destruct (c =? 59); [cbn [length]; rewrite IH; reflexivity|].
  destruct (py_split 59 s); [discriminate IH|]. exact IH.
Qed.
Lemma marks_app a b : marks (a ++ b) = (marks a + marks b)%nat.
Proof. unfold marks. rewrite filter_app, app_length. reflexivity. Qed.
Lemma marks_lstrip s : marks (py_lstrip s) = marks s.
Proof.
  induction s as [|c s IH]; [reflexivity|]. cbn [py_lstrip]. destruct (py_space c) eqn:C; [|reflexivity]. rewrite IH.
  unfold marks. cbn [filter]. destruct (Z.eqb_spec c 59) as [E|]; [|reflexivity]. rewrite E in C. discriminate C.
Qed.
Lemma marks_rev s : marks (rev s) = marks s.
Proof. induction s as [|c s IH]; [reflexivity|]. cbn [rev]. rewrite marks_app, IH. change (c :: s) with ([c] ++ s). rewrite marks_app. lia. Qed.
Lemma marks_strip s : marks (py_strip s) = marks s.
Proof. unfold py_strip. rewrite marks_rev, marks_lstrip, marks_rev, marks_lstrip. reflexivity. Qed.
(** The comment is cut. *)
Lemma cut_comment body rest : ~ In 35 body -> comment rest ->
  (if py_in 35 (body ++ rest) then hd [] (py_split_max 35 1 (body ++ rest)) else body ++ rest) = body.
Proof.
  intros N [-> |[t ->]].
  - rewrite app_nil_r. destruct (py_in 35 body) eqn:E; [|reflexivity]. exfalso. apply existsb_exists in E. destruct E as (x & I & E).
    apply Z.eqb_eq in E. congruence.
  - rewrite split_max_cons by assumption. cbn [hd]. destruct (py_in 35 (body ++ 35 :: t)) eqn:E; [reflexivity|]. exfalso.
    rewrite <- not_true_iff_false in E. apply E. apply existsb_exists. exists 35. split; [apply in_elt|reflexivity].
Qed.
Lemma fields_free fields : Forall (fun f => ~ In 35 f /\ ~ In 59 f) fields -> ~ In 35 (join [59] fields).
Proof.
  induction 1 as [|f fields [F _] _ IH]; [intros []|]. destruct fields as [|g fields]; [exact F|].
  rewrite join_cons by discriminate. rewrite !in_app_iff. intros [I|[I|I]]; [tauto|destruct I as [I|[]]; discriminate I|tauto].
Qed.
(** The range. *)
Lemma lstrip_padded ds n f : hex_number ds n -> padded ds f -> exists w, py_lstrip f = ds ++ w /\ Forall blank w.
Proof.
  intros H (w1 & w2 & -> & B1 & B2). exists w2. split; [|assumption]. rewrite lstrip_spaces by (apply blank_spaces; assumption).
  apply hex_number_x in H. destruct H as (_ & X & N). apply xdigit_solid in X. destruct ds as [|d ds]; [destruct (N eq_refl)|].
  apply lstrip_solid. inversion X. assumption.
Qed.
Lemma has_dots_in s : py_has_dots s = true -> In 46 s.
Proof.
  induction s as [|c s IH]; [discriminate|]. destruct s as [|d s]; [discriminate|]. cbn [py_has_dots]. intros H.
  apply orb_true_iff in H. destruct H as [H|H]; [left; lia|right; apply IH; assumption].
Qed.
Lemma has_dots_mid a b : py_has_dots (a ++ [46; 46] ++ b) = true.
Proof.
  induction a as [|c a IH]; [reflexivity|]. change ((c :: a) ++ [46; 46] ++ b) with (c :: (a ++ [46; 46] ++ b)).
  destruct (a ++ [46; 46] ++ b) as [|d s]; [discriminate IH|]. change (py_has_dots (c :: d :: s)) with ((c =? 46) && (d =? 46) || py_has_dots (d :: s)).
  rewrite IH. apply orb_true_r.
Qed.
Lemma split_dots_one s : ~ In 46 s -> py_split_dots s = [s].
Proof.
  induction s as [|c s IH]; intros N; [reflexivity|]. cbn [In] in N. specialize (IH ltac:(tauto)). destruct s as [|d s].
  - reflexivity.
  - change (py_split_dots (c :: d :: s)) with (if (c =? 46) && (d =? 46) then [] :: py_split_dots s else push c (py_split_dots (d :: s))).
    replace (c =? 46) with false by (symmetry; apply Z.eqb_neq; intros E; apply N; left; assumption). cbn [andb]. rewrite IH. reflexivity.
Qed.
Lemma split_dots_two a b : ~ In 46 a -> ~ In 46 b -> py_split_dots (a ++ [46; 46] ++ b) = [a; b].
Proof.
  intros N Nb. induction a as [|c a IH].
  - cbn [app]. change (py_split_dots (46 :: 46 :: b)) with ([] :: py_split_dots b). rewrite split_dots_one by assumption. reflexivity.
  - cbn [In] in N. specialize (IH ltac:(tauto)). cbn [app]. cbn [app] in IH. destruct (a ++ 46 :: 46 :: b) as [|d s] eqn:E; [destruct a; discriminate E|].
    change (py_split_dots (c :: d :: s)) with (if (c =? 46) && (d =? 46) then [] :: py_split_dots s else push c (py_split_dots (d :: s))).
    replace (c =? 46) with false by (symmetry; apply Z.eqb_neq; intros E'; apply N; left; assumption). cbn [andb]. rewrite IH. reflexivity.
Qed.
Definition read_range (cp_range : list Z) : res (Z * Z) :=
  if py_has_dots cp_range then
    match py_split_dots cp_range with
    | [cp_low; cp_high] =>
        l <- or_raise (py_int 16 cp_low) ;;
        h <- or_raise (py_int 16 cp_high) ;;
        Ok (l, h)
    | _ => Abort
    end
  else
    n <- or_raise (py_int 16 cp_range) ;;
    Ok (n, n).
Lemma stripped_int ds n w : hex_number ds n -> Forall blank w -> py_int 16 (ds ++ w) = Some n.
Proof. intros H B. apply (int_padded ds); [assumption|]. exists [], w. split; [reflexivity|]. split; [constructor|assumption]. Qed.
Lemma read_range_ok f lo hi : range_field f lo hi -> read_range (py_lstrip f) = Ok (lo, hi).
Proof.
  intros [ds field n H _ P|ds1 ds2 f1 f2 n1 n2 H1 _ P1 H2 _ P2]; unfold read_range.
  - pose proof (num_chars_free _ (padded_chars _ _ _ H P)) as [N _].
    destruct (py_has_dots (py_lstrip field)) eqn:D; [exfalso; apply has_dots_in, lstrip_in in D; tauto|].
    destruct (lstrip_padded _ _ _ H P) as (w & -> & B). rewrite (stripped_int _ _ _ H B). reflexivity.
  - pose proof (num_chars_free _ (padded_chars _ _ _ H1 P1)) as [N1 _]. pose proof (num_chars_free _ (padded_chars _ _ _ H2 P2)) as [N2 _].
    change ([46; 46] ++ f2) with (46 :: 46 :: f2). rewrite lstrip_before by reflexivity. change (46 :: 46 :: f2) with ([46; 46] ++ f2).
    rewrite has_dots_mid, split_dots_two; [|intros I; apply lstrip_in in I; tauto|assumption].
    destruct (lstrip_padded _ _ _ H1 P1) as (w & -> & B). rewrite (stripped_int _ _ _ H1 B). cbn [or_raise bind].
    rewrite (int_padded _ _ _ H2 P2). reflexivity.
Qed.
Lemma range_low f lo hi : range_field f lo hi -> 0 <= lo.
Proof. intros [ds field n H _ _|ds1 ds2 f1 f2 n1 n2 H _ _ _ _ _]; apply hex_number_x in H; tauto. Qed.
(** The type and the value. *)
Definition type_of (f : form) : qc_type := match f with NFC => NFC_QC | NFD => NFD_QC | NFKC => NFKC_QC | NFKD => NFKD_QC end.
Lemma find_form f : find (fun e => py_eq (chars (form_name f)) (fst e)) qc_types = Some (chars (form_name f), type_of f).
Proof. destruct f; reflexivity. Qed.
Lemma find_other s : (forall f, s <> chars (form_name f)) -> find (fun e => py_eq s (fst e)) qc_types = None.
Proof.
  intros H. unfold qc_types. change (py "NFC_QC") with (chars (form_name NFC)). change (py "NFD_QC") with (chars (form_name NFD)).
  change (py "NFKC_QC") with (chars (form_name NFKC)). change (py "NFKD_QC") with (chars (form_name NFKD)). cbn [find fst]. rewrite (py_eq_no _ _ (H NFC)), (py_eq_no _ _ (H NFD)), (py_eq_no _ _ (H NFKC)), (py_eq_no _ _ (H NFKD)).
  reflexivity.
Qed.
Lemma name_solid s : (forall c, In c s -> 33 <= c <= 126) -> solid s.
Proof. intros H. apply Forall_forall. intros c I. specialize (H c I). unfold py_space. lia. Qed.
Lemma strip_name s f : (forall c, In c s -> 33 <= c <= 126) -> padded s f -> py_strip f = s.
Proof.
  intros H P. destruct s as [|c s]; [|apply strip_padded; [apply name_solid; assumption|discriminate|assumption]].
  destruct P as (w1 & w2 & -> & B1 & B2). cbn [app]. apply strip_all. apply blank_spaces. apply Forall_app. auto.
Qed.
Lemma form_chars f c : In c (chars (form_name f)) -> 33 <= c <= 126.
Proof. intros I. assert (forallb (fun c => (33 <=? c) && (c <=? 126)) (chars (form_name f)) = true) as H by (destruct f; reflexivity).
  rewrite forallb_forall in H. specialize (H c I). lia. Qed.
Lemma verdict_chars v c : In c (chars (verdict_name v)) -> 33 <= c <= 126.
Proof. intros I. assert (forallb (fun c => (33 <=? c) && (c <=? 126)) (chars (verdict_name v)) = true) as H by (destruct v; reflexivity).
  rewrite forallb_forall in H. specialize (H c I). lia. Qed.
Lemma strip_rstrip s : py_strip (rstrip s) = py_strip s.
Proof.
  assert (exists w, s = rstrip s ++ w /\ spaces w) as (w & E & S).
  { unfold rstrip. assert (forall r, exists w, r = w ++ py_lstrip r /\ spaces w) as K.
    { induction r as [|c r [w [E S]]]; [exists []; split; [reflexivity|constructor]|]. cbn [py_lstrip]. destruct (py_space c) eqn:C.
      - exists (c :: w). split; [cbn [app]; congruence|constructor; assumption].
      - exists []. split; [reflexivity|constructor]. }
    destruct (K (rev s)) as (w & E & S). exists (rev w). split.
    - rewrite <- (rev_involutive s) at 1. rewrite E at 1. apply rev_app_distr.
    - apply Forall_rev. assumption. }
  rewrite E at 2. unfold py_strip.
  assert (forall t, spaces w -> py_lstrip (rev (py_lstrip (t ++ w))) = py_lstrip (rev (py_lstrip t))) as K.
  { intros t _. induction t as [|c t IH].
    - cbn [app]. rewrite (lstrip_all w) by assumption. reflexivity.
    - cbn [app py_lstrip]. destruct (py_space c); [exact IH|]. change (c :: t ++ w) with ((c :: t) ++ w). rewrite rev_app_distr.
      apply lstrip_spaces. apply Forall_rev. assumption. }
  rewrite K by assumption. reflexivity.
Qed.
Definition read_row (o : option qc_row) : option (Z * Z * qc_type * list Z) :=
  match o with Some (lo, hi, f, v) => Some (lo, hi, type_of f, chars (verdict_name v)) | None => None end.
Lemma qc_line_ok line o : qc_row_line line o -> qc_line line = Ok (read_row o).
Proof.
  intros (fields & rest & -> & C & Ne & F & H). unfold qc_line.
  rewrite cut_comment by (apply fields_free || assumption; assumption).
  assert (py_split 59 (join [59] fields) = fields) as Sp.
  { apply split_join; [assumption|]. revert F. apply Forall_impl. tauto. }
  assert (length (py_split 59 (py_strip (join [59] fields))) = length fields) as Ln.
  { rewrite split_length, marks_strip, <- split_length, Sp. reflexivity. }
  assert (forall f1 f2 f3, fields = [f1; f2; f3] -> exists c t, py_strip (join [59] fields) = c :: t /\ py_split 59 (c :: t) = [py_lstrip f1; f2; rstrip f3]) as Three.
  { intros f1 f2 f3 ->. cbn [join]. cbn [app]. rewrite strip_two, lstrip_before by reflexivity. rewrite rstrip_after by reflexivity.
    rewrite rstrip_after by reflexivity. inversion F as [|? ? [_ F1] F']. inversion F' as [|? ? [_ F2] F'']. inversion F'' as [|? ? [_ F3] _].
    assert (py_split 59 (py_lstrip f1 ++ 59 :: f2 ++ 59 :: rstrip f3) = [py_lstrip f1; f2; rstrip f3]) as E.
    { rewrite split_cons by (intros I; apply lstrip_in in I; tauto). rewrite split_cons by assumption.
      rewrite split_one by (intros I; apply rstrip_in in I; tauto). reflexivity. }
    destruct (py_lstrip f1 ++ 59 :: f2 ++ 59 :: rstrip f3) as [|c t] eqn:Ex; [destruct (py_lstrip f1); discriminate Ex|].
    exists c, t. split; [reflexivity|exact E]. }
  destruct o as [[[[lo hi] f] v]|].
  - destruct H as (f1 & f2 & f3 & E & R & B & P2 & P3). destruct (Three f1 f2 f3 E) as (c & t & -> & ->).
    rewrite (strip_name _ _ (form_chars f) P2), find_form. change (' (cp_low, cp_high) <- read_range (py_lstrip f1) ;;
      Ok (Some (cp_low, cp_high, type_of f, py_strip (rstrip f3))) = Ok (read_row (Some (lo, hi, f, v)))).
    rewrite (read_range_ok _ _ _ R). cbn [bind]. rewrite strip_rstrip, (strip_name _ _ (verdict_chars v) P3). reflexivity.
  - cbn [read_row]. destruct H as [N|(f1 & f2 & f3 & s & E & P & O & A)].
    + destruct (py_strip (join [59] fields)) as [|c t]; [reflexivity|]. rewrite <- Ln in N.
      destruct (py_split 59 (c :: t)) as [|a1 [|a2 [|a3 [|a4 l]]]]; try reflexivity. destruct (N eq_refl).
    + destruct (Three f1 f2 f3 E) as (c & t & -> & ->). rewrite (strip_name _ _ A P), (find_other s O). reflexivity.
Qed.
Fixpoint last_verdict (rows : list qc_row) (cp : Z) (f : form) : option verdict :=
  match rows with
  | [] => None
  | (lo, hi, f', v) :: rows =>
      match last_verdict rows cp f with
      | Some v => Some v
      | None => if (lo <=? cp) && (cp <=? hi) && qc_type_eqb (type_of f) (type_of f') then Some v else None
      end
  end.
Lemma type_eqb f g : qc_type_eqb (type_of f) (type_of g) = true <-> f = g.
Proof. destruct f; destruct g; cbn; split; intros H; try reflexivity; discriminate H. Qed.
Definition value_of (t : list Z) (o : option verdict) : list Z := match o with Some v => chars (verdict_name v) | None => t end.
Lemma qc_lines_ok lines os : Forall2 qc_row_line lines os -> forall t, exists t', qc_lines lines t = Ok t' /\
  forall cp f, t' cp (type_of f) = value_of (t cp (type_of f)) (last_verdict (flat_map (fun o => match o with Some r => [r] | None => [] end) os) cp f).
Proof.
  induction 1 as [|line o lines os H _ IH]; intros t; [exists t; split; reflexivity|].
  cbn [qc_lines]. rewrite (qc_line_ok _ _ H). cbn [bind]. destruct o as [[[[lo hi] f] v]|]; cbn [read_row flat_map app].
  - destruct H as (fields & rest & _ & _ & _ & _ & f1 & f2 & f3 & _ & R & B & _). apply range_low in R.
    replace ((hi <? lo) || ((0 <=? lo) && (hi <? 0x110000))) with true by lia. cbn [assert bind].
    destruct (IH (fun cp ty' => if (lo <=? cp) && (cp <=? hi) && qc_type_eqb ty' (type_of f) then chars (verdict_name v) else t cp ty')) as (t' & E & G).
    exists t'. split; [assumption|]. intros cp g. rewrite G. cbn [last_verdict]. destruct (last_verdict _ cp g); [reflexivity|]. cbn [value_of].
    destruct ((lo <=? cp) && (cp <=? hi) && qc_type_eqb (type_of g) (type_of f)); reflexivity.
  - apply IH.
Qed.
Lemma verdict_none rows cp f : last_verdict rows cp f = None <-> forall lo hi v, In (lo, hi, f, v) rows -> ~ lo <= cp <= hi.
Proof.
  induction rows as [|[[[lo hi] g] v] rows IH]; [split; [intros _ lo hi v []|reflexivity]|]. cbn [last_verdict].
  destruct (last_verdict rows cp f) as [x|].
  - split; [discriminate|]. intros H. exfalso. assert (Some x = None) as E; [|discriminate E]. apply IH. intros. eapply H. right. eassumption.
  - destruct IH as [IH _]. specialize (IH eq_refl).
    destruct ((lo <=? cp) && (cp <=? hi) && qc_type_eqb (type_of f) (type_of g)) eqn:M.
    + split; [discriminate|]. intros H. exfalso. apply andb_true_iff in M. destruct M as [M T]. apply type_eqb in T. subst g.
      apply (H lo hi v); [left; reflexivity|lia].
    + split; [|reflexivity]. intros _ lo' hi' v' [I|I]; [|eapply IH; eassumption]. injection I as -> -> -> ->. intros B.
      rewrite (proj2 (type_eqb f f) eq_refl) in M. lia.
Qed.
Lemma verdict_some rows cp f v : last_verdict rows cp f = Some v <-> qc_says rows cp f v.
Proof.
  unfold qc_says. induction rows as [|[[[lo hi] g] w] rows IH].
  - split; [discriminate|]. intros (before & lo & hi & after & E & _). destruct before; discriminate E.
  - cbn [last_verdict]. destruct (last_verdict rows cp f) as [x|] eqn:L.
    + split.
      * intros H. injection H as ->. destruct IH as [IH _]. destruct (IH eq_refl) as (before & lo' & hi' & after & E & R).
        exists ((lo, hi, g, w) :: before), lo', hi', after. split; [rewrite E; reflexivity|exact R].
      * intros (before & lo' & hi' & after & E & B & A). destruct before as [|b before]; cbn [app] in E; injection E as E1 E2.
        -- exfalso. assert (last_verdict rows cp f = None) as K; [|congruence]. apply verdict_none. subst after. exact A.
        -- apply IH. exists before, lo', hi', after. auto.
    + destruct ((lo <=? cp) && (cp <=? hi) && qc_type_eqb (type_of f) (type_of g)) eqn:M.
      * apply andb_true_iff in M. destruct M as [M T]. apply type_eqb in T. subst g. split.
        -- intros H. injection H as ->. exists [], lo, hi, rows. split; [reflexivity|]. split; [lia|]. intros lo' hi' v' I. rewrite verdict_none in L. eapply L. eassumption.
        -- intros (before & lo' & hi' & after & E & B & A). destruct before as [|b before]; cbn [app] in E; injection E as E1 E2.
           ++ congruence.
           ++ exfalso. assert (None = Some v) as K; [|discriminate K]. apply IH. exists before, lo', hi', after. auto.
      * split; [discriminate|]. intros (before & lo' & hi' & after & E & B & A). exfalso. destruct before as [|b before]; cbn [app] in E; injection E as E1 E2.
        -- subst. rewrite (proj2 (type_eqb f f) eq_refl) in M. lia.
        -- assert (None = Some v) as K; [|discriminate K]. apply IH. exists before, lo', hi', after. auto.
Qed.
(** The flags. *)
Definition bits (f : form) (o : option verdict) : Z := match o with Some v => bit f v | None => 0 end.
Definition flags_of (rows : list qc_row) (cp : Z) : Z :=
  Z.lor (Z.lor (Z.lor (bits NFC (last_verdict rows cp NFC)) (bits NFD (last_verdict rows cp NFD))) (bits NFKC (last_verdict rows cp NFKC)))
    (bits NFKD (last_verdict rows cp NFKD)).
Lemma flag_ok o (d m : Z) : qc_flag (value_of (py "Y") o) d m = Ok (match o with Some No_ => d | Some Maybe_ => m | None => 0 end).
Proof. destruct o as [[|]|]; reflexivity. Qed.
Lemma qc_cases_ok rows (t : qc_table) : (forall cp f, t cp (type_of f) = value_of (py "Y") (last_verdict rows cp f)) ->
  forall count cp, exists cases, qc_cases count cp t = Ok cases /\
    forall x, dict_get x cases = if (cp <=? x) && (x <? cp + Z.of_nat count) && negb (flags_of rows x =? 0) then Some (flags_of rows x) else None.
Proof.
  intros V. induction count as [|count IH]; intros cp.
  - exists []. split; [reflexivity|]. intros x. replace ((cp <=? x) && (x <? cp + Z.of_nat 0)) with false by lia. reflexivity.
  - destruct (IH (cp + 1)) as (cases & E & G). cbn [qc_cases].
    pose proof (V cp NFC) as V1. pose proof (V cp NFD) as V2. pose proof (V cp NFKC) as V3. pose proof (V cp NFKD) as V4. cbn [type_of] in V1, V2, V3, V4.
    rewrite V1, V2, V3, V4, !flag_ok. cbn [bind]. rewrite E. cbn [bind]. eexists. split; [reflexivity|]. intros x.
    assert (Z.lor (Z.lor (Z.lor match last_verdict rows cp NFC with Some No_ => UNICODE_NFC_DISALLOWED | Some Maybe_ => UNICODE_NFC_MAYBE | None => 0 end
      match last_verdict rows cp NFD with Some No_ => UNICODE_NFD_DISALLOWED | Some Maybe_ => UNICODE_NFD_MAYBE | None => 0 end)
      match last_verdict rows cp NFKC with Some No_ => UNICODE_NFKC_DISALLOWED | Some Maybe_ => UNICODE_NFKC_MAYBE | None => 0 end)
      match last_verdict rows cp NFKD with Some No_ => UNICODE_NFKD_DISALLOWED | Some Maybe_ => UNICODE_NFKD_MAYBE | None => 0 end = flags_of rows cp) as ->.
    { unfold flags_of, bits. repeat f_equal; match goal with |- context [last_verdict ?a ?b ?c] => destruct (last_verdict a b c) as [[|]|]; reflexivity end. }
    destruct (Z.eqb_spec (flags_of rows cp) 0) as [Z0|Z0].
    + rewrite G. destruct (Z.eqb_spec x cp) as [Ex|Ex].
      * rewrite Ex. rewrite Z0. rewrite Z.eqb_refl. cbn [negb]. rewrite !andb_false_r. reflexivity.
      * replace ((cp <=? x) && (x <? cp + Z.of_nat (S count))) with ((cp + 1 <=? x) && (x <? cp + 1 + Z.of_nat count)) by lia. reflexivity.
    + cbn [dict_get]. destruct (Z.eqb_spec cp x) as [Ex|Ex].
      * rewrite <- Ex. replace (flags_of rows cp =? 0) with false by lia.
        replace ((cp <=? cp) && (cp <? cp + Z.of_nat (S count))) with true by lia. reflexivity.
      * rewrite G. replace ((cp <=? x) && (x <? cp + Z.of_nat (S count))) with ((cp + 1 <=? x) && (x <? cp + 1 + Z.of_nat count)) by lia. reflexivity.
Qed.
Lemma flags_bit rows cp f v : Z.land (flags_of rows cp) (bit f v) <> 0 <-> last_verdict rows cp f = Some v.
Proof.
  unfold flags_of.
  destruct f; destruct v; destruct (last_verdict rows cp NFC) as [[|]|]; destruct (last_verdict rows cp NFD) as [[|]|];
    destruct (last_verdict rows cp NFKC) as [[|]|]; destruct (last_verdict rows cp NFKD) as [[|]|]; cbv; split; intros H;
    first [reflexivity | discriminate | discriminate H | (exfalso; apply H; reflexivity)].
Qed.
Lemma flags_range rows cp : 0 <= flags_of rows cp < 256.
Proof.
  unfold flags_of.
  destruct (last_verdict rows cp NFC) as [[|]|]; destruct (last_verdict rows cp NFD) as [[|]|];
    destruct (last_verdict rows cp NFKC) as [[|]|]; destruct (last_verdict rows cp NFKD) as [[|]|]; cbv; split; congruence.
Qed.
Lemma quick_check_ok file rows : qc_text file rows -> exists cases, allowed_in_normal_form file = Ok cases /\
  forall cp, 0 <= cp <= 0x10FFFF -> 0 <= run_allowed cases cp < 256 /\
    forall f v, Z.land (run_allowed cases cp) (bit f v) <> 0 <-> qc_says rows cp f v.
Proof.
  intros (lines & os & L & H & ->). destruct (qc_lines_ok _ _ H (fun _ _ => py "Y")) as (t & E & V).
  set (rows := flat_map (fun o => match o with Some r => [r] | None => [] end) os) in *.
  destruct (qc_cases_ok rows t V (Z.to_nat 0x110000) 0) as (cases & E' & G). exists cases. split.
  { unfold allowed_in_normal_form. rewrite (lines_ok _ _ L), E. exact E'. }
  intros cp B. assert (run_allowed cases cp = flags_of rows cp) as ->.
  { unfold run_allowed. rewrite switch_get, G. rewrite Z2Nat.id by lia. replace ((0 <=? cp) && (cp <? 0 + 0x110000)) with true by lia.
    cbn [andb]. destruct (Z.eqb_spec (flags_of rows cp) 0) as [Z0|Z0]; cbn [negb]; congruence. }
  split; [apply flags_range|]. intros f v. rewrite flags_bit. apply verdict_some.
Qed.

(** * The files of the repository *)
#[local] Opaque ccc_data decomposition_data case_data category_data exclusion_data nfc_qc_data nfd_qc_data nfkc_qc_data nfkd_qc_data.
Lemma class_same file rows : ucd_text file rows -> flat_map class_row rows = ccc_data -> exists cases, canonical_combining_classes file = Ok cases /\
  forall cp, run_class cases cp = charstr_unicode_canonical_combining_class cp.
Proof.
  intros U D. destruct (codepoints _ _ U) as [N _]. destruct (combining_class_ok _ _ U) as (cases & E & H1 & H2). exists cases. split; [assumption|].
  intros cp. unfold charstr_unicode_canonical_combining_class. rewrite <- D, switch_get.
  destruct (dict_get cp (flat_map class_row rows)) as [c|] eqn:G.
  - apply get_some, in_flat_map in G. destruct G as (r & I & G). unfold class_row in G. destruct (u_class r =? 0); [destruct G|].
    destruct G as [G|[]]. injection G as <- <-. apply H1. assumption.
  - destruct (in_dec Z.eq_dec cp (map u_cp rows)) as [I|I].
    + apply in_map_iff in I. destruct I as (r & Er & I). rewrite <- Er. rewrite (H1 r I). destruct (Z.eqb_spec (u_class r) 0) as [|Z]; [assumption|].
      exfalso. assert (~ In cp (map fst (flat_map class_row rows))) as K.
      { intros K. apply in_map_iff in K. destruct K as ([k v] & Ek & K). cbn [fst] in Ek. subst k.
        assert (NoDup (map fst (flat_map class_row rows))) as Nd.
        { clear - N. induction rows as [|r rows IH]; [constructor|]. cbn [map] in N. inversion N as [|? ? N1 N2]. cbn [flat_map]. unfold class_row at 1.
          destruct (u_class r =? 0); [apply IH; assumption|]. cbn [app map fst]. constructor; [|apply IH; assumption]. intros I.
          apply in_map_iff in I. destruct I as ([k v] & E & I). apply in_flat_map in I. destruct I as (r' & I & A). unfold class_row in A.
          destruct (u_class r' =? 0); [destruct A|]. destruct A as [A|[]]. injection A as A1 A2. cbn [fst] in E. apply N1.
          apply in_map_iff. exists r'. split; [congruence|assumption]. }
        rewrite (get_in _ _ _ Nd K) in G. discriminate G. }
      apply K. apply in_map_iff. exists (u_cp r, u_class r). split; [assumption|]. apply in_flat_map. exists r. split; [assumption|].
      unfold class_row. replace (u_class r =? 0) with false by lia. left. reflexivity.
    + apply H2. intros r Ir Er. apply I. rewrite <- Er. apply in_map. assumption.
Qed.
Lemma mapping_in rows r cps : In r rows -> u_mapping r = Canonical cps -> In (u_cp r, cps) (flat_map mapping_row rows).
Proof. intros I M. apply in_flat_map. exists r. split; [assumption|]. unfold mapping_row. rewrite M. left. reflexivity. Qed.
Lemma mapping_row_of rows cp cps : In (cp, cps) (flat_map mapping_row rows) -> exists r, In r rows /\ u_cp r = cp /\ u_mapping r = Canonical cps.
Proof.
  intros I. apply in_flat_map in I. destruct I as (r & I & A). exists r. split; [assumption|]. unfold mapping_row in A.
  destruct (u_mapping r); [destruct A| |destruct A]. destruct A as [A|[]]. injection A as -> ->. auto.
Qed.
Lemma get_absent {A} (d : list (Z * A)) k : dict_get k d = None -> forall v, ~ In (k, v) d.
Proof.
  induction d as [|[k' v'] d IH]; intros H v I; [destruct I|]. cbn [dict_get] in H. destruct (Z.eqb_spec k' k) as [E|E]; [discriminate H|].
  destruct I as [I|I]; [congruence|]. apply (IH H v I).
Qed.
Lemma decomposition_same file rows : ucd_text file rows -> flat_map mapping_row rows = decomposition_data -> exists c, decomposition file = Ok c /\
  forall cp, run_decomposition c cp = _charstr_unicode_decomposition cp.
Proof.
  intros U D. destruct (decomposition_ok _ _ U) as (c & E & H1 & H2). exists c. split; [assumption|]. intros cp.
  unfold _charstr_unicode_decomposition. rewrite <- D, switch_get. destruct (dict_get cp (flat_map mapping_row rows)) as [d|] eqn:G.
  - apply get_some, mapping_row_of in G. destruct G as (r & I & <- & M). apply H1; assumption.
  - apply H2. intros r cps I M Er. apply (get_absent _ _ G cps). rewrite <- Er. apply mapping_in; assumption.
Qed.
Lemma data_short rows : flat_map mapping_row rows = decomposition_data -> short rows.
Proof.
  intros D r cps I M. assert (forallb (fun e => (length (snd e) <=? 2)%nat) decomposition_data = true) as F by (vm_compute; reflexivity).
  rewrite forallb_forall in F. specialize (F (u_cp r, cps)). rewrite <- D in F. specialize (F (mapping_in _ _ _ I M)). apply Nat.leb_le in F. exact F.
Qed.
Lemma fold_composed starter cc rows : forall p,
  fold_left (fun p '(c, s, codepoint) => if (c =? cc) && (s =? starter) then codepoint else p)
    (flat_map (fun '(codepoint, decomposition) =>
              match decomposition with
              | [starter; cc] => if existsb (fun x => x =? codepoint) exclusion_data then [] else [(cc, starter, codepoint)]
              | _ => []
              end) (flat_map mapping_row rows)) p
  = match last_composed exclusion_data starter cc rows with Some cp => cp | None => p end.
Proof.
  induction rows as [|r rows IH]; intros p; [reflexivity|]. cbn [flat_map last_composed]. rewrite flat_map_app, fold_left_app, IH.
  destruct (last_composed exclusion_data starter cc rows); [reflexivity|]. unfold mapping_row, composed, canonical.
  destruct (u_mapping r) as [|cps|]; [reflexivity| |reflexivity]. cbn [flat_map]. rewrite app_nil_r.
  destruct cps as [|s [|c [|x l]]]; try reflexivity. destruct (existsb (fun x => x =? u_cp r) exclusion_data).
  - cbn [negb]. rewrite andb_false_r. reflexivity.
  - cbn [fold_left negb]. rewrite andb_true_r, andb_comm. destruct ((s =? starter) && (c =? cc)); reflexivity.
Qed.
Lemma recomposition_same file file2 rows : ucd_text file rows -> exclusion_text file2 exclusion_data -> flat_map mapping_row rows = decomposition_data ->
  exists c, recomposition file file2 = Ok c /\ forall starter cc, run_recomposition c starter cc = _charstr_unicode_primary_composite starter cc.
Proof.
  intros U X D. destruct (recomposition_ok _ _ _ _ U X (data_short _ D)) as (c & E & H1 & H2). exists c. split; [assumption|]. intros starter cc.
  unfold _charstr_unicode_primary_composite, recompositions. rewrite <- D, fold_composed.
  destruct (last_composed exclusion_data starter cc rows) as [cp|] eqn:L.
  - apply H1, last_some. assumption.
  - apply H2. intros cp C. apply last_some in C. congruence.
Qed.
Definition no_verdict (v : verdict) : bool := match v with No_ => true | Maybe_ => false end.
Lemma fold_verdict f cp rows : forall p,
  fold_left (fun v '(cp_low, cp_high, value) => if (cp_low <=? cp) && (cp <=? cp_high) then Some value else v) (qc_rows f rows) p
  = match last_verdict rows cp f with Some v => Some (no_verdict v) | None => p end.
Proof.
  induction rows as [|[[[lo hi] g] v] rows IH]; intros p; [reflexivity|]. unfold qc_rows in *. cbn [flat_map last_verdict]. rewrite fold_left_app, IH.
  destruct (last_verdict rows cp f); [reflexivity|].
  destruct f; destruct g; cbn [fold_left type_of qc_type_eqb]; rewrite ?andb_false_r, ?andb_true_r; try reflexivity;
    destruct ((lo <=? cp) && (cp <=? hi)); reflexivity.
Qed.
Lemma land_self a b : 0 <= a < 256 -> 0 <= b < 256 -> (forall f v, Z.land a (bit f v) <> 0 <-> Z.land b (bit f v) <> 0) -> a = b.
Proof.
  intros A B H. apply Z.bits_inj'. intros n Hn.
  assert (forall x k, 0 <= k -> Z.land x (2 ^ k) <> 0 <-> Z.testbit x k = true) as T.
  { intros x k Hk. rewrite <- (Z.mul_1_l (2 ^ k)), <- Z.shiftl_mul_pow2 by assumption. split.
    - intros Nz. destruct (Z.testbit x k) eqn:E; [reflexivity|]. exfalso. apply Nz. apply Z.bits_inj'. intros m Hm.
      rewrite Z.land_spec, Z.shiftl_spec, Z.bits_0 by lia. destruct (Z.eq_dec m k) as [->|]; [rewrite E; reflexivity|].
      destruct (Z.ltb_spec m k); [rewrite (Z.testbit_neg_r 1) by lia; apply andb_false_r|]. rewrite (Z.bits_above_log2 1) by (cbn; lia). apply andb_false_r.
    - intros E Z0. assert (Z.testbit (Z.land x (Z.shiftl 1 k)) k = true) as K; [|rewrite Z0, Z.bits_0 in K; discriminate K].
      rewrite Z.land_spec, Z.shiftl_spec, E, Z.sub_diag by lia. reflexivity. }
  assert (forall k f v, 0 <= k -> bit f v = 2 ^ k -> Z.testbit a k = Z.testbit b k) as K.
  { intros k f v Hk E. specialize (H f v). rewrite E, !T in H by assumption. destruct (Z.testbit a k), (Z.testbit b k); try reflexivity.
    - symmetry. apply H. reflexivity.
    - apply H. reflexivity. }
  destruct (Z.ltb_spec n 8).
  - assert (n = 0 \/ n = 1 \/ n = 2 \/ n = 3 \/ n = 4 \/ n = 5 \/ n = 6 \/ n = 7) as [-> | [-> | [-> | [-> | [-> | [-> | [-> | ->]]]]]]] by lia;
      [apply (K 0 NFC No_)|apply (K 1 NFC Maybe_)|apply (K 2 NFD No_)|apply (K 3 NFD Maybe_)|apply (K 4 NFKC No_)|apply (K 5 NFKC Maybe_)
      |apply (K 6 NFKD No_)|apply (K 7 NFKD Maybe_)]; try reflexivity; lia.
  - assert (forall x, 0 <= x < 256 -> Z.testbit x n = false) as Hx.
    { intros x Hx. destruct (Z.eq_dec x 0) as [->|]; [apply Z.bits_0|]. apply Z.bits_above_log2; [lia|]. apply Z.log2_lt_pow2; [lia|].
      apply Z.lt_le_trans with (2 ^ 8); [lia|]. apply Z.pow_le_mono_r; lia. }
    rewrite !Hx by assumption. reflexivity.
Qed.
Lemma qc_same file rows : qc_text file rows -> normalization_props rows -> exists cases, allowed_in_normal_form file = Ok cases /\
  forall cp, 0 <= cp <= 0x10FFFF -> run_allowed cases cp = charstr_allowed_unicode_normal_forms cp.
Proof.
  intros T (D1 & D2 & D3 & D4). destruct (quick_check_ok _ _ T) as (cases & E & H). exists cases. split; [assumption|]. intros cp B.
  destruct (H cp B) as [R Hb].
  assert (charstr_allowed_unicode_normal_forms cp = flags_of rows cp) as ->.
  { unfold charstr_allowed_unicode_normal_forms, qc_flags, qc_value, flags_of. rewrite <- D1, <- D2, <- D3, <- D4, !fold_verdict.
    repeat f_equal; match goal with |- context [last_verdict ?a ?b ?c] => destruct (last_verdict a b c) as [[|]|]; reflexivity end. }
  apply land_self; [assumption|apply flags_range|]. intros f v. rewrite Hb, flags_bit. symmetry. apply verdict_some.
Qed.
Lemma lower_cases_app a b : lower_cases (a ++ b) = lower_cases a ++ lower_cases b.
Proof. induction a as [|[[[cp c] u] l] a IH]; [reflexivity|]. cbn [app lower_cases]. rewrite IH. apply app_assoc. Qed.
Lemma upper_cases_app a b : upper_cases (a ++ b) = upper_cases a ++ upper_cases b.
Proof. induction a as [|[[[cp c] u] l] a IH]; [reflexivity|]. cbn [app upper_cases]. rewrite IH. apply app_assoc. Qed.
Lemma case_same file rows : ucd_text file rows -> flat_map case_row_of rows = case_data ->
  lower_case file = Ok (lower_cases case_data) /\ upper_case file = Ok (upper_cases case_data).
Proof.
  intros U D. rewrite (lower_case_ok _ _ U), (upper_case_ok _ _ U), <- D. clear. split; f_equal.
  - induction rows as [|r rows IH]; [reflexivity|]. cbn [map flat_map]. rewrite lower_cases_app, <- IH. unfold case_row_of, case_of at 1. cbn [lower_cases].
    destruct (u_upper r); destruct (u_lower r); cbn [lower_cases app]; rewrite ?app_nil_r; try reflexivity. destruct (category_eqb (u_category r) Lu); reflexivity.
  - induction rows as [|r rows IH]; [reflexivity|]. cbn [map flat_map]. rewrite upper_cases_app, <- IH. unfold case_row_of, case_of at 1. cbn [upper_cases].
    destruct (u_upper r); destruct (u_lower r); cbn [upper_cases app]; rewrite ?app_nil_r; try reflexivity. destruct (category_eqb (u_category r) Ll); reflexivity.
Qed.
(** The categories that a file gives determine the function. *)
Lemma next_found rows cp : ucd_file 0 rows -> forall k : nat,
  (exists next c, next_assigned rows cp next c) \/ forall n, cp < n <= cp + Z.of_nat k -> unassigned rows n.
Proof.
  intros F. induction k as [|k [IH|IH]]; [right; intros n H; lia|left; assumption|].
  destruct (cat_of rows (cp + Z.of_nat (S k))) as [c|] eqn:C.
  - left. exists (cp + Z.of_nat (S k)), c. split; [lia|]. split; [apply (assigned_cat _ _ F); assumption|].
    intros n Hn. apply IH. lia.
  - right. intros n Hn. destruct (Z.eq_dec n (cp + Z.of_nat (S k))) as [->|]; [|apply IH; lia]. apply (unassigned_cat _ _ F). assumption.
Qed.
Lemma category_same rows rows' cp : ucd_file 0 rows -> rows <> [] -> ucd_file 0 rows' -> rows' <> [] ->
  (forall cp c, assigned rows cp c <-> assigned rows' cp c) -> unicode_category rows cp = unicode_category rows' cp.
Proof.
  intros F N F' N' S. destruct (unicode_category_ok rows cp F N) as (r & -> & A & B & C).
  destruct (unicode_category_ok rows' cp F' N') as (r' & -> & A' & B' & C'). f_equal.
  assert (forall n, unassigned rows n <-> unassigned rows' n) as Un by (intros n; unfold unassigned; split; intros H c; specialize (H c); specialize (S n c); tauto).
  destruct (cat_of rows cp) as [c|] eqn:E.
  - apply (assigned_cat _ _ F) in E. rewrite (A c E). symmetry. apply A'. apply S. assumption.
  - apply (unassigned_cat _ _ F) in E. destruct (next_found rows cp F (Z.to_nat (0x10FFFF - cp))) as [(next & c & Nx)|Nn].
    + assert (next_assigned rows' cp next c) as Nx'.
      { destruct Nx as (L & As & U). split; [assumption|]. split; [apply S; assumption|]. intros n Hn. apply Un, U. assumption. }
      destruct (B next c E Nx) as [B1 B2]. destruct (B' next c (proj1 (Un cp) E) Nx') as [B1' B2'].
      destruct (cat_of rows (next + 1)) as [d|] eqn:D.
      * apply (assigned_cat _ _ F) in D. destruct (category_eqb d c) eqn:Eq.
        -- apply category_eqb_eq in Eq. subst d. rewrite B1, B1'; [reflexivity|apply S; assumption|assumption].
        -- assert (~ assigned rows (next + 1) c) as Na.
           { intros K. apply (assigned_cat _ _ F) in K. apply (assigned_cat _ _ F) in D. rewrite K in D. injection D as D.
             rewrite (proj2 (category_eqb_eq d c)) in Eq by congruence. discriminate Eq. }
           rewrite B2, B2'; [reflexivity| |assumption]. intros K. apply Na, S. assumption.
      * apply (unassigned_cat _ _ F) in D. rewrite B2, B2'; [reflexivity| |apply D]. apply (Un (next + 1)). assumption.
    + assert (forall n c, cp <= n -> ~ assigned rows n c) as K.
      { intros n c Hn As. pose proof (assigned_low _ _ F n c As). destruct (Z.eq_dec n cp) as [->|]; [exact (E c As)|].
        apply (Nn n ltac:(lia) c As). }
      rewrite C, C'; [reflexivity| |assumption]. intros n c Hn As. apply (K n c Hn). apply S. assumption.
Qed.
Lemma category_data_ok : ucd_file 0 category_data /\ category_data <> [] /\ assigned category_data 0x41 Lu.
Proof.
  assert (ucd_file 0 category_data) as F by (apply (ucd_fileb_ok (S (length category_data))); [constructor|vm_compute; reflexivity]).
  split; [assumption|]. assert (assigned category_data 0x41 Lu) as A by (apply (assigned_cat _ _ F); vm_compute; reflexivity).
  split; [|assumption]. intros E. rewrite E in A. destruct A as [[]|([] & ? & ? & ? & [=] & _)].
Qed.
Lemma categories_same file rows : ucd_text file rows -> (forall cp c, assigned (map simple rows) cp c <-> assigned category_data cp c) ->
  exists p, categorize_text file = Ok p /\ forall cp, Ok (run p cp) = unicode_category category_data cp.
Proof.
  intros U S. pose proof U as [_ F]. destruct category_data_ok as (F' & N' & A). apply S in A.
  assert (map simple rows <> []) as N by (intros E; rewrite E in A; destruct A as [[]|([] & ? & ? & ? & [=] & _)]).
  rewrite (categorize_text_ok _ _ U). destruct (unicode_category_ok _ 0 F N) as (r & E & _). unfold unicode_category in E.
  destruct (categorize (map simple rows)) as [p| | |] eqn:C; try discriminate E. exists p. split; [reflexivity|]. intros cp.
  rewrite <- (category_same _ _ cp F N F' N' S). unfold unicode_category. rewrite C. reflexivity.
Qed.
