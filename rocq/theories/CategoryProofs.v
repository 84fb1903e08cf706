(** Proofs about the category function that src/categorize.py writes. *)
From Verif Require Import Base CategoryModel CategorySpec.
From Coq Require Import ZifyBool ZifyNat.

Lemma category_eqb_eq x y : category_eqb x y = true <-> x = y.
Proof. split; [|intros ->; apply Z.eqb_refl]. destruct x, y; intros H; try reflexivity; discriminate H. Qed.

(** * The lines of the file *)

Fixpoint cat_of (rows : list row) (n : Z) : option category :=
  match rows with
  | (first, First, c) :: (((last, Last, _) :: rest) as rest') =>
      if (first <=? n) && (n <=? last) then Some c else cat_of rest n
  | (cp, Single, c) :: rest => if n =? cp then Some c else cat_of rest n
  | _ => None
  end.

Lemma cat_of_low lo rows : ucd_file lo rows -> forall n, n < lo -> cat_of rows n = None.
Proof.
  induction 1 as [lo|lo cp c rows L F IH|lo a b c rows L L' F IH]; intros n Hn; cbn.
  - reflexivity.
  - destruct (Z.eqb_spec n cp); [lia|]. apply IH. lia.
  - replace ((a <=? n) && (n <=? b)) with false by lia. apply IH. lia.
Qed.
Lemma cat_of_high lo rows : ucd_file lo rows -> forall n, 0x10FFFF < n -> cat_of rows n = None.
Proof.
  induction 1 as [lo|lo cp c rows L F IH|lo a b c rows L L' F IH]; intros n Hn; cbn.
  - reflexivity.
  - destruct (Z.eqb_spec n cp); [lia|]. apply IH. lia.
  - replace ((a <=? n) && (n <=? b)) with false by lia. apply IH. lia.
Qed.
Lemma ucd_weaken lo rows : ucd_file lo rows -> forall lo', lo' <= lo -> ucd_file lo' rows.
Proof. destruct 1; intros lo' L; constructor; try assumption; lia. Qed.

Lemma assigned_low lo rows : ucd_file lo rows -> forall n c, assigned rows n c -> lo <= n <= 0x10FFFF.
Proof.
  induction 1 as [lo|lo cp c rows L F IH|lo a b c rows L L' F IH]; intros n d [I|(pre & x & y & post & E & R)].
  - destruct I.
  - destruct pre; discriminate E.
  - destruct I as [I|I]; [inversion I; lia|]. specialize (IH n d (or_introl I)). lia.
  - destruct pre as [|r pre]; cbn in E; [discriminate E|]. injection E as _ E.
    specialize (IH n d). assert (assigned rows n d) as A by (right; exists pre, x, y, post; auto).
    specialize (IH A). lia.
  - destruct I as [I|[I|I]]; [discriminate I|discriminate I|]. specialize (IH n d (or_introl I)). lia.
  - destruct pre as [|r [|r' pre]]; cbn in E.
    + inversion E; subst. lia.
    + discriminate E.
    + injection E as _ _ E.
      assert (assigned rows n d) as A by (right; exists pre, x, y, post; auto).
      specialize (IH n d A). lia.
Qed.

Lemma assigned_cat lo rows :
  ucd_file lo rows -> forall n c, assigned rows n c <-> cat_of rows n = Some c.
Proof.
  induction 1 as [lo|lo cp c rows L F IH|lo a b c rows L L' F IH]; intros n d.
  - cbn. split; [|discriminate]. intros [[]|(pre & x & y & post & E & _)]. destruct pre; discriminate E.
  - cbn. split.
    + intros [[I|I]|(pre & x & y & post & E & R)].
      * injection I as -> ->. rewrite Z.eqb_refl. reflexivity.
      * assert (assigned rows n d) as A by (left; exact I).
        pose proof (assigned_low _ _ F n d A). destruct (Z.eqb_spec n cp); [lia|]. apply IH. exact A.
      * destruct pre as [|r pre]; cbn in E; [discriminate E|]. injection E as _ E.
        assert (assigned rows n d) as A by (right; exists pre, x, y, post; auto).
        pose proof (assigned_low _ _ F n d A). destruct (Z.eqb_spec n cp); [lia|]. apply IH. exact A.
    + destruct (Z.eqb_spec n cp) as [->|].
      * intros [= ->]. left. left. reflexivity.
      * intros E. apply IH in E. destruct E as [I|(pre & x & y & post & E & R)].
        -- left. right. exact I.
        -- right. exists ((cp, Single, c) :: pre), x, y, post. rewrite E. auto.
  - cbn. split.
    + intros [[I|[I|I]]|(pre & x & y & post & E & R)]; [discriminate I|discriminate I| |].
      * assert (assigned rows n d) as A by (left; exact I).
        pose proof (assigned_low _ _ F n d A). replace ((a <=? n) && (n <=? b)) with false by lia. apply IH. exact A.
      * destruct pre as [|r [|r' pre]]; cbn in E.
        -- inversion E; subst. replace ((x <=? n) && (n <=? y)) with true by lia. reflexivity.
        -- discriminate E.
        -- injection E as _ _ E.
           assert (assigned rows n d) as A by (right; exists pre, x, y, post; auto).
           pose proof (assigned_low _ _ F n d A). replace ((a <=? n) && (n <=? b)) with false by lia. apply IH. exact A.
    + destruct ((a <=? n) && (n <=? b)) eqn:R.
      * intros [= ->]. right. exists [], a, b, rows. split; [reflexivity|lia].
      * intros E. apply IH in E. destruct E as [I|(pre & x & y & post & E & R')].
        -- left. right. right. exact I.
        -- right. exists ((a, First, c) :: (b, Last, c) :: pre), x, y, post. rewrite E. auto.
Qed.

Lemma unassigned_cat lo rows : ucd_file lo rows -> forall n, unassigned rows n <-> cat_of rows n = None.
Proof.
  intros F n. split.
  - intros U. destruct (cat_of rows n) as [c|] eqn:E; [|reflexivity].
    apply (assigned_cat _ _ F) in E. destruct (U _ E).
  - intros E c A. apply (assigned_cat _ _ F) in A. congruence.
Qed.

(** * Reading the file *)

Lemma fill_ok count : forall n c t,
  (forall m, n <= m < n + Z.of_nat count -> t m = None) ->
  exists t', fill count n c t = Ok t' /\
  forall m, t' m = if (n <=? m) && (m <? n + Z.of_nat count) then Some c else t m.
Proof.
  induction count as [|count IH]; intros n c t F; cbn [fill].
  - exists t. split; [reflexivity|]. intros m. replace ((n <=? m) && (m <? n + Z.of_nat 0)) with false by lia. reflexivity.
  - rewrite F by lia. cbn [is_none assert bind].
    destruct (IH (n + 1) c (tset t n c)) as (t' & E & P).
    + intros m Hm. unfold tset. destruct (Z.eqb_spec m n); [lia|]. apply F. lia.
    + exists t'. split; [exact E|]. intros m. rewrite P. unfold tset.
      destruct (Z.eqb_spec m n).
      * replace ((n + 1 <=? m) && (m <? n + 1 + Z.of_nat count)) with false by lia.
        replace ((n <=? m) && (m <? n + Z.of_nat (S count))) with true by lia. reflexivity.
      * replace ((n + 1 <=? m) && (m <? n + 1 + Z.of_nat count))
          with ((n <=? m) && (m <? n + Z.of_nat (S count))) by lia. reflexivity.
Qed.

Lemma read_ok lo rows : ucd_file lo rows -> forall prev t,
  prev < lo -> 0 <= lo -> (forall n, lo <= n -> t n = None) ->
  exists t', read_rows rows prev None t = Ok t' /\
  forall n, t' n = if lo <=? n then cat_of rows n else t n.
Proof.
  induction 1 as [lo|lo cp c rows L F IH|lo a b c rows L L' F IH]; intros prev t P Z0 T.
  - exists t. split; [reflexivity|]. intros n. cbn [cat_of]. destruct (Z.leb_spec lo n); [apply T; lia|reflexivity].
  - cbn [read_rows is_none assert bind].
    replace ((0 <=? cp) && (cp <? N)) with true by (unfold N; lia). cbn [assert bind].
    destruct (IH cp (tset t cp c)) as (t' & E & Q); [lia|lia| |].
    + intros n Hn. unfold tset. destruct (Z.eqb_spec n cp); [lia|]. apply T. lia.
    + exists t'. split; [exact E|]. intros n. rewrite Q. unfold tset. cbn [cat_of].
      destruct (Z.leb_spec (cp + 1) n), (Z.leb_spec lo n), (Z.eqb_spec n cp); try lia; try reflexivity.
      rewrite T by lia. symmetry. apply (cat_of_low _ _ F). lia.
  - cbn [read_rows is_none assert bind].
    replace ((0 <=? a) && (a <? N)) with true by (unfold N; lia). cbn [assert bind].
    replace (category_eqb c c) with true by (symmetry; apply category_eqb_eq; reflexivity). cbn [assert bind].
    destruct (fill_ok (Z.to_nat (b - (a + 1))) (a + 1) c (tset t a c)) as (t1 & E1 & Q1).
    { intros m Hm. unfold tset. destruct (Z.eqb_spec m a); [lia|]. apply T. lia. }
    rewrite E1. cbn [bind].
    replace ((0 <=? b) && (b <? N)) with true by (unfold N; lia). cbn [assert bind].
    assert (forall m, tset t1 b c m = if (a <=? m) && (m <=? b) then Some c else t m) as Q2.
    { intros m. unfold tset. rewrite Q1. unfold tset.
      destruct (Z.eqb_spec m b), (Z.eqb_spec m a); try lia.
      - replace ((a <=? m) && (m <=? b)) with true by lia. reflexivity.
      - replace ((a + 1 <=? m) && (m <? a + 1 + Z.of_nat (Z.to_nat (b - (a + 1))))) with false by lia.
        replace ((a <=? m) && (m <=? b)) with true by lia. reflexivity.
      - replace ((a + 1 <=? m) && (m <? a + 1 + Z.of_nat (Z.to_nat (b - (a + 1)))))
          with ((a <=? m) && (m <=? b)) by lia. reflexivity. }
    destruct (IH b (tset t1 b c)) as (t' & E & Q); [lia|lia| |].
    + intros n Hn. rewrite Q2. replace ((a <=? n) && (n <=? b)) with false by lia. apply T. lia.
    + exists t'. split; [exact E|]. intros n. rewrite Q, Q2. cbn [cat_of].
      destruct (Z.leb_spec (b + 1) n).
      * replace ((a <=? n) && (n <=? b)) with false by lia. replace (lo <=? n) with true by lia. reflexivity.
      * destruct ((a <=? n) && (n <=? b)) eqn:R.
        -- replace (lo <=? n) with true by lia. reflexivity.
        -- destruct (Z.leb_spec lo n); [|reflexivity]. rewrite T by lia.
           symmetry. apply (cat_of_low _ _ F). lia.
Qed.

(** * The runs of the table *)

Inductive runs (t : table) : Z -> list range -> Prop :=
| runs_nil lo : (forall n, lo <= n < N -> t n = None) -> runs t lo []
| runs_cons lo s e c rs :
    lo <= s < e -> e <= N ->
    (forall n, lo <= n < s -> t n = None) ->
    (forall n, s <= n < e -> t n = Some c) ->
    (e < N -> t e <> Some c) ->
    runs t e rs -> runs t lo ((s, e, c) :: rs).

Lemma skip_ok t fuel : forall n,
  N - n < Z.of_nat fuel -> n <= N ->
  exists m, skip fuel t n = Ok m /\ n <= m <= N /\ (forall k, n <= k < m -> t k = None) /\ (m < N -> t m <> None).
Proof.
  induction fuel as [|fuel IH]; intros n Hf Hn; [lia|]. cbn [skip].
  destruct (Z.ltb_spec n N) as [Hlt|]; cbn [andb].
  2:{ exists n. split; [reflexivity|]. split; [lia|]. split; [intros; lia|lia]. }
  destruct (t n) as [c|] eqn:E; cbn [is_none].
  - exists n. split; [reflexivity|]. split; [lia|]. split; [intros; lia|]. congruence.
  - destruct (IH (n + 1)) as (m & E' & B & Q & Q'); [lia|lia|].
    exists m. split; [exact E'|]. split; [lia|]. split; [|exact Q'].
    intros k Hk. destruct (Z.eq_dec k n) as [->|]; [exact E|]. apply Q. lia.
Qed.
Lemma extend_ok t c fuel : forall n,
  N - n < Z.of_nat fuel -> n <= N ->
  exists m, extend fuel t c n = Ok m /\ n <= m <= N /\ (forall k, n <= k < m -> t k = Some c) /\
            (m < N -> t m <> Some c).
Proof.
  induction fuel as [|fuel IH]; intros n Hf Hn; [lia|]. cbn [extend].
  destruct (Z.ltb_spec n N) as [Hlt|]; cbn [andb].
  2:{ exists n. split; [reflexivity|]. split; [lia|]. split; [intros; lia|lia]. }
  destruct (match t n with Some c' => category_eqb c' c | None => false end) eqn:E.
  - assert (t n = Some c) as T by (destruct (t n); [f_equal; apply category_eqb_eq; exact E|discriminate E]).
    destruct (IH (n + 1)) as (m & E' & B & Q & Q'); [lia|lia|].
    exists m. split; [exact E'|]. split; [lia|]. split; [|exact Q'].
    intros k Hk. destruct (Z.eq_dec k n) as [->|]; [exact T|]. apply Q. lia.
  - exists n. split; [reflexivity|]. split; [lia|]. split; [intros; lia|].
    intros _ T. rewrite T in E. assert (category_eqb c c = true) by (apply category_eqb_eq; reflexivity). congruence.
Qed.
Lemma ranges_ok t fuel : forall n,
  N - n < Z.of_nat fuel -> n <= N ->
  exists rs, ranges fuel t n = Ok rs /\ runs t n rs.
Proof.
  induction fuel as [|fuel IH]; intros n Hf Hn; [lia|]. cbn [ranges].
  destruct (Z.ltb_spec n N) as [Hlt|].
  2:{ exists []. split; [reflexivity|]. constructor. intros; lia. }
  destruct (skip_ok t (S fuel) n) as (m & E & B & Q & Q'); [lia|lia|]. rewrite E. cbn [bind].
  destruct (m >=? N) eqn:M.
  { exists []. split; [reflexivity|]. constructor. intros k Hk. apply Q. lia. }
  destruct (t m) as [c|] eqn:T; [|destruct Q'; [lia|reflexivity]].
  destruct (extend_ok t c (S fuel) m) as (e & E2 & B2 & P & P'); [lia|lia|].
  rewrite E2. cbn [bind].
  assert (m < e).
  { destruct (Z.eq_dec m e) as [->|]; [|lia]. destruct P'; [lia|exact T]. }
  destruct (IH e) as (rs & E3 & R); [lia|lia|]. rewrite E3. cbn [bind].
  exists ((m, e, c) :: rs). split; [reflexivity|]. constructor; try assumption; lia.
Qed.

(** * The code *)

(** The first range that ends above the codepoint. *)
Fixpoint pick (rs : list range) (cp : Z) : option range :=
  match rs with
  | [] => None
  | (s, e, c) :: rs => if cp <? e then Some (s, e, c) else pick rs cp
  end.
Definition answer (o : option range) (cp : Z) (k : code) : category :=
  match o with Some r => run (return_of r) cp | None => run k cp end.

Fixpoint ascending (lo : Z) (rs : list range) : Prop :=
  match rs with
  | [] => True
  | (s, e, c) :: rs => lo <= e /\ ascending e rs
  end.
Lemma ascending_weaken lo rs : ascending lo rs -> forall lo', lo' <= lo -> ascending lo' rs.
Proof. destruct rs as [|[[s e] c] rs]; cbn; [auto|]. intros [L A] lo' H. split; [lia|exact A]. Qed.

Lemma pick_app l1 : forall l2 cp,
  pick (l1 ++ l2) cp = match pick l1 cp with Some r => Some r | None => pick l2 cp end.
Proof. induction l1 as [|[[s e] c] l1 IH]; intros l2 cp; cbn; [reflexivity|]. destruct (cp <? e); auto. Qed.
Lemma ascending_app lo l1 : forall s e c l2, ascending lo (l1 ++ (s, e, c) :: l2) ->
  ascending lo l1 /\ lo <= e /\ ascending e l2 /\ forall s' e' c', In (s', e', c') l1 -> e' <= e.
Proof.
  revert lo. induction l1 as [|[[s1 e1] c1] l1 IH]; intros lo s e c l2; cbn [app ascending].
  - intros [L A]. split; [exact I|]. split; [exact L|]. split; [exact A|]. intros ? ? ? [].
  - intros [L A]. destruct (IH e1 s e c l2 A) as (A1 & L1 & A2 & B).
    split; [split; assumption|]. split; [lia|]. split; [exact A2|].
    intros s' e' c' [X|X]; [injection X as <- <- <-; exact L1|]. apply (B _ _ _ X).
Qed.
Lemma pick_none l cp : (forall s e c, In (s, e, c) l -> e <= cp) -> pick l cp = None.
Proof.
  induction l as [|[[s e] c] l IH]; intros B; cbn; [reflexivity|].
  pose proof (B s e c (or_introl eq_refl)). replace (cp <? e) with false by lia.
  apply IH. intros s' e' c' X. apply (B s' e' c'). right. exact X.
Qed.

Lemma linear_run rs : forall k cp,
  run (fold_right (fun '(start, end_, c) k => If_less end_ (return_of (start, end_, c)) k) k rs) cp =
  answer (pick rs cp) cp k.
Proof.
  induction rs as [|[[s e] c] rs IH]; intros k cp; [reflexivity|].
  cbn [fold_right run pick]. destruct (cp <? e); [reflexivity|]. apply IH.
Qed.

Lemma emit_ok fuel : forall rs k lo,
  (length rs < fuel)%nat -> rs <> [] -> ascending lo rs ->
  exists p, emit_binary fuel rs k = Ok p /\ forall cp, run p cp = answer (pick rs cp) cp k.
Proof.
  induction fuel as [|fuel IH]; intros rs k lo Hf Hne A; [lia|]. cbn [emit_binary].
  replace (zlen rs =? 0) with false by (unfold zlen; destruct rs; [congruence|cbn [length]; lia]).
  cbn [negb assert bind].
  destruct (Z.ltb_spec (zlen rs) 5) as [H|H].
  { eexists. split; [reflexivity|]. apply linear_run. }
  unfold zlen in *.
  set (m := Z.to_nat (Z.of_nat (length rs) / 5)).
  assert (1 <= m /\ S m < length rs)%nat as [M1 M2].
  { unfold m. pose proof (Z.div_mod (Z.of_nat (length rs)) 5). pose proof (Z.mod_pos_bound (Z.of_nat (length rs)) 5).
    split; lia. }
  clearbody m. destruct (nth m rs (0, 0, Cn)) as [[s e] c] eqn:En.
  assert (rs = firstn m rs ++ (s, e, c) :: skipn (S m) rs) as Hs.
  { rewrite <- En. clear - M2. revert M2. generalize (0, 0, Cn) as d. revert rs.
    induction m as [|m IHm]; intros [|r rs] d L; cbn [length] in L; try lia; [reflexivity|].
    cbn [firstn app nth]. f_equal. apply IHm. lia. }
  pose proof A as A'. rewrite Hs in A'. apply ascending_app in A'. destruct A' as (A1 & L1 & A2 & B).
  destruct (IH (firstn m rs) (return_of (s, e, c)) lo) as (p1 & E1 & R1); [|destruct m, rs; cbn in *; lia || congruence|exact A1|].
  { rewrite firstn_length. lia. }
  destruct (IH (skipn (S m) rs) k e) as (p2 & E2 & R2); [|intros X; pose proof (skipn_length (S m) rs) as Y; rewrite X in Y; cbn in Y; lia|exact A2|].
  { rewrite skipn_length. lia. }
  rewrite E1. cbn [bind]. rewrite E2. cbn [bind].
  eexists. split; [reflexivity|]. intros cp. cbn [run]. rewrite R1, R2.
  replace (pick rs cp) with (pick (firstn m rs ++ (s, e, c) :: skipn (S m) rs) cp) by (rewrite <- Hs; reflexivity).
  rewrite pick_app. cbn [pick].
  destruct (Z.ltb_spec cp e).
  - destruct (pick (firstn m rs) cp); reflexivity.
  - rewrite (pick_none (firstn m rs)); [reflexivity|]. intros s' e' c' X. specialize (B _ _ _ X). lia.
Qed.

Lemma runs_ascending t lo rs : runs t lo rs -> ascending lo rs.
Proof. induction 1; cbn; [exact I|]. split; [lia|assumption]. Qed.

(** The answer of the code for the runs of a table. *)
Lemma runs_answer t lo rs : runs t lo rs -> forall cp, lo <= cp ->
  (forall n, N <= n -> t n = None) ->
  match t cp with
  | Some c => answer (pick rs cp) cp (Return Cn) = c
  | None =>
      (forall next c, cp < next -> t next = Some c -> (forall n, cp < n < next -> t n = None) ->
         answer (pick rs cp) cp (Return Cn) = if match t (next + 1) with Some d => category_eqb c d | None => false end then Cn else c) /\
      ((forall n, cp < n -> t n = None) -> answer (pick rs cp) cp (Return Cn) = Cn)
  end.
Proof.
  intros R cp L HN. revert L. induction R as [lo H|lo s e c rs L Le H1 H2 H3 R IH]; intros Lc.
  - cbn [pick answer run].
    destruct (t cp) as [c|] eqn:T.
    { destruct (Z.lt_ge_cases cp N); [rewrite H in T by lia; discriminate|rewrite HN in T by lia; discriminate]. }
    split; [|reflexivity]. intros next c Ln Tn _.
    destruct (Z.lt_ge_cases next N); [rewrite H in Tn by lia; discriminate|rewrite HN in Tn by lia; discriminate].
  - cbn [pick]. destruct (Z.ltb_spec cp e) as [Hlt|Hge]; [|apply IH; exact Hge].
    cbn [answer]. unfold return_of.
    destruct (Z.lt_ge_cases cp s) as [Hs|Hs].
    + rewrite H1 by lia. split.
      * intros next c' Ln Tn Hb.
        assert (next = s) as ->.
        { destruct (Z.lt_trichotomy next s) as [X|[X|X]]; [|exact X|].
          - rewrite H1 in Tn by lia. discriminate.
          - specialize (Hb s). rewrite H2 in Hb by lia. discriminate Hb. lia. }
        rewrite H2 in Tn by lia. injection Tn as <-.
        destruct (Z.eqb_spec e (s + 1)) as [->|Ne].
        -- cbn [run]. destruct (t (s + 1)) as [d|] eqn:T1; [|reflexivity].
           destruct (category_eqb c d) eqn:Ec; [|reflexivity]. apply category_eqb_eq in Ec. subst d.
           destruct (Z.lt_ge_cases (s + 1) N); [destruct H3; [lia|first [exact T1|reflexivity]]|rewrite HN in T1 by lia; discriminate].
        -- rewrite H2 by lia. replace (category_eqb c c) with true by (symmetry; apply category_eqb_eq; reflexivity).
           cbn [run]. replace (cp >=? s) with false by lia. reflexivity.
      * intros Hn. specialize (Hn s). rewrite H2 in Hn by lia. discriminate Hn. lia.
    + rewrite H2 by lia. destruct (Z.eqb_spec e (s + 1)); cbn [run]; [reflexivity|].
      replace (cp >=? s) with true by lia. reflexivity.
Qed.

(** * The function as a whole *)

(** The file has a line, so there is a range. *)
Lemma categorize_ok rows : ucd_file 0 rows -> rows <> [] ->
  exists p rs t, categorize rows = Ok p /\ (forall n, 0 <= n -> t n = cat_of rows n) /\ (forall n, n < 0 -> t n = None) /\
    runs t 0 rs /\ forall cp, run p cp = answer (pick rs cp) cp (Return Cn).
Proof.
  intros F Hne. destruct (read_ok 0 rows F (-1) (fun _ => None)) as (t & E & Q); [lia|lia|reflexivity|].
  unfold categorize. rewrite E. cbn [bind].
  destruct (ranges_ok t (S (Z.to_nat N)) 0) as (rs & E2 & R); [unfold N; lia|unfold N; lia|].
  rewrite E2. cbn [bind].
  destruct (emit_ok (S (length rs)) rs (Return Cn) 0) as (p & E3 & P).
  - lia.
  - intros ->. inversion R as [? H|]; subst.
    destruct F as [lo|lo cp c rows L F|lo a b c rows L L' F]; [congruence| |].
    + specialize (H cp). rewrite Q in H. cbn [cat_of] in H. rewrite Z.eqb_refl in H.
      replace (lo <=? cp) with true in H by lia. discriminate H. unfold N. lia.
    + specialize (H a). rewrite Q in H. cbn [cat_of] in H.
      replace ((a <=? a) && (a <=? b)) with true in H by lia.
      replace (lo <=? a) with true in H by lia. discriminate H. unfold N. lia.
  - apply runs_ascending with t. exact R.
  - exists p, rs, t. split; [exact E3|]. split; [|split; [|split; [exact R|exact P]]].
    + intros n Hn. rewrite Q. replace (0 <=? n) with true by lia. reflexivity.
    + intros n Hn. rewrite Q. replace (0 <=? n) with false by lia. reflexivity.
Qed.

Lemma unicode_category_ok rows cp :
  ucd_file 0 rows -> rows <> [] ->
  exists r, unicode_category rows cp = Ok r /\
  (forall c, assigned rows cp c -> r = c) /\
  (forall next c, unassigned rows cp -> next_assigned rows cp next c ->
     (assigned rows (next + 1) c -> r = Cn) /\ (~ assigned rows (next + 1) c -> r = c)) /\
  ((forall n c, cp <= n -> ~ assigned rows n c) -> r = Cn).
Proof.
  intros F Hne. destruct (categorize_ok rows F Hne) as (p & rs & t & E & Q & Qn & R & P).
  unfold unicode_category. rewrite E. cbn [bind]. eexists. split; [reflexivity|].
  assert (HN : forall n, N <= n -> t n = None).
  { intros n Hn. rewrite Q by (unfold N in Hn; lia). apply (cat_of_high _ _ F). unfold N in Hn. lia. }
  assert (Hall : forall n, t n = cat_of rows n).
  { intros n. destruct (Z.lt_ge_cases n 0); [|apply Q; assumption].
    rewrite Qn by assumption. symmetry. apply (cat_of_low _ _ F). lia. }
  rewrite P.
  (* a codepoint below zero is answered like a gap before the first run *)
  assert (runs t (Z.min 0 cp) rs) as R'.
  { inversion R as [lo H|lo s e c rs' L Le H1 H2 H3 R2]; subst.
    - constructor. intros n Hn. destruct (Z.lt_ge_cases n 0); [apply Qn; lia|apply H; lia].
    - constructor; try assumption; [lia|]. intros n Hn.
      destruct (Z.lt_ge_cases n 0); [apply Qn; lia|apply H1; lia]. }
  pose proof (runs_answer t (Z.min 0 cp) rs R' cp ltac:(lia) HN) as A.
  split; [|split].
  - intros c Ac. apply (assigned_cat _ _ F) in Ac. rewrite <- Hall in Ac. rewrite Ac in A. exact A.
  - intros next c U (Ln & An & Hb). apply (unassigned_cat _ _ F) in U. rewrite <- Hall in U. rewrite U in A.
    destruct A as [A _]. apply (assigned_cat _ _ F) in An. rewrite <- Hall in An.
    assert (forall n, cp < n < next -> t n = None) as Hb'.
    { intros n Hn. rewrite Hall. apply (unassigned_cat _ _ F). apply Hb. exact Hn. }
    specialize (A next c Ln An Hb'). rewrite A. split; intros X.
    + apply (assigned_cat _ _ F) in X. rewrite <- Hall in X. rewrite X.
      replace (category_eqb c c) with true by (symmetry; apply category_eqb_eq; reflexivity). reflexivity.
    + destruct (t (next + 1)) as [d|] eqn:T; [|reflexivity].
      destruct (category_eqb c d) eqn:Ec; [|reflexivity]. apply category_eqb_eq in Ec. subst d.
      destruct X. apply (assigned_cat _ _ F). rewrite <- Hall. exact T.
  - intros Hn. assert (forall n, cp <= n -> t n = None) as Hn'.
    { intros n L. rewrite Hall. apply (unassigned_cat _ _ F). intros c. apply Hn. exact L. }
    rewrite Hn' in A by lia. destruct A as [_ A]. apply A. intros n L. apply Hn'. lia.
Qed.

(** * The file of the repository *)

Fixpoint ucd_fileb (lo : Z) (rows : list row) : bool :=
  match rows with
  | [] => true
  | (cp, Single, _) :: rows => (lo <=? cp) && (cp <=? 0x10FFFF) && ucd_fileb (cp + 1) rows
  | (a, First, c) :: (b, Last, d) :: rows =>
      (lo <=? a) && (a <? b) && (b <=? 0x10FFFF) && category_eqb c d && ucd_fileb (b + 1) rows
  | _ => false
  end.
Lemma ucd_fileb_ok n : forall lo rows, (length rows < n)%nat -> ucd_fileb lo rows = true -> ucd_file lo rows.
Proof.
  induction n as [|n IH]; intros lo rows L H; [lia|].
  destruct rows as [|[[cp k] c] rows]; [constructor|].
  destruct k; cbn [ucd_fileb] in H; [| |discriminate H].
  - apply andb_prop in H. destruct H as [H H']. constructor; [lia|]. apply IH; [cbn in L; lia|exact H'].
  - destruct rows as [|[[b []] d] rows]; try discriminate H.
    apply andb_prop in H. destruct H as [H H'].
    apply andb_prop in H. destruct H as [H Hd]. apply category_eqb_eq in Hd. subst d.
    constructor; [lia|lia|]. apply IH; [cbn in L; lia|exact H'].
Qed.
