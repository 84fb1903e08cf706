(** The result of charstr_idna_encode in terms of the specification *)
From Verif Require Import Base CMem CharstrModel CharstrSpec CharstrProofs Utf8Model Utf8Spec Utf8Proofs UcdData NormModel NormSpec NormTables NormFacts NormOrder NormBytes NormDecompose NormRecompose NormMain NormSyllable NormDetect NormExact.
From Verif Require Import CategoryModel CategorySpec CategoryProofs CategoryData CategoryProps IdnaTabModel IdnaTabSpec IdnaTabProofs IdnaData IdnaModel IdnaProofs.
From Verif Require Import PunyModel PunySpec PunyProofs PunyPass PunyHost PunyName PunyNfc PunyTop PunyLe PunyUnique IdnaEncodeModel IdnaEncodeSpec IdnaEncodeProofs IdnaEncodeMore IdnaEncodeFate IdnaExactSpec.
From Coq Require Import ZifyBool ZifyNat.

(** * All codepoints of mapped names have a category. *)

Fixpoint segments_of (rows : list row) : list (Z * Z) :=
  match rows with
  | [] => []
  | (cp, Single, _) :: rows => (cp, cp) :: segments_of rows
  | (a, First, _) :: rows => match rows with (b, Last, _) :: rows' => (a, b) :: segments_of rows' | _ => [] end
  | (_, Last, _) :: _ => []
  end.
Fixpoint glued (a b : Z) (segs : list (Z * Z)) : list (Z * Z) :=
  match segs with
  | [] => [(a, b)]
  | (c, d) :: segs => if c =? b + 1 then glued a d segs else (a, b) :: glued c d segs
  end.
Definition within (segs : list (Z * Z)) (lo hi : Z) : bool := existsb (fun '(a, b) => (a <=? lo) && (hi <=? b)) segs.
(** Groups of segments *)
Fixpoint groups (fuel : nat) (segs : list (Z * Z)) : list (Z * list (Z * Z)) :=
  match fuel with
  | O => []
  | S fuel => match segs with [] => [] | _ => (snd (last (firstn 32 segs) (0, 0)), firstn 32 segs) :: groups fuel (skipn 32 segs) end
  end.
Fixpoint within_groups (gs : list (Z * list (Z * Z))) (lo hi : Z) : bool :=
  match gs with
  | [] => false
  | (m, segs) :: gs => if hi <=? m then within segs lo hi else within_groups gs lo hi
  end.
Definition category_segments : list (Z * Z) :=
  match segments_of category_data with [] => [] | (a, b) :: segs => glued a b segs end.
Definition category_groups : list (Z * list (Z * Z)) := groups 100 category_segments.
Definition has_category_b (gs : list (Z * list (Z * Z))) (r : idna_row) : bool :=
  let '(lo, hi, st, m) := r in
  match st with
  | Valid | Deviation => within_groups gs lo hi
  | Mapped => match m with Some l => forallb (fun c => within_groups gs c c) l | None => true end
  | _ => true
  end.
Lemma has_category_check : (let gs := category_groups in forallb (has_category_b gs) idna_data) = true.
Proof. vm_compute. reflexivity. Qed.
#[local] Opaque idna_data gen_idna_table decomposition_data ccc_data exclusion_data nfc_qc_data nfd_qc_data category_data.

Lemma assigned_app before rows x k : assigned rows x k -> assigned (before ++ rows) x k.
Proof.
  intros [I|(b & f & l & a & -> & H)]; [left; apply in_or_app; right; exact I|]. right. exists (before ++ b), f, l, a. split; [rewrite <- app_assoc; reflexivity|exact H].
Qed.
Lemma segments_assigned rows lo : ucd_file lo rows -> forall a b x, In (a, b) (segments_of rows) -> a <= x <= b -> exists k, assigned rows x k.
Proof.
  induction 1 as [lo|lo cp c rows H F IH|lo first last c rows H L F IH]; intros a b x I X; cbn [segments_of] in I.
  - destruct I.
  - destruct I as [E|I].
    + injection E as -> ->. exists c. left. left. repeat f_equal. lia.
    + destruct (IH a b x I X) as (k & A). exists k. apply (assigned_app [_]). exact A.
  - destruct I as [E|I].
    + injection E as -> ->. exists c. right. exists [], a, b, rows. split; [reflexivity|exact X].
    + destruct (IH a b x I X) as (k & A). exists k. apply (assigned_app [_; _]). exact A.
Qed.
Lemma glued_in segs : forall a b c d x, In (c, d) (glued a b segs) -> c <= x <= d -> (a <= x <= b) \/ exists e f, In (e, f) segs /\ e <= x <= f.
Proof.
  induction segs as [|[e f] segs IH]; intros a b c d x I X; cbn [glued] in I.
  - destruct I as [E|[]]. injection E as -> ->. left. exact X.
  - destruct (Z.eqb_spec e (b + 1)) as [->|N].
    + destruct (Z.le_gt_cases x b) as [L|G].
      * destruct (Z.le_gt_cases a x) as [L'|G']; [left; lia|].
        destruct (IH a f c d x I X) as [H|(e' & f' & I' & H)]; [lia|]. right. exists e', f'. split; [right; exact I'|exact H].
      * destruct (IH a f c d x I X) as [H|(e' & f' & I' & H)]; [right; exists (b + 1), f; split; [left; reflexivity|lia]|].
        right. exists e', f'. split; [right; exact I'|exact H].
    + destruct I as [E|I]; [injection E as -> ->; left; exact X|]. right.
      destruct (IH e f c d x I X) as [H|(e' & f' & I' & H)]; [exists e, f; split; [left; reflexivity|exact H]|]. exists e', f'. split; [right; exact I'|exact H].
Qed.
Lemma within_in segs lo hi : within segs lo hi = true -> forall x, lo <= x <= hi -> exists a b, In (a, b) segs /\ a <= x <= b.
Proof.
  unfold within. rewrite existsb_exists. intros ([a b] & I & H) x X. exists a, b. split; [exact I|lia].
Qed.
Lemma groups_in fuel : forall segs m g, In (m, g) (groups fuel segs) -> forall ab, In ab g -> In ab segs.
Proof.
  induction fuel as [|fuel IH]; intros segs m g I ab J; cbn [groups] in I; [destruct I|]. destruct segs as [|s segs]; [destruct I|].
  rewrite <- (firstn_skipn 32 (s :: segs)). apply in_or_app. destruct I as [E|I]; [injection E as _ <-; left; exact J|].
  right. exact (IH _ m g I ab J).
Qed.
Lemma within_groups_in gs lo hi : within_groups gs lo hi = true -> exists m g, In (m, g) gs /\ within g lo hi = true.
Proof.
  induction gs as [|[m g] gs IH]; cbn [within_groups]; [discriminate|]. destruct (hi <=? m).
  - intros H. exists m, g. split; [left; reflexivity|exact H].
  - intros H. destruct (IH H) as (m' & g' & I & K). exists m', g'. split; [right; exact I|exact K].
Qed.
Lemma grouped lo hi x : within_groups category_groups lo hi = true -> lo <= x <= hi -> exists k, assigned category_data x k.
Proof.
  intros W X. apply within_groups_in in W as (m & g & I & W). destruct (within_in g lo hi W x X) as (a & b & J & H).
  pose proof (groups_in _ _ m g I (a, b) J) as K. unfold category_segments in K. 
  destruct (segments_of category_data) as [|[a0 b0] segs] eqn:E; [destruct K|].
  destruct (glued_in segs a0 b0 a b x K H) as [H'|(e & f & J' & H')].
  - apply (segments_assigned category_data 0 (proj1 the_file) a0 b0 x); [rewrite E; left; reflexivity|exact H'].
  - apply (segments_assigned category_data 0 (proj1 the_file) e f x); [rewrite E; right; exact J'|exact H'].
Qed.
Lemma replaced_category cp l : replaced cp l -> Forall (fun c => exists k, assigned category_data c k) l.
Proof.
  assert (R : forall st m, says idna_data cp st m -> exists lo hi, has_category_b category_groups (lo, hi, st, m) = true /\ lo <= cp <= hi).
  { intros st m (lo & hi & I & H). exists lo, hi. split; [|exact H]. exact (proj1 (forallb_forall _ _) has_category_check _ I). }
  intros [m S|m S|m S|l' S]; apply R in S as (lo & hi & B & H); cbn [has_category_b] in B.
  - constructor; [exact (grouped lo hi cp B H)|constructor].
  - constructor; [exact (grouped lo hi cp B H)|constructor].
  - constructor.
  - apply Forall_forall. intros x I. rewrite forallb_forall in B. exact (grouped x x x (B x I) ltac:(lia)).
Qed.
Lemma mapped_category t m : mapped_name t m -> Forall (fun c => exists k, assigned category_data c k) m.
Proof.
  intros (parts & F & ->). induction F as [|c l t parts R _ IH]; [constructor|]. cbn [concat]. apply Forall_app. split; [exact (replaced_category c l R)|exact IH].
Qed.

(** * Labels *)

Lemma fine_accepted l : Forall scalar l -> Forall (fun c => exists k, assigned category_data c k) l -> Forall (fun c => ascii_lower c = c) l ->
  starts_hyphen l = false -> fine_label spacing_mark l = true -> accepted_label l.
Proof.
  intros Sc C Sm H F. pose proof (fine_not_mark l Sc F) as N. unfold fine_label in F. apply andb_true_iff in F as [F _]. split.
  - rewrite forallb_forall in F. rewrite Forall_forall in *. intros x I L. specialize (F x I). specialize (Sm x I). specialize (Sc x I). cbv beta in *.
    unfold fine_char, ldh, host_char, ascii_lower, scalar in *. destruct ((65 <=? x) && (x <=? 90)) eqn:E; lia.
  - destruct l as [|c l]; [exact I|]. cbn [starts_hyphen hd] in *. split; [lia|]. inversion_clear C as [|? ? (k & A) _]. exists k. split; [exact A|].
    intros ->. exact (N A).
Qed.
Lemma accepted_iff l : Forall scalar l -> Forall (fun c => exists k, assigned category_data c k) l -> Forall (fun c => ascii_lower c = c) l ->
  (starts_hyphen l = false /\ fine_label spacing_mark l = true) <-> accepted_label l.
Proof. intros Sc C Sm. split; [intros [H F]; apply fine_accepted; assumption|apply accepted_fine]. Qed.

Fixpoint dotted_size (es : list (list Z)) : Z := match es with [] => 0 | e :: es => zlen e + 1 + dotted_size es end.
Lemma dotted_size_nonneg es : 0 <= dotted_size es.
Proof. induction es as [|e es IH]; cbn [dotted_size]; [lia|]. pose proof (zlen_nonneg e). lia. Qed.
Lemma dotted_size_join es : dotted_size es <= 253 <-> zlen (join_dots es) <= 252.
Proof.
  assert (G : es <> [] -> dotted_size es = zlen (join_dots es) + 1).
  { induction es as [|e es IH]; [congruence|]. intros _. cbn [dotted_size]. destruct es as [|e' es]; [cbn [join_dots dotted_size]; lia|].
    rewrite IH by discriminate. rewrite (join_cons e (e' :: es)) by discriminate. rewrite zlen_app, zlen_cons. lia. }
  destruct es as [|e es]; [cbn; lia|]. rewrite G by discriminate. lia.
Qed.

Definition bad_label (l e : list Z) : Prop := starts_hyphen l = false /\ fine_label spacing_mark l = true /\ all_ascii l = true /\ zlen e > 63.
Lemma judge_crash_iff ls : forall es h size, Forall2 (fun l e => fine_label spacing_mark l = true -> ace l e) ls es ->
  judge spacing_mark h size ls es = Crash <->
  h = false /\ exists before l after be e ae, ls = before ++ l :: after /\ es = be ++ e :: ae /\ Forall2 (good_label spacing_mark) before be /\
    (be <> [] -> size + dotted_size be <= 253) /\ bad_label l e.
Proof.
  induction ls as [|l ls IH]; intros es h size A; inversion A as [|? e ? es' A1 A2]; subst; cbn [judge].
  { split; [discriminate|]. intros (_ & before & l & after & be & e & ae & E & _). destruct before; discriminate. }
  unfold refuses. destruct (starts_hyphen l || h || negb (fine_label spacing_mark l) || negb (all_ascii l) && (zlen e >? 63)) eqn:Er.
  { split; [discriminate|]. intros (-> & before & l' & after & be & e' & ae & E & E' & G & _ & B).
    destruct G as [|l0 e0 before be (G1 & G2 & G3) _]; cbn [app] in E, E'; injection E as -> _; injection E' as -> _.
    - destruct B as (B1 & B2 & B3 & B4). rewrite B1, B2, B3 in Er. discriminate.
    - rewrite G1, G2 in Er. cbn [orb negb] in Er. apply andb_prop in Er as [_ Er]. lia. }
  apply orb_false_iff in Er as [Er E4]. apply orb_false_iff in Er as [Er E3]. apply orb_false_iff in Er as [E1 E2]. apply negb_false_iff in E3. subst h.
  specialize (A1 E3). destruct (zlen e >? 63) eqn:E63.
  { split; [|reflexivity]. intros _. split; [reflexivity|]. exists [], l, ls, [], e, es'. split; [reflexivity|]. split; [reflexivity|]. split; [constructor|]. split; [congruence|].
    split; [exact E1|]. split; [exact E3|]. split; [destruct (all_ascii l); [reflexivity|discriminate]|lia]. }
  assert (Gl : good_label spacing_mark l e) by (split; [exact E1|split; [exact E3|lia]]).
  assert (Sh : forall P : Prop, (exists before l0 after be e0 ae, l :: ls = before ++ l0 :: after /\ e :: es' = be ++ e0 :: ae /\ Forall2 (good_label spacing_mark) before be /\
      (be <> [] -> size + dotted_size be <= 253) /\ bad_label l0 e0) ->
    ((size + (zlen e + 1) <= 253) -> (exists before l0 after be e0 ae, ls = before ++ l0 :: after /\ es' = be ++ e0 :: ae /\ Forall2 (good_label spacing_mark) before be /\
      (be <> [] -> size + (zlen e + 1) + dotted_size be <= 253) /\ bad_label l0 e0) -> P) -> P).
  { intros P (before & l0 & after & be & e0 & ae & E & E' & G & Sz & B) K.
    destruct G as [|l1 e1 before be G1 G2]; cbn [app] in E, E'; injection E as -> E; injection E' as -> E'; [destruct B as (_ & _ & _ & B); lia|].
    specialize (Sz ltac:(discriminate)). cbn [dotted_size] in Sz. pose proof (dotted_size_nonneg be). apply K; [lia|].
    exists before, l0, after, be, e0, ae. split; [exact E|]. split; [exact E'|]. split; [exact G2|]. split; [intros _; lia|exact B]. }
  destruct (size + (zlen e + 1) >? 253) eqn:E253.
  { split; [discriminate|]. intros (_ & W). apply (Sh _ W). lia. }
  assert (D : ls = [] \/ ls = [[]] \/ match ls with [] | [[]] => Good | _ => judge spacing_mark false (size + (zlen e + 1)) ls es' end = judge spacing_mark false (size + (zlen e + 1)) ls es').
  { destruct ls as [|[|x y] [|z w]]; auto. }
  destruct D as [->|[->|D]].
  - split; [discriminate|]. intros (_ & W). apply (Sh _ W). intros _ (before & l0 & after & be & e0 & ae & E & _). destruct before; discriminate.
  - split; [discriminate|]. intros (_ & W). apply (Sh _ W). intros _ (before & l0 & after & be & e0 & ae & E & E' & G & _ & B).
    destruct before as [|? before]; [|destruct before; discriminate]. injection E as <- <-. inversion G; subst be. cbn [app] in E'. subst es'.
    inversion_clear A2 as [|? ? ? ? A3 _]. specialize (A3 eq_refl). apply ace_nil in A3. subst e0. destruct B as (_ & _ & _ & B). cbn in B. lia.
  - rewrite D, (IH es' false (size + (zlen e + 1)) A2). split.
    + intros (_ & before & l0 & after & be & e0 & ae & -> & -> & G & Sz & B). split; [reflexivity|].
      exists (l :: before), l0, after, (e :: be), e0, ae. split; [reflexivity|]. split; [reflexivity|]. split; [constructor; assumption|]. split; [|exact B].
      intros _. cbn [dotted_size]. destruct be as [|b be]; [cbn [dotted_size]; lia|]. specialize (Sz ltac:(discriminate)). lia.
    + intros (_ & W). split; [reflexivity|]. apply (Sh _ W). intros _ K. exact K.
Qed.

(** The answer *)
Lemma all_ascii_spec l : all_ascii l = true <-> ascii l.
Proof. unfold all_ascii, ascii. rewrite forallb_forall, Forall_forall. split; intros H x I; specialize (H x I); cbv beta in *; lia. Qed.

Section Answer.
Variable m : list Z.
Hypothesis Sc : Forall scalar m.
Hypothesis Sm : Forall (fun c => ascii_lower c = c) m.
Hypothesis Ca : Forall (fun c => exists k, assigned category_data c k) m.

Lemma parts_ok (P : Z -> Prop) ls : labels m ls -> Forall P m -> Forall (Forall P) ls.
Proof using. intros (_ & _ & E) F. rewrite E in F. apply join_sub. exact F. Qed.

Lemma answer_iff res : answer spacing_mark m res ->
  (forall out, res = Ok (Some out) <-> exists name, encoded_name m name /\ out = name ++ [0]) /\
  (res = Abort <-> long_label m) /\ (res = UB <-> m = []) /\ res <> NoFuel.
Proof using Sc Sm Ca.
  intros A. pose proof A as A0. unfold answer in A. change (encs m) with (encoding m) in A.
  assert (Ac : forall name, encoded_name m name -> res = Ok (Some (name ++ [0]))).
  { intros name (Nm & L8 & Lh & ls & es & Lb & Al & En & L63 & -> & L1 & L2). exact (answer_accepts m ls es Sc Sm res A0 Nm L8 Lb Al Lh En L63 L1 L2). }
  assert (Su : forall out, res = Ok (Some out) -> zlen (encoding m) <= 254 -> m <> [] -> exists name, encoded_name m name /\ out = name ++ [0]).
  { intros out E L8 Nm. subst res. destruct (success m out Sc Sm A0) as (ls & es & Lb & En & -> & _ & H1 & H2 & H3 & H4 & L1 & L2).
    exists (join_dots es). split; [|reflexivity]. split; [exact Nm|]. split; [exact L8|]. split; [unfold ends_hyphen in H2; lia|]. exists ls, es.
    split; [exact Lb|]. split; [|split; [exact En|split; [|split; [reflexivity|split; [exact L1|exact L2]]]]].
    - pose proof (parts_ok _ ls Lb Sc) as P1. pose proof (parts_ok _ ls Lb Sm) as P2. pose proof (parts_ok _ ls Lb Ca) as P3.
      apply Forall_forall. intros l I. pose proof (proj1 (Forall_forall _ _) P1 l I) as Q1. pose proof (proj1 (Forall_forall _ _) P2 l I) as Q2.
      pose proof (proj1 (Forall_forall _ _) P3 l I) as Q3. exact (fine_accepted l Q1 Q3 Q2 (proj1 (Forall_forall _ _) H1 l I) (proj1 (Forall_forall _ _) H3 l I)).
    - eapply Forall_impl; [|exact H4]. intros e K. apply K. }
  destruct (zlen (encoding m) >? 254) eqn:L8.
  { subst res. split; [|split; [|split]].
    - intros out. split; [discriminate|]. intros (name & K & _). apply Ac in K. discriminate.
    - split; [discriminate|]. intros (K & _). lia.
    - split; [discriminate|]. intros ->. discriminate.
    - discriminate. }
  destruct (zlen m =? 0) eqn:E0.
  { assert (m = []) as Em by (apply zlen_0_nil; lia). split; [|split; [|split]].
    - intros out. split; [congruence|]. intros (name & (K & _) & _). congruence.
    - split; [congruence|]. intros (_ & _ & ls & before & l & after & es & Lb & -> & _ & _ & _ & _ & _ & _ & Ll). exfalso.
      assert (labels m [[]]) as Lb' by (rewrite Em; split; [discriminate|]; split; [constructor; [intros []|constructor]|reflexivity]).
      pose proof (labels_unique _ _ _ Lb Lb') as E. destruct before as [|? before]; [injection E as -> ->; cbn in Ll; lia|]. injection E as _ E. destruct before; discriminate.
    - subst res. split; auto.
    - congruence. }
  assert (Nm : m <> []) by (intros K; rewrite K in E0; discriminate).
  destruct A as (ls & es & Lb & A & R).
  pose proof (parts_ok _ ls Lb Sc) as P1. pose proof (parts_ok _ ls Lb Sm) as P2. pose proof (parts_ok _ ls Lb Ca) as P3.
  pose proof (judge_crash_iff ls es (ends_hyphen m) 0 A) as JC.
  split; [|split; [|split]].
  - intros out. split; [intros E; apply Su; [exact E|lia|exact Nm]|]. intros (name & K & ->). exact (Ac name K).
  - assert (res = Abort <-> judge spacing_mark (ends_hyphen m) 0 ls es = Crash) as -> by (rewrite R; destruct (judge _ _ _ _ _); split; congruence).
    rewrite JC. clear R JC Su Ac A0. split.
    + intros (Eh & before & l & after & be & e & ae & -> & -> & G & Sz & (B1 & B2 & B3 & B4)). split; [lia|]. split; [unfold ends_hyphen in Eh; lia|].
      apply Forall_app in P1 as [P1 P1']. apply Forall_app in P2 as [P2 P2']. apply Forall_app in P3 as [P3 P3'].
      inversion_clear P1' as [|? ? P1l _]. inversion_clear P2' as [|? ? P2l _]. inversion_clear P3' as [|? ? P3l _].
      assert (A' : Forall2 (fun l e => fine_label spacing_mark l = true -> ace l e) before be /\ (fine_label spacing_mark l = true -> ace l e)).
      { clear - A G. revert A. induction G as [|l0 e0 before be _ _ IH]; cbn [app]; intros A; inversion_clear A as [|? ? ? ? A1 A2]; [split; [constructor|exact A1]|].
        destruct (IH A2) as [H1 H2]. split; [constructor; assumption|exact H2]. }
      destruct A' as [Ab Al]. specialize (Al B2).
      exists (before ++ l :: after), before, l, after, be. split; [exact Lb|]. split; [reflexivity|].
      split; [|split; [|split; [|split; [|split; [|split]]]]].
      * clear - G P1 P2 P3. induction G as [|l e before be (G1 & G2 & _) _ IH]; [constructor|]. inversion_clear P1. inversion_clear P2. inversion_clear P3.
        constructor; [apply fine_accepted; assumption|apply IH; assumption].
      * clear - G P2 Ab. induction G as [|l e before be (G1 & G2 & _) _ IH]; [constructor|]. inversion_clear P2. inversion_clear Ab as [|? ? ? ? Ab1 Ab2].
        constructor; [apply ace_encoded; auto|apply IH; assumption].
      * clear - G. induction G as [|l e before be (_ & _ & G3) _ IH]; constructor; assumption.
      * apply dotted_size_join. destruct be as [|b be]; [cbn; lia|]. apply (Sz ltac:(discriminate)).
      * apply all_ascii_spec. exact B3.
      * apply fine_accepted; assumption.
      * unfold ace in Al. rewrite B3 in Al. subst e. unfold zlen in *. rewrite map_length in B4. exact B4.
    + intros (_ & Lh & ls' & before & l & after & be & Lb' & E & Ab & En & L63 & Sz & Al & Acl & Ll).
      rewrite (labels_unique _ _ _ Lb' Lb) in E. clear ls' Lb'. subst ls. split; [unfold ends_hyphen; lia|].
      destruct (Forall2_app_inv_l _ _ A) as (be' & rest & A1 & A2 & ->). inversion A2 as [|? e ? ae A3 A4]; subst rest.
      apply Forall_app in P2 as [P2 P2'].
      assert (be' = be) as ->.
      { clear - A1 En Ab P2. revert be' A1. induction En as [|l e before be E _ IH]; intros be' A1; inversion_clear A1 as [|? e' ? be1 A3 A4]; [reflexivity|].
        inversion_clear Ab as [|? ? Ab1 Ab2]. inversion_clear P2 as [|? ? P2l P2r]. rewrite (IH P2r Ab2 be1 A4). f_equal.
        exact (label_unique l e' e (ace_encoded l e' P2l (A3 (proj2 (accepted_fine l Ab1)))) E). }
      destruct (accepted_fine l Acl) as [F1 F2]. specialize (A3 F2). apply all_ascii_spec in Al.
      exists before, l, after, be, e, ae. split; [reflexivity|]. split; [reflexivity|]. split; [|split; [|split; [exact F1|split; [exact F2|split; [exact Al|]]]]].
      * clear - En Ab L63. induction En as [|l e before be E _ IH]; [constructor|]. inversion_clear Ab as [|? ? Ab1 Ab2]. inversion_clear L63 as [|? ? L1 L2].
        constructor; [|apply IH; assumption]. destruct (accepted_fine l Ab1) as [H1 H2]. split; [exact H1|]. split; [exact H2|exact L1].
      * intros _. apply dotted_size_join in Sz. lia.
      * unfold ace in A3. rewrite Al in A3. subst e. unfold zlen in *. rewrite map_length. exact Ll.
  - rewrite R. split; [destruct (judge _ _ _ _ _); discriminate|]. contradiction.
  - rewrite R. destruct (judge _ _ _ _ _); discriminate.
Qed.
End Answer.

(** * Normalization *)

Lemma detect_yes cps d m : d <> 0 -> m <> 0 -> d <> m -> forall last, (match cps with [] => True | c :: _ => ~ (last > ccc c /\ ccc c > 0) end) ->
  ordered cps -> Forall (fun c => dis d c = false /\ dis m c = false) cps -> detect cps true d m last 0 = 0.
Proof.
  intros D1 D2 D3. induction cps as [|c cps IH]; intros last L O F; cbn [detect]; [reflexivity|].
  inversion_clear F as [|? ? [F1 F2] F3]. apply ordered_cons in O as [O1 O2].
  replace (truth (ccc c) && (last >? ccc c)) with false by (unfold truth; pose proof (ccc_nonneg c); lia). rewrite F1, F2. apply IH; [|exact O2|exact F3].
  destruct cps as [|y cps]; [exact I|]. exact O1.
Qed.
Lemma listed_value rows cp : qc_value rows cp = None <-> ~ listed rows cp.
Proof.
  split.
  - intros E (a & b & v & I & H). apply (qc_covered rows cp) in E; [exact E|]. exists a, b, v. auto.
  - intros N. destruct (qc_value rows cp) as [v|] eqn:E; [|reflexivity]. apply qc_row in E as (a & b & I & H). destruct N. exists a, b, v. auto.
Qed.
Lemma flags_nfc c : (dis 1 c = false /\ dis 2 c = false) <-> qc_value nfc_qc_data c = None.
Proof.
  destruct (allowed_nfc c) as [A1 A2]. unfold dis. unfold UNICODE_NFC_DISALLOWED, UNICODE_NFC_MAYBE in *. rewrite A1, A2. unfold qc_flags.
  destruct (qc_value nfc_qc_data c) as [[]|]; split; try discriminate; try reflexivity; try (intros [K K']; discriminate); auto.
Qed.
Lemma flags_nfd c : (dis 4 c = false /\ dis 8 c = false) <-> qc_value nfd_qc_data c = None.
Proof.
  destruct (allowed_nfd c) as [A1 A2]. unfold dis. unfold UNICODE_NFD_DISALLOWED, UNICODE_NFD_MAYBE in *. rewrite A1, A2. unfold qc_flags.
  destruct (qc_value nfd_qc_data c) as [[]|]; split; try discriminate; try reflexivity; try (intros [K K']; discriminate); auto.
Qed.
Lemma quick_forall rows cps : quick_yes rows cps <-> ordered cps /\ Forall (fun c => qc_value rows c = None) cps.
Proof.
  unfold quick_yes. rewrite Forall_forall. split; intros [O F]; (split; [exact O|]); intros c I; apply listed_value; exact (F c I).
Qed.
Lemma detect_quick_nfc cps : (detect cps true 1 2 0 0 =? 0) = true <-> quick_yes nfc_qc_data cps.
Proof.
  rewrite Z.eqb_eq, quick_forall. split.
  - intros H. apply detect_zero in H; try discriminate. destruct H as (_ & _ & F & O & _). split; [exact O|]. eapply Forall_impl; [|exact F]. intros c K. exact (proj1 (flags_nfc c) K).
  - intros [O F]. apply detect_yes; try discriminate; [|exact O|eapply Forall_impl; [|exact F]; intros c K; exact (proj2 (flags_nfc c) K)].
    destruct cps as [|c cps]; [exact I|]. lia.
Qed.
Lemma detect_quick_nfd cps : (detect cps true 4 8 0 0 =? 0) = true <-> quick_yes nfd_qc_data cps.
Proof.
  rewrite Z.eqb_eq, quick_forall. split.
  - intros H. apply detect_zero in H; try discriminate. destruct H as (_ & _ & F & O & _). split; [exact O|]. eapply Forall_impl; [|exact F]. intros c K. exact (proj1 (flags_nfd c) K).
  - intros [O F]. apply detect_yes; try discriminate; [|exact O|eapply Forall_impl; [|exact F]; intros c K; exact (proj2 (flags_nfd c) K)].
    destruct cps as [|c cps]; [exact I|]. lia.
Qed.

(** Three times the space is enough for every codepoint. *)
Lemma fit_three s cps ok : scanned s cps ok -> forall room, 3 * zlen s <= room -> fit cps room = Some (map fd cps).
Proof.
  induction 1 as [|c s N|bs cp s cps ok A H IH]; intros room L; [reflexivity..|]. cbn [fit map]. unfold fit_cp. rewrite zlen_app in L.
  assert (total (fd cp) <= 3 * zlen bs) as W.
  { pose proof (fd_total cp (proj2 A)) as K. assert (scanned bs [cp] true) as Sb by (rewrite <- (app_nil_r bs); constructor; [exact A|constructor]).
    apply scanned_width in Sb. change (total [cp]) with (width cp + 0) in Sb. lia. }
  pose proof (zlen_nonneg s). replace (total (fd cp) <=? room) with true by lia. rewrite IH by lia. reflexivity.
Qed.
Lemma fitting_three s cps ok : scanned s cps ok -> fitting cps (3 * zlen s) = if total (fds cps) =? 3 * zlen s then None else Some (fds cps).
Proof.
  intros Sc. unfold fitting. rewrite (fit_three s cps ok Sc) by lia. unfold fds. rewrite <- flat_map_concat_map. reflexivity.
Qed.

Lemma nonzero_in l : Forall nonzero l <-> ~ In 0 l.
Proof.
  rewrite Forall_forall. unfold nonzero. split; [intros H I; exact (H 0 I eq_refl)|intros N x I ->; contradiction].
Qed.

Lemma fate_prepared s cps ok res : text s -> ~ ascii s -> scanned s cps ok -> fate s cps ok res ->
  (exists t, prepared s t /\ outcome spacing_mark image t res) \/ ((~ exists t, prepared s t) /\ res = Ok None).
Proof.
  intros T A Sc F. unfold fate in F. destruct ok.
  2: { right. assert (~ exists c, encodes s c) as N by (apply (scanned_valid s cps); exact Sc).
       split; [intros (t & _ & c & u & E & _); apply N; eauto|].
       destruct (detect cps false 1 2 0 0 =? 0) eqn:D1; [apply Z.eqb_eq, detect_zero in D1; try discriminate; destruct D1; discriminate|].
       destruct (detect cps false 4 8 0 0 =? 0) eqn:D2; [apply Z.eqb_eq, detect_zero in D2; try discriminate; destruct D2; discriminate|]. exact F. }
  pose proof (scanned_scalar _ _ _ Sc) as SC. pose proof (proj2 (encodes_scanned _ _) Sc) as E.
  assert (U : forall t, prepared s t -> normalized s t /\ (In 0 cps -> ~ quick_yes nfc_qc_data cps /\ ~ quick_yes nfd_qc_data cps) /\
    (quick_yes nfc_qc_data cps \/ (~ crowded t /\ zlen (encoding (osort (fds cps))) < 3 * zlen s))).
  { intros t (N & c & u & E' & Nd & H1 & H2). rewrite (encodes_det _ _ _ E' E) in *. apply nfd_iff in Nd. subst u. auto. }
  assert (M : forall t, normalized s t -> (In 0 cps -> ~ quick_yes nfc_qc_data cps /\ ~ quick_yes nfd_qc_data cps) ->
    (quick_yes nfc_qc_data cps \/ (~ crowded t /\ zlen (encoding (osort (fds cps))) < 3 * zlen s)) -> prepared s t).
  { intros t N H1 H2. split; [exact N|]. exists cps, (osort (fds cps)). split; [exact E|]. split; [apply nfd_iff; reflexivity|]. auto. }
  assert (Whole : forall t, nfc cps t -> ~ In 0 cps -> normalized s t) by (intros t N Z; exists cps, cps; auto).
  assert (LT : zlen (encoding (osort (fds cps))) = total (fds cps)).
  { assert (Forall scalar (fds cps)) as K by (apply fds_scalars; exact SC). rewrite (encs_zlen _ (osort_forall _ _ K)). apply osort_total. }
  destruct (detect cps true 1 2 0 0 =? 0) eqn:D1.
  { pose proof (proj1 (detect_quick_nfc cps) D1) as Q. pose proof (proj1 (quick_forall _ _) Q) as [O Fq]. pose proof (nfc_quick cps Fq O) as N.
    destruct (in_dec Z.eq_dec 0 cps) as [I0|N0].
    - right. split; [intros (t & P); apply U in P as (_ & P & _); exact (proj1 (P I0) Q)|]. unfold outcome in F. rewrite (zero_images cps I0) in F. exact F.
    - left. exists cps. split; [|exact F]. apply M; [apply Whole; assumption|intros K; contradiction|left; exact Q]. }
  assert (NQ : ~ quick_yes nfc_qc_data cps) by (intros Q; apply detect_quick_nfc in Q; congruence).
  assert (Rec : forall t, composed (osort (fds cps)) = t -> ~ In 0 cps -> zlen (encoding (osort (fds cps))) < 3 * zlen s ->
     (~ crowded t /\ outcome spacing_mark image t res) \/ (crowded t /\ res = Ok None) ->
     (exists t, prepared s t /\ outcome spacing_mark image t res) \/ ((~ exists t, prepared s t) /\ res = Ok None)).
  { intros t <- N0 L R. assert (normalized s (composed (osort (fds cps)))) as Nt by (apply Whole; [apply nfc_iff; reflexivity|exact N0]).
    destruct R as [[NC R]|[C R]].
    - left. eexists. split; [|exact R]. apply M; [exact Nt|intros K; contradiction|right; split; [exact NC|exact L]].
    - right. split; [|exact R]. intros (t & P). apply U in P as (N' & _ & [K|[K _]]); [exact (NQ K)|]. rewrite (normalized_unique s _ _ N' Nt) in K. exact (K C). }
  destruct (detect cps true 4 8 0 0 =? 0) eqn:D2.
  { pose proof (proj1 (detect_quick_nfd cps) D2) as Q. pose proof (proj1 (quick_forall _ _) Q) as [O Fq]. pose proof (nfd_quick cps Fq O) as N. apply nfd_iff in N.
    unfold recomposed in F. rewrite N in F at 1 2 3.
    destruct (in_dec Z.eq_dec 0 cps) as [I0|N0].
    - right. split; [intros (t & P); apply U in P as (_ & P & _); exact (proj2 (P I0) Q)|]. destruct F as [[_ F]|[_ F]]; [|exact F].
      unfold outcome in F. rewrite zero_images in F; [exact F|]. apply in_split in I0 as (a & b & Ec). apply (nfc_zero a b). rewrite <- Ec. apply nfc_iff. reflexivity.
    - apply (Rec _ eq_refl N0); [|exact F]. rewrite <- N, (encs_zlen _ SC). pose proof (scanned_width _ _ Sc). assert (0 < zlen s); [|lia].
      destruct s as [|x s]; [destruct A; constructor|]. rewrite zlen_cons. pose proof (zlen_nonneg s). lia. }
  assert (NQ' : ~ quick_yes nfd_qc_data cps) by (intros Q; apply detect_quick_nfd in Q; congruence).
  rewrite (fitting_three s cps true Sc) in F. destruct (total (fds cps) =? 3 * zlen s) eqn:L3.
  { right. split; [|exact F]. intros (t & P). apply U in P as (_ & _ & [K|[_ K]]); [exact (NQ K)|]. lia. }
  assert (zlen (encoding (osort (fds cps))) < 3 * zlen s) as L.
  { pose proof (nfd_three s cps (osort (fds cps)) E (proj2 (nfd_iff _ _) eq_refl)). lia. }
  destruct (first_nul cps) as [N0|(a & b & -> & N0)].
  { rewrite before_nul_none in F by (apply osort_forall, fds_nonzero; exact N0). apply (Rec _ eq_refl); [apply nonzero_in; exact N0|exact L|exact F]. }
  rewrite fds_app, fds_cons, fd_0 in F. cbn [app] in F. rewrite (osort_starter _ _ _ ccc_0) in F.
  rewrite before_nul_app in F by (apply osort_forall, fds_nonzero; exact N0).
  assert (normalized s (composed (osort (fds a)))) as Nt.
  { exists (a ++ 0 :: b), a. split; [exact E|]. split; [apply nfc_iff; reflexivity|]. split; [apply nonzero_in; exact N0|]. right. exists b. reflexivity. }
  destruct F as [[NC F]|[C F]].
  - left. eexists. split; [|exact F]. apply M; [exact Nt|auto|right; split; [exact NC|exact L]].
  - right. split; [|exact F]. intros (t & P). apply U in P as (N' & _ & [K|[K _]]); [exact (NQ K)|]. rewrite (normalized_unique s _ _ N' Nt) in K. exact (K C).
Qed.

(** * Mapping *)

Lemma images_iff t m : images image t = Some m <-> mapped_name t m /\ ~ In 0x3134A t /\ ~ In 0x2FA1D t.
Proof.
  split.
  - intros E. split; [apply images_mapped; exact E|].
    assert (G : forall c, In c t -> image c <> None).
    { clear - E. revert m E. induction t as [|x t IH]; intros m E c I0; [destruct I0|]. cbn [images] in E. destruct I0 as [->|I].
      - destruct (image c); [discriminate|]. discriminate.
      - destruct (image x); [|discriminate]. destruct (images image t) as [k|] eqn:Ek; [|discriminate]. exact (IH k eq_refl c I). }
    split; intros I; apply G in I; apply I; unfold image, lost; destruct (lookup idna_data _) as [[st k]|]; reflexivity.
  - intros (M & N1 & N2). apply mapped_found; assumption.
Qed.
Lemma prepared_unique s t t' : prepared s t -> prepared s t' -> t = t'.
Proof. intros [N _] [N' _]. exact (normalized_unique s t t' N N'). Qed.
Lemma prepared_name_unique s m m' : prepared_name s m -> prepared_name s m' -> m = m'.
Proof. intros (t & P & M & _) (t' & P' & M' & _). rewrite (prepared_unique s t' t P' P) in M'. exact (mapped_unique t m m' M M'). Qed.

Lemma prepared_cases s res : (exists t, prepared s t /\ outcome spacing_mark image t res) \/ ((~ exists t, prepared s t) /\ res = Ok None) ->
  (exists m, prepared_name s m /\ answer spacing_mark m res) \/ ((~ exists m, prepared_name s m) /\ res = Ok None).
Proof.
  intros [(t & P & O)|[N R]].
  - unfold outcome in O. destruct (images image t) as [m|] eqn:E.
    + left. exists m. split; [|exact O]. apply images_iff in E. exists t. split; [exact P|exact E].
    + right. split; [|exact O]. intros (m & t' & P' & M). rewrite (prepared_unique s t' t P' P) in M. apply images_iff in M. congruence.
  - right. split; [|exact R]. intros (m & t & P & _). apply N. eauto.
Qed.

Section Exact.
Variables (junk : nat -> Z) (r : recomposer) (h : hangul_recomposer) (errno : Z).
Hypothesis r_size : zlen (r_ccs r) = 100.
Notation idna s := (charstr_idna_encode junk r h errno s).

Lemma idna_exact s q : text s -> ~ ascii s -> 3 * zlen s + 1 < 2 ^ 64 ->
  (forall out, idna (s ++ 0 :: q) = Ok (Some out) <-> exists m name, prepared_name s m /\ encoded_name m name /\ out = name ++ [0]) /\
  (idna (s ++ 0 :: q) = Abort <-> exists m, prepared_name s m /\ long_label m) /\
  (idna (s ++ 0 :: q) = UB <-> prepared_name s []) /\ idna (s ++ 0 :: q) <> NoFuel.
Proof using r_size.
  intros T A L. destruct (scanned_total s (text_bytes _ T)) as (cps & ok & Sc).
  pose proof (fate_prepared s cps ok _ T A Sc (idna_fate junk r h errno r_size s cps ok q T A L Sc)) as K. apply prepared_cases in K.
  destruct K as [(m & P & K)|[N K]].
  - destruct P as (t & P & M & P1 & P2). assert (P' : prepared_name s m) by (exists t; auto).
    destruct (answer_iff m (mapped_scalar t m (normalized_scalar s t (proj1 P)) M) (mapped_small t m M) (mapped_category t m M) _ K) as (K1 & K2 & K3 & K4).
    split; [|split; [|split; [|exact K4]]].
    + intros out. rewrite K1. split; [intros (name & H); exists m, name; auto|]. intros (m' & name & H1 & H). rewrite (prepared_name_unique s m' m H1 P') in H. exists name. exact H.
    + rewrite K2. split; [intros H; exists m; auto|]. intros (m' & H1 & H). rewrite (prepared_name_unique s m' m H1 P') in H. exact H.
    + rewrite K3. split; [intros ->; exact P'|]. intros H. exact (prepared_name_unique s m [] P' H).
  - rewrite K. split; [|split; [|split]].
    + intros out. split; [discriminate|]. intros (m & name & H & _). destruct N. eauto.
    + split; [discriminate|]. intros (m & H & _). destruct N. eauto.
    + split; [discriminate|]. intros H. destruct N. eauto.
    + discriminate.
Qed.
End Exact.
