(** UTF-8 strings remain UTF-8 under the string functions: proofs. *)
From Verif Require Import Base CMem CharstrModel CharstrSpec CharstrProofs Utf8Model Utf8Spec Utf8Proofs Utf8KeepSpec.
From Coq Require Import ZifyBool ZifyNat.

Lemma utf8_text cp : scalar cp -> cp <> 0 -> text (utf8 cp).
Proof.
  intros S N. assert (0 < cp <= 0x10ffff) by (unfold scalar in S; lia). clear S N. unfold utf8, text.
  destruct (Z.ltb_spec cp 0x80); [repeat constructor; lia|]. destruct (Z.ltb_spec cp 0x800); [repeat constructor; Z.div_mod_to_equations; lia|].
  destruct (Z.ltb_spec cp 0x10000); repeat constructor; Z.div_mod_to_equations; lia.
Qed.
Definition middle (c : Z) : Prop := 128 <= c < 192.
Lemma pattern_bytes bs cp : pattern bs cp -> exists c l, bs = c :: l /\ ~ middle c /\ Forall middle l.
Proof. intros H. destruct H; eexists; eexists; (split; [reflexivity|]); unfold middle; split; try lia; repeat constructor; lia. Qed.

(** A byte that is not in the middle of an encoding starts one. *)
Lemma valid_boundary p c q : ~ middle c -> valid (p ++ c :: q) -> valid p /\ valid (c :: q).
Proof.
  intros N (parts & E & F). revert p E. induction F as [|bs parts (cp & A) F IH]; intros p E; cbn [concat] in E.
  - exfalso. apply app_eq_nil in E. destruct E as (_ & E). discriminate.
  - assert (V : valid (bs ++ concat parts)) by (apply (valid_step bs cp _ A); exists parts; auto).
    destruct (app_eq_app _ _ _ _ E) as [l [[E1 E2]|[E1 E2]]].
    + destruct (IH l (eq_sym E2)) as (V1 & V2). rewrite E1. split; [|exact V2]. apply (valid_step bs cp _ A). exact V1.
    + destruct l as [|x l].
      * rewrite app_nil_r in E1. subst p. cbn [app] in E2. split; [|rewrite E2; exists parts; auto].
        rewrite <- (app_nil_r bs). apply (valid_step bs cp _ A). exact valid_nil.
      * cbn [app] in E2. injection E2 as <- E2. destruct p as [|y p].
        -- split; [exact valid_nil|]. cbn [app] in E. rewrite E. exact V.
        -- exfalso. destruct (pattern_bytes bs cp (proj1 A)) as (z & m & Eb & _ & M). rewrite E1 in Eb. cbn [app] in Eb. injection Eb as _ Eb.
           rewrite <- Eb in M. apply Forall_app in M. destruct M as (_ & M). apply N. exact (Forall_inv M).
Qed.
Lemma valid_cons_app a b : valid a -> (valid (a ++ b) <-> valid b).
Proof.
  intros (parts & -> & F). induction F as [|bs parts (cp & A) F IH]; [reflexivity|]. cbn [concat]. rewrite <- app_assoc.
  rewrite (valid_step bs cp _ A). exact IH.
Qed.
Lemma valid_first c s : valid (c :: s) -> ~ middle c.
Proof.
  intros (parts & E & F). destruct F as [|bs parts (cp & A) F]; [discriminate|]. destruct (pattern_bytes bs cp (proj1 A)) as (z & m & -> & N & _).
  cbn [concat app] in E. injection E as -> _. exact N.
Qed.
Lemma valid_between p d q : d <> [] -> valid d -> valid (p ++ d ++ q) -> valid p /\ valid q.
Proof.
  intros N D V. destruct d as [|c d]; [destruct (N eq_refl)|]. destruct (valid_boundary p c (d ++ q) (valid_first c d D) V) as (P & Q).
  split; [exact P|]. apply (valid_cons_app (c :: d) q D). exact Q.
Qed.
Lemma valid_parts d parts : d <> [] -> valid d -> valid (join d parts) -> Forall valid parts.
Proof.
  intros N D. induction parts as [|p parts IH]; [constructor|]. intros V. destruct parts as [|q parts]; [constructor; [exact V|constructor]|].
  change (valid (p ++ d ++ join d (q :: parts))) in V. destruct (valid_between _ _ _ N D V) as (P & Q). constructor; [exact P|]. exact (IH Q).
Qed.
Lemma valid_one c : 0 <= c < 128 -> valid [c].
Proof. intros H. exists [[c]]. split; [reflexivity|]. constructor; [|constructor]. exists c. split; [constructor; exact H|]. left. lia. Qed.
Lemma valid_ascii l : Forall (fun c => 0 <= c < 128) l -> valid l.
Proof. intros H. induction H as [|c l Hc H IH]; [exact valid_nil|]. apply (valid_cons_app [c] l (valid_one c Hc)). exact IH. Qed.

Lemma white_ascii l : Forall code_white l -> Forall (fun c => 0 <= c < 128) l.
Proof. intros H. eapply Forall_impl; [|exact H]. unfold code_white. intros; lia. Qed.
Lemma valid_atoms s parts : atoms code_white s parts -> valid s -> Forall valid parts.
Proof.
  intros H. induction H as [|w a s l W N A S H IH]; [constructor|]. intros V.
  apply (proj1 (valid_cons_app w (a ++ s) (valid_ascii w (white_ascii w W)))) in V. destruct S as [->|(c & s' & -> & C)].
  - rewrite app_nil_r in V. constructor; [exact V|]. apply IH. exact valid_nil.
  - destruct (valid_boundary a c s') as (P & Q); [unfold middle, code_white in *; lia|exact V|]. constructor; [exact P|exact (IH Q)].
Qed.
Lemma valid_stripped s m : stripped code_white s m -> valid s -> valid m.
Proof.
  intros (w1 & w2 & -> & W1 & W2 & _) V. apply (proj1 (valid_cons_app w1 _ (valid_ascii w1 (white_ascii w1 W1)))) in V. destruct w2 as [|c w2].
  - rewrite app_nil_r in V. exact V.
  - apply (valid_boundary m c w2); [|exact V]. pose proof (Forall_inv W2) as C. unfold middle, code_white in *. lia.
Qed.

(** Other cases of the ASCII letters. *)
Definition ascii_map (f : Z -> Z) : Prop := forall c, (0 <= c < 128 <-> 0 <= f c < 128) /\ (128 <= c \/ 128 <= f c -> f c = c).
Lemma lower_map : ascii_map ascii_lower.
Proof. intros c. unfold ascii_lower. destruct (Z.leb_spec 65 c), (Z.leb_spec c 90); cbn [andb]; lia. Qed.
Lemma upper_map : ascii_map ascii_upper.
Proof. intros c. unfold ascii_upper. destruct (Z.leb_spec 97 c), (Z.leb_spec c 122); cbn [andb]; lia. Qed.
Lemma same_high f a b : ascii_map f -> 128 <= b -> f a = f b -> a = b.
Proof. intros H B E. destruct (H a) as (_ & A), (H b) as (_ & B'). specialize (B' (or_introl B)). rewrite B' in E. rewrite E in A. symmetry. apply A. right. exact B. Qed.
Lemma valid_recased f q p : ascii_map f -> map f q = map f p -> valid p -> valid q.
Proof.
  intros H E (parts & -> & F). revert q E. induction F as [|bs parts (cp & A) F IH]; intros q E; cbn [concat] in E.
  - apply map_eq_nil in E. subst q. exact valid_nil.
  - rewrite map_app in E. apply map_eq_app in E. destruct E as (q1 & q2 & -> & E1 & E2). apply (valid_cons_app q1 q2); [|exact (IH q2 E2)].
    destruct A as (P & S). assert (Hi : cp = cp) by reflexivity. destruct P; cbn [map] in E1.
    + destruct q1 as [|x [|y q1]]; try discriminate. cbn [map] in E1. injection E1 as E1. apply valid_one. apply (proj1 (H x)). rewrite E1. apply (proj1 (H a)). assumption.
    + destruct q1 as [|x [|y [|z q1]]]; try discriminate. cbn [map] in E1. apply cons_inj in E1; destruct E1 as (Ex & E1). apply cons_inj in E1; destruct E1 as (Ey & _).
      apply (same_high f _ _ H) in Ex; [|lia]. apply (same_high f _ _ H) in Ey; [|lia]. subst.
      rewrite <- (app_nil_r [_; _]). eapply valid_step; [split; [apply Pattern2; eassumption|exact S]|exact valid_nil].
    + destruct q1 as [|x [|y [|z [|u q1]]]]; try discriminate. cbn [map] in E1. apply cons_inj in E1; destruct E1 as (Ex & E1). apply cons_inj in E1; destruct E1 as (Ey & E1). apply cons_inj in E1; destruct E1 as (Ez & _).
      apply (same_high f _ _ H) in Ex; [|lia]. apply (same_high f _ _ H) in Ey; [|lia]. apply (same_high f _ _ H) in Ez; [|lia]. subst.
      rewrite <- (app_nil_r [_; _; _]). eapply valid_step; [split; [apply Pattern3; eassumption|exact S]|exact valid_nil].
    + destruct q1 as [|x [|y [|z [|u [|v q1]]]]]; try discriminate. cbn [map] in E1. apply cons_inj in E1; destruct E1 as (Ex & E1). apply cons_inj in E1; destruct E1 as (Ey & E1). apply cons_inj in E1; destruct E1 as (Ez & E1). apply cons_inj in E1; destruct E1 as (Eu & _).
      apply (same_high f _ _ H) in Ex; [|lia]. apply (same_high f _ _ H) in Ey; [|lia]. apply (same_high f _ _ H) in Ez; [|lia]. apply (same_high f _ _ H) in Eu; [|lia]. subst.
      rewrite <- (app_nil_r [_; _; _; _]). eapply valid_step; [split; [apply Pattern4; eassumption|exact S]|exact valid_nil].
Qed.
Lemma lower_idem c : ascii_lower (ascii_lower c) = ascii_lower c.
Proof. unfold ascii_lower. destruct (Z.leb_spec 65 c), (Z.leb_spec c 90), (Z.leb_spec 65 (c + 32)), (Z.leb_spec (c + 32) 90); cbn [andb]; repeat match goal with |- context [?a <=? ?b] => destruct (Z.leb_spec a b) end; cbn [andb]; lia. Qed.
Lemma lower_upper c : ascii_lower (ascii_upper c) = ascii_lower c.
Proof.
  unfold ascii_upper. destruct (Z.leb_spec 97 c), (Z.leb_spec c 122); cbn [andb]; try reflexivity.
  unfold ascii_lower. destruct (Z.leb_spec 65 (c - 32)), (Z.leb_spec (c - 32) 90), (Z.leb_spec 65 c), (Z.leb_spec c 90); cbn [andb]; lia.
Qed.
Lemma valid_lower s : valid s -> valid (map ascii_lower s).
Proof. apply (valid_recased ascii_lower); [exact lower_map|]. rewrite map_map. apply map_ext. exact lower_idem. Qed.
Lemma valid_upper s : valid s -> valid (map ascii_upper s).
Proof. apply (valid_recased ascii_lower); [exact lower_map|]. rewrite map_map. apply map_ext. exact lower_upper. Qed.

(** The order of strings is that of their codepoints. *)
Lemma lex_same p s t : lex (p ++ s) (p ++ t) = lex s t.
Proof. induction p as [|c p IH]; [reflexivity|]. cbn [app lex]. rewrite !Z.ltb_irrefl. exact IH. Qed.
Lemma utf8_later x y s t : scalar x -> scalar y -> x < y -> lex (utf8 x ++ s) (utf8 y ++ t) = -1.
Proof.
  intros X Y L. assert (0 <= x <= 0x10ffff /\ 0 <= y <= 0x10ffff) as (X' & Y') by (unfold scalar in *; lia). clear X Y. unfold utf8.
  destruct (Z.ltb_spec x 0x80), (Z.ltb_spec y 0x80); try lia;
  try (destruct (Z.ltb_spec x 0x800)); try (destruct (Z.ltb_spec y 0x800)); try lia;
  try (destruct (Z.ltb_spec x 0x10000)); try (destruct (Z.ltb_spec y 0x10000)); try lia;
  cbn [app lex];
  repeat match goal with |- (if ?a <? ?b then _ else _) = _ => destruct (Z.ltb_spec a b); try reflexivity; try (exfalso; Z.div_mod_to_equations; lia) end.
  all: exfalso; Z.div_mod_to_equations; lia.
Qed.
Lemma utf8_lex a : forall b, Forall scalar a -> Forall scalar b -> lex (concat (map utf8 a)) (concat (map utf8 b)) = lex a b.
Proof.
  assert (N : forall x l, exists c m, utf8 x ++ l = c :: m).
  { intros x l. unfold utf8. destruct (_ <? _); [cbn; eauto|]. destruct (_ <? _); [cbn; eauto|]. destruct (_ <? _); cbn; eauto. }
  induction a as [|x a IH]; intros b A B.
  - destruct b as [|y b]; [reflexivity|]. cbn [map concat lex]. destruct (N y (concat (map utf8 b))) as (c & m & ->). reflexivity.
  - destruct b as [|y b].
    + cbn [map concat lex]. destruct (N x (concat (map utf8 a))) as (c & m & ->). reflexivity.
    + cbn [map concat lex]. destruct (Z.ltb_spec x y).
      * apply utf8_later; [exact (Forall_inv A)|exact (Forall_inv B)|assumption].
      * destruct (Z.ltb_spec y x).
        -- rewrite lex_sym. rewrite utf8_later; [reflexivity|exact (Forall_inv B)|exact (Forall_inv A)|assumption].
        -- replace y with x by lia. rewrite lex_same. apply IH; [exact (Forall_inv_tail A)|exact (Forall_inv_tail B)].
Qed.
Lemma utf8_lower x : scalar x -> map ascii_lower (utf8 x) = utf8 (ascii_lower x).
Proof.
  intros S. assert (X : 0 <= x <= 0x10ffff) by (unfold scalar in *; lia). clear S.
  assert (H : forall c, 128 <= c -> ascii_lower c = c) by (intros c Hc; apply (proj2 (lower_map c)); left; exact Hc).
  destruct (Z_lt_ge_dec x 128) as [L|L].
  - destruct (proj1 (lower_map x)) as (G & _). specialize (G ltac:(lia)). unfold utf8. rewrite !(proj2 (Z.ltb_lt _ _)) by lia. reflexivity.
  - rewrite (H x) by lia. unfold utf8. destruct (Z.ltb_spec x 0x80); [lia|]. destruct (Z.ltb_spec x 0x800); [|destruct (Z.ltb_spec x 0x10000)]; cbn [map]; rewrite !H by (Z.div_mod_to_equations; lia); reflexivity.
Qed.
Lemma utf8s_lower a : Forall scalar a -> map ascii_lower (concat (map utf8 a)) = concat (map utf8 (map ascii_lower a)).
Proof.
  intros H. induction H as [|x a X H IH]; [reflexivity|]. cbn [map concat]. rewrite map_app, IH, (utf8_lower x X). reflexivity.
Qed.
Lemma scalar_lower x : scalar x -> scalar (ascii_lower x).
Proof. unfold scalar, ascii_lower. intros H. destruct (Z.leb_spec 65 x), (Z.leb_spec x 90); cbn [andb]; lia. Qed.
Lemma text_utf8 a : Forall scalar a -> ~ In 0 a -> text (concat (map utf8 a)).
Proof.
  intros H. induction H as [|x a X H IH]; intros N; [constructor|]. cbn [map concat]. apply Forall_app. split.
  - apply utf8_text; [exact X|]. intros ->. apply N. left. reflexivity.
  - apply IH. intros I. apply N. right. exact I.
Qed.
Lemma case_cmp_utf8 a b ra rb : Forall scalar a -> Forall scalar b -> ~ In 0 a -> ~ In 0 b ->
  charstr_case_cmp (concat (map utf8 a) ++ 0 :: ra) (concat (map utf8 b) ++ 0 :: rb) = Ok (lex (map ascii_lower a) (map ascii_lower b)).
Proof.
  intros A B Na Nb. rewrite case_cmp_ok by (apply text_utf8; assumption). rewrite !utf8s_lower by assumption. f_equal. apply utf8_lex; apply Forall_map.
  - eapply Forall_impl; [|exact A]. exact scalar_lower.
  - eapply Forall_impl; [|exact B]. exact scalar_lower.
Qed.

(** The functions. *)
Lemma is_utf8_valid s r : text s -> (is_utf8 (s ++ 0 :: r) <-> valid s).
Proof.
  intros T. unfold is_utf8. destruct (valid_ok s r T) as (b & E & V). rewrite E. rewrite <- V. split; [intros H; injection H as ->; reflexivity|intros ->; reflexivity].
Qed.
Lemma blocks_utf8 parts : Forall text parts -> Forall valid parts -> Forall is_utf8 (map as_block parts).
Proof.
  intros T V. apply Forall_map. induction T as [|p parts Tp T IH]; constructor.
  - apply (is_utf8_valid p []); [exact Tp|exact (Forall_inv V)].
  - apply IH. exact (Forall_inv_tail V).
Qed.
Lemma text_parts d parts : text (join d parts) -> Forall text parts.
Proof.
  induction parts as [|p parts IH]; [constructor|]. intros V. destruct parts as [|q parts]; [constructor; [exact V|constructor]|].
  change (text (p ++ d ++ join d (q :: parts))) in V. apply Forall_app in V. destruct V as (P & Q). constructor; [exact P|]. apply IH. apply Forall_app in Q. apply Q.
Qed.
Lemma text_atoms s parts : atoms code_white s parts -> text s -> Forall text parts.
Proof.
  intros H. induction H as [|w a s l W N A S H IH]; [constructor|]. intros V. apply Forall_app in V. destruct V as (_ & V). apply Forall_app in V.
  destruct V as (V & V'). constructor; [exact V|exact (IH V')].
Qed.
Lemma split_utf8 junk s r delim max parts : text s -> 0 < delim < 128 -> 0 <= max -> zlen s + 1 < 2 ^ 64 ->
  is_utf8 (s ++ 0 :: r) -> charstr_split junk (s ++ 0 :: r) delim max = Ok parts -> Forall is_utf8 parts.
Proof.
  intros T D M L U E. apply (is_utf8_valid s r T) in U. destruct (split_ok junk s r delim max T ltac:(lia) M L) as (ps & E' & J & _). rewrite E' in E. injection E as <-.
  rewrite <- J in U, T. apply blocks_utf8; [exact (text_parts _ _ T)|]. apply (valid_parts [delim]); [discriminate|apply valid_one; lia|exact U].
Qed.
Lemma split_str_utf8 junk s r d rd max parts : text s -> text d -> 0 <= max -> zlen s + 1 < 2 ^ 64 ->
  is_utf8 (s ++ 0 :: r) -> is_utf8 (d ++ 0 :: rd) -> charstr_split_str junk (s ++ 0 :: r) (d ++ 0 :: rd) max = Ok parts -> Forall is_utf8 parts.
Proof.
  intros T Td M L U D E. pose proof T as T'. apply (is_utf8_valid s r T) in U. apply (is_utf8_valid d rd Td) in D. destruct d as [|c d].
  - cbn [app] in E. rewrite (split_str_empty junk s r rd max T M L) in E. injection E as <-. apply blocks_utf8; apply Forall_app; (split; [|constructor; [assumption|constructor]]).
    + apply Forall_forall. intros x I. apply repeat_spec in I. subst x. constructor.
    + apply Forall_forall. intros x I. apply repeat_spec in I. subst x. exact valid_nil.
  - destruct (split_str_ok junk s r (c :: d) rd max T Td ltac:(discriminate) M L) as (ps & E' & _ & J & _). rewrite E' in E. injection E as <-.
    rewrite <- J in U, T. apply blocks_utf8; [exact (text_parts _ _ T)|]. apply (valid_parts (c :: d)); [discriminate|exact D|exact U].
Qed.
Lemma atoms_utf8 junk s r parts : text s -> zlen s + 1 < 2 ^ 64 -> is_utf8 (s ++ 0 :: r) -> charstr_split_atoms junk (s ++ 0 :: r) = Ok parts -> Forall is_utf8 parts.
Proof.
  intros T L U E. apply (is_utf8_valid s r T) in U. destruct (split_atoms_ok junk s r T L) as (ps & E' & A). rewrite E' in E. injection E as <-.
  apply blocks_utf8; [exact (text_atoms s ps A T)|exact (valid_atoms s ps A U)].
Qed.
Lemma strip_utf8 junk s r m : text s -> zlen s + 1 < 2 ^ 64 -> is_utf8 (s ++ 0 :: r) -> charstr_strip junk (Some (s ++ 0 :: r)) = Ok (Some m) -> is_utf8 m.
Proof.
  intros T L U E. apply (is_utf8_valid s r T) in U. destruct (strip_ok junk s r T L) as (x & E' & A). rewrite E' in E. injection E as <-.
  apply (is_utf8_valid x []); [|exact (valid_stripped s x A U)]. destruct A as (w1 & w2 & -> & _). apply Forall_app in T. destruct T as (_ & T). apply Forall_app in T. apply T.
Qed.
Lemma prefix_utf8 p s r rp t : text p -> text s -> is_utf8 (s ++ 0 :: r) -> is_utf8 (p ++ 0 :: rp) ->
  charstr_skip_prefix (s ++ 0 :: r) (p ++ 0 :: rp) = Ok (Some t) \/ charstr_case_skip_prefix (s ++ 0 :: r) (p ++ 0 :: rp) = Ok (Some t) -> is_utf8 t.
Proof.
  intros Tp T U P E. apply (is_utf8_valid s r T) in U. apply (is_utf8_valid p rp Tp) in P. destruct E as [E|E].
  - destruct (skip_prefix_ok p s r rp Tp T) as (o & E' & H). rewrite E' in E. injection E as ->. destruct H as (u & -> & ->). apply Forall_app in T.
    apply (is_utf8_valid u r (proj2 T)). apply (proj1 (valid_cons_app p u P)). exact U.
  - destruct (case_skip_prefix_ok p s r rp Tp T) as (o & E' & H). rewrite E' in E. injection E as ->. destruct H as (q & u & -> & Q & ->). apply Forall_app in T.
    apply (is_utf8_valid u r (proj2 T)). apply (proj1 (valid_cons_app q u (valid_recased ascii_lower q p lower_map Q P))). exact U.
Qed.
Lemma case_utf8 pre s r b : text s -> is_utf8 (s ++ 0 :: r) ->
  charstr_lcase_str (pre ++ s ++ 0 :: r) (zlen pre) = Ok b \/ charstr_ucase_str (pre ++ s ++ 0 :: r) (zlen pre) = Ok b ->
  is_utf8 (skipn (length pre) b).
Proof.
  intros T U E. apply (is_utf8_valid s r T) in U. destruct (case_str_ok pre s r T) as (L & H).
  assert (K : exists q, b = pre ++ q ++ 0 :: r /\ text q /\ valid q).
  { destruct E as [E|E]; [rewrite L in E|rewrite H in E]; injection E as <-; eexists; (split; [reflexivity|]).
    - split; [|apply valid_lower; exact U]. apply Forall_map. eapply Forall_impl; [|exact T]. unfold ascii_lower. intros c Hc. cbv beta in *. destruct (Z.leb_spec 65 c), (Z.leb_spec c 90); cbn [andb]; lia.
    - split; [|apply valid_upper; exact U]. apply Forall_map. eapply Forall_impl; [|exact T]. unfold ascii_upper. intros c Hc. cbv beta in *. destruct (Z.leb_spec 97 c), (Z.leb_spec c 122); cbn [andb]; lia. }
  destruct K as (q & -> & Tq & V). rewrite skipn_app, skipn_all, Nat.sub_diag. cbn [skipn app]. apply (is_utf8_valid q r Tq). exact V.
Qed.
Lemma split_into_array_utf8 junk s r delim array max n array' : text s -> 0 < delim < 128 -> 0 <= max < 2 ^ 32 -> zlen s + 1 < 2 ^ 64 -> max + 1 <= zlen array ->
  is_utf8 (s ++ 0 :: r) -> charstr_split_into_array junk (s ++ 0 :: r) delim array max = Ok (n, array') -> Forall is_utf8 (firstn (Z.to_nat (n + 1)) array').
Proof.
  intros T D M L A U E. destruct (split_into_array_ok junk s r delim array max T ltac:(lia) M L A) as (ps & E1 & E2 & _). rewrite E2 in E. injection E as <- <-.
  replace (Z.to_nat (zlen ps - 1 + 1)) with (length (map as_block ps)) by (rewrite map_length; unfold zlen; lia).
  rewrite firstn_app, Nat.sub_diag, firstn_all, firstn_O, app_nil_r. exact (split_utf8 junk s r delim max _ T D (proj1 M) L U E1).
Qed.
