(** The functions that return new strings, for MixProofs.v. *)
From Verif Require Import Base CMem Heap ListModel ListSpec CharstrModel CharstrSpec CharstrProofs OwnModel OwnSpec OwnProofs NewMemModel NewMemProps MixSpec.
From Verif Require ListProofs.

Lemma string_call_ok junk h p b p' h' : string_call junk h p b p' h' -> get h p = Some (CSlots b) ->
  p' = 0 \/ exists d, one_new_block h h' p' d.
Proof.
  intros C G. destruct C as [pre s r -> T L E|pre s r -> T L E|pre s r -> T L E|pre s r -> T L E|pre s r plus n -> T L E|pre s r -> T L E|pre s r n -> T L E].
  - destruct (C117_dupstr junk h p pre s r G T L) as (q & k & E' & O). rewrite E in E'. injection E' as <- <-. eauto.
  - destruct (C117_dupsubstr junk h p pre s r G T L) as (q & k & E' & O). rewrite E in E'. injection E' as <- <-. eauto.
  - destruct (C117_strip junk h p pre s r G T L) as (m & q & k & E' & _ & O). rewrite E in E'. injection E' as <- <-. eauto.
  - destruct (C117_sanitize junk h p pre s r G T L) as (m & q & k & E' & _ & O). rewrite E in E'. injection E' as <- <-. eauto.
  - destruct (C117_url_decode junk h p pre s r plus G T L) as [(d & q & k & E' & _ & O)|(_ & E')]; rewrite E in E'; injection E' as -> -> ->; eauto.
  - destruct (C117_base64_encode junk h p pre s r G T L) as (q & k & E' & O). rewrite E in E'. injection E' as <- <-. eauto.
  - destruct (C117_base64_decode junk h p pre s r G T L) as [(d & q & k & E' & _ & O)|(_ & E')]; rewrite E in E'; injection E' as -> -> ->; eauto.
Qed.

Lemma tail_size (pre s r : list Z) n : zlen (pre ++ s ++ 0 :: r) < n -> zlen s + 1 < n.
Proof. rewrite !zlen_app, zlen_cons. pose proof (zlen_nonneg pre). pose proof (zlen_nonneg r). lia. Qed.

Lemma split_makes junk h a pre s r delim max : get h a = Some (CSlots (pre ++ s ++ 0 :: r)) -> zlen (pre ++ s ++ 0 :: r) < 2 ^ 59 ->
  text s -> 0 < delim < 256 -> 0 <= max ->
  exists parts l h' es, h_charstr_split junk a (zlen pre) delim max h = Ok (l, h') /\ split_at_char delim max s parts /\ new_string_list h h' l es (map as_block parts).
Proof.
  intros Ha Hb Hs Hd Hm. pose proof (tail_size _ _ _ _ Hb) as Hz. destruct (split_ok junk s r delim max Hs Hd Hm ltac:(lia)) as (parts & E & S).
  destruct (split_own junk h a (pre ++ s ++ 0 :: r) (zlen pre) delim max (map as_block parts) Ha Hb) as (l & h' & es & E' & O).
  - rewrite suffix_pre. exact E.
  - exists parts, l, h', es. auto.
Qed.
Lemma atoms_makes junk h a pre s r : get h a = Some (CSlots (pre ++ s ++ 0 :: r)) -> zlen (pre ++ s ++ 0 :: r) < 2 ^ 59 -> text s ->
  exists parts l h' es, h_charstr_split_atoms junk a (zlen pre) h = Ok (l, h') /\ atoms code_white s parts /\ new_string_list h h' l es (map as_block parts).
Proof.
  intros Ha Hb Hs. pose proof (tail_size _ _ _ _ Hb) as Hz. destruct (split_atoms_ok junk s r Hs ltac:(lia)) as (parts & E & S).
  destruct (split_atoms_own junk h a (pre ++ s ++ 0 :: r) (zlen pre) (map as_block parts) Ha Hb) as (l & h' & es & E' & O).
  - rewrite suffix_pre. exact E.
  - exists parts, l, h', es. auto.
Qed.
Lemma split_str_makes junk h a pre s r b pre2 d r2 max : get h a = Some (CSlots (pre ++ s ++ 0 :: r)) -> zlen (pre ++ s ++ 0 :: r) < 2 ^ 59 ->
  get h b = Some (CSlots (pre2 ++ d ++ 0 :: r2)) -> text s -> text d -> d <> [] -> 0 <= max < 2 ^ 32 ->
  exists parts l h' es, h_charstr_split_str junk a (zlen pre) b (zlen pre2) max h = Ok (l, h') /\ split_at_string d max s parts /\ new_string_list h h' l es (map as_block parts).
Proof.
  intros Ha Hz Hb Hs Hd Nd Hm. pose proof (tail_size _ _ _ _ Hz) as Hz'. destruct (split_str_ok junk s r d r2 max Hs Hd Nd ltac:(lia) ltac:(lia)) as (parts & E & S).
  destruct (split_str_own junk h a (pre ++ s ++ 0 :: r) (zlen pre) b (pre2 ++ d ++ 0 :: r2) (zlen pre2) max (map as_block parts) Ha Hb Hz) as (l & h' & es & E' & O).
  - lia.
  - rewrite !suffix_pre. exact E.
  - exists parts, l, h', es. auto.
Qed.

Lemma split_call_ok junk h p b l h' : split_call junk h p b l h' -> get h p = Some (CSlots b) -> exists es bs, new_string_list h h' l es bs.
Proof.
  intros C G. destruct C as [pre s r delim max -> L T D M E|pre s r -> L T E|pre s r q pre2 d r2 max -> L T Gq Td Nd M E].
  - destruct (split_makes junk h p pre s r delim max G L T D M) as (parts & l0 & k & es & E' & _ & O). rewrite E in E'. injection E' as <- <-. eauto.
  - destruct (atoms_makes junk h p pre s r G L T) as (parts & l0 & k & es & E' & _ & O). rewrite E in E'. injection E' as <- <-. eauto.
  - destruct (split_str_makes junk h p pre s r q pre2 d r2 max G L Gq T Td Nd M) as (parts & l0 & k & es & E' & _ & O). rewrite E in E'. injection E' as <- <-. eauto.
Qed.

Lemma walk_more step n m e h r : walk step n e h = Ok r -> (n <= m)%nat -> walk step m e h = Ok r.
Proof.
  revert m e h r. induction n as [|n IH]; intros m e h r; destruct m as [|m]; cbn [walk]; destruct (e =? 0); try (intros; assumption); try lia.
  - discriminate.
  - intros E L. unfold bnd in *. destruct (list_elem_get_value e h) as [[v h1]| | |]; try discriminate. destruct (step e h1) as [[e1 h2]| | |]; try discriminate.
    destruct (walk step n e1 h2) as [[rest h3]| | |] eqn:W; try discriminate. rewrite (IH m _ _ _ W ltac:(lia)). exact E.
Qed.
Lemma traverse_all h l es0 n es h' : list_history h l es0 -> traverse_forward l n h = Ok (es, h') -> es = es0.
Proof.
  intros H E. pose proof (ListProofs.traverse_forward_ok h l es0 (n + length es0) (ListProofs.history_is_list _ _ _ H) ltac:(lia)) as E'.
  unfold traverse_forward, bnd in *. destruct (list_get_first l h) as [[e h1]| | |]; try discriminate.
  rewrite (walk_more _ _ (n + length es0) _ _ _ E ltac:(lia)) in E'. congruence.
Qed.
Lemma same_contents h vs bs bs' : Forall2 (fun p d => get h p = Some (CSlots d)) vs bs -> Forall2 (fun p d => get h p = Some (CSlots d)) vs bs' -> bs = bs'.
Proof.
  intros F. revert bs'. induction F as [|p d vs bs G F IH]; intros bs' F'; inversion F' as [|? d' ? bs2 G' F2]; subst; [reflexivity|].
  rewrite G in G'. injection G' as ->. f_equal. apply IH, F2.
Qed.
Lemma map_fst_combine {A B} (a : list A) (b : list B) : length a = length b -> map fst (combine a b) = a.
Proof. revert b. induction a as [|x a IH]; intros [|y b] E; try discriminate; [reflexivity|]. cbn. f_equal. apply IH. injection E; auto. Qed.
Lemma in_combine_Forall2 {A B} (P : A -> B -> Prop) a b : Forall2 P a b -> forall x y, In (x, y) (combine a b) -> P x y.
Proof. induction 1 as [|x y a b H F IH]; cbn; [intros ? ? []|]. intros x' y' [E|I]; [injection E as <- <-; exact H|apply IH, I]. Qed.
Lemma nodup_apart {A} (a b : list A) : NoDup (a ++ b) -> forall x, In x a -> ~ In x b.
Proof. induction a as [|y a IH]; cbn; [intros _ x []|]. intros N x I J. inversion_clear N as [|? ? N1 N2]. destruct I as [->|I]; [apply N1, in_or_app; right; exact J|exact (IH N2 x I J)]. Qed.
Lemma nodup_right {A} (a b : list A) : NoDup (a ++ b) -> NoDup b.
Proof. induction a as [|y a IH]; cbn; [auto|]. intros N. inversion_clear N. auto. Qed.
Lemma same_length {A B} (P : A -> B -> Prop) a b : Forall2 P a b -> length a = length b.
Proof. induction 1; cbn; congruence. Qed.
