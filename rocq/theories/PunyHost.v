(** Host names: encode_filtered *)
From Verif Require Import Base CMem CharstrModel CharstrSpec CharstrProofs Utf8Model Utf8Spec Utf8Proofs NormModel NormSpec NormFacts NormBytes.
From Verif Require Import CategoryModel PunyModel PunySpec PunyProofs PunyPass.
From Coq Require Import ZifyBool ZifyNat.

Lemma utf8_head c : scalar c -> exists b bs, utf8 c = b :: bs /\ (b = 46 <-> c = 46) /\ (b = 45 <-> c = 45).
Proof.
  intros S. assert (0 <= c <= 0x10FFFF) as B by (unfold scalar in S; lia). unfold utf8.
  destruct (c <? 0x80) eqn:E1; [eexists; eexists; split; [reflexivity|]; lia|].
  destruct (c <? 0x800) eqn:E2; [eexists; eexists; split; [reflexivity|]; Z.to_euclidean_division_equations; lia|].
  destruct (c <? 0x10000) eqn:E3; eexists; eexists; (split; [reflexivity|]); Z.to_euclidean_division_equations; lia.
Qed.
Lemma utf8_last c : scalar c -> exists bs b, utf8 c = bs ++ [b] /\ (b = 45 <-> c = 45).
Proof.
  intros S. assert (0 <= c <= 0x10FFFF) as B by (unfold scalar in S; lia). unfold utf8.
  destruct (c <? 0x80) eqn:E1; [exists [], c; split; [reflexivity|]; lia|].
  pose proof (Z.mod_pos_bound c 64 ltac:(lia)).
  destruct (c <? 0x800) eqn:E2; [exists [0xc0 + c / 64], (0x80 + c mod 64); split; [reflexivity|]; lia|].
  destruct (c <? 0x10000) eqn:E3; [exists [0xe0 + c / 4096; 0x80 + c / 64 mod 64], (0x80 + c mod 64)|
    exists [0xf0 + c / 262144; 0x80 + c / 4096 mod 64; 0x80 + c / 64 mod 64], (0x80 + c mod 64)]; (split; [reflexivity|]); lia.
Qed.
Lemma decode_head c l q : Forall scalar (c :: l) ->
  at_end (encs (c :: l) ++ q) (Some (zlen q)) = false /\
  charstr_decode_utf8_codepoint (Some (encs (c :: l) ++ q)) (Some (zlen q)) = Ok (Some (encs l ++ q, c)) /\
  (length (encs l ++ q) < length (encs (c :: l) ++ q))%nat.
Proof.
  intros F. inversion_clear F as [|? ? S F'].
  destruct (utf8_head c S) as (b & bs & E & _).
  split; [|split].
  - rewrite encs_cons, E. cbn [app at_end]. rewrite zlen_cons, zlen_app. pose proof (zlen_nonneg (bs ++ encs l)). pose proof (zlen_nonneg q). lia.
  - rewrite decode_ok; [|apply encs_bytes; constructor; assumption|left; reflexivity].
    rewrite encs_cons. rewrite (dec_complete (utf8 c) (encs l) c) by (split; [apply utf8_accepted; exact S|exact S]). reflexivity.
  - rewrite encs_cons, E. cbn [app length]. rewrite <- app_assoc, (app_length bs). lia.
Qed.

(** A label is read up to the dot or the end. *)
Definition dotted (t : list Z) : Prop := t = [] \/ exists u, t = 46 :: u.
Lemma reads_label l : forall t q, Forall scalar (l ++ t) -> ~ In 46 l -> dotted t ->
  reads (zlen q) (encs (l ++ t) ++ q) l (encs t ++ q).
Proof.
  induction l as [|c l IH]; intros t q F N D.
  - constructor. unfold at_dot. destruct D as [->|(u & ->)].
    + cbn [encoding flat_map app at_end]. rewrite Z.eqb_refl. reflexivity.
    + destruct (decode_head _ _ q F) as (E & _). cbn [app] in *. rewrite E. reflexivity.
  - cbn [app] in F. destruct (decode_head _ _ q F) as (E1 & E2 & E3). cbn [app]. econstructor.
    + unfold at_dot. rewrite E1. inversion_clear F as [|? ? S F']. destruct (utf8_head c S) as (b & bs & E & H & _).
      rewrite encs_cons, E. cbn [app cur bind]. f_equal. destruct (Z.eqb_spec b 46) as [->|]; [|reflexivity].
      exfalso. apply N. left. apply H. reflexivity.
    + exact E2.
    + exact E3.
    + apply IH; [inversion_clear F; assumption| |exact D]. intros I. apply N. right. exact I.
Qed.

Lemma encs_length l : Forall scalar l -> zlen l <= zlen (encs l).
Proof.
  induction 1 as [|c l S _ IH]; [reflexivity|]. rewrite encs_cons, zlen_app, zlen_cons.
  destruct (utf8_head c S) as (b & bs & -> & _). rewrite zlen_cons. pose proof (zlen_nonneg bs). lia.
Qed.

Lemma encs_pos l : Forall scalar l -> l <> [] -> 0 < zlen (encs l).
Proof. intros F N. apply encs_length in F. destruct l as [|c l]; [congruence|]. rewrite zlen_cons in F. pose proof (zlen_nonneg l). lia. Qed.

Inductive verdict := Good | Refused | Crash.

Section Host.
Variable lib : library.
Variable spacing_mark : Z -> bool.
Hypothesis category_ok : forall c, 128 <= c -> exists k, unicode_category_of lib c = Ok k /\ category_eqb k Mc = spacing_mark c.
Variable junk : nat -> Z.

Definition starts_hyphen (l : list Z) : bool := match l with c :: _ => c =? 45 | [] => false end.
Definition refuses (hyphen : bool) (l e : list Z) : bool :=
  starts_hyphen l || hyphen || negb (fine_label spacing_mark l) || (negb (all_ascii l) && (zlen e >? 63)).
Fixpoint judge (hyphen : bool) (size : Z) (ls es : list (list Z)) : verdict :=
  match ls, es with
  | l :: ls, e :: es =>
      if refuses hyphen l e then Refused
      else if zlen e >? 63 then Crash
      else if size + (zlen e + 1) >? 253 then Refused
      else match ls with [] | [[]] => Good | _ => judge hyphen (size + (zlen e + 1)) ls es end
  | _, _ => Good
  end.

Lemma join_cons l ls : ls <> [] -> join_dots (l :: ls) = l ++ 46 :: join_dots ls.
Proof. destruct ls; [congruence|reflexivity]. Qed.
Lemma join_head l ls : exists t, join_dots (l :: ls) = l ++ t /\ dotted t /\ (ls = [] -> t = []) /\ (ls <> [] -> t = 46 :: join_dots ls).
Proof.
  destruct ls as [|l' ls].
  - exists []. rewrite app_nil_r. split; [reflexivity|]. split; [left; reflexivity|]. split; [reflexivity|congruence].
  - exists (46 :: join_dots (l' :: ls)). split; [reflexivity|]. split; [right; eauto|]. split; [discriminate|reflexivity].
Qed.

Definition ends_hyphen (cps : list Z) : bool := last cps 0 =? 45.
Lemma last_byte cps q : cps <> [] -> Forall scalar cps -> exists c1,
  rd (encs cps ++ q) (zlen (encs cps ++ q) - zlen q - 1) = Ok c1 /\ (c1 =? 45) = ends_hyphen cps.
Proof.
  intros N F. destruct (exists_last N) as (x & c & ->). apply Forall_app in F as [_ F]. inversion_clear F as [|? ? S _].
  destruct (utf8_last c S) as (bs & b & E & H). exists b. split.
  - rewrite encs_app. cbn [encoding flat_map]. rewrite app_nil_r, E. rewrite !app_assoc. rewrite <- app_assoc. cbn [app].
    apply rd_app. rewrite !zlen_app, !zlen_cons. change (zlen (@nil Z)) with 0. lia.
  - unfold ends_hyphen. rewrite last_last. destruct (Z.eqb_spec b 45), (Z.eqb_spec c 45); tauto.
Qed.
Lemma join_last l ls : ls <> [] -> join_dots ls <> [] -> ends_hyphen (join_dots (l :: ls)) = ends_hyphen (join_dots ls).
Proof.
  intros N1 N2. rewrite join_cons by exact N1. destruct (exists_last N2) as (x & c & E). unfold ends_hyphen. rewrite E.
  rewrite last_last. replace (l ++ 46 :: x ++ [c]) with ((l ++ 46 :: x) ++ [c]) by (rewrite <- app_assoc; reflexivity). rewrite last_last. reflexivity.
Qed.
Lemma join_nil ls : ls <> [] -> join_dots ls = [] -> ls = [[]].
Proof.
  intros N E. destruct ls as [|l [|l' ls]]; [congruence|cbn in E; subst; reflexivity|].
  rewrite join_cons in E by discriminate. destruct l; discriminate.
Qed.

Lemma encode_loop_ok ls : ls <> [] -> forall q, Forall (fun l => ~ In 46 l) ls -> Forall scalar (join_dots ls) -> join_dots ls <> [] ->
  zlen (encs (join_dots ls)) <= 254 ->
  exists es, Forall2 (fun l e => fine_label spacing_mark l = true -> ace l e) ls es /\
  forall fuel pre free, (length (encs (join_dots ls) ++ q) < fuel)%nat -> zlen pre + zlen free = 255 ->
  match judge (ends_hyphen (join_dots ls)) (zlen pre) ls es with
  | Refused => encode_loop lib junk fuel (encs (join_dots ls) ++ q) (zlen q) (pre ++ free) (zlen pre) (zlen pre) = Ok None
  | Crash => encode_loop lib junk fuel (encs (join_dots ls) ++ q) (zlen q) (pre ++ free) (zlen pre) (zlen pre) = Abort
  | Good => exists r rest, encode_loop lib junk fuel (encs (join_dots ls) ++ q) (zlen q) (pre ++ free) (zlen pre) (zlen pre) =
        Ok (Some (pre ++ join_dots es ++ rest, zlen pre + zlen (join_dots es) - r, r)) /\ zlen pre + zlen (join_dots es) + zlen rest = 255 /\ 1 <= zlen rest
  end.
Proof.
  induction ls as [|l ls IH]; [congruence|]. intros _ q ND SC NE L254.
  destruct (join_head l ls) as (t & Et & Dt & Ht1 & Ht2). inversion_clear ND as [|? ? NDl ND'].
  rewrite Et in SC, NE, L254. pose proof (reads_label l t q SC NDl Dt) as R.
  assert (Forall scalar l /\ Forall scalar t) as [SCl SCt] by (apply Forall_app; exact SC).
  assert (Forall (fun c => 0 <= c <= 0x10FFFF) l) as Rl by (eapply Forall_impl; [|exact SCl]; unfold scalar; intros; lia).
  destruct (last_byte (l ++ t) q NE SC) as (c1 & Ec1 & Hc1).
  assert (exists c0, cur (encs (l ++ t) ++ q) = Ok c0 /\ (c0 =? 45) = starts_hyphen l) as (c0 & Ec0 & Hc0).
  { destruct l as [|c l]; cbn [app].
    - destruct Dt as [->|(u & ->)]; [cbn in NE; congruence|]. exists 46. split; reflexivity.
    - inversion_clear SCl as [|? ? S _]. destruct (utf8_head c S) as (b & bs & E & _ & H). exists b. rewrite encs_cons, E. split; [reflexivity|].
      cbn [starts_hyphen]. destruct (Z.eqb_spec b 45), (Z.eqb_spec c 45); tauto. }
  assert (zlen (encs (l ++ t) ++ q) - zlen q = zlen (encs (l ++ t))) as Lz by (rewrite zlen_app; lia).
  assert (0 < zlen (encs (l ++ t))) as Pz.
  { pose proof (encs_length _ SC). destruct (l ++ t) as [|x y]; [congruence|]. rewrite zlen_cons in H. pose proof (zlen_nonneg y). lia. }
  destruct (encode_label lib spacing_mark category_ok junk (zlen q) _ l _ c0 c1 R Rl) as (e & Ae & He); try assumption; try lia.
  { apply zlen_nonneg. }
  { pose proof (encs_length _ SC). rewrite zlen_app in H. pose proof (zlen_nonneg t). lia. }
  assert (exists es, Forall2 (fun l e => fine_label spacing_mark l = true -> ace l e) ls es /\
    (ls = [[]] -> es = [[]]) /\
    (ls <> [] -> ls <> [[]] -> forall fuel pre free, (length (encs (join_dots ls) ++ q) < fuel)%nat -> zlen pre + zlen free = 255 ->
      match judge (ends_hyphen (l ++ t)) (zlen pre) ls es with
      | Refused => encode_loop lib junk fuel (encs (join_dots ls) ++ q) (zlen q) (pre ++ free) (zlen pre) (zlen pre) = Ok None
      | Crash => encode_loop lib junk fuel (encs (join_dots ls) ++ q) (zlen q) (pre ++ free) (zlen pre) (zlen pre) = Abort
      | Good => exists r rest, encode_loop lib junk fuel (encs (join_dots ls) ++ q) (zlen q) (pre ++ free) (zlen pre) (zlen pre) =
            Ok (Some (pre ++ join_dots es ++ rest, zlen pre + zlen (join_dots es) - r, r)) /\ zlen pre + zlen (join_dots es) + zlen rest = 255 /\ 1 <= zlen rest
      end)) as (es & A1 & A2 & A3).
  { destruct ls as [|l' ls'].
    - exists []. split; [constructor|]. split; [discriminate|]. congruence.
    - specialize (Ht2 ltac:(discriminate)).
      assert (l' :: ls' = [[]] \/ l' :: ls' <> [[]]) as [E|N] by (destruct l'; [destruct ls'|]; [left; reflexivity|right; discriminate..]).
      + exists [[]]. rewrite E. split; [constructor; [reflexivity|constructor]|]. split; [reflexivity|]. congruence.
      + assert (join_dots (l' :: ls') <> []) as NJ by (intros K; apply join_nil in K; [contradiction|discriminate]).
        rewrite Ht2 in SCt. inversion SCt as [|? ? _ SCj]; subst.
        assert (zlen (encs (join_dots (l' :: ls'))) <= 254) as L'.
        { rewrite encs_app, encs_cons, !zlen_app in L254. pose proof (zlen_nonneg (encs l)). pose proof (zlen_nonneg (utf8 46)). lia. }
        destruct (IH ltac:(discriminate) q ND' SCj NJ L') as (es & B1 & B2). exists es. split; [exact B1|]. split; [congruence|].
        intros _ _. rewrite <- Et. rewrite join_last by (assumption || discriminate). exact B2. }
  exists (e :: es). split; [constructor; assumption|]. rewrite Et. clear IH.
  intros fuel pre free Hf Hb. destruct fuel as [|fuel]; [lia|]. cbn [encode_loop judge].
  replace (zlen (pre ++ free) - zlen pre) with (zlen free) by (rewrite zlen_app; lia).
  destruct (He pre free) as (free' & r & E1 & E2 & E3). rewrite E1. cbn [bind].
  assert (refuses (ends_hyphen (l ++ t)) l e = match r with None => true | Some _ => false end) as Er.
  { unfold refuses. destruct r as [[q' n]|].
    - destruct E3 as (H1 & H2 & H3 & H4 & _). rewrite H3. replace (starts_hyphen l) with false by lia. replace (ends_hyphen (l ++ t)) with false by lia.
      cbn [orb negb]. destruct (all_ascii l); [reflexivity|]. specialize (H4 eq_refl). cbn [negb andb]. lia.
    - destruct E3 as [->|[->|[->|[-> H]]]].
      + rewrite <- Hc0. reflexivity.
      + rewrite <- Hc1. cbn. rewrite orb_true_r. reflexivity.
      + cbn [negb]. rewrite orb_true_r. reflexivity.
      + cbn [negb andb]. replace (zlen e >? 63) with true by lia. apply orb_true_r. }
  rewrite Er. destruct r as [[q' n]|]; [|reflexivity].
  destruct E3 as (H1 & H2 & H3 & H4 & -> & -> & H5). unfold assert. change MAX_DNS_LABEL_LENGTH with 63. change (MAX_DNS_NAME_LENGTH - 1) with 253.
  destruct (zlen e >? 63) eqn:E63; [replace (zlen e <=? 63) with false by lia; reflexivity|]. replace (zlen e <=? 63) with true by lia. cbn [bind].
  destruct (zlen pre + (zlen e + 1) >? 253) eqn:E253; [reflexivity|].
  destruct (H5 ltac:(lia)) as (rest & ->). rewrite zlen_app in E2.
  destruct rest as [|x rest]; [change (zlen (@nil Z)) with 0 in E2; lia|]. rewrite zlen_cons in E2.
  rewrite app_assoc, wr_app by (rewrite zlen_app; reflexivity). cbn [bind].
  replace (zlen (encs t ++ q) - zlen q) with (zlen (encs t)) by (rewrite zlen_app; lia).
  destruct (list_eq_dec (list_eq_dec Z.eq_dec) ls []) as [El|Nl]; [|destruct (list_eq_dec (list_eq_dec Z.eq_dec) ls [[]]) as [El|Nl']].
  - subst ls. rewrite (Ht1 eq_refl). inversion A1; subst. cbn [encoding flat_map join_dots]. change (zlen (@nil Z)) with 0. cbn [Z.gtb Z.compare].
    exists (-1), (46 :: rest). rewrite zlen_cons. pose proof (zlen_nonneg rest). split; [|lia].
    rewrite <- app_assoc. reflexivity.
  - rewrite (Ht2 Nl). rewrite (A2 El). subst ls. cbn [join_dots app]. change (encs [46]) with [46]. change (zlen [46]) with 1. cbn [Z.gtb Z.compare Pos.compare Pos.compare_cont Z.sub].
    exists 0, rest. rewrite zlen_app. change (zlen [46]) with 1. split.
    + rewrite <- !app_assoc. cbn [app]. do 4 f_equal. lia.
    + lia.
  - rewrite (Ht2 Nl). rewrite encs_cons. change (utf8 46) with [46]. cbn [app]. rewrite zlen_cons.
    destruct ls as [|l' ls]; [congruence|].
    assert (join_dots (l' :: ls) <> []) as NJ by (intros K; apply join_nil in K; [contradiction|discriminate]).
    rewrite (Ht2 Nl) in SCt. inversion_clear SCt as [|? ? _ SCj].
    assert (0 < zlen (encs (join_dots (l' :: ls)))) as Pj.
    { apply encs_pos; assumption. }
    replace (1 + zlen (encs (join_dots (l' :: ls))) >? 1) with true by lia. cbn [tl].
    assert (forall X, match l' :: ls with [] | [[]] => Good | _ => X end = X) as Em.
    { intros X. destruct l' as [|? ?]; [destruct ls; [congruence|reflexivity]|reflexivity]. }
    rewrite Em.
    specialize (A3 Nl Nl' fuel ((pre ++ e) ++ [46]) rest).
    rewrite (Ht2 Nl) in Hf, A3. rewrite encs_app, encs_cons in Hf. change (utf8 46) with [46] in Hf.
    specialize (A3 ltac:(rewrite !app_length in *; cbn [length] in Hf; lia) ltac:(rewrite !zlen_app; change (zlen [46]) with 1; lia)).
    assert (zlen ((pre ++ e) ++ [46]) = zlen pre + (zlen e + 1)) as Ez by (rewrite !zlen_app; change (zlen [46]) with 1; lia).
    rewrite Ez in A3. rewrite <- (app_assoc _ [46] rest) in A3. cbn [app] in A3.
    replace (zlen pre + zlen e + 1) with (zlen pre + (zlen e + 1)) by lia.
    assert (es <> []) as Nes by (inversion A1; discriminate).
    destruct (judge _ (zlen pre + (zlen e + 1)) (l' :: ls) es); [|exact A3..].
    destruct A3 as (r & rest' & B1 & B2 & B3). exists r, rest'. rewrite (join_cons e es Nes). rewrite B1. rewrite zlen_app, zlen_cons.
    split; [|lia]. rewrite <- !app_assoc. cbn [app]. f_equal. f_equal. f_equal. f_equal. lia.
Qed.
End Host.
