(** The first pass, and labels. *)
From Verif Require Import Base CMem CharstrTables CharstrModel CharstrSpec Utf8Model CategoryModel PunyModel PunySpec PunyProofs.
From Coq Require Import ZifyBool ZifyNat.

(** * record_nonascii *)

Lemma find_slot_ok c S2 : forall fuel S1 J m, ascending m S2 -> (length S2 < fuel)%nat ->
  exists r, find_slot fuel c (S1 ++ S2 ++ J) (zlen S1 + zlen S2) (zlen S1) = Ok r /\
  match r with
  | None => In c S2
  | Some i => exists X Y, S2 = X ++ Y /\ i = zlen S1 + zlen X /\ (forall x, In x X -> x < c) /\ (forall y, In y Y -> c < y)
  end.
Proof.
  induction S2 as [|x S2 IH]; intros fuel S1 J m Ha Hf; (destruct fuel as [|fuel]; [cbn [length] in Hf; lia|]); cbn [find_slot].
  - change (zlen (@nil Z)) with 0. replace (zlen S1 <? zlen S1 + 0) with false by lia.
    exists (Some (zlen S1)). split; [reflexivity|]. exists [], []. change (zlen (@nil Z)) with 0. repeat split; try lia; intros ? [].
  - rewrite zlen_cons. pose proof (zlen_nonneg S2). replace (zlen S1 <? zlen S1 + (1 + zlen S2)) with true by lia.
    cbn [app]. rewrite rd_app by reflexivity. cbn [bind]. destruct Ha as [Ha1 Ha2].
    destruct (x <=? c) eqn:E1.
    + destruct (Z.eqb_spec x c) as [->|Ne].
      * exists None. split; [reflexivity|]. left. reflexivity.
      * cbn [length] in Hf. destruct (IH fuel (S1 ++ [x]) J (x + 1) Ha2 ltac:(lia)) as (r & Er & Hr).
        rewrite <- app_assoc in Er. cbn [app] in Er. rewrite zlen_app in Er. change (zlen [x]) with 1 in Er.
        exists r. split; [rewrite <- Er; f_equal; lia|].
        destruct r as [i|].
        -- destruct Hr as (X & Y & -> & -> & HX & HY). exists (x :: X), Y. rewrite zlen_app, (zlen_cons x X). change (zlen [x]) with 1.
           split; [reflexivity|]. split; [lia|]. split; [|exact HY]. intros z [<-|I]; [lia|exact (HX z I)].
        -- right. exact Hr.
    + exists (Some (zlen S1)). split; [reflexivity|]. exists [], (x :: S2). change (zlen (@nil Z)) with 0. split; [reflexivity|]. split; [lia|]. split; [intros ? []|].
      intros y [<-|I]; [lia|]. pose proof (ascending_ge _ _ Ha2 _ I). lia.
Qed.

Lemma ascending_app X : forall m Y c, ascending m (X ++ Y) -> m <= c -> (forall x, In x X -> x < c) -> (forall y, In y Y -> c < y) ->
  ascending m (X ++ c :: Y).
Proof.
  induction X as [|x X IH]; intros m Y c Ha Hc HX HY; cbn [app ascending] in *.
  - split; [exact Hc|]. destruct Y as [|y Y]; [exact I|]. destruct Ha as [_ Ha]. split; [|exact Ha]. specialize (HY y (or_introl eq_refl)). lia.
  - destruct Ha as [H1 H2]. split; [exact H1|]. apply IH; [exact H2| |intros z I; apply HX; right; exact I|exact HY].
    specialize (HX x (or_introl eq_refl)). lia.
Qed.

Lemma record_ok c m S J : ascending m S -> m <= c -> 1 <= zlen J ->
  exists S' J', record_nonascii c (S ++ J) (zlen S) = Ok (S' ++ J', zlen S') /\ ascending m S' /\
    (forall x, In x S' <-> x = c \/ In x S) /\ zlen S' + zlen J' = zlen S + zlen J /\ zlen S <= zlen S' <= zlen S + 1.
Proof.
  intros Ha Hc HJ. unfold record_nonascii.
  destruct (find_slot_ok c S (Datatypes.S (Z.to_nat (zlen S))) [] J m Ha) as (r & Er & Hr); [rewrite zlen_to_nat; lia|].
  cbn [app] in Er. change (zlen (@nil Z)) with 0 in *. cbn [Z.add] in Er. rewrite Er. cbn [bind].
  destruct r as [i|].
  - destruct Hr as (X & Y & -> & Ei & HX & HY). cbn [Z.add] in Ei. subst i.
    destruct J as [|j J]; [change (zlen (@nil Z)) with 0 in HJ; lia|].
    rewrite zlen_app, !zlen_cons in *. pose proof (zlen_nonneg X). pose proof (zlen_nonneg Y). pose proof (zlen_nonneg J).
    replace (firstn (Z.to_nat (zlen X + zlen Y - zlen X)) (skipn (Z.to_nat (zlen X)) ((X ++ Y) ++ j :: J))) with Y.
    2:{ rewrite zlen_to_nat, <- app_assoc, skipn_app, skipn_all, Nat.sub_diag. cbn [skipn app].
        replace (Z.to_nat (zlen X + zlen Y - zlen X)) with (length Y) by (unfold zlen; lia).
        rewrite firstn_app, Nat.sub_diag, firstn_all. cbn [firstn]. rewrite app_nil_r. reflexivity. }
    assert (exists z Y', Y ++ [j] = z :: Y' /\ zlen Y' = zlen Y) as (z & Y' & EY & LY).
    { destruct Y as [|y Y]; [exists j, []; auto|]. exists y, (Y ++ [j]). split; [reflexivity|]. rewrite zlen_app, (zlen_cons y Y). change (zlen [j]) with 1. lia. }
    replace ((X ++ Y) ++ j :: J) with ((X ++ [z]) ++ Y' ++ J).
    2:{ rewrite <- !app_assoc. f_equal. cbn [app]. change (j :: J) with ([j] ++ J). rewrite (app_assoc Y), EY. reflexivity. }
    rewrite blit_app; [|rewrite zlen_app; reflexivity|exact LY]. cbn [bind].
    replace ((X ++ [z]) ++ Y ++ J) with (X ++ z :: Y ++ J) by (rewrite <- app_assoc; reflexivity).
    rewrite wr_app by reflexivity. cbn [bind].
    exists (X ++ c :: Y), J. split; [|split; [|split; [|split]]].
    + rewrite <- app_assoc. cbn [app]. do 2 f_equal. rewrite zlen_app, zlen_cons. lia.
    + apply ascending_app; assumption.
    + intros x. rewrite !in_app_iff. cbn [In]. intuition.
    + rewrite zlen_app, zlen_cons. lia.
    + rewrite zlen_app, zlen_cons. lia.
  - exists S, J. split; [reflexivity|]. split; [exact Ha|]. split; [|lia]. intros x. split; [auto|]. intros [->|I]; [exact Hr|exact I].
Qed.

(** * The first pass *)

(** [a-zA-Z0-9-] *)
Definition ldh (c : Z) : bool :=
  (c =? 45) || ((48 <=? c) && (c <=? 57)) || ((65 <=? c) && (c <=? 90)) || ((97 <=? c) && (c <=? 122)).

Lemma ascii_facts c : 0 <= c < 128 -> (negb (c =? 45) && negb (is_alnum c)) = negb (ldh c) /\ charstr_lcase_char c = lc c.
Proof.
  intros H.
  assert (forallb (fun k => let c := Z.of_nat k in
    Bool.eqb (negb (c =? 45) && negb (is_alnum c)) (negb (ldh c)) && (charstr_lcase_char c =? lc c)) (seq 0 128) = true) as A by (vm_compute; reflexivity).
  rewrite forallb_forall in A. specialize (A (Z.to_nat c)). rewrite in_seq in A. specialize (A ltac:(lia)).
  cbv zeta in A. rewrite Z2Nat.id in A by lia. apply andb_true_iff in A as [A B]. apply eqb_prop in A. split; [exact A|lia].
Qed.

Definition fine_char (c : Z) : bool := (128 <=? c) || ldh c.

Section Lib.
Variable lib : library.
Variable spacing_mark : Z -> bool.
Hypothesis category_ok : forall c, 128 <= c -> exists k, unicode_category_of lib c = Ok k /\ category_eqb k Mc = spacing_mark c.

(** No character is refused. *)
Definition fine_first (s : list Z) : bool := match s with c :: _ => (c <? 128) || negb (spacing_mark c) | [] => true end.
Definition fine_label (s : list Z) : bool := forallb fine_char s && fine_first s.

Lemma below_ascii_cons c s : c < 128 -> below 128 (c :: s) = lc c :: below 128 s.
Proof. intros H. rewrite below_cons. replace (c <? 128) with true by lia. reflexivity. Qed.

Lemma pass1_loop_ok end_ p s p' : reads end_ p s p' -> Forall (fun c => 0 <= c) s -> forall fuel first n A J S K,
  (length p < fuel)%nat -> ascending 128 S -> zlen s <= zlen J -> zlen s <= zlen K ->
  exists r, pass1_loop lib fuel p end_ first n (zlen A) (A ++ J) (S ++ K) (zlen S) = Ok r /\
  match r with
  | None => (forallb fine_char s && (negb first || fine_first s)) = false
  | Some (q, n', ascii, h, nonascii, count) =>
      (forallb fine_char s && (negb first || fine_first s)) = true /\ q = p' /\ n' = n + zlen s /\
      exists J' S' K', ascii = A ++ below 128 s ++ J' /\ h = zlen A + zlen (below 128 s) /\ nonascii = S' ++ K' /\ count = zlen S' /\
        ascending 128 S' /\ forall x, In x S' <-> In x S \/ (In x s /\ 128 <= x)
  end.
Proof.
  induction 1 as [p D|p c p1 l p' D C L R IH]; intros Hnn fuel first n A J S K Hf Ha HJ HK; (destruct fuel as [|fuel]; [lia|]);
    cbn [pass1_loop]; fold (at_dot p end_); rewrite D; cbn [bind].
  - eexists. split; [reflexivity|]. cbn beta iota. split; [destruct first; reflexivity|]. split; [reflexivity|].
    split; [change (zlen (@nil Z)) with 0; lia|]. exists J, S, K.
    change (below 128 []) with (@nil Z). change (zlen (@nil Z)) with 0. split; [reflexivity|]. split; [lia|]. split; [reflexivity|]. split; [reflexivity|]. split; [exact Ha|].
    intros x. cbn [In]. tauto.
  - rewrite C. cbn [bind]. inversion_clear Hnn as [|? ? Hc Hnn']. rewrite zlen_cons in HJ, HK. pose proof (zlen_nonneg l).
    destruct (c <? 128) eqn:E.
    + destruct (ascii_facts c ltac:(lia)) as [F1 F2]. rewrite F1, F2.
      cbn [forallb fine_first]. rewrite E. cbn [orb]. rewrite orb_true_r, andb_true_r.
      assert (fine_char c = ldh c) as Fc by (unfold fine_char; lia). rewrite Fc.
      destruct (ldh c); cbn [negb andb]; [|eexists; split; [reflexivity|]; reflexivity].
      destruct J as [|j J]; [change (zlen (@nil Z)) with 0 in HJ; lia|]. rewrite zlen_cons in HJ.
      rewrite wr_app by reflexivity. cbn [bind].
      destruct (IH Hnn' fuel false (n + 1) (A ++ [lc c]) J S K) as (r & Er & Hr); try lia; try assumption.
      rewrite zlen_app in Er. change (zlen [lc c]) with 1 in Er. rewrite <- app_assoc in Er. cbn [app] in Er.
      exists r. split; [exact Er|]. cbn [negb orb] in Hr. rewrite andb_true_r in Hr.
      destruct r as [[[[[[q n'] ascii] h] nonascii] count]|]; [|exact Hr].
      destruct Hr as (G1 & G2 & G3 & J' & S' & K' & G4 & G5 & G6 & G7 & G8 & G9).
      rewrite below_ascii_cons by lia. rewrite zlen_cons. split; [exact G1|]. split; [exact G2|]. split; [lia|].
      exists J', S', K'. rewrite <- app_assoc in G4. split; [exact G4|]. rewrite zlen_app in G5. change (zlen [lc c]) with 1 in G5. rewrite zlen_cons.
      split; [lia|]. split; [exact G6|]. split; [exact G7|]. split; [exact G8|].
      intros x. rewrite G9. cbn [In]. intuition. lia.
    + destruct (category_ok c ltac:(lia)) as (k & Ek & Em).
      cbn [forallb fine_first]. rewrite E. cbn [orb].
      assert (fine_char c = true) as -> by (unfold fine_char; lia). cbn [andb].
      assert ((if first then c0 <- unicode_category_of lib c ;; Ok (category_eqb c0 Mc) else Ok false) = Ok (first && spacing_mark c)) as ->.
      { destruct first; [rewrite Ek; cbn [bind]; rewrite Em|]; reflexivity. }
      cbn [bind]. replace (negb first || negb (spacing_mark c)) with (negb (first && spacing_mark c)) by (destruct first, (spacing_mark c); reflexivity).
      destruct (first && spacing_mark c) eqn:Ef; cbn [negb].
      { eexists. split; [reflexivity|]. apply andb_false_r. }
      rewrite andb_true_r.
      destruct (record_ok c 128 S K Ha ltac:(lia) ltac:(lia)) as (S1 & K1 & E1 & E2 & E3 & E4 & E5). rewrite E1. cbn [bind].
      destruct (IH Hnn' fuel false (n + 1) A J S1 K1) as (r & Er & Hr); try lia; try assumption.
      exists r. split; [exact Er|]. cbn [negb orb] in Hr. rewrite andb_true_r in Hr.
      destruct r as [[[[[[q n'] ascii] h] nonascii] count]|]; [|exact Hr].
      destruct Hr as (G1 & G2 & G3 & J' & S' & K' & G4 & G5 & G6 & G7 & G8 & G9).
      rewrite below_cons, E. rewrite zlen_cons. split; [exact G1|]. split; [exact G2|]. split; [lia|].
      exists J', S', K'. split; [exact G4|]. split; [exact G5|]. split; [exact G6|]. split; [exact G7|]. split; [exact G8|].
      intros x. rewrite G9, E3. cbn [In]. intuition (subst; auto; lia).
Qed.
End Lib.

(** * Output *)

Lemma emits_fit cs : forall pre free size, zlen cs <= zlen free -> 
  exists rest, emits (pre ++ free, Some (zlen pre), size) (zlen pre + zlen free) cs =
    Ok (pre ++ cs ++ rest, Some (zlen pre + zlen cs), size + zlen cs) /\ zlen cs + zlen rest = zlen free.
Proof.
  induction cs as [|c cs IH]; intros pre free size H.
  - exists free. change (zlen (@nil Z)) with 0. split; [|lia]. cbn [emits app]. do 2 f_equal; [f_equal; f_equal|]; lia.
  - destruct free as [|f free]; [rewrite zlen_cons in H; pose proof (zlen_nonneg cs); change (zlen (@nil Z)) with 0 in H; lia|].
    rewrite !zlen_cons in *. cbn [emits emit]. pose proof (zlen_nonneg free). replace (zlen pre >=? zlen pre + (1 + zlen free)) with false by lia.
    rewrite wr_app by reflexivity. cbn [bind].
    destruct (IH (pre ++ [c]) free (size + 1) ltac:(lia)) as (rest & E & L).
    rewrite <- !app_assoc in E. rewrite zlen_app in E. change (zlen [c]) with 1 in E. cbn [app] in E.
    replace (zlen pre + (1 + zlen free)) with (zlen pre + 1 + zlen free) by lia.
    rewrite E. exists rest. split; [|lia]. cbn [app]. do 2 f_equal; [do 2 f_equal|]; lia.
Qed.
Lemma emits_null cs : forall b size eo, emits (b, None, size) eo cs = Ok (b, None, size + zlen cs).
Proof.
  induction cs as [|c cs IH]; intros b size eo; [change (zlen (@nil Z)) with 0; rewrite Z.add_0_r; reflexivity|].
  cbn [emits emit bind]. rewrite IH, zlen_cons. do 2 f_equal. lia.
Qed.
Lemma emits_full cs : forall pre free size, zlen cs > zlen free ->
  exists free', emits (pre ++ free, Some (zlen pre), size) (zlen pre + zlen free) cs = Ok (pre ++ free', None, size + zlen cs) /\ zlen free' = zlen free.
Proof.
  induction cs as [|c cs IH]; intros pre free size H.
  - change (zlen (@nil Z)) with 0 in H. pose proof (zlen_nonneg free). lia.
  - rewrite zlen_cons in *. cbn [emits emit]. destruct free as [|f free].
    + change (zlen (@nil Z)) with 0. replace (zlen pre >=? zlen pre + 0) with true by lia. cbn [bind]. rewrite emits_null.
      exists []. split; [|reflexivity]. do 2 f_equal. lia.
    + rewrite zlen_cons in *. pose proof (zlen_nonneg free). replace (zlen pre >=? zlen pre + (1 + zlen free)) with false by lia.
      rewrite wr_app by reflexivity. cbn [bind].
      destruct (IH (pre ++ [c]) free (size + 1) ltac:(lia)) as (free' & E & L).
      rewrite <- !app_assoc in E. rewrite zlen_app in E. change (zlen [c]) with 1 in E. cbn [app] in E.
      replace (zlen pre + (1 + zlen free)) with (zlen pre + 1 + zlen free) by lia.
      rewrite E. exists (c :: free'). rewrite zlen_cons. split; [|lia]. do 2 f_equal. lia.
Qed.

(** * Labels *)

(** The encoded form of a label: the label itself in lower case, or [xn--] and Punycode. *)
Definition xn : list Z := [120; 110; 45; 45].
Definition all_ascii (s : list Z) : bool := forallb (fun c => c <? 128) s.
Definition ace (s e : list Z) : Prop :=
  if all_ascii s then e = map lc s
  else exists p, e = xn ++ p /\ punycode_decode p = Some (map lc s) /\
       Forall (fun c => lower_alnum c \/ c = 45) p /\ p <> [] /\ last p 0 <> 45.

Lemma no_hyphen ds : Forall lower_alnum ds -> after_hyphen ds = None.
Proof.
  induction 1 as [|c ds H _ IH]; [reflexivity|]. cbn [after_hyphen]. rewrite IH.
  unfold lower_alnum in H. replace (c =? 45) with false by lia. reflexivity.
Qed.
Lemma after_basic a ds : Forall lower_alnum ds -> after_hyphen (a ++ 45 :: ds) = Some (a, ds).
Proof.
  intros H. induction a as [|c a IH]; cbn [app after_hyphen].
  - rewrite no_hyphen by exact H. reflexivity.
  - rewrite IH. reflexivity.
Qed.
Lemma last_digits a ds : Forall lower_alnum ds -> ds <> [] -> last (a ++ ds) 0 <> 45.
Proof.
  intros H N. assert (exists x d, ds = x ++ [d]) as (x & d & ->) by (destruct (exists_last N) as (x & d & ->); eauto).
  rewrite app_assoc, last_last. apply Forall_app in H as [_ H]. inversion_clear H as [|? ? K _]. unfold lower_alnum in K. lia.
Qed.

Lemma below_none s : (forall x, In x s -> x < 128) -> below 128 s = map lc s.
Proof. apply below_all. Qed.
Lemma all_ascii_iff s : all_ascii s = true <-> forall x, In x s -> x < 128.
Proof. unfold all_ascii. rewrite forallb_forall. split; intros H x I; specialize (H x I); lia. Qed.
Lemma basic_lower s : forallb fine_char s = true -> Forall (fun c => 0 <= c) s -> Forall (fun c => lower_alnum c \/ c = 45) (below 128 s).
Proof.
  intros H P. unfold below. induction P as [|c s Hc P IH]; [constructor|]. cbn [forallb] in H. apply andb_true_iff in H as [H1 H2].
  cbn [filter]. destruct (c <? 128) eqn:E; [|exact (IH H2)]. cbn [map]. constructor; [|exact (IH H2)].
  unfold fine_char, ldh in H1. unfold ascii_lower, lower_alnum. destruct ((65 <=? c) && (c <=? 90)) eqn:F; lia.
Qed.
Lemma below_small s : Forall (fun c => 0 <= c) s -> forallb (fun c => (0 <=? c) && (c <? 128)) (below 128 s) = true.
Proof.
  intros P. unfold below. induction P as [|c s Hc P IH]; [reflexivity|]. cbn [filter]. destruct (c <? 128) eqn:E; [|exact IH].
  cbn [map forallb]. rewrite IH, andb_true_r. unfold ascii_lower. destruct ((65 <=? c) && (c <=? 90)) eqn:F; lia.
Qed.

Section Label.
Variable lib : library.
Variable spacing_mark : Z -> bool.
Hypothesis category_ok : forall c, 128 <= c -> exists k, unicode_category_of lib c = Ok k /\ category_eqb k Mc = spacing_mark c.
Variable junk : nat -> Z.

Lemma encode_label end_ p s p' c0 c1 : reads end_ p s p' -> Forall (fun c => 0 <= c <= 0x10FFFF) s ->
  0 < zlen p - end_ <= 1000 -> 0 <= end_ -> zlen s <= zlen p - end_ -> cur p = Ok c0 -> rd p (zlen p - end_ - 1) = Ok c1 ->
  exists e, (fine_label spacing_mark s = true -> ace s e) /\ forall pre free, exists free' r,
    punycode_encode lib junk p end_ (pre ++ free) (zlen pre) (zlen free) = Ok (pre ++ free', r) /\ zlen free' = zlen free /\
    match r with
    | None => c0 = 45 \/ c1 = 45 \/ fine_label spacing_mark s = false \/ (all_ascii s = false /\ zlen e > 63)
    | Some (q, n) => c0 <> 45 /\ c1 <> 45 /\ fine_label spacing_mark s = true /\ (all_ascii s = false -> zlen e <= 63) /\ q = p' /\ n = zlen e /\
        (zlen e <= zlen free -> exists rest, free' = e ++ rest)
    end.
Proof.
  intros R Hs Hz He Hl Hc0 Hc1.
  assert (Forall (fun c => 0 <= c) s) as Hp by (eapply Forall_impl; [|exact Hs]; cbn; lia).
  pose proof (zlen_nonneg s) as Ps.
  assert (zlen (fresh_block junk (zlen p - end_)) = zlen p - end_) as Lf by (apply fresh_block_zlen; lia).
  destruct (pass1_loop_ok lib spacing_mark category_ok end_ p s p' R Hp (S (length p)) true 0 [] (fresh_block junk (zlen p - end_)) [] (fresh_block junk (zlen p - end_)))
    as (r & Er & Hr); try lia; [exact I|]. cbn [app negb orb] in Er, Hr. change (zlen (@nil Z)) with 0 in *.
  fold (fine_label spacing_mark s) in Hr.
  assert (at_end p (Some end_) = false) as Ae by (unfold at_end; lia).
  assert (punycode_encode_pass1 lib p end_ (fresh_block junk (zlen p - end_)) (fresh_block junk (zlen p - end_)) =
    if (c0 =? 45) || (c1 =? 45) then Ok None else Ok r) as P1.
  { unfold punycode_encode_pass1. rewrite Ae, Hc0. cbn [bind]. destruct (c0 =? 45); [reflexivity|]. rewrite Hc1. cbn [bind orb].
    destruct (c1 =? 45); [reflexivity|]. exact Er. }
  (* without the test for hyphens *)
  enough (exists e, (fine_label spacing_mark s = true -> ace s e) /\ forall pre free, exists free' r',
    (match r with
    | None => Ok (pre ++ free, None)
    | Some (next, _, ascii, ascii_count, nonascii, nonascii_count) =>
        let end_output := zlen pre + zlen free in
        let out := (pre ++ free, Some (zlen pre), 0) in
        out <- (if truth nonascii_count then emits out end_output [120; 110; 45; 45] else Ok out) ;;
        out <- emits out end_output (firstn (Z.to_nat ascii_count) ascii) ;;
        if negb (truth nonascii_count) then
          let '(b, _, output_size) := out in Ok (b, Some (next, output_size))
        else
          out <- (if truth ascii_count then emit out end_output 45 else Ok out) ;;
          ' (b, _, output_size) <- punycode_encode_pass2 p end_ out end_output ascii_count nonascii nonascii_count ;;
          if output_size >? MAX_DNS_LABEL_LENGTH then Ok (b, None)
          else Ok (b, Some (next, output_size))
    end) = Ok (pre ++ free', r') /\ zlen free' = zlen free /\
    match r' with
    | None => fine_label spacing_mark s = false \/ (all_ascii s = false /\ zlen e > 63)
    | Some (q, n) => fine_label spacing_mark s = true /\ (all_ascii s = false -> zlen e <= 63) /\ q = p' /\ n = zlen e /\
        (zlen e <= zlen free -> exists rest, free' = e ++ rest)
    end) as (e & He1 & He2).
  { exists e. split; [exact He1|]. intros pre free. unfold punycode_encode. replace (zlen p - end_ <=? 0) with false by lia. rewrite P1.
    destruct ((c0 =? 45) || (c1 =? 45)) eqn:Hy.
    - exists free, None. cbn [bind]. split; [reflexivity|]. split; [reflexivity|]. lia.
    - destruct (He2 pre free) as (free' & r' & E1 & E2 & E3). exists free', r'. cbn [bind]. split; [exact E1|]. split; [exact E2|].
      destruct r' as [[q n]|]; [|tauto]. split; [lia|]. split; [lia|exact E3]. }
  destruct r as [[[[[[q n'] ascii] h] nonascii] count]|].
  2:{ exists []. split; [congruence|]. intros pre free. exists free, None. split; [reflexivity|]. split; [reflexivity|]. left. exact Hr. }
  destruct Hr as (G1 & G2 & G3 & J' & S' & K' & G4 & G5 & G6 & G7 & G8 & G9). cbn [app] in G4. cbn [Z.add] in G5. subst q ascii h nonascii count.
  assert (firstn (Z.to_nat (zlen (below 128 s))) (below 128 s ++ J') = below 128 s) as Ef.
  { rewrite zlen_to_nat, firstn_app, Nat.sub_diag, firstn_all. cbn [firstn]. apply app_nil_r. }
  assert (S' = [] <-> all_ascii s = true) as As.
  { rewrite all_ascii_iff. split.
    - intros -> x I. destruct (Z.lt_ge_cases x 128) as [|K]; [assumption|]. destruct (proj2 (G9 x)). right. split; [exact I|lia].
    - intros K. destruct S' as [|x S']; [reflexivity|]. destruct (proj1 (G9 x) (or_introl eq_refl)) as [[]|[I L]]. specialize (K x I). lia. }
  assert (truth (zlen S') = negb (all_ascii s)) as Tr.
  { destruct (all_ascii s) eqn:Ea.
    - rewrite (proj2 As eq_refl). reflexivity.
    - destruct S' as [|x S']; [discriminate (proj1 As eq_refl)|]. unfold truth. rewrite zlen_cons. pose proof (zlen_nonneg S'). cbn [negb]. lia. }
  destruct (loop_ok end_ p s p' R ltac:(lia) S' 128 0 72 128 0 (zlen (below 128 s)) (zlen (below 128 s))) as (ds & n2 & i2 & bias2 & D1 & D2 & D3 & D4); try lia.
  { exact G8. }
  { intros c I L. apply G9. right. split; [exact I|exact L]. }
  { intros c I. apply G9 in I as [[]|[I L]]. split; [exact I|]. rewrite Forall_forall in Hs. apply Hs. exact I. }
  set (B := below 128 s) in *.
  destruct (all_ascii s) eqn:Ea.
  - exists B. split.
    { intros _. unfold ace. rewrite Ea. unfold B. apply below_none, all_ascii_iff. exact Ea. }
    intros pre free. rewrite Tr. cbn [negb bind]. rewrite Ef.
    destruct (Z_le_gt_dec (zlen B) (zlen free)) as [L|L].
    + destruct (emits_fit B pre free 0 L) as (rest & E & Lr). rewrite E. cbn [bind].
      exists (B ++ rest), (Some (p', zlen B)). split; [reflexivity|]. rewrite zlen_app. split; [lia|].
      split; [exact G1|]. split; [discriminate|]. split; [reflexivity|]. split; [reflexivity|]. intros _. exists rest. reflexivity.
    + destruct (emits_full B pre free 0 L) as (free' & E & Lr). rewrite E. cbn [bind].
      exists free', (Some (p', zlen B)). split; [reflexivity|]. split; [exact Lr|].
      split; [exact G1|]. split; [discriminate|]. split; [reflexivity|]. split; [reflexivity|]. lia.
  - set (H := if truth (zlen B) then [45] else []).
    assert (S' <> []) as Ns by (intros K; apply As in K; discriminate).
    assert (Hpos : 0 <= zlen (xn ++ B ++ H ++ ds)) by apply zlen_nonneg.
    exists (xn ++ B ++ H ++ ds). split.
    { intros Fl. unfold ace. rewrite Ea. exists (B ++ H ++ ds). split; [reflexivity|]. split; [|split; [|split]].
      - specialize (D4 []). rewrite app_nil_r in D4. cbn [decode_digits] in D4. change (36 =? 36) with true in D4. cbn beta iota in D4.
        pose proof (below_small s Hp) as Sm. fold B in Sm.
        unfold H, truth. destruct B as [|b B'] eqn:EB.
        + change (zlen (@nil Z) =? 0) with true. cbn [negb app]. unfold punycode_decode. rewrite no_hyphen by exact D2. exact D4.
        + rewrite zlen_cons. pose proof (zlen_nonneg B'). replace (1 + zlen B' =? 0) with false by lia. cbn [negb].
          change ((b :: B') ++ [45] ++ ds) with ((b :: B') ++ 45 :: ds). unfold punycode_decode. rewrite after_basic by exact D2.
          rewrite Sm. exact D4.
      - apply Forall_app. split; [|apply Forall_app; split].
        + apply basic_lower; [|exact Hp]. unfold fine_label in Fl. apply andb_true_iff in Fl. tauto.
        + unfold H. destruct (truth (zlen B)); constructor; [right; reflexivity|constructor].
        + eapply Forall_impl; [|exact D2]. auto.
      - intros K. apply app_eq_nil in K as [_ K]. apply app_eq_nil in K as [_ K]. exact (D3 Ns K).
      - rewrite app_assoc. apply last_digits; [exact D2|exact (D3 Ns)]. }
    intros pre free. rewrite Tr. cbn [negb].
    assert (forall out eo, (out0 <- emits out eo [120; 110; 45; 45] ;; out0 <- emits out0 eo (firstn (Z.to_nat (zlen B)) (B ++ J')) ;;
       out0 <- (if truth (zlen B) then emit out0 eo 45 else Ok out0) ;;
       ' (b, _, output_size) <- punycode_encode_pass2 p end_ out0 eo (zlen B) (S' ++ K') (zlen S') ;;
       if output_size >? MAX_DNS_LABEL_LENGTH then Ok (b, None) else Ok (b, Some (p', output_size))) =
       (' (b, _, output_size) <- emits out eo (xn ++ B ++ H ++ ds) ;;
       if output_size >? MAX_DNS_LABEL_LENGTH then Ok (b, None) else Ok (b, Some (p', output_size)))) as Whole.
    { intros out eo. rewrite Ef, emits_app. change [120; 110; 45; 45] with xn. destruct (emits out eo xn) as [o1| | |]; cbn [bind]; [|reflexivity..].
      rewrite emits_app. destruct (emits o1 eo B) as [o2| | |]; cbn [bind]; [|reflexivity..].
      rewrite emits_app. replace (if truth (zlen B) then emit o2 eo 45 else Ok o2) with (emits o2 eo H).
      2:{ unfold H. destruct (truth (zlen B)); [|reflexivity]. cbn [emits]. destruct (emit o2 eo 45); reflexivity. }
      destruct (emits o2 eo H) as [o3| | |]; cbn [bind]; [|reflexivity..].
      unfold punycode_encode_pass2. rewrite zlen_app. pose proof (zlen_nonneg K'). replace (zlen S' <=? zlen S' + zlen K') with true by lia.
      rewrite zlen_to_nat, firstn_app, Nat.sub_diag, firstn_all. cbn [firstn]. rewrite app_nil_r.
      change INITIAL_N with 128. change INITIAL_BIAS with 72. rewrite D1. reflexivity. }
    cbv zeta. rewrite Whole. change MAX_DNS_LABEL_LENGTH with 63. set (e := xn ++ B ++ H ++ ds) in *.
    destruct (Z_le_gt_dec (zlen e) (zlen free)) as [L|L].
    + destruct (emits_fit e pre free 0 L) as (rest & E & Lr). rewrite E. cbn [bind]. change (0 + zlen e) with (zlen e).
      destruct (zlen e >? 63) eqn:E63.
      * exists (e ++ rest), None. split; [reflexivity|]. rewrite zlen_app. split; [lia|]. right. split; [reflexivity|lia].
      * exists (e ++ rest), (Some (p', zlen e)). split; [reflexivity|]. rewrite zlen_app. split; [lia|]. split; [exact G1|]. split; [lia|].
        split; [reflexivity|]. split; [reflexivity|]. intros _. exists rest. reflexivity.
    + destruct (emits_full e pre free 0 L) as (free' & E & Lr). rewrite E. cbn [bind]. change (0 + zlen e) with (zlen e).
      destruct (zlen e >? 63) eqn:E63.
      * exists free', None. split; [reflexivity|]. split; [exact Lr|]. right. split; [reflexivity|lia].
      * exists free', (Some (p', zlen e)). split; [reflexivity|]. split; [exact Lr|]. split; [exact G1|]. split; [lia|].
        split; [reflexivity|]. split; [reflexivity|]. lia.
Qed.
End Label.
