(** Host names: encode_filtered, encode_nfc and encode_nfd *)
From Verif Require Import Base CMem CharstrModel CharstrSpec CharstrProofs Utf8Model Utf8Spec Utf8Proofs NormModel NormSpec NormFacts NormBytes NormMain.
From Verif Require Import CategoryModel PunyModel PunySpec PunyProofs PunyPass PunyHost.
From Coq Require Import ZifyBool ZifyNat.

(** * Labels *)

Lemma labels_exist s : exists ls, labels s ls.
Proof.
  induction s as [|c s (ls & N & F & ->)].
  - exists [[]]. split; [discriminate|]. split; [constructor; [intros []|constructor]|reflexivity].
  - destruct ls as [|l ls]; [congruence|]. destruct (Z.eq_dec c 46) as [->|D].
    + exists ([] :: l :: ls). split; [discriminate|]. split; [constructor; [intros []|exact F]|reflexivity].
    + exists ((c :: l) :: ls). split; [discriminate|]. inversion_clear F as [|? ? F1 F2]. split.
      * constructor; [|exact F2]. intros [K|K]; [congruence|exact (F1 K)].
      * destruct ls; reflexivity.
Qed.
Lemma split_unique a b t u : ~ In 46 a -> ~ In 46 b -> dotted t -> dotted u -> a ++ t = b ++ u -> a = b /\ t = u.
Proof.
  revert b. induction a as [|x a IH]; intros [|y b] A B T U E; cbn [app] in E.
  - auto.
  - exfalso. destruct T as [->|(v & ->)]; [discriminate|]. injection E as E1 E2. apply B. left. congruence.
  - exfalso. destruct U as [->|(v & ->)]; [discriminate|]. injection E as E1 E2. apply A. left. congruence.
  - injection E as -> E. destruct (IH b) as [-> ->]; auto; intros I; [apply A|apply B]; right; exact I.
Qed.
Lemma labels_unique s ls ls' : labels s ls -> labels s ls' -> ls = ls'.
Proof.
  intros (N & F & E) (N' & F' & E'). subst s. revert ls' N' F' E'.
  induction ls as [|l ls IH]; [congruence|]. intros [|l' ls'] N' F' E'; [congruence|].
  destruct (join_head l ls) as (t & Et & Dt & H1 & H2). destruct (join_head l' ls') as (t' & Et' & Dt' & H1' & H2').
  inversion_clear F as [|? ? Fl Fr]. inversion_clear F' as [|? ? Fl' Fr'].
  rewrite Et, Et' in E'. destruct (split_unique l l' t t' Fl Fl' Dt Dt' E') as [-> ->].
  f_equal. destruct ls as [|x ls], ls' as [|x' ls']; try reflexivity.
  - specialize (H1 eq_refl). specialize (H2' ltac:(discriminate)). congruence.
  - specialize (H1' eq_refl). specialize (H2 ltac:(discriminate)). congruence.
  - specialize (H2 ltac:(discriminate)). specialize (H2' ltac:(discriminate)). apply IH; try assumption; try discriminate. congruence.
Qed.

Section Name.
Variable lib : library.
Variable spacing_mark : Z -> bool.
Hypothesis category_ok : forall c, 128 <= c -> exists k, unicode_category_of lib c = Ok k /\ category_eqb k Mc = spacing_mark c.
Variable junk : nat -> Z.

Notation fine := (fine_label spacing_mark).
Notation judge := (judge spacing_mark).

(** The length of the name with a dot after every label. *)
Definition full_length (es : list (list Z)) : Z :=
  zlen (join_dots es) + match last es [1] with [] => 0 | _ => 1 end.

Definition good_label (l e : list Z) : Prop := starts_hyphen l = false /\ fine l = true /\ zlen e <= 63.

Lemma ace_nil e : ace [] e -> e = [].
Proof. intros A. exact A. Qed.
Lemma ace_empty l e : ace l e -> e = [] -> l = [].
Proof.
  unfold ace. destruct (all_ascii l).
  - intros ->. destruct l; [reflexivity|discriminate].
  - intros (p & -> & _) K. discriminate.
Qed.

Lemma judge_good ls : forall es h size, Forall2 (fun l e => fine l = true -> ace l e) ls es -> join_dots ls <> [] ->
  judge h size ls es = Good <-> h = false /\ Forall2 good_label ls es /\ size + full_length es <= 253.
Proof.
  induction ls as [|l ls IH]; intros es h size A NJ; inversion A as [|? e ? es' A1 A2]; subst.
  - cbn in NJ. congruence.
  - cbn [PunyHost.judge]. unfold refuses.
    assert (h = false /\ starts_hyphen l = false /\ fine l = true /\ (all_ascii l = false -> zlen e <= 63) <->
      (starts_hyphen l || h || negb (fine l) || negb (all_ascii l) && (zlen e >? 63)) = false) as Rf.
    { destruct (starts_hyphen l), h, (fine l), (all_ascii l); cbn [orb negb andb]; intuition (try discriminate; try lia). }
    destruct (starts_hyphen l || h || negb (fine l) || negb (all_ascii l) && (zlen e >? 63)) eqn:Er.
    { split; [discriminate|]. intros (-> & G & _). inversion G as [|? ? ? ? [G1 [G2 G3]] _]; subst. destruct Rf as [Rf _]. discriminate (Rf ltac:(auto)). }
    destruct (proj2 Rf eq_refl) as (-> & Hs & Hf & Hn). clear Rf Er.
    destruct (zlen e >? 63) eqn:E63.
    { split; [discriminate|]. intros (_ & G & _). inversion G as [|? ? ? ? [G1 [G2 G3]] _]; subst. lia. }
    assert (good_label l e) as Gl by (split; [exact Hs|split; [exact Hf|lia]]).
    destruct ls as [|l' ls].
    + inversion A2; subst. unfold full_length. cbn [join_dots last].
      assert (e <> []) as Ne by (intros K; apply (ace_empty l e (A1 Hf)) in K; subst l; cbn in NJ; congruence).
      destruct e as [|x e]; [congruence|]. destruct (size + (zlen (x :: e) + 1) >? 253) eqn:E.
      * split; [discriminate|]. intros (_ & _ & K). lia.
      * split; [|reflexivity]. intros _. split; [reflexivity|]. split; [constructor; [exact Gl|constructor]|lia].
    + destruct es' as [|e' es']; [inversion A2|].
      assert (full_length (e :: e' :: es') = zlen e + 1 + full_length (e' :: es')) as Ef.
      { unfold full_length. rewrite join_cons by discriminate. rewrite zlen_app, zlen_cons. cbn [last]. destruct es'; lia. }
      assert (0 <= full_length (e' :: es')) as Pf by (unfold full_length; pose proof (zlen_nonneg (join_dots (e' :: es'))); destruct (last _ _); lia).
      destruct (size + (zlen e + 1) >? 253) eqn:E.
      * split; [discriminate|]. intros (_ & _ & K). lia.
      * assert (l' :: ls = [[]] \/ l' :: ls <> [[]]) as [El|Nl] by (destruct l'; [destruct ls|]; [left; reflexivity|right; discriminate..]).
        -- injection El as -> ->. inversion A2 as [|? ? ? ? A3 A4]; subst. inversion A4; subst.
           assert (e' = []) as -> by (apply ace_nil, A3; reflexivity).
           split; [|reflexivity]. intros _. split; [reflexivity|]. split; [constructor; [exact Gl|]|].
           ++ constructor; [|constructor]. split; [reflexivity|]. split; [reflexivity|]. cbn. lia.
           ++ rewrite Ef. change (full_length [[]]) with 0. lia.
        -- assert (forall X, match l' :: ls with [] | [[]] => Good | _ => X end = X) as Em.
           { intros X. destruct l' as [|? ?]; [destruct ls; [congruence|reflexivity]|reflexivity]. }
           rewrite Em. rewrite IH; [|exact A2|intros K; apply join_nil in K; [contradiction|discriminate]].
           rewrite Ef. split.
           ++ intros (_ & G & K). split; [reflexivity|]. split; [constructor; assumption|lia].
           ++ intros (_ & G & K). split; [reflexivity|]. inversion G; subst. split; [assumption|lia].
Qed.

Lemma judge_crash ls : forall es h size, Forall2 (fun l e => fine l = true -> ace l e) ls es ->
  judge h size ls es = Crash -> h = false /\ exists l, In l ls /\ all_ascii l = true /\ fine l = true /\ zlen l > 63.
Proof.
  induction ls as [|l ls IH]; intros es h size A; inversion A as [|? e ? es' A1 A2]; subst; cbn [PunyHost.judge]; [discriminate|].
  unfold refuses. destruct (starts_hyphen l || h || negb (fine l) || negb (all_ascii l) && (zlen e >? 63)) eqn:Er; [discriminate|].
  destruct (zlen e >? 63) eqn:E63.
  - intros _. split; [destruct (starts_hyphen l), h; cbn in Er; congruence|].
    exists l. split; [left; reflexivity|].
    assert (fine l = true) as F by (destruct (starts_hyphen l), h, (fine l); cbn in Er; congruence).
    assert (all_ascii l = true) as Al by (destruct (starts_hyphen l), h, (fine l), (all_ascii l); cbn in Er; congruence).
    split; [exact Al|]. split; [exact F|]. specialize (A1 F). unfold ace in A1. rewrite Al in A1. subst e. unfold zlen in *. rewrite map_length in E63. lia.
  - destruct (size + (zlen e + 1) >? 253); [discriminate|]. intros K.
    assert (judge h (size + (zlen e + 1)) ls es' = Crash) as K'.
    { destruct ls as [|[|x l'] [|y ls]]; first [discriminate K|exact K]. }
    destruct (IH _ _ _ A2 K') as (H & l' & I & R). split; [exact H|]. exists l'. split; [right; exact I|exact R].
Qed.

Definition name_char (c : Z) : Prop := lower_alnum c \/ c = 45.
Lemma ace_chars l e : Forall (fun c => 0 <= c) l -> fine l = true -> ace l e -> Forall name_char e.
Proof.
  intros P F. unfold ace. unfold fine_label in F. apply andb_true_iff in F as [F _]. destruct (all_ascii l) eqn:A.
  - intros ->. rewrite <- (below_none l) by (apply all_ascii_iff; exact A). apply basic_lower; assumption.
  - intros (p & -> & _ & Q & _). apply Forall_app. split; [|exact Q]. unfold xn, name_char, lower_alnum. repeat constructor; lia.
Qed.
Lemma join_forall (P : Z -> Prop) ls : P 46 -> Forall (Forall P) ls <-> (Forall P (join_dots ls) /\ P 46).
Proof.
  intros P46. induction ls as [|l ls IH]; [split; [intros; split; [constructor|exact P46]|constructor]|].
  destruct ls as [|l' ls].
  - cbn [join_dots]. split; [intros H; inversion H; auto|intros [H _]; constructor; [exact H|constructor]].
  - rewrite join_cons by discriminate. rewrite Forall_app. split.
    + intros H. inversion_clear H as [|? ? H1 H2]. apply IH in H2. split; [split; [exact H1|constructor; tauto]|exact P46].
    + intros [[H1 H2] _]. constructor; [exact H1|]. apply IH. inversion_clear H2. auto.
Qed.
Lemma join_sub (P : Z -> Prop) ls : Forall P (join_dots ls) -> Forall (Forall P) ls.
Proof.
  induction ls as [|l ls IH]; [constructor|]. destruct ls as [|l' ls].
  - cbn [join_dots]. intros H. constructor; [exact H|constructor].
  - rewrite join_cons by discriminate. rewrite Forall_app. intros [H1 H2]. constructor; [exact H1|]. apply IH. inversion_clear H2. assumption.
Qed.

Lemma chars_all ls es : Forall (Forall (fun c => 0 <= c)) ls -> Forall2 good_label ls es ->
  Forall2 (fun l e => fine l = true -> ace l e) ls es -> Forall (Forall name_char) es.
Proof.
  intros P G. revert P. induction G as [|l e ls es (_ & G & _) _ IH]; intros P A; [constructor|].
  inversion_clear A as [|? ? ? ? A1 A2]. inversion_clear P as [|? ? P1 P2]. constructor; [apply (ace_chars l); auto|apply IH; assumption].
Qed.

Lemma encode_filtered_ok cps q : Forall scalar cps ->
  if zlen (encs cps) >? 254 then encode_filtered lib junk (encs cps ++ q) (zlen q) = Ok None
  else if zlen cps =? 0 then encode_filtered lib junk (encs cps ++ q) (zlen q) = UB
  else exists ls es, labels cps ls /\ Forall2 (fun l e => fine l = true -> ace l e) ls es /\
    encode_filtered lib junk (encs cps ++ q) (zlen q) =
    match judge (ends_hyphen cps) 0 ls es with
    | Good => Ok (Some (join_dots es ++ [0]))
    | Refused => Ok None
    | Crash => Abort
    end.
Proof.
  intros SC. unfold encode_filtered. replace (zlen (encs cps ++ q) - zlen q) with (zlen (encs cps)) by (rewrite zlen_app; lia).
  change MAX_DNS_NAME_LENGTH with 254. change (254 + 1) with 255.
  destruct (zlen (encs cps) >? 254) eqn:E254; [reflexivity|].
  destruct (zlen cps =? 0) eqn:E0.
  - assert (cps = []) as -> by (apply zlen_0_nil; lia). cbn [encoding flat_map app encode_loop].
    unfold punycode_encode. replace (zlen q - zlen q <=? 0) with true by lia. reflexivity.
  - assert (cps <> []) as NE by (intros ->; discriminate).
    destruct (labels_exist cps) as (ls & N & F & E). subst cps.
    destruct (encode_loop_ok lib spacing_mark category_ok junk ls N q F SC NE ltac:(lia)) as (es & A & B).
    exists ls, es. split; [split; [exact N|split; [exact F|reflexivity]]|]. split; [exact A|].
    specialize (B (S (length (encs (join_dots ls) ++ q))) [] (fresh_block junk 255) ltac:(lia)).
    specialize (B ltac:(rewrite fresh_block_zlen by lia; reflexivity)). cbn [app] in B. change (zlen (@nil Z)) with 0 in B. cbn [Z.add] in B.
    destruct (judge (ends_hyphen (join_dots ls)) 0 ls es) eqn:EJ.
    + destruct B as (r & rest & B1 & B2 & B3). rewrite B1. cbn [bind].
      destruct rest as [|x rest]; [change (zlen (@nil Z)) with 0 in B3; lia|].
      rewrite wr_app by lia. cbn [bind].
      apply judge_good in EJ; [|exact A|exact NE]. destruct EJ as (_ & G & _).
      assert (text (join_dots es)) as T.
      { assert (Forall (Forall (fun c => 0 <= c)) ls) as P.
        { apply join_sub. eapply Forall_impl; [|exact SC]. unfold scalar. intros; lia. }
        pose proof (chars_all ls es P G A) as C.
        apply (join_forall (fun c => 0 < c < 256) es ltac:(cbv beta; lia)).
        eapply Forall_impl; [|exact C]. intros e Fe. eapply Forall_impl; [|exact Fe]. unfold name_char, lower_alnum. intros; lia. }
      rewrite zlen_cons in *. pose proof (zlen_nonneg rest).
      pose proof (dup_all_ok junk (join_dots es) rest T ltac:(lia)) as D. unfold dup_all in D.
      destruct (charstr_dupstr junk (Some (join_dots es ++ 0 :: rest))) as [[d|]| | |]; cbn [bind] in D; try discriminate. injection D as ->. reflexivity.
    + rewrite B. reflexivity.
    + rewrite B. reflexivity.
Qed.
End Name.
