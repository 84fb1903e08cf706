(** Proofs about the reading of IdnaMappingTable.txt. *)
From Verif Require Import Base CharstrModel CharstrSpec CharstrProofs IdnaTabModel IdnaTabSpec IdnaTextModel IdnaTextSpec.
From Verif Require IdnaTabProofs.
From Coq Require Import ZifyBool String List.
Open Scope list_scope.
Open Scope Z_scope.

(** * Numbers *)
Definition xdigit (c : Z) : Prop := (48 <= c <= 57) \/ (65 <= c <= 70) \/ (97 <= c <= 102).
Lemma hex_value_x c v : hex_value c v -> xvalue c = v /\ 0 <= v <= 15 /\ xdigit c.
Proof.
  intros H. unfold xvalue, xdigit. inversion H; subst.
  - replace ((48 <=? 48 + v) && (48 + v <=? 57)) with true by lia. lia.
  - replace ((48 <=? 65 + (v - 10)) && (65 + (v - 10) <=? 57)) with false by lia.
    replace ((65 <=? 65 + (v - 10)) && (65 + (v - 10) <=? 70)) with true by lia. lia.
  - replace ((48 <=? 97 + (v - 10)) && (97 + (v - 10) <=? 57)) with false by lia.
    replace ((65 <=? 97 + (v - 10)) && (97 + (v - 10) <=? 70)) with false by lia.
    replace ((97 <=? 97 + (v - 10)) && (97 + (v - 10) <=? 102)) with true by lia. lia.
Qed.
Lemma hex_number_x ds n : hex_number ds n -> 0 <= n /\ Forall xdigit ds /\ ds <> [].
Proof.
  induction 1 as [c v H|ds n c v H1 IH H2].
  - apply hex_value_x in H. split; [lia|]. split; [apply Forall_cons; [tauto|constructor]|discriminate].
  - apply hex_value_x in H2. destruct IH as (A & B & C). split; [lia|]. split.
    + apply Forall_app. split; [assumption|]. apply Forall_cons; [tauto|constructor].
    + destruct ds; discriminate.
Qed.
Lemma hex_digits_ok ds n : hex_number ds n -> forall t acc,
  hex_digits (ds ++ t) acc = hex_digits t (16 ^ zlen ds * acc + n).
Proof.
  induction 1 as [c v H|ds n c v H1 IH H2]; intros t acc.
  - apply hex_value_x in H. destruct H as (E & B & _). cbn [app hex_digits]. rewrite E.
    replace (v <? 0) with false by lia. reflexivity.
  - rewrite <- app_assoc. rewrite IH. apply hex_value_x in H2. destruct H2 as (E & B & _). cbn [app hex_digits]. rewrite E.
    replace (v <? 0) with false by lia. f_equal. rewrite zlen_app. change (zlen [c]) with 1.
    rewrite Z.pow_add_r by (try apply zlen_nonneg; lia). change (16 ^ 1) with 16. ring.
Qed.

(** The next character is not a hexadecimal digit and not an x. *)
Definition stops (t : list Z) : Prop := exists c t', t = c :: t' /\ xvalue c = -1 /\ c <> 120 /\ c <> 88.
Lemma stops_blank w r : Forall blank w -> stops (w ++ 0 :: r).
Proof.
  intros H. destruct w as [|c w]; [exists 0, r; repeat split; lia|]. inversion H as [|? ? B _]. subst.
  exists c, (w ++ 0 :: r). repeat split; unfold blank in B; try lia. destruct B as [-> | [-> | ->]]; reflexivity.
Qed.
Lemma skip_space_ok w s : Forall blank w -> (exists c s', s = c :: s' /\ isspace c = false) ->
  skip_space (w ++ s) = Ok s.
Proof.
  intros H (c & s' & -> & E). induction H as [|x w B _ IH]; cbn [app skip_space]; [rewrite E; reflexivity|].
  replace (isspace x) with true; [assumption|]. unfold isspace, blank in *. lia.
Qed.
Lemma xdigit_not c : xdigit c -> isspace c = false /\ (c =? 43) || (c =? 45) = false /\ (c =? 45) = false /\ c <> 120 /\ c <> 88.
Proof. unfold xdigit, isspace. lia. Qed.
Lemma skip_0x_ok ds t : Forall xdigit ds -> ds <> [] -> stops t -> skip_0x (ds ++ t) = ds ++ t.
Proof.
  intros H N (c & t' & -> & _ & X1 & X2). destruct ds as [|d ds]; [congruence|]. inversion H as [|? ? Hd Hds]. subst.
  unfold skip_0x. cbn [app]. destruct ds as [|e ds]; cbn [app].
  - destruct t' as [|u t']; [reflexivity|]. replace ((d =? 48) && ((c =? 120) || (c =? 88)) && (0 <=? xvalue u)) with false; [reflexivity|]. lia.
  - inversion Hds as [|? ? He _]. subst. pose proof (xdigit_not e He). destruct (ds ++ c :: t') as [|u l]; [reflexivity|].
    replace ((d =? 48) && ((e =? 120) || (e =? 88)) && (0 <=? xvalue u)) with false; [reflexivity|]. lia.
Qed.
Lemma strtol_ok ds n w t : hex_number ds n -> n < 2 ^ 31 -> Forall blank w -> stops t -> strtol16 (w ++ ds ++ t) = Ok n.
Proof.
  intros H B W T. pose proof (hex_number_x ds n H) as (N & F & E).
  assert (exists d ds', ds = d :: ds') as (d & ds' & Ed) by (destruct ds; [congruence|eauto]).
  assert (xdigit d) as X by (rewrite Ed in F; inversion F; assumption).
  pose proof (xdigit_not d X) as (X1 & X2 & X3 & _).
  unfold strtol16. rewrite skip_space_ok; [|assumption|exists d, (ds' ++ t); rewrite Ed; split; [reflexivity|assumption]].
  cbn [bind]. rewrite Ed at 1. cbn [app]. rewrite X2, X3. rewrite skip_0x_ok by assumption.
  rewrite (hex_digits_ok ds n H). destruct T as (c & t' & -> & Tc & _). cbn [hex_digits]. rewrite Tc.
  change (-1 <? 0) with true. cbn [bind]. f_equal. lia.
Qed.
Lemma strtol_padded ds n f r : hex_number ds n -> n < 2 ^ 31 -> padded ds f -> strtol16 (f ++ 0 :: r) = Ok n.
Proof.
  intros H B (w1 & w2 & -> & W1 & W2). rewrite <- !app_assoc. apply (strtol_ok ds n); try assumption.
  apply stops_blank. assumption.
Qed.
Lemma s32_small n : 0 <= n < 2 ^ 31 -> s32 n = n.
Proof. intros H. unfold s32, sgn. rewrite Z.mod_small by lia. replace (n <? 2 ^ (32 - 1)) with true by lia. reflexivity. Qed.
Lemma codepoints_ok numbers cps : Forall2 (fun ds n => hex_number ds n /\ n < 2 ^ 31) numbers cps ->
  read_codepoints (map as_block numbers) = Ok cps.
Proof.
  induction 1 as [|ds n numbers cps [H B] _ IH]; [reflexivity|]. cbn [map read_codepoints].
  unfold as_block at 1. rewrite (strtol_padded ds n ds []); try assumption.
  - cbn [bind]. rewrite IH. cbn [bind]. rewrite s32_small; [reflexivity|]. apply hex_number_x in H. lia.
  - exists [], []. rewrite app_nil_r. repeat split; constructor.
Qed.

(** * Fields *)
Lemma join_free_unique (d : Z) a : ~ In d a -> forall b x y, ~ In d b -> a ++ d :: x = b ++ d :: y -> a = b /\ x = y.
Proof.
  induction a as [|c a IH]; intros Ha b x y Hb E; destruct b as [|e b]; cbn [app] in E.
  - injection E as E. split; [reflexivity|assumption].
  - injection E as E1 E2. exfalso. apply Hb. left. congruence.
  - injection E as E1 E2. exfalso. apply Ha. left. congruence.
  - injection E as E1 E2. destruct (IH (fun H => Ha (or_intror H)) b x y (fun H => Hb (or_intror H)) E2) as [-> ->]. subst. auto.
Qed.


Lemma join_unique (d : Z) a : forall b, a <> [] -> b <> [] -> Forall (fun p => ~ In d p) a -> Forall (fun p => ~ In d p) b ->
  join [d] a = join [d] b -> a = b.
Proof.
  induction a as [|p a IH]; intros b Na Nb Ha Hb E; [congruence|]. destruct b as [|q b]; [congruence|].
  inversion Ha as [|? ? Hp Ha']. inversion Hb as [|? ? Hq Hb']. subst.
  destruct a as [|p2 a]; destruct b as [|q2 b].
  - cbn [join] in E. congruence.
  - rewrite (join_cons _ q) in E by discriminate. change (join [d] [p]) with p in E. exfalso. apply Hp. rewrite E. apply in_or_app. right. left. reflexivity.
  - rewrite (join_cons _ p) in E by discriminate. exfalso. apply Hq. change (join [d] [q]) with q in E. rewrite <- E. apply in_or_app. right. left. reflexivity.
  - rewrite !(join_cons _ _ (_ :: _)) in E by discriminate. cbn [app] in E.
    destruct (join_free_unique d p Hp q _ _ Hq E) as [-> E']. f_equal. apply IH; try assumption; discriminate.
Qed.
Lemma count_join d parts : parts <> [] -> Forall (fun p => ~ In d p) (removelast parts) ->
  count d (join [d] parts) = zlen parts - 1 + count d (last parts []).
Proof.
  induction parts as [|p parts IH]; intros N H; [congruence|]. destruct parts as [|q parts].
  - cbn [join last]. rewrite zlen_cons. change (zlen []) with 0. lia.
  - rewrite removelast_cons in H by discriminate. inversion H as [|? ? Hp Ht]. subst.
    rewrite join_cons by discriminate. rewrite !count_app. rewrite IH by (try assumption; discriminate).
    rewrite (count_zero d p) by assumption. cbn [count]. rewrite Z.eqb_refl. rewrite (last_cons p) by discriminate.
    rewrite !zlen_cons. lia.
Qed.
Lemma count_in d s : count d s = 0 -> ~ In d s.
Proof.
  induction s as [|c s IH]; intros H I; [exact I|]. cbn [count] in H. pose proof (count_nonneg d s).
  destruct I as [->|I]; [rewrite Z.eqb_refl in H; lia|]. apply IH; [|assumption]. destruct (c =? d); lia.
Qed.
Lemma count_len d s : count d s <= zlen s.
Proof. induction s as [|c s IH]; cbn [count]; [reflexivity|]. rewrite zlen_cons. destruct (c =? d); lia. Qed.
Lemma forall_last {A} (P : A -> Prop) l x : Forall P (removelast l) -> P (last l x) -> l <> [] -> Forall P l.
Proof. intros H L N. rewrite (app_removelast_last x N). apply Forall_app. split; [assumption|]. constructor; [assumption|constructor]. Qed.
Lemma split_fields junk fields r delim max : fields <> [] -> text (join [delim] fields) -> 0 < delim < 256 ->
  Forall (fun f => ~ In delim f) fields -> zlen (join [delim] fields) <= max -> zlen (join [delim] fields) + 1 < 2 ^ 64 ->
  charstr_split junk (join [delim] fields ++ 0 :: r) delim max = Ok (map as_block fields).
Proof.
  intros N T D F M L. destruct (split_ok junk (join [delim] fields) r delim max) as (parts & -> & J & Z & R);
    try assumption; [pose proof (zlen_nonneg (join [delim] fields)); lia|].
  pose proof (count_len delim (join [delim] fields)). rewrite Z.min_r in Z by lia.
  assert (parts <> []) as P.
  { intros ->. change (zlen []) with 0 in Z. pose proof (count_nonneg delim (join [delim] fields)). lia. }
  do 2 f_equal. apply (join_unique delim); try assumption. apply (forall_last _ _ []); try assumption.
  apply count_in. pose proof (count_join delim parts P R) as C. rewrite J in C. lia.
Qed.
Lemma split_first junk body rest r : text (body ++ rest) -> ~ In 35 body -> comment rest -> zlen (body ++ rest) + 1 < 2 ^ 64 ->
  exists l, charstr_split junk ((body ++ rest) ++ 0 :: r) 35 1 = Ok (as_block body :: l).
Proof.
  intros T N C L. destruct (split_ok junk (body ++ rest) r 35 1) as (parts & -> & J & Z & R); try assumption; try lia.
  rewrite count_app, (count_zero 35 body) in Z by assumption.
  destruct C as [->|[t ->]].
  - rewrite app_nil_r in J. cbn [count] in Z. destruct parts as [|p [|q parts]].
    + change (zlen []) with 0 in Z. lia.
    + cbn [join] in J. subst. exists []. reflexivity.
    + rewrite !zlen_cons in Z. pose proof (zlen_nonneg parts). lia.
  - cbn [count] in Z. rewrite Z.eqb_refl in Z. pose proof (count_nonneg 35 t). rewrite Z.min_l in Z by lia.
    destruct parts as [|p [|q parts]].
    { change (zlen []) with 0 in Z. lia. }
    { rewrite !zlen_cons in Z. change (zlen []) with 0 in Z. lia. }
    rewrite join_cons in J by discriminate. rewrite removelast_cons in R by discriminate. inversion R as [|? ? Rp _]. subst.
    cbn [app] in J. destruct (join_free_unique 35 p Rp body _ _ N J) as [-> _]. eexists. reflexivity.
Qed.

(** * Ranges *)
Lemma no_dots_occurs s k : ~ In 46 s -> ~ occurs_at [46; 46] s k.
Proof. intros N (a & b & -> & _). apply N. apply in_or_app. right. left. reflexivity. Qed.
Lemma split_str_one junk s r : text s -> ~ In 46 s -> zlen s + 1 < 2 ^ 64 ->
  charstr_split_str junk (s ++ 0 :: r) ([46; 46] ++ [0]) (u32 (-1)) = Ok [as_block s].
Proof.
  intros T N L. destruct (split_str_ok junk s r [46; 46] [] (u32 (-1))) as (parts & E & P & J & _); try assumption.
  - repeat constructor; lia.
  - discriminate.
  - vm_compute. discriminate.
  - rewrite E. destruct parts as [|p [|q parts]]; [congruence|cbn [join] in J; subst; reflexivity|].
    rewrite join_cons in J by discriminate. exfalso. apply N. rewrite <- J. apply in_or_app. right. left. reflexivity.
Qed.
Lemma dots_unique a b p q : ~ In 46 a -> leftmost [46; 46] p -> a ++ [46; 46] ++ b = p ++ [46; 46] ++ q -> a = p /\ b = q.
Proof.
  intros N Lm E. assert (zlen p <= zlen a) as Le.
  { destruct (Z.le_gt_cases (zlen p) (zlen a)) as [|G]; [assumption|exfalso].
    pose proof (Lm (zlen a)) as H. assert (occurs_at [46; 46] (p ++ [46; 46]) (zlen a)) as O.
    { exists a. assert (exists u, p = a ++ u) as [u ->].
      { exists (skipn (length a) p). rewrite <- (firstn_skipn (length a) p) at 1. f_equal.
        apply (f_equal (firstn (length a))) in E. rewrite firstn_app in E. rewrite Nat.sub_diag, firstn_O, app_nil_r, firstn_all in E.
        rewrite firstn_app in E. replace (length a - length p)%nat with O in E by (unfold zlen in G; lia).
        rewrite firstn_O, app_nil_r in E. symmetry. assumption. }
      rewrite <- app_assoc in E. apply app_inv_head in E. exists (skipn 2 (u ++ [46; 46])). split; [|reflexivity].
      rewrite <- app_assoc. f_equal. destruct u as [|u0 [|u1 u]].
      - reflexivity.
      - cbn [app] in E. injection E as -> ->. reflexivity.
      - cbn [app] in E. injection E as -> -> _. reflexivity. }
    specialize (H O). lia. }
  assert (exists u, a = p ++ u) as [u ->].
  { exists (skipn (length p) a). rewrite <- (firstn_skipn (length p) a) at 1. f_equal.
    apply (f_equal (firstn (length p))) in E. rewrite !firstn_app in E. rewrite Nat.sub_diag, firstn_O, app_nil_r, firstn_all in E.
    replace (length p - length a)%nat with O in E by (unfold zlen in Le; lia). rewrite firstn_O, app_nil_r in E. assumption. }
  rewrite <- app_assoc in E. apply app_inv_head in E. destruct u as [|u0 u].
  - cbn [app] in E. injection E as ->. rewrite app_nil_r. auto.
  - cbn [app] in E. injection E as -> _. exfalso. apply N. apply in_or_app. right. left. reflexivity.
Qed.
Lemma split_str_two junk a b r : text a -> text b -> ~ In 46 a -> ~ In 46 b -> zlen (a ++ [46; 46] ++ b) + 1 < 2 ^ 64 ->
  charstr_split_str junk ((a ++ [46; 46] ++ b) ++ 0 :: r) ([46; 46] ++ [0]) (u32 (-1)) = Ok [as_block a; as_block b].
Proof.
  intros Ta Tb Na Nb L. destruct (split_str_ok junk (a ++ [46; 46] ++ b) r [46; 46] [] (u32 (-1))) as (parts & E & P & J & M & F & X); try assumption.
  - repeat (apply text_app; split; [assumption|]). apply text_app. split; [|assumption]. repeat constructor; lia.
  - repeat constructor; lia.
  - discriminate.
  - vm_compute. discriminate.
  - rewrite E. destruct parts as [|p [|q parts]]; [congruence| |].
    + cbn [join] in J. subst p. destruct X as [X|X]; [exfalso; vm_compute in X; discriminate X|].
      exfalso. apply X. exists (zlen a), a, b. split; reflexivity.
    + rewrite join_cons in J by discriminate. rewrite removelast_cons in F by discriminate. inversion F as [|? ? Fp _]. subst.
      destruct (dots_unique a b p _ Na Fp (eq_sym J)) as [-> Eb]. destruct parts as [|q2 parts].
      * cbn [join] in Eb. subst. reflexivity.
      * rewrite join_cons in Eb by discriminate. exfalso. apply Nb. rewrite Eb. apply in_or_app. right. left. reflexivity.
Qed.

(** * Atoms and strip *)
Lemma run_unique (P : Z -> Prop) a : Forall P a -> forall b x y, Forall P b ->
  (x = [] \/ exists c x', x = c :: x' /\ ~ P c) -> (y = [] \/ exists c y', y = c :: y' /\ ~ P c) ->
  a ++ x = b ++ y -> a = b /\ x = y.
Proof.
  induction 1 as [|c a Pc Pa IH]; intros b x y Hb X Y E.
  - destruct Hb as [|d b Pd Hb]; [auto|]. cbn [app] in E. destruct X as [->|(c & x' & -> & N)]; [discriminate|].
    injection E as -> _. contradiction.
  - destruct Hb as [|d b Pd Hb].
    + cbn [app] in E. destruct Y as [->|(d & y' & -> & N)]; [discriminate|]. injection E as -> _. contradiction.
    + cbn [app] in E. injection E as -> E. destruct (IH b x y Hb X Y E) as [-> ->]. auto.
Qed.
Lemma atoms_unique (W : Z -> Prop) s l1 : atoms W s l1 -> forall l2, atoms W s l2 -> l1 = l2.
Proof.
  induction 1 as [w Hw|w a s l Hw Na Ha Hs A IH]; intros l2 A2.
  - inversion A2 as [|w' a' s' l' Hw' Na' Ha' Hs' A' E1 E2]; [reflexivity|]. subst. exfalso.
    destruct a' as [|c a']; [congruence|]. inversion Ha'. subst. apply Forall_app in Hw. destruct Hw as [_ Hw]. inversion Hw. contradiction.
  - inversion A2 as [w' Hw' E1 E2|w' a' s' l' Hw' Na' Ha' Hs' A' E1 E2]; subst.
    + exfalso. destruct a as [|c a]; [congruence|]. inversion Ha. subst. apply Forall_app in Hw'. destruct Hw' as [_ Hw']. inversion Hw'. contradiction.
    + assert (w' = w /\ a' ++ s' = a ++ s) as [-> E].
      { apply (run_unique W w' Hw' w); try assumption.
        - right. destruct a' as [|c a']; [congruence|]. inversion Ha'. subst. exists c, (a' ++ s'). auto.
        - right. destruct a as [|c a]; [congruence|]. inversion Ha. subst. exists c, (a ++ s). auto. }
      assert (a' = a /\ s' = s) as [-> ->].
      { apply (run_unique (fun c => ~ W c) a' Ha' a); try assumption.
        - destruct Hs' as [->|(c & t & -> & Wc)]; [left; reflexivity|right; exists c, t; split; [reflexivity|tauto]].
        - destruct Hs as [->|(c & t & -> & Wc)]; [left; reflexivity|right; exists c, t; split; [reflexivity|tauto]]. }
      f_equal. apply IH. assumption.
Qed.
Lemma stripped_unique (W : Z -> Prop) w1 m w2 n : m <> [] -> Forall W w1 -> Forall W w2 -> Forall (fun c => ~ W c) m ->
  stripped W (w1 ++ m ++ w2) n -> n = m.
Proof.
  intros Nm H1 H2 Hm (v1 & v2 & E & V1 & V2 & B1 & B2).
  destruct n as [|c n].
  { exfalso. destruct m as [|x m]; [congruence|]. cbn [app] in E. assert (Forall W (v1 ++ v2)) as F by (apply Forall_app; auto).
    rewrite <- E in F. apply Forall_app in F. destruct F as [_ F]. inversion F. inversion Hm. contradiction. }
  assert (w1 = v1 /\ m ++ w2 = (c :: n) ++ v2) as [-> E2].
  { apply (run_unique W w1 H1 v1); try assumption.
    - right. destruct m as [|x m]; [congruence|]. inversion Hm. subst. exists x, (m ++ w2). auto.
    - right. exists c, (n ++ v2). split; [reflexivity|]. apply (B1 c n). reflexivity. }
  apply (f_equal (@rev Z)) in E2. rewrite !rev_app_distr in E2.
  assert (rev w2 = rev v2 /\ rev m = rev (c :: n)) as [_ E3].
  { apply (run_unique W (rev w2) (Forall_rev H2) (rev v2)); try assumption.
    - apply Forall_rev. assumption.
    - right. destruct (exists_last Nm) as (m' & x & ->). rewrite rev_app_distr. exists x, (rev m'). split; [reflexivity|].
      apply Forall_app in Hm. destruct Hm as [_ Hm]. inversion Hm. assumption.
    - right. destruct (@exists_last Z (c :: n) ltac:(discriminate)) as (n' & x & En). rewrite En, rev_app_distr. exists x, (rev n').
      split; [reflexivity|]. apply (B2 x n'). assumption. }
  apply (f_equal (@rev Z)) in E3. rewrite !rev_involutive in E3. symmetry. assumption.
Qed.
Lemma c_string_ok s r : text s -> c_string (s ++ 0 :: r) = Ok s.
Proof.
  induction 1 as [|c s B _ IH]; cbn [app c_string]; [reflexivity|]. replace (c =? 0) with false by lia. rewrite IH. reflexivity.
Qed.
Lemma blank_white c : blank c -> code_white c.
Proof. unfold blank, code_white. tauto. Qed.
Definition name_char (c : Z) : Prop := 0 < c < 256 /\ ~ code_white c /\ c <> 35 /\ c <> 59.
Definition good_name (s : list Z) : Prop := Forall name_char s /\ s <> [].
Lemma name_chars st : fine_status st -> text (name_bytes st) -> good_name (name_bytes st).
Proof.
  intros Fs T. destruct (match st with Other _ => true | _ => false end) eqn:O.
  { destruct st; try discriminate. destruct Fs as (N & F & _). split; [|exact N]. rewrite Forall_forall in F. apply Forall_forall. intros c I.
    specialize (F c I). pose proof (proj1 (Forall_forall _ _) T c I). cbv beta in *. unfold name_char. tauto. }
  split; [|destruct st; discriminate].
  assert (forallb (fun c => ((48 <=? c) && (c <=? 57)) || ((65 <=? c) && (c <=? 90)) || (c =? 95) || ((97 <=? c) && (c <=? 122))) (name_bytes st) = true) as H
    by (destruct st; try discriminate O; vm_compute; reflexivity).
  rewrite forallb_forall in H. apply Forall_forall. intros c I. specialize (H c I). cbv beta in H. unfold name_char, code_white. lia.
Qed.
Lemma strip_ok_name junk s f r : good_name s -> padded s f -> zlen f + 1 < 2 ^ 64 ->
  charstr_strip junk (Some (f ++ 0 :: r)) = Ok (Some (as_block s)).
Proof.
  intros [C N] (w1 & w2 & -> & W1 & W2) L.
  assert (forall w, Forall blank w -> text w) as TB by (intros w; apply Forall_impl; unfold blank; lia).
  assert (text (w1 ++ s ++ w2)) as T.
  { apply text_app. split; [auto|]. apply text_app. split; [|auto]. revert C. apply Forall_impl. unfold name_char. tauto. }
  destruct (strip_ok junk (w1 ++ s ++ w2) r T L) as (m & E & S). rewrite E.
  rewrite (stripped_unique code_white w1 s w2 m); [reflexivity|assumption| | | |assumption].
  - revert W1. apply Forall_impl, blank_white.
  - revert W2. apply Forall_impl, blank_white.
  - revert C. apply Forall_impl. unfold name_char. tauto.
Qed.
Lemma atoms_ok_mapping junk f r cps : text f -> mapping_field f cps -> zlen f + 1 < 2 ^ 64 ->
  exists numbers, charstr_split_atoms junk (f ++ 0 :: r) = Ok (map as_block numbers) /\
    read_codepoints (map as_block numbers) = Ok cps.
Proof.
  intros T (numbers & A & N) L. destruct (split_atoms_ok junk f r T L) as (parts & E & B).
  exists numbers. rewrite E. split; [|apply codepoints_ok; assumption].
  do 2 f_equal. apply (atoms_unique code_white f); [assumption|]. apply (atoms_ext blank); [|assumption].
  intros c I. split; [apply blank_white|]. intros W.
  assert (forall s l, atoms blank s l -> Forall (fun d => Forall xdigit d) l -> Forall (fun c => blank c \/ xdigit c) s) as H.
  { induction 1 as [w Hw|w a s l Hw Na Ha Hs A' IH]; intros F.
    - revert Hw. apply Forall_impl. auto.
    - inversion F. subst. apply Forall_app. split; [revert Hw; apply Forall_impl; auto|]. apply Forall_app. split; [|auto].
      revert H1. apply Forall_impl. auto. }
  specialize (H f numbers A). assert (Forall (fun d => Forall xdigit d) numbers) as F.
  { clear -N. induction N as [|ds n l l' [H1 _] _ IH]; constructor; [apply hex_number_x in H1; tauto|assumption]. }
  specialize (H F). rewrite Forall_forall in H. destruct (H c I) as [|X]; [assumption|]. exfalso. unfold xdigit, code_white in *. lia.
Qed.

(** * Lines *)
Definition num_char (c : Z) : Prop := blank c \/ xdigit c.
Lemma padded_chars ds n f : hex_number ds n -> padded ds f -> Forall num_char f.
Proof.
  intros H (w1 & w2 & -> & W1 & W2). apply hex_number_x in H. destruct H as (_ & F & _).
  apply Forall_app. split; [revert W1; apply Forall_impl; unfold num_char; auto|]. apply Forall_app. split.
  - revert F. apply Forall_impl. unfold num_char. auto.
  - revert W2. apply Forall_impl. unfold num_char. auto.
Qed.
Lemma num_char_not c : num_char c -> 0 < c < 256 /\ c <> 46 /\ c <> 35 /\ c <> 59.
Proof. unfold num_char, blank, xdigit. lia. Qed.
Lemma num_chars_text f : Forall num_char f -> text f.
Proof. apply Forall_impl. intros c H. apply num_char_not in H. tauto. Qed.
Lemma num_chars_free f : Forall num_char f -> ~ In 46 f /\ ~ In 35 f /\ ~ In 59 f.
Proof.
  rewrite Forall_forall. intros H. repeat split; intros I; apply H, num_char_not in I; tauto.
Qed.
Lemma range_free f lo hi : range_field f lo hi -> ~ In 35 f /\ ~ In 59 f.
Proof.
  intros [ds field n H _ P|ds1 ds2 f1 f2 n1 n2 H1 _ P1 H2 _ P2].
  - pose proof (num_chars_free _ (padded_chars _ _ _ H P)). tauto.
  - pose proof (num_chars_free _ (padded_chars _ _ _ H1 P1)). pose proof (num_chars_free _ (padded_chars _ _ _ H2 P2)).
    rewrite !in_app_iff. cbn [In]. split; intuition lia.
Qed.
Lemma name_free s f : good_name s -> padded s f -> ~ In 35 f /\ ~ In 59 f.
Proof.
  intros [C _] (w1 & w2 & -> & W1 & W2). rewrite Forall_forall in *. rewrite !in_app_iff.
  split; intros [I|[I|I]]; ((apply W1 in I || apply W2 in I); unfold blank in I; lia) || (apply C in I; unfold name_char in I; lia).
Qed.
Lemma range_ok junk f r lo hi : range_field f lo hi -> zlen f + 1 < 2 ^ 64 ->
  exists first rest, charstr_split_str junk (f ++ 0 :: r) (literal ".." ++ [0]) (u32 (-1)) = Ok (first :: rest) /\
    strtol16 first = Ok lo /\ strtol16 (match rest with [] => first | last :: _ => last end) = Ok hi /\
    0 <= lo < 2 ^ 31 /\ 0 <= hi < 2 ^ 31.
Proof.
  change (literal "..") with [46; 46].
  intros [ds field n H B P|ds1 ds2 f1 f2 n1 n2 H1 B1 P1 H2 B2 P2] L.
  - pose proof (padded_chars _ _ _ H P) as C. exists (as_block field), []. rewrite split_str_one; try assumption;
      [|apply num_chars_text; assumption|apply num_chars_free; assumption].
    split; [reflexivity|]. pose proof (strtol_padded _ _ _ [] H B P). pose proof (hex_number_x _ _ H).
    split; [assumption|]. split; [assumption|]. lia.
  - pose proof (padded_chars _ _ _ H1 P1) as C1. pose proof (padded_chars _ _ _ H2 P2) as C2.
    exists (as_block f1), [as_block f2]. rewrite split_str_two; try assumption;
      [|apply num_chars_text; assumption|apply num_chars_text; assumption|apply num_chars_free; assumption|apply num_chars_free; assumption].
    split; [reflexivity|]. pose proof (hex_number_x _ _ H1). pose proof (hex_number_x _ _ H2).
    split; [apply (strtol_padded _ _ _ [] H1 B1 P1)|]. split; [apply (strtol_padded _ _ _ [] H2 B2 P2)|]. lia.
Qed.
Lemma join_len (d : Z) fields f : In f fields -> zlen f <= zlen (join [d] fields).
Proof.
  induction fields as [|p fields IH]; intros I; [destruct I|]. destruct fields as [|q fields].
  - destruct I as [->|[]]. cbn [join]. lia.
  - rewrite join_cons by discriminate. rewrite !zlen_app. pose proof (zlen_nonneg (join [d] (q :: fields))). pose proof (zlen_nonneg p).
    change (zlen [d]) with 1. destruct I as [->|I]; [lia|]. specialize (IH I). lia.
Qed.
Lemma join_text d fields f : text (join [d] fields) -> In f fields -> text f.
Proof.
  induction fields as [|p fields IH]; intros T I; [destruct I|]. destruct fields as [|q fields].
  - destruct I as [->|[]]. exact T.
  - rewrite join_cons in T by discriminate. apply text_app in T. destruct T as [T1 T]. apply text_app in T. destruct T as [_ T].
    destruct I as [->|I]; auto.
Qed.
Lemma join_free c d fields : c <> d -> Forall (fun f => ~ In c f) fields -> ~ In c (join [d] fields).
Proof.
  intros N. induction 1 as [|p fields Hp _ IH]; [intros []|]. destruct fields as [|q fields]; [exact Hp|].
  rewrite join_cons by discriminate. rewrite !in_app_iff. cbn [In]. intuition congruence.
Qed.
Lemma fields_ok junk f1 f2 fields rest lo hi s m r :
  text (join [59] (f1 :: f2 :: fields) ++ rest) -> zlen (join [59] (f1 :: f2 :: fields) ++ rest) < 2 ^ 32 - 1 ->
  range_field f1 lo hi -> good_name s -> padded s f2 ->
  match fields, m with [], None => True | f3 :: _, Some cps => mapping_field f3 cps | _, _ => False end ->
  Forall (fun f => ~ In 35 f /\ ~ In 59 f) fields -> comment rest ->
  read_line junk ((join [59] (f1 :: f2 :: fields) ++ rest) ++ 0 :: r) = Ok (Some (lo, hi, s, m)).
Proof.
  intros T L R G P M F C.
  set (all := f1 :: f2 :: fields) in *. pose proof (range_free _ _ _ R) as [R1 R2]. pose proof (name_free _ _ G P) as [P1 P2].
  assert (Forall (fun f => ~ In 35 f) all /\ Forall (fun f => ~ In 59 f) all) as [F1 F2].
  { subst all. split; (constructor; [assumption|]); (constructor; [assumption|]); revert F; apply Forall_impl; tauto. }
  rewrite zlen_app in L. pose proof (zlen_nonneg rest). pose proof (zlen_nonneg (join [59] all)).
  pose proof T as T0. apply text_app in T0. destruct T0 as [Tj _].
  unfold read_line. destruct (split_first junk (join [59] all) rest r) as (l & ->); try assumption.
  { apply join_free; [lia|assumption]. }
  { rewrite zlen_app. lia. }
  cbn [bind]. unfold as_block at 1. rewrite split_fields; try assumption; try lia; try (subst all; discriminate).
  2: { change (u32 (-1)) with (2 ^ 32 - 1). lia. }
  cbn [bind]. subst all. cbn [map]. unfold as_block at 1.
  pose proof (join_len 59 (f1 :: f2 :: fields) f1 ltac:(left; reflexivity)).
  pose proof (join_len 59 (f1 :: f2 :: fields) f2 ltac:(right; left; reflexivity)).
  destruct (range_ok junk f1 [] lo hi R) as (first & more & -> & S1 & S2 & B1 & B2); [lia|]. cbn [bind].
  assert (match map as_block fields with
          | [] => Ok None
          | mapping :: _ => codepoints <- charstr_split_atoms junk mapping ;; cps <- read_codepoints codepoints ;; Ok (Some cps)
          end = Ok m) as ->.
  { destruct fields as [|f3 fields]; destruct m as [cps|]; try contradiction; [reflexivity|]. cbn [map].
    pose proof (join_len 59 (f1 :: f2 :: f3 :: fields) f3 ltac:(right; right; left; reflexivity)).
    pose proof (join_text 59 (f1 :: f2 :: f3 :: fields) f3 Tj ltac:(right; right; left; reflexivity)) as T3.
    unfold as_block at 1. destruct (atoms_ok_mapping junk f3 [] cps T3 M) as (numbers & -> & E); [lia|]. cbn [bind]. rewrite E. reflexivity. }
  cbn [bind]. rewrite S1. cbn [bind]. rewrite S2. cbn [bind].
  unfold as_block at 1. rewrite (strip_ok_name junk s f2 [] G P) by lia. cbn [bind].
  unfold as_block. rewrite c_string_ok; [|destruct G as [X _]; revert X; apply Forall_impl; unfold name_char; tauto].
  cbn [bind]. rewrite !s32_small by assumption. reflexivity.
Qed.
Lemma row_line_ok junk line lo hi st m r : text line -> zlen line < 2 ^ 32 - 1 -> row_line line (lo, hi, st, m) ->
  read_line junk (line ++ 0 :: r) = Ok (Some (lo, hi, name_bytes st, m)).
Proof.
  intros T L H. inversion H as [f1 f2 fields lo' hi' st' m' rest R S P M F C E1 E2]. subst lo' hi' st' m' line.
  apply fields_ok; try assumption. apply name_chars; [exact S|]. apply text_app in T. destruct T as [T _].
  pose proof (join_text 59 (f1 :: f2 :: fields) f2 T ltac:(right; left; reflexivity)) as T2. destruct P as (w1 & w2 & -> & _).
  apply text_app in T2. destruct T2 as [_ T2]. apply text_app in T2. exact (proj1 T2).
Qed.
(** The carriage return before the newline is part of the status. *)
Definition seven : list status := [Valid; Ignored; Mapped; Deviation; Disallowed; Std3_valid; Std3_mapped].
Lemma carriage_return f1 lo hi w st : range_field f1 lo hi -> Forall blank w -> In st seven ->
  row_line (f1 ++ 59 :: w ++ name_bytes st ++ [13; 10]) (lo, hi, Other (name_bytes st ++ [13]), None).
Proof.
  intros R W I.
  replace (f1 ++ 59 :: w ++ name_bytes st ++ [13; 10]) with (join [59] (f1 :: (w ++ (name_bytes st ++ [13]) ++ [10]) :: []) ++ [])
    by (cbn [join]; rewrite app_nil_r, <- (app_assoc (name_bytes st)); reflexivity).
  constructor; [exact R| | |exact Logic.I|constructor|left; reflexivity].
  - cbn [fine_status]. split; [destruct (name_bytes st); discriminate|]. split.
    + apply Forall_app. split; [|apply Forall_cons; [unfold code_white; lia|constructor]].
      assert (forallb (fun c => negb ((c =? 32) || (c =? 8) || (c =? 11) || (c =? 9) || (c =? 10) || (c =? 35) || (c =? 59))) (name_bytes st) = true) as H.
      { cbn [seven In] in I. repeat (destruct I as [<-|I]; [reflexivity|]). destruct I. }
      rewrite forallb_forall in H. apply Forall_forall. intros c Hc. specialize (H c Hc). cbv beta in H. unfold code_white. lia.
    + intros st' I' E. apply (f_equal (fun l => last l 0)) in E. rewrite last_last in E.
      cbn [In] in I'. repeat (destruct I' as [<-|I']; [discriminate E|]). destruct I'.
  - exists w, [10]. split; [reflexivity|]. split; [assumption|]. apply Forall_cons; [unfold blank; lia|constructor].
Qed.
Lemma other_line_ok junk line r : text line -> zlen line < 2 ^ 32 - 1 -> other_line line -> read_line junk (line ++ 0 :: r) = Ok None.
Proof.
  intros T L (body & rest & -> & N1 & N2 & C). rewrite zlen_app in L. pose proof (zlen_nonneg rest). pose proof (zlen_nonneg body).
  pose proof T as T0. apply text_app in T0. destruct T0 as [Tb _].
  unfold read_line. destruct (split_first junk body rest r T N1 C) as (l & ->); [rewrite zlen_app; lia|]. cbn [bind].
  unfold as_block. pose proof (split_fields junk [body] [] 59 (u32 (-1))) as S. cbn [join] in S. rewrite S; try assumption; try lia; try discriminate.
  - reflexivity.
  - constructor; [assumption|constructor].
  - change (u32 (-1)) with (2 ^ 32 - 1). lia.
Qed.

(** * Files *)
Lemma getline_nl l file : ~ In 10 l -> getline (l ++ 10 :: file) = (l ++ [10], file).
Proof.
  induction l as [|c l IH]; intros N; cbn [app getline]; [reflexivity|].
  destruct (Z.eqb_spec c 10) as [->|]; [exfalso; apply N; left; reflexivity|].
  rewrite IH; [reflexivity|]. intros I. apply N. right. assumption.
Qed.
Lemma getline_last l : ~ In 10 l -> getline l = (l, []).
Proof.
  induction l as [|c l IH]; intros N; cbn [getline]; [reflexivity|].
  destruct (Z.eqb_spec c 10) as [->|]; [exfalso; apply N; left; reflexivity|].
  rewrite IH; [reflexivity|]. intros I. apply N. right. assumption.
Qed.
Lemma getline_ok line file : whole_line line file -> getline (line ++ file) = (line, file) /\ line <> [].
Proof.
  intros [(l & -> & N)|(E & N & ->)].
  - rewrite <- app_assoc. split; [apply getline_nl; assumption|destruct l; discriminate].
  - rewrite app_nil_r. split; [apply getline_last; assumption|assumption].
Qed.
Definition raw (row : idna_row) : raw_row := let '(lo, hi, st, m) := row in (lo, hi, name_bytes st, m).
Lemma text_ok junk file rows : idna_text file rows -> text file -> zlen file < 2 ^ 32 - 1 -> forall fuel, (length file < fuel)%nat ->
  read_text junk fuel file = Ok (map raw rows).
Proof.
  induction 1 as [|line file row rows W R _ IH|line file rows W R _ IH]; intros T L fuel F.
  - destruct fuel as [|fuel]; [lia|]. reflexivity.
  - apply text_app in T. destruct T as [T1 T2]. rewrite zlen_app in L. pose proof (zlen_nonneg line). pose proof (zlen_nonneg file).
    rewrite app_length in F. destruct fuel as [|fuel]; [lia|]. cbn [read_text].
    destruct (getline_ok _ _ W) as [-> N]. assert (1 <= length line)%nat as Q by (destruct line; [congruence|cbn; lia]).
    destruct row as [[[lo hi] st] m]. rewrite (row_line_ok junk line lo hi st m []); try assumption; try lia.
    destruct line as [|c line]; [congruence|]. cbn [bind]. rewrite IH by (assumption || lia). reflexivity.
  - apply text_app in T. destruct T as [T1 T2]. rewrite zlen_app in L. pose proof (zlen_nonneg line). pose proof (zlen_nonneg file).
    rewrite app_length in F. destruct fuel as [|fuel]; [lia|]. cbn [read_text].
    destruct (getline_ok _ _ W) as [-> N]. assert (1 <= length line)%nat as Q by (destruct line; [congruence|cbn; lia]).
    rewrite (other_line_ok junk line []); try assumption; try lia.
    destruct line as [|c line]; [congruence|]. cbn [bind]. rewrite IH by (assumption || lia). reflexivity.
Qed.
Lemma status_of_name st : fine_status st -> status_of (name_bytes st) = st.
Proof.
  intros F. destruct st; try (vm_compute; reflexivity). destruct F as (_ & _ & F). cbn [name_bytes]. unfold status_of.
  destruct (find _ known_statuses) as [[s st]|] eqn:E; [|reflexivity]. exfalso. apply find_some in E. destruct E as [I E].
  apply IdnaTabProofs.same_bytes_eq in E. cbn [fst] in E. subst s.
  cbn [known_statuses In] in I. destruct I as [I|[I|[I|[I|[I|[I|[I|[]]]]]]]]; injection I as Ek Es;
    (apply (F st); [subst st; cbn; tauto|]); rewrite <- Ek, <- Es; reflexivity.
Qed.
Lemma text_fine file rows : idna_text file rows -> Forall (fun row => fine_status (snd (fst row))) rows.
Proof. induction 1 as [|line file row rows W R _ IH|]; [constructor| |assumption]. constructor; [|exact IH]. destruct R. assumption. Qed.
Lemma rows_of_raw rows : Forall (fun row : idna_row => fine_status (snd (fst row))) rows -> map row_of (map raw rows) = rows.
Proof.
  induction 1 as [|[[[lo hi] st] m] rows F _ IH]; [reflexivity|]. cbn [map raw row_of]. rewrite (status_of_name st F), IH. reflexivity.
Qed.
Lemma gen_text_ok junk buffer file rows : text file -> zlen file < 2 ^ 32 - 1 -> idna_text file rows ->
  gen_idna_text junk buffer file = gen_idna_table buffer rows.
Proof.
  intros T L H. unfold gen_idna_text. rewrite (text_ok junk file rows H T L) by lia. cbn [bind]. rewrite (rows_of_raw rows (text_fine file rows H)). reflexivity.
Qed.

(** * Examples *)
Lemma xvalue_hex c : 0 <= xvalue c -> hex_value c (xvalue c).
Proof.
  unfold xvalue. intros H. destruct ((48 <=? c) && (c <=? 57)) eqn:E1.
  - replace c with (48 + (c - 48)) at 1 by lia. constructor. lia.
  - destruct ((65 <=? c) && (c <=? 70)) eqn:E2.
    + replace c with (65 + (c - 55 - 10)) at 1 by lia. constructor. lia.
    + destruct ((97 <=? c) && (c <=? 102)) eqn:E3; [|lia]. replace c with (97 + (c - 87 - 10)) at 1 by lia. constructor. lia.
Qed.
Definition number (ds : list Z) : Z := fold_left (fun n c => 16 * n + xvalue c) ds 0.
Lemma number_ok ds : ds <> [] -> forallb (fun c => 0 <=? xvalue c) ds = true -> hex_number ds (number ds).
Proof.
  intros N H. rewrite forallb_forall in H. induction ds as [|c ds IH] using rev_ind; [congruence|].
  assert (hex_value c (xvalue c)) as V.
  { apply xvalue_hex. specialize (H c). cbv beta in H. rewrite in_app_iff in H. specialize (H (or_intror (or_introl eq_refl))). lia. }
  destruct ds as [|d ds].
  - replace (number ([] ++ [c])) with (xvalue c) by (unfold number; cbn [app fold_left]; lia). constructor. assumption.
  - unfold number. rewrite fold_left_app. cbn [fold_left]. apply Num_more; [|assumption]. apply IH; [discriminate|].
    intros x I. apply H. apply in_or_app. left. assumption.
Qed.
