(** The Punycode decoder is injective on lower-case strings: a label has only one encoding. *)
From Verif Require Import Base PunySpec PunyProofs.
From Coq Require Import ZifyBool ZifyNat.

(** * Reading an integer *)

Fixpoint take_int (bias : Z) (ds : list Z) (i w k : Z) : option (Z * list Z) :=
  match ds with
  | [] => None
  | c :: ds =>
      match digit_value c with
      | None => None
      | Some digit => if digit <? limit k bias then Some (i + digit * w, ds) else take_int bias ds (i + digit * w) (w * (36 - limit k bias)) (k + 36)
      end
  end.
Definition next_state (n i bias : Z) (out : list Z) (oldi : Z) (ds : list Z) : option (list Z) :=
  let len := zlen out + 1 in
  decode_digits ds (n + i / len) (i mod len + 1) (adapt_bias (i - oldi) len (oldi =? 0)) (insert_at (i mod len) (n + i / len) out) (i mod len + 1) 1 36.

Lemma decode_take bias n out oldi ds : forall i w k, decode_digits ds n i bias out oldi w k =
  match take_int bias ds i w k with
  | Some (i', ds') => next_state n i' bias out oldi ds'
  | None => match ds with [] => if k =? 36 then Some out else None | _ => decode_digits ds n i bias out oldi w k end
  end.
Proof.
  induction ds as [|c ds IH]; intros i w k; [reflexivity|]. cbn [take_int]. destruct (digit_value c) as [d|] eqn:E; [|reflexivity].
  destruct (d <? limit k bias) eqn:L.
  - cbn [decode_digits]. rewrite E, L. reflexivity.
  - destruct (take_int bias ds (i + d * w) (w * (36 - limit k bias)) (k + 36)) as [[i' ds']|] eqn:T; [|reflexivity].
    cbn [decode_digits]. rewrite E, L. rewrite IH, T. reflexivity.
Qed.
Lemma decode_none bias n out oldi ds : forall i w k, 0 < k -> take_int bias ds i w k = None ->
  decode_digits ds n i bias out oldi w k = if (zlen ds =? 0) && (k =? 36) then Some out else None.
Proof.
  induction ds as [|c ds IH]; intros i w k Hk T; [reflexivity|]. cbn [take_int] in T. rewrite zlen_cons. pose proof (zlen_nonneg ds).
  replace (1 + zlen ds =? 0) with false by lia. cbn [andb decode_digits]. destruct (digit_value c) as [d|]; [|reflexivity].
  destruct (d <? limit k bias); [discriminate|]. rewrite IH by (assumption || lia). replace (k + 36 =? 36) with false by lia. rewrite andb_false_r. reflexivity.
Qed.

Lemma digit_bounds c d : digit_value c = Some d -> 0 <= d < 36.
Proof.
  unfold digit_value. destruct ((65 <=? c) && (c <=? 90)) eqn:E1; [intros K; injection K as <-; lia|].
  destruct ((97 <=? c) && (c <=? 122)) eqn:E2; [intros K; injection K as <-; lia|].
  destruct ((48 <=? c) && (c <=? 57)) eqn:E3; [intros K; injection K as <-; lia|discriminate].
Qed.
Lemma digit_inj c c' d : lower_alnum c -> lower_alnum c' -> digit_value c = Some d -> digit_value c' = Some d -> c = c'.
Proof.
  unfold lower_alnum, digit_value. intros H H'.
  replace ((65 <=? c) && (c <=? 90)) with false by lia. replace ((65 <=? c') && (c' <=? 90)) with false by lia.
  destruct ((97 <=? c) && (c <=? 122)) eqn:E2, ((97 <=? c') && (c' <=? 122)) eqn:E2';
  destruct ((48 <=? c) && (c <=? 57)) eqn:E3, ((48 <=? c') && (c' <=? 57)) eqn:E3'; intros K K'; try discriminate; injection K as <-; injection K' as K'; lia.
Qed.

Lemma take_ge bias ds : forall i w k i' r, 0 < w -> take_int bias ds i w k = Some (i', r) -> exists x, 0 <= x /\ i' = i + x * w.
Proof.
  induction ds as [|c ds IH]; intros i w k i' r W T; [discriminate|]. cbn [take_int] in T. destruct (digit_value c) as [d|] eqn:E; [|discriminate].
  apply digit_bounds in E. destruct (d <? limit k bias).
  - injection T as <- _. exists d. split; lia.
  - pose proof (limit_bounds k bias). apply IH in T as (x & X & ->); [|nia]. exists (d + x * (36 - limit k bias)). split; nia.
Qed.
Lemma take_suffix bias ds : forall i w k i' r, take_int bias ds i w k = Some (i', r) -> exists p, ds = p ++ r /\ p <> [].
Proof.
  induction ds as [|c ds IH]; intros i w k i' r T; [discriminate|]. cbn [take_int] in T. destruct (digit_value c) as [d|] eqn:E; [|discriminate].
  destruct (d <? limit k bias).
  - injection T as _ <-. exists [c]. split; [reflexivity|discriminate].
  - apply IH in T as (p & -> & _). exists (c :: p). split; [reflexivity|discriminate].
Qed.
Lemma take_inj bias ds : forall ds2 i w k i' r r2, 0 < w -> Forall lower_alnum ds -> Forall lower_alnum ds2 ->
  take_int bias ds i w k = Some (i', r) -> take_int bias ds2 i w k = Some (i', r2) -> exists p, ds = p ++ r /\ ds2 = p ++ r2.
Proof.
  induction ds as [|c ds IH]; intros [|c2 ds2] i w k i' r r2 W F F2 T T2; try discriminate.
  inversion_clear F as [|? ? Hc F']. inversion_clear F2 as [|? ? Hc2 F2'].
  cbn [take_int] in T, T2. destruct (digit_value c) as [d|] eqn:E; [|discriminate]. destruct (digit_value c2) as [d2|] eqn:E2; [|discriminate].
  pose proof (digit_bounds _ _ E) as B. pose proof (digit_bounds _ _ E2) as B2. pose proof (limit_bounds k bias) as L.
  set (t := limit k bias) in *.
  destruct (d <? t) eqn:D, (d2 <? t) eqn:D2.
  - injection T as T <-. injection T2 as T2 <-. assert (d = d2) as -> by nia. rewrite (digit_inj c c2 d2 Hc Hc2 E E2). exists [c2]. auto.
  - exfalso. injection T as T <-. apply take_ge in T2 as (x & X & T2); [|nia]. nia.
  - exfalso. injection T2 as T2 <-. apply take_ge in T as (x & X & T); [|nia]. nia.
  - assert (d = d2).
    { apply take_ge in T as (x & X & T); [|nia]. apply take_ge in T2 as (x2 & X2 & T2); [|nia].
      assert (d + x * (36 - t) = d2 + x2 * (36 - t)) as Q by (apply (Z.mul_reg_l _ _ w ltac:(lia)); nia).
      destruct (Z.lt_trichotomy x x2) as [Q2|[Q2|Q2]]; nia. }
    subst d2. assert (0 < w * (36 - t)) as W' by nia. destruct (IH ds2 _ _ _ _ _ _ W' F' F2' T T2) as (p & -> & ->). rewrite (digit_inj c c2 d Hc Hc2 E E2). exists (c2 :: p). auto.
Qed.

(** * Insertions *)

Definition upto (n : Z) (l : list Z) : list Z := filter (fun c => c <=? n) l.
Definition under (n : Z) (l : list Z) : list Z := filter (fun c => c <? n) l.
(** All insertions so far are before [(n, i)]. *)
Definition before (n i : Z) (out : list Z) : Prop :=
  0 <= i <= zlen out /\ Forall (fun c => c <= n) (firstn (Z.to_nat i) out) /\ Forall (fun c => c < n) (skipn (Z.to_nat i) out).
(** The rest of the insertions gives [l]. *)
Definition leads (n : Z) (X Y l : list Z) : Prop := exists A B, l = A ++ B /\ upto n A = X /\ under n B = Y.

Lemma filter_id {A} (f : A -> bool) l : Forall (fun c => f c = true) l -> filter f l = l.
Proof. induction 1 as [|c l H _ IH]; [reflexivity|]. cbn [filter]. rewrite H, IH. reflexivity. Qed.
Lemma filter_filter_sub (f g : Z -> bool) l : (forall c, f c = true -> g c = true) -> filter f (filter g l) = filter f l.
Proof.
  intros H. induction l as [|c l IH]; [reflexivity|]. cbn [filter]. destruct (g c) eqn:G; cbn [filter]; [rewrite IH; reflexivity|].
  destruct (f c) eqn:F; [rewrite (H c F) in G; discriminate|exact IH].
Qed.
Lemma filter_split (f : Z -> bool) l : forall X Y, filter f l = X ++ Y -> exists A B, l = A ++ B /\ filter f A = X /\ filter f B = Y.
Proof.
  induction l as [|c l IH]; intros X Y E.
  - cbn in E. symmetry in E. apply app_eq_nil in E as [-> ->]. exists [], []. auto.
  - cbn [filter] in E. destruct (f c) eqn:F.
    + destruct X as [|x X].
      * exists [], (c :: l). split; [reflexivity|]. split; [reflexivity|]. cbn [filter]. rewrite F. exact E.
      * cbn [app] in E. injection E as <- E. destruct (IH X Y E) as (A & B & -> & <- & <-). exists (c :: A), B. split; [reflexivity|]. cbn [filter]. rewrite F. auto.
    + destruct (IH X Y E) as (A & B & -> & <- & <-). exists (c :: A), B. split; [reflexivity|]. cbn [filter]. rewrite F. auto.
Qed.
Lemma upto_app n a b : upto n (a ++ b) = upto n a ++ upto n b.
Proof. apply filter_app. Qed.
Lemma under_app n a b : under n (a ++ b) = under n a ++ under n b.
Proof. apply filter_app. Qed.

Lemma leads_step n n' X Y X' Y' l : Forall (fun c => c <= n) X -> Forall (fun c => c < n) Y -> X ++ Y = X' ++ Y' ->
  (n < n' \/ (n = n' /\ exists M, X' = X ++ M /\ Y = M ++ Y')) ->
  leads n' (X' ++ [n']) Y' l -> leads n X Y l.
Proof.
  intros FX FY E O (A & B & -> & EA & EB).
  assert (N : upto n Y = Y) by (apply filter_id; eapply Forall_impl; [|exact FY]; cbv beta; intros; lia).
  assert (NX : upto n X = X) by (apply filter_id; eapply Forall_impl; [|exact FX]; cbv beta; intros; lia).
  destruct O as [O|(-> & M & -> & ->)].
  - assert (upto n (A ++ B) = X ++ Y) as U.
    { rewrite upto_app. unfold upto at 1. rewrite <- (filter_filter_sub (fun c => c <=? n) (fun c => c <=? n')) by (intros; lia).
      fold (upto n' A). rewrite EA. unfold upto. rewrite <- (filter_filter_sub (fun c => c <=? n) (fun c => c <? n') B) by (intros; lia).
      fold (under n' B). rewrite EB. rewrite filter_app. cbn [filter]. replace (n' <=? n) with false by lia. rewrite app_nil_r, <- filter_app, <- E.
      fold (upto n (X ++ Y)). rewrite upto_app, N, NX. reflexivity. }
    destruct (filter_split _ _ _ _ U) as (A1 & B1 & E1 & EA1 & EB1). exists A1, B1. split; [exact E1|]. split; [exact EA1|].
    rewrite <- EB1 in FY. unfold under. rewrite <- (filter_filter_sub (fun c => c <? n) (fun c => c <=? n)) by (intros; lia). rewrite EB1.
    apply filter_id. rewrite EB1 in FY. eapply Forall_impl; [|exact FY]. cbv beta. intros; lia.
  - rewrite <- app_assoc in EA. destruct (filter_split _ _ _ _ EA) as (A1 & A2 & -> & E1 & E2). exists A1, (A2 ++ B). split; [rewrite app_assoc; reflexivity|]. split; [exact E1|].
    rewrite under_app, EB. f_equal. unfold under. rewrite <- (filter_filter_sub (fun c => c <? n') (fun c => c <=? n')) by (intros; lia). rewrite E2, filter_app. cbn [filter].
    rewrite Z.ltb_irrefl, app_nil_r. apply filter_id. apply Forall_app in FY as [FM _]. eapply Forall_impl; [|exact FM]. cbv beta. intros; lia.
Qed.

Lemma zlen_filter_sub (f g : Z -> bool) l : (forall c, f c = true -> g c = true) -> zlen (filter f l) <= zlen (filter g l).
Proof.
  intros H. rewrite <- (filter_filter_sub f g l H). generalize (filter g l). intros m. induction m as [|c m IH]; [apply Z.le_refl|]. cbn [filter].
  destruct (f c); rewrite ?zlen_cons; lia.
Qed.
Lemma zlen_filter_le (f : Z -> bool) l : zlen (filter f l) <= zlen l.
Proof. induction l as [|c l IH]; [apply Z.le_refl|]. cbn [filter]. destruct (f c); rewrite !zlen_cons; lia. Qed.

Lemma leads_n X1 Y1 X2 Y2 n1 n2 l : X1 ++ Y1 = X2 ++ Y2 -> leads n1 (X1 ++ [n1]) Y1 l -> leads n2 (X2 ++ [n2]) Y2 l -> n2 <= n1.
Proof.
  intros E (A1 & B1 & E1 & EA1 & EB1) (A2 & B2 & E2 & EA2 & EB2).
  destruct (Z_le_gt_dec n2 n1) as [|G]; [assumption|exfalso].
  assert (zlen (upto n1 l) >= zlen (X1 ++ Y1) + 1).
  { rewrite E1, upto_app, EA1. pose proof (zlen_filter_sub (fun c => c <? n1) (fun c => c <=? n1) B1 ltac:(intros; lia)) as K.
    fold (under n1 B1) in K. fold (upto n1 B1) in K. rewrite EB1 in K. rewrite !zlen_app. change (zlen [n1]) with 1. lia. }
  assert (zlen (under n2 l) <= zlen (X2 ++ Y2)).
  { rewrite E2, under_app, EB2. unfold under. rewrite <- (filter_filter_sub (fun c => c <? n2) (fun c => c <=? n2)) by (intros; lia). fold (upto n2 A2). rewrite EA2.
    rewrite filter_app. cbn [filter]. rewrite Z.ltb_irrefl, app_nil_r, !zlen_app. pose proof (zlen_filter_le (fun c => c <? n2) X2). lia. }
  pose proof (zlen_filter_sub (fun c => c <=? n1) (fun c => c <? n2) l ltac:(intros; lia)) as K. fold (upto n1 l) in K. fold (under n2 l) in K. rewrite E in *. lia.
Qed.
Lemma app_prefix (a b c d : list Z) : a ++ b = c ++ d -> zlen a <= zlen c -> exists m, c = a ++ m /\ b = m ++ d.
Proof.
  revert c. induction a as [|x a IH]; intros c E L; [exists c; auto|]. destruct c as [|y c].
  - rewrite zlen_cons in L. change (zlen (@nil Z)) with 0 in L. pose proof (zlen_nonneg a). lia.
  - cbn [app] in E. injection E as <- E. rewrite !zlen_cons in L. destruct (IH c E ltac:(lia)) as (m & -> & ->). exists m. auto.
Qed.
Lemma leads_i X1 Y1 X2 Y2 n l : X1 ++ Y1 = X2 ++ Y2 -> leads n (X1 ++ [n]) Y1 l -> leads n (X2 ++ [n]) Y2 l -> zlen X2 <= zlen X1.
Proof.
  intros E (A1 & B1 & E1 & EA1 & EB1) (A2 & B2 & E2 & EA2 & EB2).
  destruct (Z_le_gt_dec (zlen X2) (zlen X1)) as [|G]; [assumption|exfalso].
  destruct (Z_le_gt_dec (zlen A1) (zlen A2)) as [L|L].
  - destruct (app_prefix A1 B1 A2 B2 ltac:(congruence) L) as (M & -> & ->).
    rewrite upto_app, EA1 in EA2. rewrite under_app, EB2 in EB1.
    assert (zlen (upto n M) = zlen X2 - zlen X1) as L2 by (apply (f_equal zlen) in EA2; rewrite !zlen_app in EA2; change (zlen [n]) with 1 in EA2; lia).
    destruct (exists_last (l := upto n M)) as (M' & x & EM); [intros K; rewrite K in L2; change (zlen (@nil Z)) with 0 in L2; lia|].
    rewrite EM, app_assoc in EA2. apply app_inj_tail in EA2 as [_ ->].
    assert (zlen (under n M) <= zlen X2 - zlen X1 - 1).
    { unfold under. rewrite <- (filter_filter_sub (fun c => c <? n) (fun c => c <=? n)) by (intros; lia). fold (upto n M). rewrite EM in *. rewrite filter_app. cbn [filter].
      rewrite Z.ltb_irrefl, app_nil_r. pose proof (zlen_filter_le (fun c => c <? n) M'). rewrite zlen_app in L2. change (zlen [n]) with 1 in L2. lia. }
    apply (f_equal zlen) in EB1, E. rewrite !zlen_app in *. lia.
  - destruct (app_prefix A2 B2 A1 B1 ltac:(congruence) ltac:(lia)) as (M & -> & ->). rewrite upto_app, EA2 in EA1. apply (f_equal zlen) in EA1. rewrite !zlen_app in EA1.
    pose proof (zlen_nonneg (upto n M)). lia.
Qed.

(** * Runs *)

Definition at_i (i : Z) (out : list Z) : list Z * list Z := (firstn (Z.to_nat i) out, skipn (Z.to_nat i) out).
Lemma div_step n i len delta : 0 < len -> 0 <= i < len -> 0 <= delta ->
  n <= n + (i + delta) / len /\ (n + (i + delta) / len = n -> i <= (i + delta) mod len).
Proof.
  intros L I D. pose proof (Z.div_pos (i + delta) len ltac:(lia) L). split; [lia|]. intros E.
  pose proof (Z.div_mod (i + delta) len ltac:(lia)). replace ((i + delta) / len) with 0 in * by lia. lia.
Qed.
Lemma firstn_more {A} (i j : nat) (l : list A) : (i <= j)%nat -> firstn j l = firstn i l ++ firstn (j - i) (skipn i l).
Proof.
  revert j l. induction i as [|i IH]; intros j l L; [rewrite Nat.sub_0_r; reflexivity|]. destruct j as [|j]; [lia|]. destruct l as [|x l]; [rewrite !firstn_nil; reflexivity|].
  cbn [firstn skipn app Nat.sub]. f_equal. apply IH. lia.
Qed.
Lemma skipn_more {A} (i j : nat) (l : list A) : (i <= j)%nat -> skipn i l = firstn (j - i) (skipn i l) ++ skipn j l.
Proof.
  revert j l. induction i as [|i IH]; intros j l L; [rewrite Nat.sub_0_r; symmetry; apply firstn_skipn|]. destruct j as [|j]; [lia|]. destruct l as [|x l]; [rewrite !skipn_nil, firstn_nil; reflexivity|].
  cbn [skipn Nat.sub]. apply IH. lia.
Qed.
Lemma zlen_firstn_at i (out : list Z) : 0 <= i <= zlen out -> zlen (firstn (Z.to_nat i) out) = i.
Proof. unfold zlen. intros H. rewrite firstn_length. lia. Qed.
Lemma insert_parts i n (out : list Z) : 0 <= i <= zlen out ->
  firstn (Z.to_nat (i + 1)) (insert_at i n out) = firstn (Z.to_nat i) out ++ [n] /\ skipn (Z.to_nat (i + 1)) (insert_at i n out) = skipn (Z.to_nat i) out /\
  zlen (insert_at i n out) = zlen out + 1.
Proof.
  intros H. unfold insert_at. set (X := firstn (Z.to_nat i) out). set (Y := skipn (Z.to_nat i) out).
  assert (length X = Z.to_nat i) as LX by (unfold X; rewrite firstn_length; unfold zlen in H; lia).
  assert (X ++ n :: Y = (X ++ [n]) ++ Y) as E by (rewrite <- app_assoc; reflexivity).
  assert (Z.to_nat (i + 1) = length (X ++ [n])) as LL by (rewrite app_length; cbn [length]; lia).
  rewrite E, LL. split; [rewrite firstn_app, Nat.sub_diag, firstn_all, firstn_O, app_nil_r; reflexivity|].
  split; [rewrite skipn_app, Nat.sub_diag, skipn_all, skipn_O; reflexivity|].
  rewrite <- E, zlen_app, zlen_cons. unfold X, Y. assert (out = firstn (Z.to_nat i) out ++ skipn (Z.to_nat i) out) as K by (symmetry; apply firstn_skipn).
  apply (f_equal zlen) in K. rewrite zlen_app in K. lia.
Qed.

Lemma before_step n i delta out : before n i out -> 0 <= delta ->
  let len := zlen out + 1 in let n' := n + (i + delta) / len in let i' := (i + delta) mod len in
  0 <= i' <= zlen out /\ before n' (i' + 1) (insert_at i' n' out) /\
  (n < n' \/ (n = n' /\ exists M, firstn (Z.to_nat i') out = firstn (Z.to_nat i) out ++ M /\ skipn (Z.to_nat i) out = M ++ skipn (Z.to_nat i') out)).
Proof.
  intros (I & FX & FY) D len n' i'. assert (0 < len) as Lp by (unfold len; pose proof (zlen_nonneg out); lia).
  assert (0 <= i' < len) as Hi by (apply Z.mod_pos_bound; exact Lp).
  destruct (div_step n i len delta Lp ltac:(unfold len; lia) D) as [Hn He]. fold n' i' in Hn, He.
  assert (0 <= i' <= zlen out) as Hi' by (unfold len in Hi; lia).
  destruct (insert_parts i' n' out Hi') as (P1 & P2 & P3).
  assert (n < n' \/ (n = n' /\ exists M, firstn (Z.to_nat i') out = firstn (Z.to_nat i) out ++ M /\ skipn (Z.to_nat i) out = M ++ skipn (Z.to_nat i') out)) as O.
  { destruct (Z.eq_dec n n') as [Q|Q]; [right|left; lia]. split; [exact Q|]. assert (Z.to_nat i <= Z.to_nat i')%nat as Le by (specialize (He ltac:(lia)); lia).
    exists (firstn (Z.to_nat i' - Z.to_nat i) (skipn (Z.to_nat i) out)). split; [apply firstn_more; exact Le|apply skipn_more; exact Le]. }
  split; [exact Hi'|]. split; [|exact O]. split; [lia|]. rewrite P1, P2.
  assert (Forall (fun c => c <= n) out) as All.
  { rewrite <- (firstn_skipn (Z.to_nat i) out). apply Forall_app. split; [exact FX|]. eapply Forall_impl; [|exact FY]. cbv beta. intros; lia. }
  assert (Forall (fun c => c <= n) (firstn (Z.to_nat i') out)) as All1.
  { rewrite <- (firstn_skipn (Z.to_nat i') out) in All. apply Forall_app in All. tauto. }
  split.
  - apply Forall_app. split; [|constructor; [lia|constructor]]. eapply Forall_impl; [|exact All1]. cbv beta. intros; lia.
  - destruct O as [O|(<- & M & _ & EM)].
    + rewrite <- (firstn_skipn (Z.to_nat i') out) in All. apply Forall_app in All as [_ All]. eapply Forall_impl; [|exact All]. cbv beta. intros; lia.
    + rewrite EM in FY. apply Forall_app in FY. tauto.
Qed.

Lemma digits_lead m : forall ds n i bias out l, (length ds <= m)%nat -> before n i out -> decode_digits ds n i bias out i 1 36 = Some l ->
  leads n (firstn (Z.to_nat i) out) (skipn (Z.to_nat i) out) l /\ zlen out <= zlen l.
Proof.
  induction m as [|m IH]; intros ds n i bias out l Lm Bf D.
  - destruct ds; [|cbn in Lm; lia]. cbn in D. injection D as <-. split; [|lia]. destruct Bf as (_ & FX & FY). exists (firstn (Z.to_nat i) out), (skipn (Z.to_nat i) out).
    split; [symmetry; apply firstn_skipn|]. split; apply filter_id; [eapply Forall_impl; [|exact FX]|eapply Forall_impl; [|exact FY]]; cbv beta; intros; lia.
  - destruct (take_int bias ds i 1 36) as [[i' r]|] eqn:T.
    + rewrite decode_take, T in D. unfold next_state in D. destruct (take_ge _ _ _ _ _ _ _ Z.lt_0_1 T) as (x & X & Ei). rewrite Z.mul_1_r in Ei. subst i'.
      destruct (take_suffix _ _ _ _ _ _ _ T) as (p & -> & Np). assert (length r <= m)%nat as Lr.
      { rewrite app_length in Lm. destruct p; [congruence|]. cbn [length] in Lm. lia. }
      destruct (before_step n i x out Bf X) as (Hi & Bf' & O). cbv zeta in Hi, Bf', O.
      set (len := zlen out + 1) in *. set (n' := n + (i + x) / len) in *. set (i' := (i + x) mod len) in *.
      destruct (IH r n' (i' + 1) _ (insert_at i' n' out) l Lr Bf' D) as [Ld Lz]. destruct (insert_parts i' n' out Hi) as (P1 & P2 & P3). rewrite P1, P2 in Ld. split; [|lia].
      destruct Bf as (_ & FX & FY). eapply leads_step; [exact FX|exact FY| |exact O|exact Ld]. rewrite !firstn_skipn. reflexivity.
    + rewrite decode_none in D by (assumption || lia). destruct (zlen ds =? 0) eqn:E0; [|discriminate]. cbn in D. injection D as <-. split; [|lia]. destruct Bf as (_ & FX & FY).
      exists (firstn (Z.to_nat i) out), (skipn (Z.to_nat i) out).
      split; [symmetry; apply firstn_skipn|]. split; apply filter_id; [eapply Forall_impl; [|exact FX]|eapply Forall_impl; [|exact FY]]; cbv beta; intros; lia.
Qed.

Lemma digits_inj m : forall ds ds2 n i bias out l, (length ds <= m)%nat -> before n i out -> Forall lower_alnum ds -> Forall lower_alnum ds2 ->
  decode_digits ds n i bias out i 1 36 = Some l -> decode_digits ds2 n i bias out i 1 36 = Some l -> ds = ds2.
Proof.
  induction m as [|m IH]; intros ds ds2 n i bias out l Lm Bf F F2 D D2.
  - destruct ds; [|cbn in Lm; lia]. cbn in D. injection D as <-. destruct (take_int bias ds2 i 1 36) as [[i' r]|] eqn:T.
    + exfalso. rewrite decode_take, T in D2. unfold next_state in D2. destruct (take_ge _ _ _ _ _ _ _ Z.lt_0_1 T) as (x & X & Ei). rewrite Z.mul_1_r in Ei. subst i'.
      destruct (before_step n i x out Bf X) as (Hi & Bf' & _). cbv zeta in Hi, Bf'.
      destruct (digits_lead _ r _ _ _ _ _ (le_n _) Bf' D2) as [_ Lz]. destruct (insert_parts _ (n + (i + x) / (zlen out + 1)) out Hi) as (_ & _ & P3). lia.
    + rewrite decode_none in D2 by (assumption || lia). destruct ds2; [reflexivity|]. rewrite zlen_cons in D2. pose proof (zlen_nonneg ds2).
      replace (1 + zlen ds2 =? 0) with false in D2 by lia. discriminate.
  - assert (N : forall ds, take_int bias ds i 1 36 = None -> decode_digits ds n i bias out i 1 36 = Some l -> ds = [] /\ out = l).
    { intros xs T Dx. rewrite decode_none in Dx by (assumption || lia). destruct xs; [cbn in Dx; injection Dx as <-; auto|]. rewrite zlen_cons in Dx. pose proof (zlen_nonneg xs).
      replace (1 + zlen xs =? 0) with false in Dx by lia. discriminate. }
    assert (S : forall ds i' r, take_int bias ds i 1 36 = Some (i', r) -> decode_digits ds n i bias out i 1 36 = Some l ->
      exists x, 0 <= x /\ i' = i + x /\ next_state n i' bias out i r = Some l /\ zlen out < zlen l /\
        leads (n + i' / (zlen out + 1)) (firstn (Z.to_nat (i' mod (zlen out + 1))) out ++ [n + i' / (zlen out + 1)]) (skipn (Z.to_nat (i' mod (zlen out + 1))) out) l).
    { intros xs i' r T Dx. rewrite decode_take, T in Dx. destruct (take_ge _ _ _ _ _ _ _ Z.lt_0_1 T) as (x & X & Ei). rewrite Z.mul_1_r in Ei. subst i'.
      exists x. split; [exact X|]. split; [reflexivity|]. split; [exact Dx|]. unfold next_state in Dx.
      destruct (before_step n i x out Bf X) as (Hi & Bf' & _). cbv zeta in Hi, Bf'.
      destruct (digits_lead _ r _ _ _ _ _ (le_n _) Bf' Dx) as [Ld Lz]. destruct (insert_parts _ (n + (i + x) / (zlen out + 1)) out Hi) as (P1 & P2 & P3).
      rewrite P1, P2 in Ld. split; [lia|exact Ld]. }
    destruct (take_int bias ds i 1 36) as [[i1 r1]|] eqn:T1, (take_int bias ds2 i 1 36) as [[i2 r2]|] eqn:T2.
    + destruct (S ds i1 r1 T1 D) as (x1 & X1 & E1 & D1' & _ & Ld1). destruct (S ds2 i2 r2 T2 D2) as (x2 & X2 & E2 & D2' & _ & Ld2).
      set (len := zlen out + 1) in *. assert (0 < len) as Lp by (unfold len; pose proof (zlen_nonneg out); lia).
      assert (forall a b : Z, firstn (Z.to_nat (a mod len)) out ++ skipn (Z.to_nat (a mod len)) out = firstn (Z.to_nat (b mod len)) out ++ skipn (Z.to_nat (b mod len)) out) as Q by (intros; rewrite !firstn_skipn; reflexivity).
      pose proof (leads_n _ _ _ _ _ _ _ (Q i1 i2) Ld1 Ld2). pose proof (leads_n _ _ _ _ _ _ _ (Q i2 i1) Ld2 Ld1).
      assert (n + i1 / len = n + i2 / len) as En by lia. rewrite En in Ld1.
      pose proof (leads_i _ _ _ _ _ _ (Q i1 i2) Ld1 Ld2) as I1. pose proof (leads_i _ _ _ _ _ _ (Q i2 i1) Ld2 Ld1) as I2.
      pose proof (Z.mod_pos_bound i1 len Lp). pose proof (Z.mod_pos_bound i2 len Lp).
      rewrite !zlen_firstn_at in I1, I2 by (unfold len in *; lia).
      assert (i1 = i2) as Ei by (rewrite (Z.div_mod i1 len), (Z.div_mod i2 len) by lia; replace (i1 / len) with (i2 / len) by lia; lia).
      rewrite <- Ei in T2, D2'. destruct (take_inj _ _ _ _ _ _ _ _ _ Z.lt_0_1 F F2 T1 T2) as (p & -> & ->). f_equal.
      destruct (take_suffix _ _ _ _ _ _ _ T1) as (p' & Ep & Np). apply app_inv_tail in Ep. subst p'.
      apply Forall_app in F as [_ F]. apply Forall_app in F2 as [_ F2]. unfold next_state in D1', D2'.
      rewrite E1 in D1', D2'. destruct (before_step n i x1 out Bf X1) as (_ & Bf' & _). cbv zeta in Bf'.
      eapply IH; [|exact Bf'|exact F|exact F2|exact D1'|exact D2']. rewrite app_length in Lm. destruct p; [congruence|]. cbn [length] in Lm. lia.
    + exfalso. destruct (S ds i1 r1 T1 D) as (x1 & _ & _ & _ & L & _). destruct (N ds2 T2 D2) as [_ ->]. lia.
    + exfalso. destruct (S ds2 i2 r2 T2 D2) as (x1 & _ & _ & _ & L & _). destruct (N ds T1 D) as [_ ->]. lia.
    + destruct (N ds T1 D) as [-> _]. destruct (N ds2 T2 D2) as [-> _]. reflexivity.
Qed.

Lemma after_hyphen_some s a d : after_hyphen s = Some (a, d) -> s = a ++ 45 :: d /\ ~ In 45 d.
Proof.
  revert a d. induction s as [|c s IH]; intros a d E; [discriminate|]. cbn [after_hyphen] in E. destruct (after_hyphen s) as [[a' d']|] eqn:A.
  - injection E as <- <-. destruct (IH _ _ eq_refl) as [-> N]. split; [reflexivity|exact N].
  - destruct (Z.eqb_spec c 45) as [->|]; [|discriminate]. injection E as <- <-. split; [reflexivity|].
    clear IH. induction s as [|x s IH]; [intros []|]. cbn [after_hyphen] in A. destruct (after_hyphen s) as [[? ?]|]; [discriminate|]. destruct (Z.eqb_spec x 45); [discriminate|].
    intros [K|K]; [congruence|]. exact (IH eq_refl K).
Qed.
Lemma after_hyphen_none s : after_hyphen s = None -> ~ In 45 s.
Proof.
  induction s as [|x s IH]; [intros _ []|]. cbn [after_hyphen]. destruct (after_hyphen s) as [[? ?]|]; [discriminate|]. destruct (Z.eqb_spec x 45); [discriminate|].
  intros _ [K|K]; [congruence|]. exact (IH eq_refl K).
Qed.
Lemma host_alnum s : Forall (fun c => lower_alnum c \/ c = 45) s -> ~ In 45 s -> Forall lower_alnum s.
Proof. rewrite !Forall_forall. intros H N x I. destruct (H x I) as [K| ->]; [exact K|contradiction]. Qed.
Lemma digits_not_hyphen ds n i bias out oldi w k : In 45 ds -> decode_digits ds n i bias out oldi w k = None.
Proof.
  revert n i bias out oldi w k. induction ds as [|c ds IH]; intros n i bias out oldi w k; [intros []|]. intros [->|I]; [reflexivity|]. cbn [decode_digits].
  destruct (digit_value c); [|reflexivity]. destruct (z <? limit k bias); apply IH; exact I.
Qed.

Lemma decode_parts p l : Forall (fun c => lower_alnum c \/ c = 45) p -> punycode_decode p = Some l ->
  exists ds, p = (if zlen (under 128 l) =? 0 then [] else under 128 l ++ [45]) ++ ds /\ Forall lower_alnum ds /\ Forall (fun c => c < 128) (under 128 l) /\
    decode_digits ds 128 0 72 (under 128 l) 0 1 36 = Some l.
Proof.
  intros F D. unfold punycode_decode in D.
  assert (U : forall basic ds, Forall (fun c => c < 128) basic -> decode_digits ds 128 0 72 basic 0 1 36 = Some l -> under 128 l = basic).
  { intros basic ds Fb Dd. destruct (digits_lead _ ds 128 0 72 basic l (le_n _)) as [(A & B & -> & EA & EB) _]; [|exact Dd|].
    - pose proof (zlen_nonneg basic). split; [lia|]. split; [constructor|]. exact Fb.
    - cbn [Z.to_nat firstn skipn] in EA, EB. rewrite under_app, EB. unfold under. rewrite <- (filter_filter_sub (fun c => c <? 128) (fun c => c <=? 128)) by (intros; lia).
      fold (upto 128 A). rewrite EA. reflexivity. }
  assert (K0 : decode_digits p 128 0 72 [] 0 1 36 = Some l -> exists ds, p = (if zlen (under 128 l) =? 0 then [] else under 128 l ++ [45]) ++ ds /\ Forall lower_alnum ds /\ Forall (fun c => c < 128) (under 128 l) /\
    decode_digits ds 128 0 72 (under 128 l) 0 1 36 = Some l).
  { intros Dd. rewrite (U [] p (Forall_nil _) Dd). exists p. split; [reflexivity|]. split; [|split; [constructor|exact Dd]].
    apply host_alnum; [exact F|]. intros I. rewrite (digits_not_hyphen _ _ _ _ _ _ _ _ I) in Dd. discriminate. }
  destruct (after_hyphen p) as [[[|c basic] ds]|] eqn:A; [exact (K0 D)| |exact (K0 D)].
  destruct (forallb (fun c0 => (0 <=? c0) && (c0 <? 128)) (c :: basic)) eqn:Fb; [|discriminate].
  assert (Forall (fun x => x < 128) (c :: basic)) as Fb' by (apply Forall_forall; rewrite forallb_forall in Fb; intros x I; specialize (Fb x I); lia).
  rewrite (U _ _ Fb' D). apply after_hyphen_some in A as [-> Nh]. exists ds. rewrite zlen_cons. pose proof (zlen_nonneg basic). replace (1 + zlen basic =? 0) with false by lia.
  split; [rewrite <- app_assoc; reflexivity|]. split; [|split; [exact Fb'|exact D]]. apply host_alnum; [|exact Nh]. apply Forall_app in F as [_ F]. inversion_clear F. assumption.
Qed.
Lemma decode_injective p p' l : Forall (fun c => lower_alnum c \/ c = 45) p -> Forall (fun c => lower_alnum c \/ c = 45) p' ->
  punycode_decode p = Some l -> punycode_decode p' = Some l -> p = p'.
Proof.
  intros F F' D D'. destruct (decode_parts p l F D) as (ds & -> & Fd & Fu & Dd). destruct (decode_parts p' l F' D') as (ds' & -> & Fd' & _ & Dd'). f_equal.
  eapply (digits_inj (length ds)); [apply le_n| |exact Fd|exact Fd'|exact Dd|exact Dd'].
  pose proof (zlen_nonneg (under 128 l)). split; [lia|]. split; [constructor|exact Fu].
Qed.
