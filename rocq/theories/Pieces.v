(** Proofs for C128: text processed in pieces. *)
From Verif Require Import Base CMem Base64Model Base64Spec Base64Proofs Base64Round NewMem.
From Verif Require Import CharstrSpec CharstrModel CharstrProofs IdnaTextProofs Utf8Spec Utf8Model Utf8Proofs UrlSpec UrlModel UrlProofs PiecesSpec.
From Coq Require Import ZifyBool ZifyNat.

(** Base64, encoding *)
Lemma triple_ind (P : list Z -> Prop) : P [] -> (forall a b c l, P l -> P (a :: b :: c :: l)) ->
  forall l, (length l mod 3 = 0)%nat -> P l.
Proof.
  intros P0 P3 l. remember (length l / 3)%nat as n eqn:En. revert l En. induction n as [|n IH]; intros l En M.
  - destruct l as [|a [|b [|c l]]]; [exact P0|discriminate M|discriminate M|]. cbn [length] in En.
    exfalso. assert (X : (S (S (S (length l))) / 3 = 1 + length l / 3)%nat) by (replace (S (S (S (length l)))) with (length l + 1 * 3)%nat by lia; rewrite Nat.div_add by lia; lia).
    rewrite X in En. lia.
  - destruct l as [|a [|b [|c l]]]; try discriminate. apply P3.
    assert (X : (S (S (S (length l))) / 3 = 1 + length l / 3)%nat) by (replace (S (S (S (length l)))) with (length l + 1 * 3)%nat by lia; rewrite Nat.div_add by lia; lia).
    assert (Y : (S (S (S (length l))) mod 3 = length l mod 3)%nat) by (replace (S (S (S (length l)))) with (length l + 1 * 3)%nat by lia; rewrite Nat.mod_add by lia; lia).
    cbn [length] in En, M. rewrite X in En. rewrite Y in M. apply IH; [lia|exact M].
Qed.
Lemma sextets_app a b : (length a mod 3 = 0)%nat -> sextets (a ++ b) = sextets a ++ sextets b.
Proof. intros M. revert a M. apply triple_ind; [reflexivity|]. intros x y z l IH. cbn [app sextets]. rewrite IH. reflexivity. Qed.
Lemma padding_app a b : (length a mod 3 = 0)%nat -> padding (a ++ b) = padding b.
Proof.
  intros M. unfold padding. rewrite app_length, Nat.add_mod, M by lia. rewrite Nat.add_0_l, Nat.mod_mod by lia. reflexivity.
Qed.
Lemma padding_none a : (length a mod 3 = 0)%nat -> padding a = [].
Proof. unfold padding. intros ->. reflexivity. Qed.
Lemma base64_app p q a b : (length a mod 3 = 0)%nat -> base64 p q (a ++ b) = base64 p q a ++ base64 p q b.
Proof. intros M. unfold base64. rewrite sextets_app, padding_app, (padding_none a), map_app, app_nil_r, app_assoc by exact M. reflexivity. Qed.
Lemma mod3_nat (a : list Z) : zlen a mod 3 = 0 -> (length a mod 3 = 0)%nat.
Proof. unfold zlen. intros H. apply Nat2Z.inj. rewrite Nat2Z.inj_mod. exact H. Qed.

Lemma encode_pieces junk a b ra rb r : bytes a -> bytes b -> zlen a + zlen b < 2 ^ 60 -> zlen a mod 3 = 0 ->
  exists x y, base64_encode_simple junk (a ++ ra) (zlen a) = Ok (Some (x ++ [0])) /\
    base64_encode_simple junk (b ++ rb) (zlen b) = Ok (Some (y ++ [0])) /\
    base64_encode_simple junk (a ++ b ++ r) (zlen a + zlen b) = Ok (Some (x ++ y ++ [0])).
Proof.
  intros A B L M. pose proof (zlen_nonneg a). pose proof (zlen_nonneg b). exists (base64 43 47 a), (base64 43 47 b).
  split; [apply encode_simple_ok; [exact A|lia]|]. split; [apply encode_simple_ok; [exact B|lia]|].
  rewrite <- zlen_app, app_assoc, encode_simple_ok; [|apply Forall_app; split; assumption|rewrite zlen_app; lia].
  rewrite base64_app by (apply mod3_nat; exact M). rewrite <- app_assoc. reflexivity.
Qed.

Lemma Ok_pair {A B} (a a' : A) (b b' : B) : Ok (a, b) = Ok (a', b') -> a = a' /\ b = b'.
Proof. intros E. split; congruence. Qed.
Lemma encode_stream a b tl tl' tl'' dest size p62 p63 dest1 n1 dest2 n2 : bytes a -> bytes b -> zlen a + zlen b < 2 ^ 60 -> zlen a mod 3 = 0 ->
  0 <= size <= zlen dest ->
  base64_encode_buffer (a ++ tl) (zlen a) dest size p62 p63 = Ok (dest1, n1) -> n1 < size ->
  base64_encode_buffer (b ++ tl') (zlen b) (skipn (Z.to_nat n1) dest1) (size - n1) p62 p63 = Ok (dest2, n2) ->
  base64_encode_buffer (a ++ b ++ tl'') (zlen a + zlen b) dest size p62 p63 = Ok (firstn (Z.to_nat n1) dest1 ++ dest2, n1 + n2).
Proof.
  intros A B L M S. pose proof (zlen_nonneg a). pose proof (zlen_nonneg b).
  rewrite encode_buffer_ok by (first [assumption|lia]). cbv zeta. unfold terminated at 1. set (E := base64 _ _ a). pose proof (zlen_nonneg E) as PE.
  intros X N1. assert (n1 = zlen E) by (injection X as _ X; symmetry; exact X). revert X. replace (size =? 0) with false by lia.
  intros X. apply Ok_pair in X. destruct X as [<- <-]. rewrite Z.min_l by lia. rewrite zlen_to_nat, firstn_all.
  rewrite skipn_app, skipn_all, Nat.sub_diag, skipn_O, app_nil_l.
  rewrite firstn_app, Nat.sub_diag, firstn_all, firstn_O, app_nil_r.
  assert (LD : zlen (0 :: skipn (Datatypes.S (length E)) dest) = zlen dest - zlen E).
  { unfold zlen in *. cbn [length]. rewrite skipn_length. lia. }
  rewrite encode_buffer_ok by (first [assumption|lia]). cbv zeta. unfold terminated. set (F := base64 _ _ b). pose proof (zlen_nonneg F) as PF.
  replace (size - zlen E =? 0) with false by lia. intros X. apply Ok_pair in X. destruct X as [<- <-].
  rewrite <- zlen_app, app_assoc, encode_buffer_ok; [|apply Forall_app; split; assumption|rewrite zlen_app; lia|exact S]. cbv zeta. unfold terminated.
  rewrite base64_app by (apply mod3_nat; exact M). fold E F. rewrite zlen_app. replace (size =? 0) with false by lia.
  set (k := Z.min (zlen F) (size - zlen E - 1)). replace (Z.min (zlen E + zlen F) (size - 1)) with (zlen E + k) by (unfold k; lia).
  assert (K : 0 <= k) by (unfold k; lia). rewrite Z2Nat.inj_add by lia. rewrite zlen_to_nat.
  rewrite firstn_app, firstn_all2 by lia. replace (length E + Z.to_nat k - length E)%nat with (Z.to_nat k) by lia.
  rewrite <- app_assoc. do 4 f_equal. change (skipn (Datatypes.S (Z.to_nat k)) (0 :: skipn (Datatypes.S (length E)) dest)) with (skipn (Z.to_nat k) (skipn (Datatypes.S (length E)) dest)). rewrite UrlProofs.skipn_skipn. f_equal. f_equal. lia.
Qed.

(** Base64, decoding *)
Section Decode.
Variables (value : Z -> option Z) (wsp : Z -> bool).
Hypothesis eq_none : value 61 = None.
Hypothesis eq_wsp : wsp 61 = false.
Lemma filter_wsp t : Forall (fun c => wsp c = true) t -> filter (fun c => negb (wsp c)) t = [].
Proof. induction 1 as [|c t W F IH]; [reflexivity|]. cbn [filter]. rewrite W. exact IH. Qed.
Lemma filter_nil_wsp t : filter (fun c => negb (wsp c)) t = [] -> Forall (fun c => wsp c = true) t.
Proof.
  induction t as [|c t IH]; intros E; [constructor|]. cbn [filter] in E. destruct (wsp c) eqn:W; [|discriminate].
  constructor; [exact W|apply IH; exact E].
Qed.
Lemma sextets_nil d : sextets d = [] -> d = [].
Proof. destruct d as [|a [|b [|c d]]]; [reflexivity|discriminate|discriminate|discriminate]. Qed.
Lemma decodes_app t1 t2 d1 d2 : (length d1 mod 3 = 0)%nat -> Base64Spec.decodes value wsp t1 d1 -> Base64Spec.decodes value wsp t2 d2 ->
  Base64Spec.decodes value wsp (t1 ++ t2) (d1 ++ d2).
Proof.
  intros M (B1 & b1 & p1 & w1 & -> & M1 & P1 & W1) (B2 & b2 & p2 & w2 & -> & M2 & P2 & W2).
  split; [apply Forall_app; split; assumption|]. rewrite padding_none in P1 by exact M. subst p1. cbn [app].
  exists (b1 ++ w1 ++ b2), p2, w2. split; [rewrite <- !app_assoc; reflexivity|]. rewrite padding_app, sextets_app by exact M.
  split; [|split; assumption]. rewrite !filter_app, (filter_wsp w1) by exact W1. cbn [app]. rewrite !map_app, M1, M2. reflexivity.
Qed.
Lemma decodes_blank t1 t2 d1 : Base64Spec.decodes value wsp t1 d1 -> Base64Spec.decodes value wsp t2 [] -> Base64Spec.decodes value wsp (t1 ++ t2) d1.
Proof.
  intros (B1 & b1 & p1 & w1 & -> & M1 & P1 & W1) (B2 & b2 & p2 & w2 & -> & M2 & P2 & W2). split; [exact B1|].
  exists b1, p1, (w1 ++ b2 ++ p2 ++ w2). split; [rewrite <- !app_assoc; reflexivity|]. split; [exact M1|]. split; [exact P1|].
  change (padding []) with (@nil Z) in P2. subst p2. apply Forall_app. split; [exact W1|]. apply Forall_app. split; [|exact W2].
  apply filter_nil_wsp. cbn in M2. destruct (filter _ b2); [reflexivity|discriminate].
Qed.
Lemma decodes_after_padding t1 t2 d1 d2 : (length d1 mod 3 <> 0)%nat -> d2 <> [] -> Base64Spec.decodes value wsp t1 d1 -> Base64Spec.decodes value wsp t2 d2 ->
  forall d, ~ Base64Spec.decodes value wsp (t1 ++ t2) d.
Proof.
  intros M N (_ & b1 & p1 & w1 & -> & M1 & P1 & W1) (_ & b2 & p2 & w2 & -> & M2 & P2 & W2) d (_ & b & p & w & E & Mb & P & W).
  assert (C : exists c v, In c b2 /\ wsp c = false /\ value c = Some v).
  { destruct (filter (fun c => negb (wsp c)) b2) as [|c l] eqn:Ef.
    - exfalso. apply N. apply sextets_nil. destruct (sextets d2); [reflexivity|discriminate].
    - assert (I : In c (filter (fun c => negb (wsp c)) b2)) by (rewrite Ef; left; reflexivity). apply filter_In in I. destruct I as [I V].
      destruct (sextets d2) as [|v s]; [discriminate|]. cbn [map] in M2. injection M2 as M2 _. exists c, v. destruct (wsp c); [discriminate|auto]. }
  destruct C as (c & v & Ic & Wc & Vc).
  assert (E61 : exists p', p1 = 61 :: p').
  { rewrite P1. unfold padding. destruct (length d1 mod 3)%nat as [|[|k]]; [destruct (M eq_refl)|eexists; reflexivity|eexists; reflexivity]. }
  destruct E61 as (p' & ->).
  assert (Nb : ~ In 61 b).
  { intros I. assert (X : In (value 61) (map value (filter (fun c => negb (wsp c)) b))) by (apply in_map, filter_In; rewrite eq_wsp; auto).
    rewrite Mb, eq_none in X. apply in_map_iff in X. destruct X as (? & ? & _). discriminate. }
  assert (Ip : In c (p ++ w)).
  { rewrite <- !app_assoc in E. cbn [app] in E. revert E Nb. clear - Ic. revert b1. induction b as [|x b IH]; intros b1 E Nb.
    - cbn [app] in E. rewrite <- E. apply in_or_app. right. right. apply in_or_app. right. apply in_or_app. right. apply in_or_app. left. exact Ic.
    - destruct b1 as [|y b1]; cbn [app] in E; injection E as E1 E; [exfalso; apply Nb; left; symmetry; exact E1|].
      apply (IH b1 E). intros I. apply Nb. right. exact I. }
  apply in_app_iff in Ip. destruct Ip as [I|I].
  - rewrite P in I. assert (c = 61) by (unfold padding in I; destruct (length d mod 3)%nat as [|[|k]]; cbn in I; intuition). congruence.
  - rewrite Forall_forall in W. specialize (W c I). congruence.
Qed.
End Decode.

Definition text_bytes_nz s : text s -> Forall (fun c => byte c /\ c <> 0) s.
Proof. intros T. eapply Forall_impl; [|exact T]. unfold byte. cbn. intros; lia. Qed.

Lemma decode_pieces junk t1 t2 r1 r2 r d1 n1 d2 n2 : text t1 -> text t2 -> zlen t1 + zlen t2 < 2 ^ 62 ->
  base64_decode_simple junk (t1 ++ 0 :: r1) = Ok (Some (d1 ++ [0], n1)) ->
  base64_decode_simple junk (t2 ++ 0 :: r2) = Ok (Some (d2 ++ [0], n2)) ->
  base64_decode_simple junk (t1 ++ t2 ++ 0 :: r) =
  Ok (if (n1 mod 3 =? 0) || (n2 =? 0) then Some (d1 ++ d2 ++ [0], n1 + n2) else None).
Proof.
  intros T1 T2 L E1 E2. pose proof (zlen_nonneg t1). pose proof (zlen_nonneg t2). rewrite app_assoc.
  destruct (decode_simple_ok junk t1 r1 (text_bytes_nz _ T1) ltac:(lia)) as [(d & D1 & E)|(_ & E)]; rewrite E in E1; [|discriminate].
  injection E1 as E1 <-. apply app_inj_tail in E1. destruct E1 as [-> _].
  destruct (decode_simple_ok junk t2 r2 (text_bytes_nz _ T2) ltac:(lia)) as [(d & D2 & E')|(_ & E')]; rewrite E' in E2; [|discriminate].
  injection E2 as E2 <-. apply app_inj_tail in E2. destruct E2 as [-> _].
  assert (T : text (t1 ++ t2)) by (apply Forall_app; split; assumption).
  assert (G : good_pos 43 /\ good_pos 47) by (vm_compute; repeat split; discriminate).
  destruct (decode_simple_ok junk (t1 ++ t2) r (text_bytes_nz _ T) ltac:(rewrite zlen_app; lia)) as [(d & D & ->)|(Nd & ->)].
  - destruct (Nat.eq_dec (length d1 mod 3) 0) as [M|M].
    + rewrite (decodes_unique 43 47 true (t1 ++ t2) d (d1 ++ d2) (proj1 G) (proj2 G) D (decodes_app _ _ _ _ _ _ M D1 D2)).
      assert (X : zlen d1 mod 3 = 0) by (unfold zlen; rewrite <- (Nat2Z.inj_mod _ 3), M; reflexivity). rewrite X, zlen_app, <- app_assoc. reflexivity.
    + destruct d2 as [|c d2]; [|exfalso; exact (decodes_after_padding _ _ eq_refl eq_refl t1 t2 d1 (c :: d2) M ltac:(discriminate) D1 D2 d D)].
      change (zlen (@nil Z)) with 0. cbn [Z.eqb app]. rewrite Bool.orb_true_r, Z.add_0_r.
      rewrite (decodes_unique 43 47 true (t1 ++ t2) d d1 (proj1 G) (proj2 G) D (decodes_blank _ _ _ _ _ D1 D2)). reflexivity.
  - destruct (Nat.eq_dec (length d1 mod 3) 0) as [M|M]; [exfalso; exact (Nd _ (decodes_app _ _ _ _ _ _ M D1 D2))|].
    destruct d2 as [|c d2]; [exfalso; exact (Nd _ (decodes_blank _ _ _ _ _ D1 D2))|].
    replace (zlen d1 mod 3 =? 0) with false; [|symmetry; apply Z.eqb_neq; intros X; apply M, mod3_nat, X].
    rewrite zlen_cons. pose proof (zlen_nonneg d2). replace (1 + zlen d2 =? 0) with false by lia. reflexivity.
Qed.

(** URL encoding *)
Lemma url_encode_pieces junk reserve unreserve r1 r2 t a b ra rb r : text reserve -> text unreserve ->
  charstr_create_url_encoder (reserve ++ 0 :: r1) (unreserve ++ 0 :: r2) = Ok t ->
  text a -> text b -> 3 * (zlen a + zlen b) + 1 < 2 ^ 64 ->
  exists x y s1 s2 s3, text x /\ text y /\
    charstr_url_custom_encode junk t (a ++ 0 :: ra) = Ok (x ++ 0 :: s1) /\
    charstr_url_custom_encode junk t (b ++ 0 :: rb) = Ok (y ++ 0 :: s2) /\
    charstr_url_custom_encode junk t (a ++ b ++ 0 :: r) = Ok (x ++ y ++ 0 :: s3).
Proof.
  intros Hr Hu Et A B L. pose proof (zlen_nonneg a). pose proof (zlen_nonneg b).
  destruct (create_ok reserve unreserve r1 r2 Hr Hu) as (t' & E & H1). rewrite Et in E. injection E as <-.
  destruct (encode_ok junk reserve unreserve t a ra H1 A ltac:(lia)) as (s1 & E1 & _).
  destruct (encode_ok junk reserve unreserve t b rb H1 B ltac:(lia)) as (s2 & E2 & _).
  assert (T : text (a ++ b)) by (apply Forall_app; split; assumption).
  destruct (encode_ok junk reserve unreserve t (a ++ b) r H1 T ltac:(rewrite zlen_app; lia)) as (s3 & E3 & _).
  do 2 eexists. exists s1, s2, s3. split; [exact (text_encoding reserve unreserve t a H1 A)|]. split; [exact (text_encoding reserve unreserve t b H1 B)|].
  split; [exact E1|]. split; [exact E2|]. rewrite app_assoc, E3. rewrite map_app, concat_app, <- app_assoc. reflexivity.
Qed.
Lemma url_decodes_app p e d : UrlSpec.decodes p e d -> forall e' d', UrlSpec.decodes p e' d' -> UrlSpec.decodes p (e ++ e') (d ++ d').
Proof. induction 1; intros e' d' D; cbn [app]; [exact D|constructor; auto..]. Qed.
Lemma illegal_app a b : illegal b -> illegal (a ++ b).
Proof. intros I. induction a as [|c a IH]; [exact I|]. apply illegal_cons. exact IH. Qed.
Lemma url_decode_pieces junk plus a b ra rb r x n o : text a -> text b -> zlen a + zlen b + 1 < 2 ^ 64 ->
  charstr_url_decode junk (a ++ 0 :: ra) plus = Ok (Some (x ++ [0], n)) ->
  charstr_url_decode junk (b ++ 0 :: rb) plus = Ok o ->
  charstr_url_decode junk (a ++ b ++ 0 :: r) plus = Ok (option_map (fun y => (x ++ fst y, n + snd y)) o).
Proof.
  intros A B L E1 E2. pose proof (zlen_nonneg a). pose proof (zlen_nonneg b). rewrite app_assoc.
  assert (T : text (a ++ b)) by (apply Forall_app; split; assumption).
  destruct (decode_ok junk plus a ra A ltac:(lia)) as [[E _]|(d & D & E)]; rewrite E in E1; [discriminate|].
  injection E1 as E1 <-. apply app_inj_tail in E1. destruct E1 as [-> _].
  destruct (decode_ok junk plus b rb B ltac:(lia)) as [[E' I]|(d & D' & E')]; rewrite E' in E2; injection E2 as <-; cbn [option_map fst snd];
    destruct (decode_ok junk plus (a ++ b) r T ltac:(rewrite zlen_app; lia)) as [[-> I']|(d' & D'' & ->)].
  - reflexivity.
  - exfalso. exact (decodes_legal _ _ _ D'' (illegal_app a b I)).
  - exfalso. exact (decodes_legal _ _ _ (url_decodes_app _ _ _ D _ _ D') I').
  - rewrite (decodes_det _ _ _ D'' _ (url_decodes_app _ _ _ D _ _ D')). rewrite zlen_app, <- app_assoc. reflexivity.
Qed.

(** UTF-8 *)
Lemma pattern_cont bs cp : pattern bs cp -> Forall (fun c => 0x80 <= c < 0xc0) (tl bs).
Proof. intros P. destruct P; cbn [tl]; repeat (constructor; [lia|]); constructor. Qed.
Lemma pattern_tail bs cp pre u : pattern bs cp -> bs = pre ++ u -> pre <> [] -> u <> [] -> continues u.
Proof.
  intros P E N1 N2. apply pattern_cont in P. rewrite E in P. destruct pre as [|x pre]; [destruct (N1 eq_refl)|]. cbn [app tl] in P.
  apply Forall_app in P. destruct P as [_ P]. destruct u as [|c u]; [destruct (N2 eq_refl)|]. exact (Forall_inv P).
Qed.
Lemma app_split {A} (a b p q : list A) : a ++ b = p ++ q -> (exists l, a = p ++ l /\ q = l ++ b) \/ (exists l, l <> [] /\ p = a ++ l /\ b = l ++ q).
Proof.
  revert p. induction a as [|x a IH]; intros p E.
  - destruct p as [|y p]; [left; exists []; split; [reflexivity|symmetry; exact E]|]. right. exists (y :: p). split; [discriminate|]. split; [reflexivity|exact E].
  - destruct p as [|y p]; [left; exists (x :: a); split; [reflexivity|symmetry; exact E]|]. cbn [app] in E. injection E as <- E.
    destruct (IH p E) as [(l & -> & ->)|(l & N & -> & ->)]; [left; exists l|right; exists l]; auto.
Qed.
Lemma sane_app a ta : sane a ta -> forall b tb, sane b tb -> valid a \/ ~ continues b -> sane (a ++ b) (ta ++ tb).
Proof.
  induction 1 as [|bs cp s t A S IH|c s t Bad S IH]; intros b tb SB H; [exact SB| |].
  - rewrite <- !app_assoc. apply Sane_good with cp; [exact A|]. apply IH; [exact SB|]. destruct H as [V|N]; [left; exact (proj1 (valid_step bs cp s A) V)|right; exact N].
  - destruct H as [V|N]; [destruct (valid_bad c s Bad V)|]. cbn [app]. rewrite <- app_assoc. apply Sane_bad; [|apply IH; [exact SB|right; exact N]].
    intros (bs & cp & u & E & A). change (c :: s ++ b) with ((c :: s) ++ b) in E. destruct (app_split _ _ _ _ E) as [(l & E1 & E2)|(l & Nl & E1 & E2)].
    + apply Bad. exists bs, cp, l. auto.
    + apply N. pose proof (pattern_tail bs cp (c :: s) l (proj1 A) E1 ltac:(discriminate) Nl) as C. subst b. destruct l; [destruct (Nl eq_refl)|exact C].
Qed.
Lemma sane_length s t : sane s t -> (length s <= length t)%nat /\ (length s = length t -> s = t).
Proof.
  induction 1 as [|bs cp s t A S IH|c s t Bad S IH]; [split; [cbn; lia|reflexivity]| |].
  - rewrite !app_length. split; [lia|]. intros E. f_equal. apply IH. lia.
  - change (utf8 0xfffd ++ t) with (0xEF :: 0xBF :: 0xBD :: t). cbn [length]. split; [lia|]. intros E. lia.
Qed.
Lemma sane_exists s : bytes s -> exists t, sane s t.
Proof.
  remember (length s) as n eqn:En. assert (L : (length s <= n)%nat) by lia. clear En. revert s L. induction n as [|n IH]; intros s L B.
  - destruct s; [exists []; constructor|cbn in L; lia].
  - destruct s as [|c s]; [exists []; constructor|]. destruct (dec (c :: s)) as [[u cp]|] eqn:D.
    + destruct (dec_sound _ _ _ B D) as (bs & E & A). rewrite E in B, L. pose proof (pattern_length _ _ (proj1 A)). rewrite app_length in L.
      destruct (IH u ltac:(lia) (proj2 (proj1 (bytes_app _ _) B))) as (t & S). exists (bs ++ t). rewrite E. apply Sane_good with cp; assumption.
    + destruct (IH s ltac:(cbn in L; lia) (Forall_inv_tail B)) as (t & S). exists (utf8 0xfffd ++ t). apply Sane_bad; [exact (dec_none _ B D)|exact S].
Qed.
Lemma valid_app a b : bytes a -> bytes b -> valid a \/ ~ continues b -> (valid (a ++ b) <-> valid a /\ valid b).
Proof.
  intros A B H. destruct (sane_exists a A) as (ta & SA). destruct (sane_exists b B) as (tb & SB). pose proof (sane_app a ta SA b tb SB H) as S.
  split.
  - intros V. pose proof (sane_same _ _ S V) as E. destruct (sane_length a ta SA) as [L1 E1]. destruct (sane_length b tb SB) as [L2 E2].
    pose proof (f_equal (@length Z) E) as EL. rewrite !app_length in EL. rewrite (E1 ltac:(lia)) , (E2 ltac:(lia)). split; eapply sane_valid; eassumption.
  - intros [V1 V2]. pose proof (sane_same _ _ SA V1) as ->. pose proof (sane_same _ _ SB V2) as ->. exact (sane_valid _ _ S).
Qed.
Lemma valid_pieces a b ra rb r : text a -> text b -> valid a \/ ~ continues b ->
  exists va vb, charstr_valid_utf8 (Some (a ++ 0 :: ra)) = Ok va /\ charstr_valid_utf8 (Some (b ++ 0 :: rb)) = Ok vb /\
    charstr_valid_utf8 (Some (a ++ b ++ 0 :: r)) = Ok (va && vb).
Proof.
  intros A B H. assert (T : text (a ++ b)) by (apply Forall_app; split; assumption).
  destruct (valid_ok a ra A) as (va & -> & Ia). destruct (valid_ok b rb B) as (vb & -> & Ib). destruct (valid_ok (a ++ b) r T) as (v & E & I).
  exists va, vb. split; [reflexivity|]. split; [reflexivity|]. rewrite app_assoc, E. f_equal. pose proof (valid_app a b (text_bytes a A) (text_bytes b B) H) as X.
  destruct v, va, vb; cbn; try reflexivity; intuition congruence.
Qed.
Lemma sanitize_pieces junk a b ra rb r : text a -> text b -> 3 * (zlen a + zlen b) + 1 < 2 ^ 64 -> valid a \/ ~ continues b ->
  exists x y, charstr_sanitize_utf8 junk (a ++ 0 :: ra) = Ok (x ++ [0]) /\ charstr_sanitize_utf8 junk (b ++ 0 :: rb) = Ok (y ++ [0]) /\
    charstr_sanitize_utf8 junk (a ++ b ++ 0 :: r) = Ok (x ++ y ++ [0]).
Proof.
  intros A B L H. pose proof (zlen_nonneg a). pose proof (zlen_nonneg b). assert (T : text (a ++ b)) by (apply Forall_app; split; assumption).
  destruct (sanitize_ok junk a ra A ltac:(lia)) as (x & -> & SA). destruct (sanitize_ok junk b rb B ltac:(lia)) as (y & -> & SB).
  destruct (sanitize_ok junk (a ++ b) r T ltac:(rewrite zlen_app; lia)) as (z & E & S). exists x, y. split; [reflexivity|]. split; [reflexivity|].
  rewrite app_assoc, E, (sane_det _ _ S _ (sane_app a x SA b y SB H)). unfold as_block. rewrite <- app_assoc. reflexivity.
Qed.

(** Splitting *)
Lemma join_app sep p q : p <> [] -> q <> [] -> join sep (p ++ q) = join sep p ++ sep ++ join sep q.
Proof.
  intros Np Nq. induction p as [|x p IH]; [destruct (Np eq_refl)|]. destruct p as [|y p].
  - cbn [app]. rewrite join_cons by exact Nq. reflexivity.
  - cbn [app] in *. rewrite join_cons by discriminate. rewrite IH by discriminate. rewrite (join_cons sep x (y :: p)) by discriminate. rewrite <- !app_assoc. reflexivity.
Qed.
Lemma all_fields junk s r delim max : text s -> 0 < delim < 256 -> zlen s <= max -> zlen s + 1 < 2 ^ 64 ->
  exists parts, charstr_split junk (s ++ 0 :: r) delim max = Ok (map as_block parts) /\ parts <> [] /\ join [delim] parts = s /\ Forall (fun p => ~ In delim p) parts.
Proof.
  intros T D M L. destruct (split_ok junk s r delim max T D ltac:(pose proof (zlen_nonneg s); lia) L) as (parts & E & J & Z & R).
  exists parts. split; [exact E|]. pose proof (count_len delim s). rewrite Z.min_r in Z by lia.
  assert (N : parts <> []). { intros ->. change (zlen []) with 0 in Z. pose proof (count_nonneg delim s). lia. }
  split; [exact N|]. split; [exact J|]. apply (forall_last _ _ []); try assumption. apply count_in. pose proof (count_join delim parts N R) as C. rewrite J in C. lia.
Qed.
Lemma split_pieces junk a b ra rb r delim max la lb : text a -> text b -> 0 < delim < 256 -> zlen a + zlen b + 1 <= max -> zlen a + zlen b + 2 < 2 ^ 64 ->
  charstr_split junk (a ++ 0 :: ra) delim max = Ok la -> charstr_split junk (b ++ 0 :: rb) delim max = Ok lb ->
  charstr_split junk (a ++ delim :: b ++ 0 :: r) delim max = Ok (la ++ lb).
Proof.
  intros A B D M L E1 E2. pose proof (zlen_nonneg a). pose proof (zlen_nonneg b).
  destruct (all_fields junk a ra delim max A D ltac:(lia) ltac:(lia)) as (pa & Ea & Na & Ja & Fa). rewrite Ea in E1. injection E1 as <-.
  destruct (all_fields junk b rb delim max B D ltac:(lia) ltac:(lia)) as (pb & Eb & Nb & Jb & Fb). rewrite Eb in E2. injection E2 as <-.
  assert (J : join [delim] (pa ++ pb) = a ++ delim :: b) by (rewrite join_app, Ja, Jb by assumption; reflexivity).
  replace (a ++ delim :: b ++ 0 :: r) with (join [delim] (pa ++ pb) ++ 0 :: r) by (rewrite J, <- app_assoc; reflexivity).
  rewrite split_fields; [rewrite map_app; reflexivity|destruct pa; [destruct (Na eq_refl)|discriminate]| |exact D|apply Forall_app; split; assumption| |];
    rewrite J; [apply text_app; split; [exact A|]; apply text_cons; split; [exact D|exact B]|rewrite zlen_app, zlen_cons; lia..].
Qed.
Lemma atoms_app W a la : atoms W a la -> forall c b lb, W c -> atoms W b lb -> atoms W (a ++ c :: b) (la ++ lb).
Proof.
  induction 1 as [w Hw|w x s l Hw Hx Fx Hs A IH]; intros c b lb Wc B.
  - cbn [app]. inversion B as [w' Hw'|w' x s l Hw' Hx Fx Hs A]; subst.
    + apply Atoms_end. apply Forall_app. split; [exact Hw|constructor; assumption].
    + replace (w ++ c :: w' ++ x ++ s) with ((w ++ c :: w') ++ x ++ s) by (rewrite <- app_assoc; reflexivity).
      apply Atoms_cons; try assumption. apply Forall_app. split; [exact Hw|constructor; assumption].
  - rewrite <- !app_assoc. cbn [app]. apply Atoms_cons; try assumption; [|apply IH; assumption].
    right. destruct Hs as [->|(c' & s' & -> & Wc')]; [exists c, b; auto|exists c', (s' ++ c :: b); auto].
Qed.

(** Where an atom ends and the white space around it are determined. *)
Lemma white_run (W : Z -> Prop) w x s w' x' s' : w ++ x ++ s = w' ++ x' ++ s' -> Forall W w -> Forall W w' -> x <> [] -> x' <> [] ->
  Forall (fun c => ~ W c) x -> Forall (fun c => ~ W c) x' -> w = w' /\ x ++ s = x' ++ s'.
Proof.
  intros E. revert w' E. induction w as [|c w IH]; intros w' E F F' N N' B B'.
  - destruct w' as [|c' w']; [auto|]. exfalso. destruct x as [|d x]; [destruct (N eq_refl)|]. cbn [app] in E. injection E as E1 _. subst.
    exact (Forall_inv B (Forall_inv F')).
  - destruct w' as [|c' w'].
    + exfalso. destruct x' as [|d x']; [destruct (N' eq_refl)|]. cbn [app] in E. injection E as E1 _. subst. exact (Forall_inv B' (Forall_inv F)).
    + cbn [app] in E. injection E as <- E. destruct (IH w' E (Forall_inv_tail F) (Forall_inv_tail F') N N' B B') as [-> E']. auto.
Qed.
Definition stops (W : Z -> Prop) (s : list Z) : Prop := s = [] \/ exists c s', s = c :: s' /\ W c.
Lemma black_run (W : Z -> Prop) x s x' s' : x ++ s = x' ++ s' -> Forall (fun c => ~ W c) x -> Forall (fun c => ~ W c) x' -> stops W s -> stops W s' -> x = x' /\ s = s'.
Proof.
  revert x'. induction x as [|c x IH]; intros x' E B B' S S'.
  - destruct x' as [|c' x']; [auto|]. exfalso. cbn [app] in E. destruct S as [->|(d & t & -> & Wd)]; [discriminate|]. injection E as -> _.
    exact (Forall_inv B' Wd).
  - destruct x' as [|c' x'].
    + exfalso. cbn [app] in E. destruct S' as [->|(d & t & -> & Wd)]; [discriminate|]. injection E as <- _. exact (Forall_inv B Wd).
    + cbn [app] in E. injection E as <- E. destruct (IH x' E (Forall_inv_tail B) (Forall_inv_tail B') S S') as [-> ->]. auto.
Qed.
Lemma atoms_det W s l : atoms W s l -> forall l', atoms W s l' -> l = l'.
Proof.
  assert (Z : forall w x s : list Z, Forall W (w ++ x ++ s) -> x <> [] -> Forall (fun c => ~ W c) x -> False).
  { intros w x t F N B. destruct x as [|c x]; [exact (N eq_refl)|]. apply Forall_app in F. destruct F as [_ F]. exact (Forall_inv B (Forall_inv F)). }
  induction 1 as [w Hw|w x s l Hw Hx Fx Hs A IH]; intros l' A'.
  - inversion A' as [w' Hw'|w' x' s' l'' Hw' Hx' Fx' Hs' A'']; subst; [reflexivity|]. destruct (Z _ _ _ Hw Hx' Fx').
  - inversion A' as [w' Hw' E|w' x' s' l'' Hw' Hx' Fx' Hs' A'' E]; subst; [destruct (Z _ _ _ Hw' Hx Fx)|].
    destruct (white_run W _ _ _ _ _ _ E Hw' Hw Hx' Hx Fx' Fx) as [-> E2].
    destruct (black_run W _ _ _ _ E2 Fx' Fx Hs' Hs) as [-> ->]. f_equal. apply IH. exact A''.
Qed.
Lemma atoms_pieces junk a b ra rb r c la lb : text a -> text b -> code_white c -> zlen a + zlen b + 2 < 2 ^ 64 ->
  charstr_split_atoms junk (a ++ 0 :: ra) = Ok la -> charstr_split_atoms junk (b ++ 0 :: rb) = Ok lb ->
  charstr_split_atoms junk (a ++ c :: b ++ 0 :: r) = Ok (la ++ lb).
Proof.
  intros A B C L E1 E2. pose proof (zlen_nonneg a). pose proof (zlen_nonneg b).
  destruct (split_atoms_ok junk a ra A ltac:(lia)) as (pa & Ea & Aa). rewrite Ea in E1. injection E1 as <-.
  destruct (split_atoms_ok junk b rb B ltac:(lia)) as (pb & Eb & Ab). rewrite Eb in E2. injection E2 as <-.
  assert (T : text (a ++ c :: b)) by (apply text_app; split; [exact A|apply text_cons; split; [unfold code_white in C; lia|exact B]]).
  destruct (split_atoms_ok junk (a ++ c :: b) r T ltac:(rewrite zlen_app, zlen_cons; lia)) as (p & E & Ap).
  rewrite <- (app_assoc a (c :: b)) in E. cbn [app] in E. rewrite E, (atoms_det _ _ _ Ap _ (atoms_app _ _ _ Aa c b pb C Ab)), map_app. reflexivity.
Qed.

(** Comparison *)
Lemma lex_app a : forall a' s s', length a = length a' -> lex (a ++ s) (a' ++ s') = if lex a a' =? 0 then lex s s' else lex a a'.
Proof.
  induction a as [|x a IH]; intros [|y a'] s s' L; try discriminate L; [reflexivity|]. cbn [app lex]. destruct (x <? y); [reflexivity|].
  destruct (y <? x); [reflexivity|]. apply IH. cbn in L. lia.
Qed.
Lemma cmp_pieces a a' s s' ra ra' rs rs' r r' : text a -> text a' -> text s -> text s' ->
  charstr_case_cmp (a ++ 0 :: ra) (a' ++ 0 :: ra') = Ok 0 ->
  charstr_case_cmp (a ++ s ++ 0 :: r) (a' ++ s' ++ 0 :: r') = charstr_case_cmp (s ++ 0 :: rs) (s' ++ 0 :: rs').
Proof.
  intros A A' S S' E. rewrite case_cmp_ok in E by assumption. injection E as E.
  rewrite !app_assoc. rewrite !case_cmp_ok by (first [assumption|apply text_app; split; assumption]). rewrite !map_app.
  pose proof (proj1 (lex_zero _ _) E) as E'. rewrite lex_app by (rewrite E'; reflexivity). rewrite E. reflexivity.
Qed.
