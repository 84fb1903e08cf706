(** Proofs about the UTF-8 functions. *)
From Verif Require Import Base CMem CharstrModel CharstrSpec CharstrProofs Utf8Model Utf8Spec.

Lemma cons_inj {A} (x y : A) l m : x :: l = y :: m -> x = y /\ l = m.
Proof. intros H. inversion H. auto. Qed.
Ltac conses E := repeat match type of E with _ :: _ = _ :: _ =>
  let H := fresh in apply cons_inj in E; destruct E as [H E] end.

(** ** Bits of bytes *)
Lemma byte_bits c : 0 <= c < 256 ->
  truth (Z.land c 0x80) = (128 <=? c) /\
  (128 <= c -> truth (Z.land c 0x40) = (192 <=? c)) /\
  (192 <= c -> truth (Z.land c 0x20) = (224 <=? c)) /\
  (224 <= c -> truth (Z.land c 0x10) = (240 <=? c)) /\
  (240 <= c -> truth (Z.land c 0x08) = (248 <=? c)) /\
  (c < 128 -> Z.land c 0x7f = c) /\
  (192 <= c < 224 -> Z.land c 0x1f = c - 192) /\
  (224 <= c < 240 -> Z.land c 0x0f = c - 224) /\
  (240 <= c < 248 -> Z.land c 0x07 = c - 240) /\
  (Z.land c 0xc0 =? 0x80) = (128 <=? c) && (c <? 192) /\
  (128 <= c < 192 -> Z.land c 0x3f = c - 128).
Proof.
  intros Hc.
  set (f := fun c =>
    Bool.eqb (truth (Z.land c 0x80)) (128 <=? c) &&
    ((c <? 128) || Bool.eqb (truth (Z.land c 0x40)) (192 <=? c)) &&
    ((c <? 192) || Bool.eqb (truth (Z.land c 0x20)) (224 <=? c)) &&
    ((c <? 224) || Bool.eqb (truth (Z.land c 0x10)) (240 <=? c)) &&
    ((c <? 240) || Bool.eqb (truth (Z.land c 0x08)) (248 <=? c)) &&
    ((128 <=? c) || (Z.land c 0x7f =? c)) &&
    ((c <? 192) || (224 <=? c) || (Z.land c 0x1f =? c - 192)) &&
    ((c <? 224) || (240 <=? c) || (Z.land c 0x0f =? c - 224)) &&
    ((c <? 240) || (248 <=? c) || (Z.land c 0x07 =? c - 240)) &&
    Bool.eqb (Z.land c 0xc0 =? 0x80) ((128 <=? c) && (c <? 192)) &&
    ((c <? 128) || (192 <=? c) || (Z.land c 0x3f =? c - 128))).
  assert (E : f c = true) by (revert c Hc; apply all_bytes; vm_compute; reflexivity).
  unfold f in E. clear f. repeat (rewrite andb_true_iff in E). 
  destruct E as [[[[[[[[[[E1 E2] E3] E4] E5] E6] E7] E8] E9] E10] E11].
  apply eqb_prop in E1. apply eqb_prop in E10.
  assert (O : forall a (b b' : bool), a = false -> a || Bool.eqb b b' = true -> b = b').
  { intros a b b' -> H. apply eqb_prop. exact H. }
  split; [exact E1|]. split; [intros; eapply O; [|exact E2]; lia|]. split; [intros; eapply O; [|exact E3]; lia|].
  split; [intros; eapply O; [|exact E4]; lia|]. split; [intros; eapply O; [|exact E5]; lia|].
  split; [intros; lia|]. split; [intros; lia|]. split; [intros; lia|]. split; [intros; lia|].
  split; [exact E10|]. intros; lia.
Qed.

Lemma cp_or cp x : 0 <= x < 64 -> Z.lor (Z.shiftl cp 6) x = cp * 64 + x.
Proof. intros H. rewrite lor_shiftl_add by (change (2 ^ 6) with 64; lia). reflexivity. Qed.

(** ** The decoder on the bytes up to the end *)
Definition cont (p : list Z) (cp : Z) : option (list Z * Z) :=
  match p with
  | c :: p => if (128 <=? c) && (c <? 192) then Some (p, cp * 64 + (c - 128)) else None
  | [] => None
  end.
Definition obind {A B} (o : option A) (f : A -> option B) : option B := match o with Some a => f a | None => None end.
Definition check (x : list Z * Z) : option (list Z * Z) := if valid_unicode (snd x) then Some x else None.
Definition dec (p : list Z) : option (list Z * Z) :=
  match p with
  | [] => None
  | c :: p =>
      if c <? 128 then Some (p, c)
      else if c <? 192 then None
      else if c <? 224 then obind (cont p (c - 192)) check
      else if c <? 240 then obind (cont p (c - 224)) (fun x => obind (cont (fst x) (snd x)) check)
      else if c <? 248 then obind (cont p (c - 240)) (fun x => obind (cont (fst x) (snd x))
                              (fun x => obind (cont (fst x) (snd x)) check))
      else None
  end.

(** [p] is what may be read: up to [end_], or with the terminator. *)
Definition view (p q : list Z) (end_ : option Z) : Prop :=
  end_ = Some (zlen q) \/ (end_ = None /\ exists s, p = s ++ [0]).
Definition lift (q : list Z) (o : option (list Z * Z)) : option (list Z * Z) :=
  option_map (fun x => (fst x ++ q, snd x)) o.

Lemma view_tl c p q e : c <> 0 -> view (c :: p) q e -> view p q e.
Proof.
  intros Hc [->|(-> & s & E)]; [left; reflexivity|]. right. split; [reflexivity|].
  destruct s as [|x s]; inversion E; [congruence|]. exists s. reflexivity.
Qed.

Lemma view_at_end p q e : view p q e -> at_end (p ++ q) e = match e with Some _ => zlen p =? 0 | None => false end.
Proof.
  intros [->|(-> & _)]; [|reflexivity]. cbn [at_end]. rewrite zlen_app. pose proof (zlen_nonneg p). lia.
Qed.

Lemma bytes_cons c s : bytes (c :: s) <-> 0 <= c < 256 /\ bytes s.
Proof. unfold bytes, byte. split; [intros H; inversion H; auto|intros [? ?]; constructor; assumption]. Qed.

Lemma cont_ok p q e cp : bytes p -> view p q e -> continuation (p ++ q) e cp = Ok (lift q (cont p cp)).
Proof.
  intros Hp Hv. unfold continuation. rewrite (view_at_end p q e Hv). destruct p as [|c p].
  - destruct Hv as [->|(-> & s & E)]; [reflexivity|]. destruct s; discriminate.
  - replace (match e with Some _ => zlen (c :: p) =? 0 | None => false end) with false
      by (destruct e; [rewrite zlen_cons; pose proof (zlen_nonneg p); lia|reflexivity]).
    apply bytes_cons in Hp. destruct Hp as [Hc Hp]. cbn [app cur bind tl cont].
    destruct (byte_bits c Hc) as (_ & _ & _ & _ & _ & _ & _ & _ & _ & E1 & E2). rewrite E1.
    destruct ((128 <=? c) && (c <? 192)) eqn:E; cbn [negb]; [|reflexivity].
    rewrite E2 by lia. rewrite cp_or by lia. reflexivity.
Qed.

Lemma cont_view p q e cp p' cp' : bytes p -> view p q e -> cont p cp = Some (p', cp') -> bytes p' /\ view p' q e.
Proof.
  intros Hp Hv. destruct p as [|c p]; [discriminate|]. cbn [cont].
  destruct ((128 <=? c) && (c <? 192)) eqn:E; [|discriminate]. intros H. inversion H. subst.
  apply bytes_cons in Hp. split; [tauto|]. apply (view_tl c); [lia|assumption].
Qed.

Lemma decode_ok p q e : bytes p -> view p q e ->
  charstr_decode_utf8_codepoint (Some (p ++ q)) e = Ok (lift q (dec p)).
Proof.
  intros Hp Hv. unfold charstr_decode_utf8_codepoint. rewrite (view_at_end p q e Hv). destruct p as [|c p].
  - destruct Hv as [->|(-> & s & E)]; [reflexivity|]. destruct s; discriminate.
  - replace (match e with Some _ => zlen (c :: p) =? 0 | None => false end) with false
      by (destruct e; [rewrite zlen_cons; pose proof (zlen_nonneg p); lia|reflexivity]).
    apply bytes_cons in Hp. destruct Hp as [Hc Hp]. cbn [app cur bind tl dec].
    destruct (byte_bits c Hc) as (B8 & B4 & B2 & B1 & B0 & V1 & V2 & V3 & V4 & _).
    rewrite B8. destruct (c <? 128) eqn:E1.
    { replace (128 <=? c) with false by lia. cbn [negb]. rewrite V1 by lia. reflexivity. }
    replace (128 <=? c) with true by lia. cbn [negb]. rewrite B4 by lia. destruct (c <? 192) eqn:E2.
    { replace (192 <=? c) with false by lia. reflexivity. }
    replace (192 <=? c) with true by lia. cbn [negb]. rewrite B2 by lia.
    apply view_tl in Hv; [|lia]. 
    assert (Fin : forall p cp, bytes p -> view p q e ->
      (x <- continuation (p ++ q) e cp ;; match x with
        | None => Ok None
        | Some (s, cp) => if negb (valid_unicode cp) then Ok None else Ok (Some (s, cp)) end) = Ok (lift q (obind (cont p cp) check))).
    { intros p1 cp H1 H2. rewrite (cont_ok p1 q e cp H1 H2). cbn [bind]. destruct (cont p1 cp) as [[p2 cp2]|]; [|reflexivity].
      cbn. unfold check. cbn. destruct (valid_unicode cp2); reflexivity. }
    destruct (c <? 224) eqn:E3.
    { replace (224 <=? c) with false by lia. cbn [negb bind]. rewrite V2 by lia. apply Fin; assumption. }
    replace (224 <=? c) with true by lia. cbn [negb]. rewrite B1 by lia. destruct (c <? 240) eqn:E4.
    { replace (240 <=? c) with false by lia. cbn [negb bind]. rewrite V3 by lia. rewrite (cont_ok p q e _ Hp Hv). cbn [bind].
      destruct (cont p (c - 224)) as [[p1 cp1]|] eqn:E; [|reflexivity].
      destruct (cont_view _ q e _ _ _ Hp Hv E) as [Hp1 Hv1].
      cbn [lift option_map obind fst snd]. apply Fin; assumption. }
    replace (240 <=? c) with true by lia. cbn [negb]. rewrite B0 by lia. destruct (c <? 248) eqn:E5.
    { replace (248 <=? c) with false by lia. rewrite V4 by lia. rewrite (cont_ok p q e _ Hp Hv). cbn [bind].
      destruct (cont p (c - 240)) as [[p1 cp1]|] eqn:E; [|reflexivity].
      destruct (cont_view _ q e _ _ _ Hp Hv E) as [Hp1 Hv1].
      cbn [lift option_map obind fst snd]. rewrite (cont_ok p1 q e _ Hp1 Hv1). cbn [bind].
      destruct (cont p1 cp1) as [[p2 cp2]|] eqn:E'; [|reflexivity].
      destruct (cont_view _ q e _ _ _ Hp1 Hv1 E') as [Hp2 Hv2].
      cbn [lift option_map obind fst snd]. apply Fin; assumption. }
    replace (248 <=? c) with true by lia. reflexivity.
Qed.

(** ** What it accepts *)
Lemma valid_unicode_ok cp : valid_unicode cp = true <-> scalar cp.
Proof. unfold valid_unicode, scalar. lia. Qed.

Lemma check_some x y : check x = Some y <-> x = y /\ scalar (snd x).
Proof.
  unfold check. rewrite <- valid_unicode_ok. destruct (valid_unicode (snd x)); split.
  - intros H. inversion H. auto.
  - intros [-> _]. reflexivity.
  - discriminate.
  - intros [_ H]. discriminate.
Qed.

Lemma cont_some p cp p' cp' : cont p cp = Some (p', cp') <-> exists x, 0 <= x < 64 /\ p = (128 + x) :: p' /\ cp' = cp * 64 + x.
Proof.
  destruct p as [|c p]; cbn [cont].
  - split; [discriminate|]. intros (x & _ & H & _). discriminate.
  - destruct ((128 <=? c) && (c <? 192)) eqn:E; split.
    + intros H. inversion H. subst. exists (c - 128). split; [lia|]. split; [f_equal; lia|reflexivity].
    + intros (x & Hx & H & ->). apply cons_inj in H. destruct H as [-> ->]. replace (128 + x - 128) with x by lia. reflexivity.
    + discriminate.
    + intros (x & Hx & H & ->). apply cons_inj in H. destruct H as [-> ->]. lia.
Qed.

Lemma obind_some {A B} (o : option A) (f : A -> option B) b : obind o f = Some b <-> exists a, o = Some a /\ f a = Some b.
Proof.
  destruct o as [a|]; cbn [obind]; split.
  - intros H. exists a. auto.
  - intros (a' & H & H'). inversion H. subst. assumption.
  - discriminate.
  - intros (a' & H & H'). discriminate.
Qed.

Lemma dec_sound p u cp : bytes p -> dec p = Some (u, cp) -> exists bs, p = bs ++ u /\ accepted bs cp.
Proof.
  intros Hp. destruct p as [|c p]; cbn [dec]; [discriminate|]. apply bytes_cons in Hp. destruct Hp as [Hc _].
  destruct (c <? 128) eqn:E1.
  { intros H. inversion H. subst. exists [cp]. split; [reflexivity|]. split; [constructor; lia|]. left. lia. }
  destruct (c <? 192) eqn:E2; [discriminate|]. destruct (c <? 224) eqn:E3.
  { intros H. apply obind_some in H. destruct H as ([p1 cp1] & H1 & H2). apply check_some in H2. destruct H2 as [H2 H3].
    inversion H2. subst. apply cont_some in H1. destruct H1 as (x & Hx & -> & ->).
    exists [192 + (c - 192); 128 + x]. split; [cbn [app]; apply f_equal2; [lia|reflexivity]|]. split; [|assumption]. apply Pattern2; lia. }
  destruct (c <? 240) eqn:E4.
  { intros H. apply obind_some in H. destruct H as ([p1 cp1] & H1 & H). apply obind_some in H. cbn [fst snd] in H.
    destruct H as ([p2 cp2] & H2 & H3). apply check_some in H3. destruct H3 as [H3 H4]. inversion H3. subst.
    apply cont_some in H1. destruct H1 as (x & Hx & -> & ->). apply cont_some in H2. destruct H2 as (y & Hy & -> & ->).
    exists [224 + (c - 224); 128 + x; 128 + y]. split; [cbn [app]; apply f_equal2; [lia|reflexivity]|]. split; [|assumption]. apply Pattern3; lia. }
  destruct (c <? 248) eqn:E5; [|discriminate].
  intros H. apply obind_some in H. destruct H as ([p1 cp1] & H1 & H). apply obind_some in H. cbn [fst snd] in H.
  destruct H as ([p2 cp2] & H2 & H). apply obind_some in H. cbn [fst snd] in H.
  destruct H as ([p3 cp3] & H3 & H4). apply check_some in H4. destruct H4 as [H4 H5]. inversion H4. subst.
  apply cont_some in H1. destruct H1 as (x & Hx & -> & ->). apply cont_some in H2. destruct H2 as (y & Hy & -> & ->).
  apply cont_some in H3. destruct H3 as (z & Hz & -> & ->).
  exists [240 + (c - 240); 128 + x; 128 + y; 128 + z]. split; [cbn [app]; apply f_equal2; [lia|reflexivity]|]. split; [|assumption]. apply Pattern4; lia.
Qed.

Lemma dec_complete bs u cp : accepted bs cp -> dec (bs ++ u) = Some (u, cp).
Proof.
  assert (C : forall cp x u, 0 <= x < 64 -> cont (128 + x :: u) cp = Some (u, cp * 64 + x)).
  { intros. apply cont_some. exists x. auto. }
  intros [H Hs]. destruct H; cbn [dec app].
  - replace (a <? 128) with true by lia. reflexivity.
  - replace (192 + a <? 128) with false by lia. replace (192 + a <? 192) with false by lia.
    replace (192 + a <? 224) with true by lia. rewrite C by assumption. cbn [obind]. apply check_some.
    replace (192 + a - 192) with a by lia. auto.
  - replace (224 + a <? 128) with false by lia. replace (224 + a <? 192) with false by lia.
    replace (224 + a <? 224) with false by lia. replace (224 + a <? 240) with true by lia.
    rewrite C by assumption. cbn [obind fst snd]. rewrite C by assumption. cbn [obind]. apply check_some.
    replace (224 + a - 224) with a by lia. auto.
  - replace (240 + a <? 128) with false by lia. replace (240 + a <? 192) with false by lia.
    replace (240 + a <? 224) with false by lia. replace (240 + a <? 240) with false by lia. replace (240 + a <? 248) with true by lia.
    rewrite C by assumption. cbn [obind fst snd]. rewrite C by assumption. cbn [obind fst snd]. rewrite C by assumption.
    cbn [obind]. apply check_some. replace (240 + a - 240) with a by lia. auto.
Qed.

Lemma dec_none p : bytes p -> dec p = None -> ~ exists bs cp u, p = bs ++ u /\ accepted bs cp.
Proof. intros Hp H (bs & cp & u & -> & A). rewrite (dec_complete bs u cp A) in H. discriminate. Qed.

(** The decoder's contract. *)
Lemma decode_spec p q e : bytes p -> view p q e ->
  exists o, charstr_decode_utf8_codepoint (Some (p ++ q)) e = Ok o /\
    match o with
    | Some (t, cp) => exists bs u, p = bs ++ u /\ t = u ++ q /\ accepted bs cp
    | None => ~ exists bs cp u, p = bs ++ u /\ accepted bs cp
    end.
Proof.
  intros Hp Hv. exists (lift q (dec p)). split; [apply decode_ok; assumption|].
  destruct (dec p) as [[u cp]|] eqn:E; cbn.
  - destruct (dec_sound p u cp Hp E) as (bs & -> & A). exists bs, u. auto.
  - apply dec_none; assumption.
Qed.

(** ** Encodings are patterns *)
Lemma utf8_pattern cp : 0 <= cp < 0x200000 -> pattern (utf8 cp) cp.
Proof.
  intros H. unfold utf8. destruct (cp <? 0x80) eqn:E1; [apply Pattern1; lia|].
  assert (M : forall x, 0 <= x mod 64 < 64) by (intros; apply Z.mod_pos_bound; lia).
  pose proof (Z.div_mod cp 64 ltac:(lia)) as D1.
  assert (D2 : cp / 64 / 64 = cp / 4096) by (rewrite Z.div_div by lia; reflexivity).
  assert (D3 : cp / 64 / 64 / 64 = cp / 262144) by (rewrite !Z.div_div by lia; reflexivity).
  pose proof (Z.div_mod (cp / 64) 64 ltac:(lia)) as D4.
  pose proof (Z.div_mod (cp / 64 / 64) 64 ltac:(lia)) as D5.
  pose proof (M cp). pose proof (M (cp / 64)). pose proof (M (cp / 64 / 64)).
  destruct (cp <? 0x800) eqn:E2.
  { replace cp with (cp / 64 * 64 + cp mod 64) at 3 by lia. apply Pattern2; lia. }
  destruct (cp <? 0x10000) eqn:E3.
  { replace cp with ((cp / 4096 * 64 + cp / 64 mod 64) * 64 + cp mod 64) at 4 by lia. apply Pattern3; lia. }
  replace cp with (((cp / 262144 * 64 + cp / 4096 mod 64) * 64 + cp / 64 mod 64) * 64 + cp mod 64) at 5.
  - rewrite <- D2. apply Pattern4; try lia.
  - rewrite <- D2. lia.
Qed.

(** Patterns are prefix-free. *)
Lemma pattern_prefix bs cp bs' cp' u u' : pattern bs cp -> pattern bs' cp' -> bs ++ u = bs' ++ u' ->
  bs = bs' /\ cp = cp' /\ u = u'.
Proof.
  intros H H' E. destruct H, H'; cbn [app] in E; conses E; try lia; subst u;
    (split; [|split; [lia|reflexivity]]); repeat (apply f_equal2; [lia|]); reflexivity.
Qed.

(** Among the patterns of a value, the encoding is the shortest. *)
Lemma utf8_shortest bs cp : pattern bs cp -> zlen (utf8 cp) <= zlen bs /\ (zlen (utf8 cp) = zlen bs -> bs = utf8 cp).
Proof.
  intros H.
  assert (U : 0 <= cp < 0x200000) by (destruct H; lia).
  pose proof (utf8_pattern cp U) as HU.
  assert (L : zlen (utf8 cp) = if cp <? 0x80 then 1 else if cp <? 0x800 then 2 else if cp <? 0x10000 then 3 else 4).
  { unfold utf8. destruct (cp <? 0x80); [reflexivity|]. destruct (cp <? 0x800); [reflexivity|]. destruct (cp <? 0x10000); reflexivity. }
  split.
  - rewrite L. destruct H; cbn [zlen length]; unfold zlen; cbn [length];
      repeat match goal with |- context [?a <? ?b] => destruct (Z.ltb_spec a b) end; lia.
  - intros E. clear L. revert HU E. generalize (utf8 cp). intros l HU E.
    destruct H; inversion HU; subst; unfold zlen in E; cbn [length] in E; try lia;
      repeat (apply f_equal2; [lia|]); reflexivity.
Qed.

(** ** Validity *)
Lemma pattern_nonempty bs cp : pattern bs cp -> bs <> [].
Proof. intros H. destruct H; discriminate. Qed.
Lemma pattern_length bs cp : pattern bs cp -> (1 <= length bs)%nat.
Proof. intros H. destruct H; cbn; lia. Qed.

Lemma valid_nil : valid [].
Proof. exists []. split; [reflexivity|constructor]. Qed.
Lemma valid_step bs cp s : accepted bs cp -> (valid (bs ++ s) <-> valid s).
Proof.
  intros A. split.
  - intros (parts & E & F). destruct parts as [|b parts].
    + exfalso. destruct A as [A _]. apply pattern_length in A. apply (f_equal (@length Z)) in E.
      rewrite app_length in E. cbn in E. lia.
    + inversion F as [|? ? (cp' & A') F']. subst. cbn [concat] in E.
      destruct (pattern_prefix _ _ _ _ _ _ (proj1 A) (proj1 A') E) as (_ & _ & ->). exists parts. auto.
  - intros (parts & -> & F). exists (bs :: parts). split; [reflexivity|]. constructor; [eauto|assumption].
Qed.
Lemma valid_bad c s : (~ exists bs cp u, c :: s = bs ++ u /\ accepted bs cp) -> ~ valid (c :: s).
Proof.
  intros H (parts & E & F). destruct parts as [|b parts]; [discriminate|]. inversion F as [|? ? (cp & A) F'].
  subst. apply H. exists b, cp, (concat parts). auto.
Qed.

Lemma bytes_app a b : bytes (a ++ b) <-> bytes a /\ bytes b.
Proof. apply Forall_app. Qed.

Lemma valid_bounded_loop_ok : forall n p q fuel, (length p <= n)%nat -> (S n < fuel)%nat -> bytes p ->
  exists b, valid_bounded_loop fuel (Some (p ++ q)) (Some (zlen q)) = Ok b /\ (b = true <-> valid p).
Proof.
  induction n as [n IH] using lt_wf_ind. intros p q fuel Hn Hf Hp. destruct fuel as [|fuel]; [lia|]. cbn [valid_bounded_loop].
  assert (V : view p q (Some (zlen q))) by (left; reflexivity).
  rewrite (view_at_end p q _ V). destruct p as [|c p].
  { exists true. split; [reflexivity|]. split; [intros; apply valid_nil|reflexivity]. }
  replace (zlen (c :: p) =? 0) with false by (rewrite zlen_cons; pose proof (zlen_nonneg p); lia).
  destruct (decode_spec (c :: p) q _ Hp V) as (o & -> & Ho). cbn [bind]. destruct o as [[t cp]|].
  - destruct Ho as (bs & u & E & -> & A). cbn [option_map fst].
    pose proof (pattern_length _ _ (proj1 A)). rewrite E in Hn, Hp |- *. rewrite app_length in Hn.
    apply bytes_app in Hp. destruct Hp as [_ Hp].
    destruct (IH (length u) ltac:(lia) u q fuel) as (b & E1 & E2); try lia; try assumption.
    exists b. split; [exact E1|]. rewrite E2. symmetry. apply (valid_step bs cp). assumption.
  - cbn [option_map]. destruct fuel as [|fuel]; [lia|]. exists false. split; [reflexivity|].
    split; [discriminate|]. intros H. exfalso. apply (valid_bad c p); assumption.
Qed.

Lemma valid_bounded_ok p q : bytes p ->
  exists b, charstr_valid_utf8_bounded (Some (p ++ q)) (Some (zlen q)) = Ok b /\ (b = true <-> valid p).
Proof.
  intros Hp. unfold charstr_valid_utf8_bounded.
  apply (valid_bounded_loop_ok (length p)); [lia| |assumption]. rewrite app_length. lia.
Qed.

(** Strings: the terminator is readable but not part of any encoding of
    another character. *)
Lemma view_string s r : view (s ++ [0]) r None.
Proof. right. split; [reflexivity|]. exists s. reflexivity. Qed.

Lemma text_bytes_nul s : text s -> bytes (s ++ [0]).
Proof. intros H. apply bytes_app. split; [apply text_bytes; assumption|]. repeat constructor; lia. Qed.

Lemma accepted_in_text c s bs u cp : text (c :: s) -> accepted bs cp -> (c :: s) ++ [0] = bs ++ u ->
  exists u', c :: s = bs ++ u' /\ u = u' ++ [0].
Proof.
  intros Hs [P _] E. destruct (exists_last (l := u)) as (u' & z & ->).
  - intros ->. rewrite app_nil_r in E. subst bs.
    assert (Last : exists pre x, (c :: s) ++ [0] = pre ++ [x] /\ (x <> 0 \/ pre = [])).
    { destruct P.
      - exists [], a. auto.
      - exists [192 + a], (128 + b). split; [reflexivity|left; lia].
      - exists [224 + a; 128 + b], (128 + c0). split; [reflexivity|left; lia].
      - exists [240 + a; 128 + b; 128 + c0], (128 + d). split; [reflexivity|left; lia]. }
    destruct Last as (pre & x & E & H). apply app_inj_tail in E. destruct E as [E Ex]. subst pre x.
    destruct H; [congruence|discriminate].
  - rewrite app_assoc in E. apply app_inj_tail in E. destruct E as [E Ez]. subst z. exists u'. auto.
Qed.

(** One step on a non-empty string. *)
Lemma decode_string c s r : text (c :: s) ->
  exists o, charstr_decode_utf8_codepoint (Some (c :: s ++ 0 :: r)) None = Ok o /\
    match o with
    | Some (t, cp) => exists bs u, c :: s = bs ++ u /\ t = u ++ 0 :: r /\ accepted bs cp
    | None => ~ exists bs cp u, c :: s = bs ++ u /\ accepted bs cp
    end.
Proof.
  intros Hs. destruct (decode_spec ((c :: s) ++ [0]) r None (text_bytes_nul _ Hs) (view_string _ _)) as (o & E & Ho).
  rewrite <- app_assoc in E. exists o. split; [exact E|]. destruct o as [[t cp]|].
  - destruct Ho as (bs & u & E1 & -> & A). destruct (accepted_in_text c s bs u cp Hs A E1) as (u' & E2 & ->).
    exists bs, u'. split; [assumption|]. split; [|assumption]. rewrite <- app_assoc. reflexivity.
  - intros (bs & cp & u & E1 & A). apply Ho. exists bs, cp, (u ++ [0]). split; [|assumption].
    rewrite E1, <- app_assoc. reflexivity.
Qed.

Lemma valid_loop_ok : forall n s r fuel, (length s <= n)%nat -> (S n < fuel)%nat -> text s ->
  exists b, valid_loop fuel (Some (s ++ 0 :: r)) = Ok b /\ (b = true <-> valid s).
Proof.
  induction n as [n IH] using lt_wf_ind. intros s r fuel Hn Hf Hs. destruct fuel as [|fuel]; [lia|]. cbn [valid_loop].
  destruct s as [|c s].
  { exists true. split; [reflexivity|]. split; [intros; apply valid_nil|reflexivity]. }
  cbn [app cur bind]. destruct (proj1 (text_cons c s) Hs) as [Hc _]. rewrite truth_pos by assumption.
  destruct (decode_string c s r Hs) as (o & -> & Ho). cbn [bind]. destruct o as [[t cp]|].
  - destruct Ho as (bs & u & E & -> & A). cbn [option_map fst].
    pose proof (pattern_length _ _ (proj1 A)). rewrite E in Hn, Hs |- *. rewrite app_length in Hn.
    apply text_app in Hs. destruct Hs as [_ Hu].
    destruct (IH (length u) ltac:(lia) u r fuel) as (b & E1 & E2); try lia; try assumption.
    exists b. split; [exact E1|]. rewrite E2. symmetry. apply (valid_step bs cp). assumption.
  - cbn [option_map]. destruct fuel as [|fuel]; [lia|]. exists false. split; [reflexivity|].
    split; [discriminate|]. intros H. exfalso. apply (valid_bad c s); assumption.
Qed.

Lemma valid_ok s r : text s ->
  exists b, charstr_valid_utf8 (Some (s ++ 0 :: r)) = Ok b /\ (b = true <-> valid s).
Proof.
  intros Hs. unfold charstr_valid_utf8. apply (valid_loop_ok (length s)); [lia| |assumption]. rewrite app_length. cbn. lia.
Qed.

(** ** Sanitizing *)
Lemma count_bad_ok : forall n s r fuel bad, (length s <= n)%nat -> (n < fuel)%nat -> text s ->
  0 <= bad -> bad + zlen s < 2 ^ 64 ->
  exists t k, count_bad fuel (s ++ 0 :: r) bad = Ok (0 :: r, bad + k) /\ sane s t /\ zlen t = zlen s + 2 * k /\ 0 <= k <= zlen s.
Proof.
  induction n as [n IH] using lt_wf_ind. intros s r fuel bad Hn Hf Hs Hb Hl. destruct fuel as [|fuel]; [lia|]. cbn [count_bad].
  destruct s as [|c s].
  { exists [], 0. rewrite Z.add_0_r. split; [reflexivity|]. split; [constructor|]. unfold zlen; cbn; lia. }
  cbn [app cur bind]. destruct (proj1 (text_cons c s) Hs) as [Hc Hs']. rewrite truth_pos by assumption.
  destruct (decode_string c s r Hs) as (o & -> & Ho). cbn [bind]. destruct o as [[t cp]|].
  - destruct Ho as (bs & u & E & -> & A).
    pose proof (pattern_length _ _ (proj1 A)). rewrite E in Hn, Hs, Hl |- *. rewrite app_length in Hn. rewrite zlen_app in Hl.
    apply text_app in Hs. destruct Hs as [_ Hu]. pose proof (zlen_nonneg bs).
    destruct (IH (length u) ltac:(lia) u r fuel bad) as (t & k & E1 & E2 & E3 & E4); try lia; try assumption.
    exists (bs ++ t), k. split; [exact E1|]. split; [apply (Sane_good bs cp); assumption|]. rewrite !zlen_app. lia.
  - cbn [tl]. rewrite zlen_cons in Hl. cbn [length] in Hn. rewrite u64_small by (pose proof (zlen_nonneg s); lia).
    destruct (IH (length s) ltac:(lia) s r fuel (bad + 1)) as (t & k & E1 & E2 & E3 & E4); try lia; try assumption.
    exists (utf8 0xfffd ++ t), (1 + k). split; [rewrite E1; replace (bad + 1 + k) with (bad + (1 + k)) by lia; reflexivity|]. split; [apply Sane_bad; assumption|].
    rewrite zlen_app, zlen_cons. change (zlen (utf8 65533)) with 3. lia.
Qed.

Lemma copy_until_ok : forall bs pre old post u, zlen old = zlen bs ->
  copy_until (pre ++ old ++ post) (zlen pre) (bs ++ u) u = Ok (pre ++ bs ++ post, zlen pre + zlen bs).
Proof.
  induction bs as [|c bs IH]; intros pre old post u Hl.
  - apply zlen_0_nil in Hl. subst old. cbn [app]. change (zlen (@nil Z)) with 0. rewrite Z.add_0_r.
    destruct u; cbn [copy_until]; rewrite Z.eqb_refl; reflexivity.
  - destruct old as [|x old]; [rewrite zlen_cons in Hl; change (zlen (@nil Z)) with 0 in Hl; pose proof (zlen_nonneg bs); lia|].
    rewrite !zlen_cons in Hl. cbn [app copy_until].
    replace (zlen (c :: bs ++ u) =? zlen u) with false
      by (rewrite zlen_cons, zlen_app; pose proof (zlen_nonneg bs); lia).
    rewrite wr_app by reflexivity. cbn [bind].
    replace (pre ++ c :: old ++ post) with ((pre ++ [c]) ++ old ++ post) by (rewrite <- app_assoc; reflexivity).
    replace (zlen pre + 1) with (zlen (pre ++ [c])) by (rewrite zlen_snoc; lia).
    rewrite IH by lia. rewrite <- app_assoc. cbn [app]. rewrite zlen_snoc, zlen_cons. replace (zlen pre + 1 + zlen bs) with (zlen pre + (1 + zlen bs)) by lia. reflexivity.
Qed.

Lemma sane_det s t : sane s t -> forall t', sane s t' -> t = t'.
Proof.
  intros H. induction H as [|bs cp s t A H IH|c s t Bad H IH]; intros t' H'.
  - inversion H' as [|bs cp s t A Hs E|]; [reflexivity|]. subst. apply app_eq_nil in E. destruct E as [-> _].
    destruct (pattern_nonempty _ _ (proj1 A)). reflexivity.
  - inversion H' as [E|bs' cp' s' t'' A' Hs E|c s' t'' Bad Hs E].
    + symmetry in E. apply app_eq_nil in E. destruct E as [-> _]. destruct (pattern_nonempty _ _ (proj1 A)). reflexivity.
    + destruct (pattern_prefix _ _ _ _ _ _ (proj1 A') (proj1 A) E) as (-> & _ & ->). f_equal. apply IH. assumption.
    + exfalso. apply Bad. exists bs, cp, s. auto.
  - inversion H' as [|bs' cp' s' t'' A' Hs E|c' s' t'' Bad' Hs E].
    + exfalso. apply Bad. exists bs', cp', s'. auto.
    + f_equal. apply IH. assumption.
Qed.

Lemma replacement_is : REPLACEMENT_CHARACTER = utf8 0xfffd.
Proof. reflexivity. Qed.

Lemma sanitize_loop_ok : forall n s t, sane s t -> forall r fuel pre old, (length s <= n)%nat -> (n < fuel)%nat -> text s ->
  zlen old = zlen t + 1 ->
  sanitize_loop fuel (s ++ 0 :: r) (pre ++ old) (zlen pre) = Ok (pre ++ t ++ [0]).
Proof.
  induction n as [n IH] using lt_wf_ind. intros s t H r fuel pre old Hn Hf Hs Hl. destruct fuel as [|fuel]; [lia|]. cbn [sanitize_loop].
  destruct s as [|c s].
  { pose proof (sane_det [] [] Sane_nil t H). subst t. change (zlen (@nil Z)) with 0 in Hl.
    destruct old as [|x [|y old]]; [discriminate| |rewrite !zlen_cons in Hl; pose proof (zlen_nonneg old); lia].
    cbn [app cur bind]. change (truth 0) with false. apply wr_app. reflexivity. }
  cbn [app cur bind]. destruct (proj1 (text_cons c s) Hs) as [Hc Hs']. rewrite truth_pos by assumption.
  destruct (decode_string c s r Hs) as (o & -> & Ho). cbn [bind]. destruct o as [[t' cp]|].
  - destruct Ho as (bs & u & E & -> & A).
    change (c :: s ++ 0 :: r) with ((c :: s) ++ 0 :: r). 
    assert (exists v, t = bs ++ v /\ sane u v) as (v & -> & Hv).
    { inversion H as [|bs' cp' s' t'' A' Hs2 E2|c' s' t'' Bad' Hs2 E2]; subst.
      - rewrite E in E2. destruct (pattern_prefix _ _ _ _ _ _ (proj1 A') (proj1 A) E2) as (-> & _ & ->). eauto.
      - exfalso. apply Bad'. exists bs, cp, u. auto. }
    pose proof (pattern_length _ _ (proj1 A)). rewrite E in Hn, Hs |- *. rewrite app_length in Hn.
    apply text_app in Hs. destruct Hs as [_ Hu]. rewrite zlen_app in Hl. pose proof (zlen_nonneg v).
    rewrite <- (firstn_skipn (length bs) old).
    assert (L1 : zlen (firstn (length bs) old) = zlen bs) by (unfold zlen in *; rewrite firstn_length; lia).
    rewrite <- app_assoc. rewrite copy_until_ok by assumption. cbn [bind].
    replace (pre ++ bs ++ skipn (length bs) old) with ((pre ++ bs) ++ skipn (length bs) old) by (symmetry; apply app_assoc).
    rewrite <- zlen_app. rewrite (IH (length u) ltac:(lia) u v Hv r fuel (pre ++ bs)); try lia; try assumption.
    + rewrite <- !app_assoc. reflexivity.
    + unfold zlen in *. rewrite skipn_length. lia.
  - assert (exists v, t = utf8 0xfffd ++ v /\ sane s v) as (v & -> & Hv).
    { inversion H as [|bs' cp' s' t'' A' Hs2 E2|c' s' t'' Bad' Hs2 E2]; subst.
      - exfalso. apply Ho. exists bs', cp', s'. auto.
      - eauto. }
    cbn [tl]. rewrite replacement_is. rewrite zlen_app in Hl. pose proof (zlen_nonneg v). cbn [length] in Hn.
    rewrite <- (firstn_skipn (length (utf8 0xfffd)) old).
    assert (L1 : zlen (firstn (length (utf8 0xfffd)) old) = zlen (utf8 0xfffd)) by (unfold zlen in *; rewrite firstn_length; lia).
    rewrite blit_app by (reflexivity || assumption). cbn [bind].
    replace (pre ++ utf8 0xfffd ++ skipn (length (utf8 0xfffd)) old) with ((pre ++ utf8 0xfffd) ++ skipn (length (utf8 0xfffd)) old)
      by (symmetry; apply app_assoc).
    rewrite <- zlen_app. rewrite (IH (length s) ltac:(lia) s v Hv r fuel (pre ++ utf8 0xfffd)); try lia; try assumption.
    + rewrite <- !app_assoc. reflexivity.
    + unfold zlen in *. rewrite skipn_length. lia.
Qed.

Lemma sanitize_ok junk s r : text s -> 3 * zlen s + 1 < 2 ^ 64 ->
  exists t, charstr_sanitize_utf8 junk (s ++ 0 :: r) = Ok (as_block t) /\ sane s t.
Proof.
  intros Hs Hl. pose proof (zlen_nonneg s). unfold charstr_sanitize_utf8.
  destruct (count_bad_ok (length s) s r (S (length (s ++ 0 :: r))) 0) as (t & k & E & A & B & C); try lia; try assumption.
  { rewrite app_length. cbn. lia. }
  rewrite E. cbn [bind]. change (zlen REPLACEMENT_CHARACTER) with 3. rewrite zlen_app.
  rewrite Z.add_0_l in *. rewrite (u64_small (_ - _ + _)) by lia. rewrite u64_small by lia. exists t. split; [|assumption].
  pose proof (sanitize_loop_ok (length s) s t A r (S (length (s ++ 0 :: r))) []) as SL.
  cbn [app] in SL. change (zlen (@nil Z)) with 0 in SL. apply SL; try lia; try assumption.
  - rewrite app_length. cbn. lia.
  - rewrite fresh_block_zlen by lia. lia.
Qed.

Lemma fffd : accepted (utf8 0xfffd) 0xfffd.
Proof. split; [apply utf8_pattern; lia|]. right. lia. Qed.

Lemma sane_valid s t : sane s t -> valid t.
Proof.
  intros H. induction H as [|bs cp s t A H IH|c s t Bad H IH]; [apply valid_nil| |].
  - apply (valid_step bs cp); assumption.
  - apply (valid_step (utf8 0xfffd) 0xfffd); [apply fffd|assumption].
Qed.

Lemma sane_same s t : sane s t -> valid s -> t = s.
Proof.
  intros H. induction H as [|bs cp s t A H IH|c s t Bad H IH]; intros V; [reflexivity| |].
  - f_equal. apply IH. apply (valid_step bs cp); assumption.
  - exfalso. apply (valid_bad c s); assumption.
Qed.

(** ** The encoder *)

(** The bytes written for a codepoint of type int. *)
Definition enc (cp : Z) : list Z :=
  map u8 (if cp >=? 0x80 then
    if cp >=? 0x800 then
      if cp >=? 0x10000 then
        [Z.lor 0xf0 (Z.shiftr cp 18); Z.lor 0x80 (Z.land (Z.shiftr cp 12) 0x3f); Z.lor 0x80 (Z.land (Z.shiftr cp 6) 0x3f); Z.lor 0x80 (Z.land cp 0x3f)]
      else [Z.lor 0xe0 (Z.shiftr cp 12); Z.lor 0x80 (Z.land (Z.shiftr cp 6) 0x3f); Z.lor 0x80 (Z.land cp 0x3f)]
    else [Z.lor 0xc0 (Z.shiftr cp 6); Z.lor 0x80 (Z.land cp 0x3f)]
  else [cp]).

Lemma lor_head k n x : 0 <= k -> 0 <= n < 2 ^ k -> Z.lor (x * 2 ^ k) n = x * 2 ^ k + n.
Proof. intros Hk Hn. pose proof (lor_shiftl_add x n k Hk Hn) as H. rewrite Z.shiftl_mul_pow2 in H by assumption. exact H. Qed.

Lemma lor_cont x : Z.lor 0x80 (Z.land x 0x3f) = 0x80 + x mod 64.
Proof.
  change 0x3f with (Z.ones 6). rewrite Z.land_ones by lia. change (2 ^ 6) with 64.
  change 0x80 with (2 * 2 ^ 6). apply lor_head; [lia|]. apply Z.mod_pos_bound. lia.
Qed.

Lemma enc_utf8 cp : 0 <= cp < 0x200000 -> enc cp = utf8 cp.
Proof.
  intros H. unfold enc, utf8. pose proof (Z.mod_pos_bound cp 64 ltac:(lia)).
  pose proof (Z.mod_pos_bound (cp / 64) 64 ltac:(lia)). pose proof (Z.mod_pos_bound (cp / 4096) 64 ltac:(lia)).
  rewrite !Z.shiftr_div_pow2 by lia.
  change (2 ^ 18) with 262144. change (2 ^ 12) with 4096. change (2 ^ 6) with 64. rewrite !lor_cont.
  destruct (cp <? 0x80) eqn:E1. { replace (cp >=? 0x80) with false by lia. cbn [map]. rewrite u8_small by lia. reflexivity. }
  replace (cp >=? 0x80) with true by lia. destruct (cp <? 0x800) eqn:E2.
  { replace (cp >=? 0x800) with false by lia. cbn [map]. rewrite (u8_small (128 + cp mod 64)) by lia.
    change 0xc0 with (6 * 2 ^ 5). rewrite lor_head by (change (2 ^ 5) with 32; lia). rewrite u8_small by lia. reflexivity. }
  replace (cp >=? 0x800) with true by lia. destruct (cp <? 0x10000) eqn:E3.
  { replace (cp >=? 0x10000) with false by lia. cbn [map]. rewrite (u8_small (128 + cp mod 64)), (u8_small (128 + cp / 64 mod 64)) by lia.
    change 0xe0 with (14 * 2 ^ 4). rewrite lor_head by (change (2 ^ 4) with 16; lia). rewrite u8_small by lia. reflexivity. }
  replace (cp >=? 0x10000) with true by lia. cbn [map].
  rewrite (u8_small (128 + cp mod 64)), (u8_small (128 + cp / 64 mod 64)), (u8_small (128 + cp / 4096 mod 64)) by lia.
  change 0xf0 with (30 * 2 ^ 3). rewrite lor_head by (change (2 ^ 3) with 8; lia). rewrite u8_small by lia. reflexivity.
Qed.

Fixpoint puts (b : list Z) (s : Z) (end_ : option Z) (vs : list Z) : res (list Z * option Z) :=
  match vs with
  | [] => Ok (b, Some s)
  | v :: vs =>
      if at_index s end_ then Ok (b, None)
      else b <- wr b s v ;; puts b (s + 1) end_ vs
  end.

Lemma putc_bounded_some b s e v : putc_bounded (b, Some s) e v = if at_index s e then Ok (b, None) else b <- wr b s (u8 v) ;; Ok (b, Some (s + 1)).
Proof. cbn. destruct (at_index s e); [reflexivity|]. unfold putc. destruct (wr b s (u8 v)); reflexivity. Qed.

Lemma encode_puts cp b s e : charstr_encode_utf8_codepoint cp b (Some s) e = puts b s e (enc cp).
Proof.
  unfold charstr_encode_utf8_codepoint, enc.
  destruct (cp >=? 0x80); [|cbn [map puts]; destruct (at_index s e); [reflexivity|];
    unfold putc; destruct (wr b s (u8 cp)); reflexivity].
  destruct (cp >=? 0x800).
  - destruct (cp >=? 0x10000); cbn [map puts]; (destruct (at_index s e); [reflexivity|]); unfold putc.
    + destruct (wr b s _) as [b1| | |]; try reflexivity. cbn [bind]. rewrite putc_bounded_some.
      destruct (at_index (s + 1) e); [reflexivity|].
      destruct (wr b1 _ _) as [b2| | |]; try reflexivity. cbn [bind]. rewrite putc_bounded_some.
      destruct (at_index (s + 1 + 1) e); [reflexivity|].
      destruct (wr b2 _ _) as [b3| | |]; try reflexivity. cbn [bind]. rewrite putc_bounded_some.
      destruct (at_index (s + 1 + 1 + 1) e); [reflexivity|].
      destruct (wr b3 _ _) as [b4| | |]; reflexivity.
    + destruct (wr b s _) as [b1| | |]; try reflexivity. cbn [bind]. rewrite putc_bounded_some.
      destruct (at_index (s + 1) e); [reflexivity|].
      destruct (wr b1 _ _) as [b2| | |]; try reflexivity. cbn [bind]. rewrite putc_bounded_some.
      destruct (at_index (s + 1 + 1) e); [reflexivity|].
      destruct (wr b2 _ _) as [b3| | |]; reflexivity.
  - cbn [map puts]. destruct (at_index s e); [reflexivity|]. unfold putc.
    destruct (wr b s _) as [b1| | |]; try reflexivity. cbn [bind]. rewrite putc_bounded_some.
    destruct (at_index (s + 1) e); [reflexivity|]. unfold putc.
    destruct (wr b1 _ _) as [b2| | |]; reflexivity.
Qed.

Lemma puts_fits : forall vs pre old post e, zlen old = zlen vs ->
  (forall n, e = Some n -> zlen pre + zlen vs <= n) ->
  puts (pre ++ old ++ post) (zlen pre) e vs = Ok (pre ++ vs ++ post, Some (zlen pre + zlen vs)).
Proof.
  induction vs as [|v vs IH]; intros pre old post e Hl He.
  - apply zlen_0_nil in Hl. subst old. cbn [puts app]. change (zlen (@nil Z)) with 0. rewrite Z.add_0_r. reflexivity.
  - destruct old as [|x old]; [rewrite zlen_cons in Hl; change (zlen (@nil Z)) with 0 in Hl; pose proof (zlen_nonneg vs); lia|].
    rewrite !zlen_cons in Hl. cbn [puts app]. rewrite zlen_cons in He. pose proof (zlen_nonneg vs).
    replace (at_index (zlen pre) e) with false
      by (destruct e as [n|]; [cbn [at_index]; specialize (He n eq_refl); lia|reflexivity]).
    rewrite wr_app by reflexivity. cbn [bind].
    replace (pre ++ v :: old ++ post) with ((pre ++ [v]) ++ old ++ post) by (rewrite <- app_assoc; reflexivity).
    replace (zlen pre + 1) with (zlen (pre ++ [v])) by (rewrite zlen_snoc; lia).
    rewrite IH; [|lia|intros n En; specialize (He n En); rewrite zlen_snoc; lia].
    rewrite <- app_assoc. cbn [app]. rewrite zlen_snoc, zlen_cons. replace (zlen pre + 1 + zlen vs) with (zlen pre + (1 + zlen vs)) by lia. reflexivity.
Qed.

Lemma puts_full : forall vs pre old post, zlen old < zlen vs ->
  puts (pre ++ old ++ post) (zlen pre) (Some (zlen pre + zlen old)) vs = Ok (pre ++ firstn (length old) vs ++ post, None).
Proof.
  induction vs as [|v vs IH]; intros pre old post Hl; [change (zlen (@nil Z)) with 0 in Hl; pose proof (zlen_nonneg old); lia|].
  destruct old as [|x old]; cbn [puts app at_index].
  - change (zlen (@nil Z)) with 0. replace (zlen pre =? zlen pre + 0) with true by lia. reflexivity.
  - rewrite !zlen_cons in *. pose proof (zlen_nonneg old). replace (zlen pre =? zlen pre + (1 + zlen old)) with false by lia.
    rewrite wr_app by reflexivity. cbn [bind].
    replace (pre ++ v :: old ++ post) with ((pre ++ [v]) ++ old ++ post) by (rewrite <- app_assoc; reflexivity).
    replace (zlen pre + (1 + zlen old)) with (zlen (pre ++ [v]) + zlen old) by (rewrite zlen_snoc; lia).
    replace (zlen pre + 1) with (zlen (pre ++ [v])) by (rewrite zlen_snoc; lia).
    rewrite IH by lia. rewrite <- app_assoc. reflexivity.
Qed.

Lemma enc_length cp : zlen (enc cp) = if cp <? 0x80 then 1 else if cp <? 0x800 then 2 else if cp <? 0x10000 then 3 else 4.
Proof.
  unfold enc. rewrite !Z.geb_leb. destruct (cp <? 0x80) eqn:E1.
  { replace (0x80 <=? cp) with false by lia. reflexivity. }
  replace (0x80 <=? cp) with true by lia. destruct (cp <? 0x800) eqn:E2.
  { replace (0x800 <=? cp) with false by lia. reflexivity. }
  replace (0x800 <=? cp) with true by lia. destruct (cp <? 0x10000) eqn:E3.
  { replace (0x10000 <=? cp) with false by lia. reflexivity. }
  replace (0x10000 <=? cp) with true by lia. reflexivity.
Qed.

(** Without an end, the decoder does what it does with the end of the block as
    the end, unless it reads beyond that. *)
Lemma continuation_mono s cp x : continuation s (Some 0) cp = Ok (Some x) -> continuation s None cp = Ok (Some x).
Proof. unfold continuation. cbn [at_end]. destruct (zlen s =? 0); [discriminate|]. auto. Qed.

Lemma decode_mono s x : charstr_decode_utf8_codepoint (Some s) (Some 0) = Ok (Some x) ->
  charstr_decode_utf8_codepoint (Some s) None = Ok (Some x).
Proof.
  unfold charstr_decode_utf8_codepoint. cbn [at_end]. destruct (zlen s =? 0); [discriminate|].
  destruct (cur s) as [c| | |]; try discriminate. cbn [bind].
  destruct (negb (truth (Z.land c 128))); [auto|]. destruct (negb (truth (Z.land c 64))); [auto|].
  assert (F : forall (m m' : res (option (list Z * Z))) (f f' : list Z * Z -> res (option (list Z * Z))),
    (forall y, m = Ok (Some y) -> m' = Ok (Some y)) -> (forall y, f y = Ok (Some x) -> f' y = Ok (Some x)) ->
    bind m (fun o => match o with None => Ok None | Some y => f y end) = Ok (Some x) ->
    bind m' (fun o => match o with None => Ok None | Some y => f' y end) = Ok (Some x)).
  { intros m m' f f' H1 H2 H. destruct m as [[y|]| | |]; try discriminate. cbn [bind] in H.
    rewrite (H1 y eq_refl). cbn [bind]. apply H2. exact H. }
  assert (G : forall (m m' : res (option (list Z * Z))) (f f' : list Z * Z -> res (option (list Z * Z))),
    (forall y, m = Ok (Some y) -> m' = Ok (Some y)) -> (forall y z, f y = Ok (Some z) -> f' y = Ok (Some z)) -> forall z,
    bind m (fun o => match o with None => Ok None | Some y => f y end) = Ok (Some z) ->
    bind m' (fun o => match o with None => Ok None | Some y => f' y end) = Ok (Some z)).
  { intros m m' f f' H1 H2 z H. destruct m as [[y|]| | |]; try discriminate. cbn [bind] in H.
    rewrite (H1 y eq_refl). cbn [bind]. apply H2. exact H. }
  apply F.
  - intros y. destruct (negb (truth (Z.land c 32))); [auto|].
    apply G.
    + intros z. destruct (negb (truth (Z.land c 16))); [auto|]. destruct (truth (Z.land c 8)); [auto|]. apply continuation_mono.
    + intros [s1 cp1] z. apply continuation_mono.
  - intros [s1 cp1]. apply F; [intros y; apply continuation_mono|auto].
Qed.

Lemma decode_one bs cp rest e : accepted bs cp -> bytes bs -> bytes rest ->
  match e with Some n => 0 <= n <= zlen rest | None => True end ->
  charstr_decode_utf8_codepoint (Some (bs ++ rest)) e = Ok (Some (rest, cp)).
Proof.
  intros A Hb Hr He. destruct e as [n|].
  - rewrite <- (firstn_skipn (length rest - Z.to_nat n) rest).
    set (u := firstn (length rest - Z.to_nat n) rest). set (q := skipn (length rest - Z.to_nat n) rest).
    assert (Hq : zlen q = n) by (unfold q, zlen in *; rewrite skipn_length; lia).
    rewrite app_assoc. rewrite decode_ok.
    + rewrite (dec_complete bs u cp A). reflexivity.
    + apply bytes_app. split; [assumption|]. apply Forall_first. assumption.
    + left. rewrite Hq. reflexivity.
  - apply decode_mono. rewrite <- (app_nil_r (bs ++ rest)) at 1. rewrite decode_ok.
    + rewrite (dec_complete bs rest cp A). cbn. rewrite app_nil_r. reflexivity.
    + apply bytes_app. auto.
    + left. reflexivity.
Qed.

Lemma pattern_bytes bs cp : pattern bs cp -> bytes bs.
Proof. intros H. destruct H; repeat constructor; lia. Qed.

Lemma utf8_accepted cp : scalar cp -> accepted (utf8 cp) cp.
Proof. intros H. split; [|assumption]. apply utf8_pattern. unfold scalar in H. lia. Qed.
