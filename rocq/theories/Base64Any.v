(** base64_decode_buffer with any characters for pos62 and pos63, even NUL,
    '=' and whitespace: the result does not depend on the size of the buffer. *)
From Verif Require Import Base Base64Model Base64Spec Base64Proofs Base64Decode.

(** The bytes coming out of a text, and the rest of the text with the pending
    bits unless a bad character was met. *)
Fixpoint walk (p q : Z) (ign : bool) (t : list Z) (bits c : Z) : list Z * option (list Z * Z * Z) :=
  match t with
  | [] => ([], Some ([], bits, c))
  | x :: t' =>
    if x =? 61 then ([], Some (t, bits, c))
    else
      let v := get_bits x p q ign in
      if v <? 0 then
        if v =? BASE64_ILLEGAL_WHITESPACE then walk p q ign t' bits c else ([], None)
      else
        let bits' := u32 (Z.lor (Z.shiftl bits 6) v) in
        if c + 6 >=? 8 then
          let r := walk p q ign t' bits' (c + 6 - 8) in
          (Z.land (Z.shiftr bits' (c + 6 - 8)) 255 :: fst r, snd r)
        else walk p q ign t' bits' (c + 6)
  end.

Definition outcome (dest : list Z) (size : Z) (d done todo : list Z)
           (r : list Z * option (list Z * Z * Z)) : loop_out :=
  match snd r with
  | None => LBad (stored dest size (d ++ fst r))
  | Some (rest, b, c) =>
    LDone (DecState (zlen done + zlen todo - zlen rest) (zlen (d ++ fst r)) b c
                    (stored dest size (d ++ fst r)))
  end.

Lemma outcome_step dest size d done c todo r :
  outcome dest size d (done ++ [c]) todo r = outcome dest size d done (c :: todo) r.
Proof.
  unfold outcome. destruct (snd r) as [[[rest b] k]|]; [|reflexivity].
  rewrite zlen_app, !zlen_cons, zlen_nil. do 2 f_equal. lia.
Qed.

Lemma outcome_push dest size d done c todo x o r :
  outcome dest size (d ++ [x]) (done ++ [c]) todo (o, r) =
  outcome dest size d done (c :: todo) (x :: o, r).
Proof.
  rewrite outcome_step. unfold outcome. cbn [fst snd]. rewrite <- !app_assoc. reflexivity.
Qed.

(** The first steps of both loops. *)
Lemma reads_end src n done : reads src n done [] ->
  (zlen done <? n) = false \/ rd src (zlen done) = Ok 0.
Proof.
  intros (rest & -> & [H|[H (r & ->)]]); rewrite app_nil_r in H.
  - left. lia.
  - right. cbn [app]. apply rd_app. reflexivity.
Qed.

Lemma reads_char src n done c todo : reads src n done (c :: todo) ->
  (zlen done <? n) = true /\ rd src (zlen done) = Ok c.
Proof.
  intros (rest & -> & H). split.
  - pose proof (zlen_nonneg todo). destruct H as [H|[H _]]; rewrite zlen_app, zlen_cons in H; lia.
  - cbn [app]. apply rd_app. reflexivity.
Qed.

Lemma count_walk p q ign dest size src n : 0 <= size <= zlen dest -> forall todo done d bits c fuel,
  reads src n done todo -> Forall text_char todo -> (length todo < fuel)%nat -> size <= zlen d ->
  decode_count fuel src n p q ign (DecState (zlen done) (zlen d) bits c (stored dest size d)) =
  Ok (outcome dest size d done todo (walk p q ign todo bits c)).
Proof.
  intros Hsz. induction todo as [|x todo IH]; intros done d bits c fuel Hr Ht Hf Hd;
    (destruct fuel as [|fuel]; [simpl in Hf; lia|]); cbn [decode_count walk].
  - unfold outcome. cbn [fst snd]. rewrite app_nil_r.
    replace (zlen done + zlen [] - zlen []) with (zlen done) by (rewrite zlen_nil; lia).
    destruct (reads_end _ _ _ Hr) as [->| ->]; [reflexivity|]. cbn [bind].
    destruct (_ <? _); reflexivity.
  - destruct (reads_char _ _ _ _ _ Hr) as [-> ->]. cbn [bind].
    pose proof (reads_step _ _ _ _ _ Hr) as Hr'.
    inversion Ht as [|? ? Hx Ht']; subst.
    replace (truth x) with true by (destruct Hx; unfold truth; lia). cbn [andb].
    destruct (x =? 61); cbn [negb].
    { unfold outcome. cbn [fst snd]. rewrite app_nil_r. do 3 f_equal. lia. }
    assert (Hf' : (length todo < fuel)%nat) by (simpl in Hf; lia).
    replace (zlen done + 1) with (zlen (done ++ [x])) by (rewrite zlen_app, zlen_cons, zlen_nil; lia).
    destruct (get_bits x p q ign <? 0).
    { destruct (get_bits x p q ign =? BASE64_ILLEGAL_WHITESPACE).
      - rewrite IH by assumption. rewrite outcome_step. reflexivity.
      - unfold outcome. cbn [fst snd]. rewrite app_nil_r. reflexivity. }
    cbv zeta. set (b := u32 (Z.lor (Z.shiftl bits 6) (get_bits x p q ign))).
    destruct (c + 6 >=? 8).
    + set (y := Z.land (Z.shiftr b (c + 6 - 8)) 255).
      replace (zlen d + 1) with (zlen (d ++ [y])) by (rewrite zlen_app, zlen_cons, zlen_nil; lia).
      replace (stored dest size d) with (stored dest size (d ++ [y])) by (apply stored_over; lia).
      rewrite IH; [|assumption..|rewrite zlen_app; pose proof (zlen_nonneg [y]); lia].
      destruct (walk p q ign todo b (c + 6 - 8)) as [o r]. rewrite outcome_push. reflexivity.
    + rewrite IH by assumption. rewrite outcome_step. reflexivity.
Qed.

(** Both loops. *)
Definition both (fuel : nat) (src : list Z) (n size p q : Z) (ign : bool) (st : dec_state) : res loop_out :=
  r <- decode_store fuel src n size p q ign st ;;
  match r with
  | LBad dest => Ok (LBad dest)
  | LDone st => decode_count (S (length src)) src n p q ign st
  end.

Lemma both_walk p q ign dest size src n : 0 <= size <= zlen dest -> forall todo done d bits c fuel,
  reads src n done todo -> Forall text_char todo -> (length todo < fuel)%nat ->
  both fuel src n size p q ign (DecState (zlen done) (zlen d) bits c (stored dest size d)) =
  Ok (outcome dest size d done todo (walk p q ign todo bits c)).
Proof.
  intros Hsz. induction todo as [|x todo IH]; intros done d bits c fuel Hr Ht Hf;
    (destruct fuel as [|fuel]; [simpl in Hf; lia|]); unfold both; cbn [decode_store walk].
  - unfold outcome. cbn [fst snd]. rewrite app_nil_r.
    replace (zlen done + zlen [] - zlen []) with (zlen done) by (rewrite zlen_nil; lia).
    assert (E : decode_count (S (length src)) src n p q ign
              (DecState (zlen done) (zlen d) bits c (stored dest size d)) =
            Ok (LDone (DecState (zlen done) (zlen d) bits c (stored dest size d)))).
    { cbn [decode_count]. destruct (reads_end _ _ _ Hr) as [->| ->]; [reflexivity|]. cbn [bind].
      destruct (_ <? _); reflexivity. }
    destruct (zlen d <? size); cbn [andb bind]; [|exact E].
    destruct (reads_end _ _ _ Hr) as [->| ->]; [exact E|]. cbn [bind].
    destruct (_ <? _); exact E.
  - destruct (zlen d <? size) eqn:El; cbn [andb].
    2:{ cbn [bind].
        rewrite (count_walk p q ign dest size src n Hsz (x :: todo)); [reflexivity|assumption..| |lia].
        destruct Hr as (rest & -> & _). rewrite !app_length. lia. }
    destruct (reads_char _ _ _ _ _ Hr) as [Hlt Hrd]. rewrite Hlt, Hrd. cbn [bind].
    pose proof (reads_step _ _ _ _ _ Hr) as Hr'.
    inversion Ht as [|? ? Hx Ht']; subst.
    assert (Tx : truth x = true) by (destruct Hx; unfold truth; lia). rewrite Tx. cbn [andb].
    destruct (x =? 61) eqn:E61; cbn [negb bind].
    { cbn [decode_count]. rewrite Hlt, Hrd. cbn [bind]. rewrite Tx, E61. cbn [andb negb].
      unfold outcome. cbn [fst snd]. rewrite app_nil_r. do 3 f_equal. lia. }
    assert (Hf' : (length todo < fuel)%nat) by (simpl in Hf; lia).
    replace (zlen done + 1) with (zlen (done ++ [x])) by (rewrite zlen_app, zlen_cons, zlen_nil; lia).
    destruct (get_bits x p q ign <? 0).
    { destruct (get_bits x p q ign =? BASE64_ILLEGAL_WHITESPACE).
      - change (both fuel src n size p q ign
                  (DecState (zlen (done ++ [x])) (zlen d) bits c (stored dest size d)) =
                Ok (outcome dest size d done (x :: todo) (walk p q ign todo bits c))).
        rewrite IH by assumption. rewrite outcome_step. reflexivity.
      - unfold outcome. cbn [fst snd bind]. rewrite app_nil_r. reflexivity. }
    cbv zeta. set (b := u32 (Z.lor (Z.shiftl bits 6) (get_bits x p q ign))).
    destruct (c + 6 >=? 8).
    + set (y := Z.land (Z.shiftr b (c + 6 - 8)) 255).
      rewrite stored_wr by lia. cbn [bind].
      replace (zlen d + 1) with (zlen (d ++ [y])) by (rewrite zlen_app, zlen_cons, zlen_nil; lia).
      transitivity (both fuel src n size p q ign
                  (DecState (zlen (done ++ [x])) (zlen (d ++ [y])) b (c + 6 - 8)
                            (stored dest size (d ++ [y])))); [reflexivity|].
      rewrite IH by assumption.
      destruct (walk p q ign todo b (c + 6 - 8)) as [o r]. rewrite outcome_push. reflexivity.
    + change (both fuel src n size p q ign
                  (DecState (zlen (done ++ [x])) (zlen d) b (c + 6) (stored dest size d)) =
                Ok (outcome dest size d done (x :: todo) (walk p q ign todo b (c + 6)))).
      rewrite IH by assumption. rewrite outcome_step. reflexivity.
Qed.

(** What the walk leaves: a suffix, and a count of bits as in the loops. *)
Lemma walk_rest p q ign : forall t bits c o rest b k,
  walk p q ign t bits c = (o, Some (rest, b, k)) ->
  c = 0 \/ c = 2 \/ c = 4 \/ c = 6 ->
  (k = 0 \/ k = 2 \/ k = 4 \/ k = 6) /\ exists pre, t = pre ++ rest.
Proof.
  induction t as [|x t IH]; intros bits c o rest b k H Hc; cbn [walk] in H.
  - injection H as <- <- <- <-. split; [exact Hc|]. exists []. reflexivity.
  - destruct (x =? 61).
    { injection H as <- <- <- <-. split; [exact Hc|]. exists []. reflexivity. }
    destruct (get_bits x p q ign <? 0).
    { destruct (_ =? _); [|discriminate].
      destruct (IH _ _ _ _ _ _ H Hc) as (A & pre & ->). split; [exact A|]. exists (x :: pre). reflexivity. }
    cbv zeta in H. destruct (c + 6 >=? 8) eqn:E.
    + destruct (walk p q ign t _ (c + 6 - 8)) as [o' r'] eqn:Ew. cbn [fst snd] in H.
      injection H as <- ->.
      destruct (IH _ _ _ _ _ _ Ew ltac:(lia)) as (A & pre & ->). split; [exact A|].
      exists (x :: pre). reflexivity.
    + destruct (IH _ _ _ _ _ _ H ltac:(lia)) as (A & pre & ->). split; [exact A|].
      exists (x :: pre). reflexivity.
Qed.

Lemma walk_len p q ign : forall t bits c, zlen (fst (walk p q ign t bits c)) <= zlen t.
Proof.
  induction t as [|x t IH]; intros bits c; cbn [walk].
  - cbn [fst]. lia.
  - rewrite zlen_cons. pose proof (zlen_nonneg t).
    destruct (x =? 61); [cbn [fst]; rewrite zlen_nil; lia|].
    destruct (get_bits x p q ign <? 0).
    { destruct (_ =? _); [pose proof (IH bits c); lia|cbn [fst]; rewrite zlen_nil; lia]. }
    cbv zeta. destruct (c + 6 >=? 8).
    + cbn [fst]. rewrite zlen_cons.
      match goal with |- context [walk p q ign t ?b ?k] => pose proof (IH b k) end. lia.
    + match goal with |- context [walk p q ign t ?b ?k] => pose proof (IH b k) end. lia.
Qed.

Lemma decode_any src n t p62 p63 ign :
  text_of src n t -> zlen t < 2 ^ 63 ->
  exists (ok : bool) (d : list Z), forall dest size, 0 <= size <= zlen dest ->
    let k := Z.to_nat (Z.min size (zlen d)) in
    let dest' := firstn k d ++ skipn k dest in
    base64_decode_buffer src n dest size p62 p63 ign =
    Ok (if ok then DecOk (zlen d) dest' else DecFail EILSEQ dest').
Proof.
  intros (Htc & rest & Hsrc & Hn) Hlen.
  set (q62 := if p62 =? -1 then 43 else p62). set (q63 := if p63 =? -1 then 47 else p63).
  assert (Hr : reads src n [] t) by (exists rest; cbn [app]; auto).
  assert (Hf : (length t < S (length src))%nat) by (rewrite Hsrc, app_length; lia).
  assert (B : forall dest size, 0 <= size <= zlen dest ->
            both (S (length src)) src n size q62 q63 ign (DecState 0 0 0 0 dest) =
            Ok (outcome dest size [] [] t (walk q62 q63 ign t 0 0))).
  { intros dest size Hsz. pose proof (both_walk q62 q63 ign dest size src n Hsz t [] [] 0 0 _ Hr Htc Hf) as B.
    rewrite zlen_nil in B. replace (stored dest size []) with dest in B; [exact B|].
    unfold stored. rewrite zlen_nil, Z.min_r by lia. reflexivity. }
  pose proof (walk_len q62 q63 ign t 0 0) as Hol.
  destruct (walk q62 q63 ign t 0 0) as [o [[[rst b] c]|]] eqn:Ew; cbn [fst] in Hol.
  - destruct (walk_rest _ _ _ _ _ _ _ _ _ _ Ew ltac:(auto)) as (Hc & pre & Et).
    assert (Hr3 : reads src n pre rst).
    { exists rest. rewrite app_assoc, <- Et. auto. }
    assert (Htc3 : Forall text_char rst).
    { rewrite Et in Htc. apply Forall_app in Htc. apply Htc. }
    assert (G : exists g, good_base64_tail src (zlen pre) (n - zlen pre) c ign = Ok g).
    { destruct Hc as [->|[->|[->| ->]]].
      - eexists. apply (good_tail_ok 0 0 ign src n pre rst 0 0 Hr3 Htc3). auto.
      - eexists. apply (good_tail_ok 0 0 ign src n pre rst 2 1 Hr3 Htc3). auto.
      - eexists. apply (good_tail_ok 0 0 ign src n pre rst 4 2 Hr3 Htc3). auto.
      - exists false. reflexivity. }
    destruct G as (g & Hg).
    exists (negb (truth (Z.land b (Z.ones c))) && g), o. intros dest size Hsz k dest'.
    unfold base64_decode_buffer. cbv zeta. fold q62 q63.
    transitivity (r <- both (S (length src)) src n size q62 q63 ign (DecState 0 0 0 0 dest) ;;
      match r with
      | LBad dest => Ok (DecFail EILSEQ dest)
      | LDone (DecState si pi bits bit_count dest) =>
        if truth (Z.land bits (Z.ones bit_count)) then Ok (DecFail EILSEQ dest)
        else
          g <- good_base64_tail src si (n - si) bit_count ign ;;
          if negb g then Ok (DecFail EILSEQ dest)
          else if s64 pi <? 0 then Ok (DecFail EOVERFLOW dest)
          else Ok (DecOk pi dest)
      end).
    { unfold both. destruct (decode_store _ _ _ _ _ _ _ _) as [[st|x]| | |]; reflexivity. }
    rewrite B by assumption. cbn [bind]. unfold outcome. cbn [fst snd app].
    change (stored dest size o) with dest'.
    replace (zlen [] + zlen t - zlen rst) with (zlen pre)
      by (rewrite Et, zlen_app, zlen_nil; lia).
    destruct (truth (Z.land b (Z.ones c))); cbn [negb andb]; [reflexivity|].
    rewrite Hg. cbn [bind]. destruct g; cbn [negb]; [|reflexivity].
    replace (s64 (zlen o) <? 0) with false; [reflexivity|].
    symmetry. apply Z.ltb_ge. pose proof (zlen_nonneg o).
    unfold s64, sgn. change (64 - 1) with 63. rewrite Z.mod_small by lia.
    destruct (_ <? _) eqn:F; lia.
  - exists false, o. intros dest size Hsz k dest'.
    unfold base64_decode_buffer. cbv zeta. fold q62 q63.
    specialize (B dest size Hsz). unfold both in B. unfold outcome in B. cbn [fst snd app] in B.
    destruct (decode_store _ _ _ _ _ _ _ _) as [[st|x]| | |]; cbn [bind] in B |- *; try discriminate B.
    + rewrite B. reflexivity.
    + injection B as ->. reflexivity.
Qed.
