(** Proofs about the decoder of src/base64.c. *)
From Verif Require Import Base Base64Model Base64Spec Base64Proofs.
From Coq Require Import ZifyBool ZifyNat.
Ltac Zify.zify_post_hook ::= Z.div_mod_to_equations.

Definition text_char (c : Z) : Prop := byte c /\ c <> 0.

(** One accepted value: the effect on the accumulator. *)
Lemma acc_push bits c r d v :
  count_ok d c -> bits mod 2 ^ c = r -> 0 <= v < 64 -> bytes d ->
  let bits' := u32 (Z.lor (Z.shiftl bits 6) v) in
  if c + 6 >=? 8 then
    let x := Z.land (Z.shiftr bits' (c + 6 - 8)) 255 in
    byte x /\ count_ok (d ++ [x]) (c + 6 - 8) /\
    sxr d c r ++ [v] = sxr (d ++ [x]) (c + 6 - 8) (bits' mod 2 ^ (c + 6 - 8))
  else
    count_ok d (c + 6) /\ sxr d c r ++ [v] = sxr d (c + 6) (bits' mod 2 ^ (c + 6)).
Proof.
  intros Hc Hr Hv Hb bits'.
  assert (Eb : bits' = (bits * 64 + v) mod 4294967296).
  { unfold bits', u32. rewrite lor_shiftl_add by lia. reflexivity. }
  clearbody bits'.
  assert (L : forall x : Z, length (d ++ [x]) = S (length d)) by (intros; rewrite app_length; simpl; lia).
  assert (M : forall x, Z.land x 255 = x mod 256)
    by (intros; change 255 with (Z.ones 8); rewrite Z.land_ones by lia; reflexivity).
  destruct Hc as [[Hl [-> | ->]]|[[Hl ->]|[Hl ->]]].
  - change (0 + 6 >=? 8) with false. cbv iota. change (2 ^ (0 + 6)) with 64. change (0 + 6) with 6.
    change (2 ^ 0) with 1 in Hr. split.
    + left. auto.
    + replace r with 0 by lia. rewrite sxr_step0 by assumption. f_equal. lia.
  - change (6 + 6 >=? 8) with true. cbv iota zeta. change (6 + 6 - 8) with 4.
    change (2 ^ 6) with 64 in Hr.
    rewrite M, Z.shiftr_div_pow2 by lia. change (2 ^ 4) with 16.
    split; [unfold byte; lia|]. split.
    + right; left. rewrite L. split; lia.
    + rewrite sxr_step6 by lia. f_equal; [f_equal; f_equal|]; lia.
  - change (4 + 6 >=? 8) with true. cbv iota zeta. change (4 + 6 - 8) with 2.
    change (2 ^ 4) with 16 in Hr.
    rewrite M, Z.shiftr_div_pow2 by lia. change (2 ^ 2) with 4.
    split; [unfold byte; lia|]. split.
    + right; right. rewrite L. split; lia.
    + rewrite sxr_step4 by lia. f_equal; [f_equal; f_equal|]; lia.
  - change (2 + 6 >=? 8) with true. cbv iota zeta. change (2 + 6 - 8) with 0.
    change (2 ^ 2) with 4 in Hr.
    rewrite M, Z.shiftr_div_pow2 by lia. change (2 ^ 0) with 1.
    split; [unfold byte; lia|]. split.
    + left. rewrite L. split; lia.
    + rewrite sxr_step2 by lia. f_equal; [f_equal; f_equal|]; lia.
Qed.

Definition vals (value : Z -> option Z) (wsp : Z -> bool) (t : list Z) :=
  map value (filter (fun c => negb (wsp c)) t).

Lemma vals_app value wsp a b : vals value wsp (a ++ b) = vals value wsp a ++ vals value wsp b.
Proof. unfold vals. rewrite filter_app, map_app. reflexivity. Qed.

(** State of the loops after the text prefix [done]. *)
Definition inv (value : Z -> option Z) (wsp : Z -> bool) (dest : list Z) (size : Z) (done : list Z)
           (st : dec_state) : Prop :=
  d_si st = zlen done /\ ~ In 61 done /\
  exists d, bytes d /\ d_pi st = zlen d /\ count_ok d (d_count st) /\
    vals value wsp done = map Some (sxr d (d_count st) (d_bits st mod 2 ^ d_count st)) /\
    d_dest st = stored dest size d.

Definition stops (todo : list Z) : Prop := todo = [] \/ exists r, todo = 61 :: r.

(** A text containing a character that is neither value, whitespace nor '='. *)
Definition has_bad (value : Z -> option Z) (wsp : Z -> bool) (t : list Z) : Prop :=
  exists c, In c t /\ c <> 61 /\ value c = None /\ wsp c = false.

  Lemma map_Some_inj (a b : list Z) : map Some a = map Some b -> a = b.
  Proof.
    revert b; induction a as [|x a IH]; intros [|y b] E; try discriminate; auto.
    injection E as -> E. f_equal; auto.
  Qed.

  Definition padlen (d : list Z) : nat := length (padding d).
  Definition count_of (d : list Z) : Z :=
    match (length d mod 3)%nat with O => 0 | S O => 4 | _ => 2 end.

  Lemma count_of_ok d : count_ok d (count_of d) /\ count_of d <> 6.
  Proof.
    unfold count_ok, count_of. destruct (length d mod 3)%nat as [|[|k]] eqn:E.
    - split; [left; auto|lia].
    - split; [right; left; auto|lia].
    - split; [right; right|lia]. assert (k = O) by lia. subst; auto.
  Qed.

  Lemma padding_repeat d : padding d = repeat 61 (padlen d).
  Proof. unfold padlen, padding. destruct (length d mod 3)%nat as [|[|k]]; reflexivity. Qed.

  Definition reads (src : list Z) (source_size : Z) (done todo : list Z) : Prop :=
    exists rest, src = done ++ todo ++ rest /\
      (source_size = zlen (done ++ todo) \/
       (zlen (done ++ todo) < source_size /\ exists r, rest = 0 :: r)).

  Lemma reads_step src n done c todo : reads src n done (c :: todo) -> reads src n (done ++ [c]) todo.
  Proof.
    intros (rest & -> & H). exists rest. rewrite <- !app_assoc. cbn [app]. auto.
  Qed.

Section Loops.
  Variables (p62 p63 : Z) (ign : bool).
  Hypotheses (S62 : schar p62) (S63 : schar p63) (G62 : good_pos (u8 p62)) (G63 : good_pos (u8 p63)).
  Let value := code_value (u8 p62) (u8 p63).
  Let wsp c := ign && code_wsp c.

  Lemma value_not_wsp c v : byte c -> value c = Some v -> wsp c = false.
  Proof.
    intros Hb H. unfold wsp. generalize ign as ig. intros ig. destruct ig; [cbn [andb]|reflexivity].
    destruct G62 as (_ & _ & _ & W62). destruct G63 as (_ & _ & _ & W63).
    unfold value, code_value, std_value in H. unfold code_wsp, std_wsp in *. unfold byte in Hb.
    destruct (c =? u8 p62) eqn:E62. { apply Z.eqb_eq in E62. subst c. exact W62. }
    destruct (c =? u8 p63) eqn:E63. { apply Z.eqb_eq in E63. subst c. exact W63. }
    repeat match goal with H : context [if ?b then _ else _] |- _ => destruct b eqn:? end;
      try discriminate H; lia.
  Qed.

  Lemma step_get_bits c :
    text_char c -> c <> 61 ->
    (exists v, value c = Some v /\ 0 <= v < 64 /\ wsp c = false /\ get_bits c p62 p63 ign = v) \/
    (value c = None /\ wsp c = true /\ get_bits c p62 p63 ign = -2) \/
    (value c = None /\ wsp c = false /\ get_bits c p62 p63 ign = -1).
  Proof.
    intros [Hb H0] H61. rewrite get_bits_spec by assumption.
    unfold wsp. fold value.
    destruct (value c) as [v|] eqn:E.
    - left. exists v. pose proof (value_not_wsp c v Hb E). pose proof (code_value_range _ _ _ _ E). auto.
    - right. destruct (ign && code_wsp c); auto.
  Qed.

  (** Invariant step when a value is consumed. *)
  Lemma inv_value dest size done c v si pi bits count cur :
    inv value wsp dest size done (DecState si pi bits count cur) ->
    c <> 61 -> value c = Some v -> 0 <= v < 64 -> wsp c = false ->
    0 <= size <= zlen dest ->
    let bits' := u32 (Z.lor (Z.shiftl bits 6) v) in
    if count + 6 >=? 8 then
      (pi < size -> exists cur', wr cur pi (Z.land (Z.shiftr bits' (count + 6 - 8)) 255) = Ok cur' /\
          inv value wsp dest size (done ++ [c]) (DecState (si + 1) (pi + 1) bits' (count + 6 - 8) cur')) /\
      (size <= pi ->
          inv value wsp dest size (done ++ [c]) (DecState (si + 1) (pi + 1) bits' (count + 6 - 8) cur))
    else inv value wsp dest size (done ++ [c]) (DecState (si + 1) pi bits' (count + 6) cur).
  Proof.
    intros (Hsi & Hno & d & Hd & Hpi & Hc & Hv & Hcur) H61 Hval Hvr Hw Hsz bits'.
    cbn [d_si d_pi d_bits d_count d_dest] in *.
    assert (Hno' : ~ In 61 (done ++ [c])).
    { rewrite in_app_iff. cbn [In]. tauto. }
    assert (Hvs : vals value wsp (done ++ [c]) = map Some (sxr d count (bits mod 2 ^ count) ++ [v])).
    { rewrite vals_app, map_app, Hv. f_equal. unfold vals. cbn [filter]. rewrite Hw. cbn [negb map].
      rewrite Hval. reflexivity. }
    assert (Hz : zlen (done ++ [c]) = zlen done + 1) by (rewrite zlen_app; reflexivity).
    pose proof (acc_push bits count _ d v Hc eq_refl Hvr Hd) as Hacc. cbv zeta in Hacc. fold bits' in Hacc.
    destruct (count + 6 >=? 8).
    - destruct Hacc as (Hx & Hc' & He). set (x := Z.land (Z.shiftr bits' (count + 6 - 8)) 255) in *.
      assert (Hdx : bytes (d ++ [x])) by (apply Forall_app; split; auto; constructor; auto).
      assert (Hzx : zlen (d ++ [x]) = zlen d + 1) by (rewrite zlen_app; reflexivity).
      split; intros Hlt.
      + exists (stored dest size (d ++ [x])). split.
        * rewrite Hcur, Hpi. apply stored_wr. lia.
        * split; [cbn [d_si]; lia|]. split; [assumption|]. exists (d ++ [x]).
          cbn [d_si d_pi d_bits d_count d_dest].
          split; [assumption|]. split; [lia|]. split; [assumption|]. split; [|reflexivity].
          rewrite Hvs, He. reflexivity.
      + split; [cbn [d_si]; lia|]. split; [assumption|]. exists (d ++ [x]).
        cbn [d_si d_pi d_bits d_count d_dest].
        split; [assumption|]. split; [lia|]. split; [assumption|]. split.
        * rewrite Hvs, He. reflexivity.
        * rewrite Hcur, stored_over by lia. reflexivity.
    - destruct Hacc as (Hc' & He).
      split; [cbn [d_si]; lia|]. split; [assumption|]. exists d.
      cbn [d_si d_pi d_bits d_count d_dest]. repeat (split; [assumption|]). split; [|assumption].
      rewrite Hvs, He. reflexivity.
  Qed.

  Lemma inv_wsp dest size done c si pi bits count cur :
    inv value wsp dest size done (DecState si pi bits count cur) ->
    c <> 61 -> wsp c = true ->
    inv value wsp dest size (done ++ [c]) (DecState (si + 1) pi bits count cur).
  Proof.
    intros (Hsi & Hno & d & Hd & Hpi & Hc & Hv & Hcur) H61 Hw.
    cbn [d_si d_pi d_bits d_count d_dest] in *.
    split. { cbn [d_si]. rewrite zlen_app, zlen_cons, zlen_nil. lia. }
    split. { rewrite in_app_iff. cbn [In]. tauto. }
    exists d. cbn [d_si d_pi d_bits d_count d_dest]. repeat (split; [assumption|]). split; [|assumption].
    rewrite vals_app, <- Hv. unfold vals. cbn [filter]. rewrite Hw. cbn [negb map]. apply app_nil_r.
  Qed.

  (** Reading position [si] of the source. *)
  Lemma store_ok dest size src n : 0 <= size <= zlen dest -> forall todo done st fuel,
    reads src n done todo -> Forall text_char todo -> (length todo < fuel)%nat ->
    inv value wsp dest size done st ->
    (exists st' done' todo', done ++ todo = done' ++ todo' /\
       decode_store fuel src n size p62 p63 ign st = Ok (LDone st') /\
       inv value wsp dest size done' st' /\
       (stops todo' \/ size <= d_pi st')) \/
    (exists d', decode_store fuel src n size p62 p63 ign st = Ok (LBad (stored dest size d')) /\
       has_bad value wsp (done ++ todo)).
  Proof.
    intros Hsz. induction todo as [|c todo IH]; intros done st fuel Hr Ht Hf Hinv;
      (destruct fuel as [|fuel]; [simpl in Hf; lia|]); cbn [decode_store];
      destruct st as [si pi bits count cur]; pose proof Hinv as (Hsi & _); cbn [d_si] in Hsi.
    - left. exists (DecState si pi bits count cur), done, []. split; [reflexivity|].
      split; [|split; [exact Hinv|left; left; reflexivity]].
      destruct ((pi <? size) && (si <? n)) eqn:E; [|reflexivity].
      destruct Hr as (rest & -> & Hn). rewrite app_nil_r in Hn. cbn [app].
      destruct Hn as [Hn|[Hn (r & ->)]]; [lia|].
      rewrite rd_app by assumption. reflexivity.
    - destruct (pi <? size) eqn:Ep; cbn [andb].
      2:{ left. exists (DecState si pi bits count cur), done, (c :: todo). split; [reflexivity|].
          split; [reflexivity|]. split; [exact Hinv|]. right. cbn [d_pi]. lia. }
      inversion Ht as [|? ? Hc Ht']; subst.
      pose proof (reads_step _ _ _ _ _ Hr) as Hr'.
      destruct Hr as (rest & -> & Hn).
      replace (zlen done <? n) with true
        by (pose proof (zlen_nonneg todo); destruct Hn as [Hn|[Hn _]];
            rewrite zlen_app, zlen_cons in Hn; lia).
      cbn [app]. rewrite rd_app by reflexivity. cbn [bind].
      replace (truth c) with true by (destruct Hc; unfold truth; lia). cbn [andb].
      destruct (c =? 61) eqn:E61; cbn [negb].
      { left. exists (DecState (zlen done) pi bits count cur), done, (c :: todo). split; [reflexivity|].
        split; [reflexivity|]. split; [exact Hinv|]. left. right. exists todo. f_equal. lia. }
      assert (H61 : c <> 61) by lia.
      destruct (step_get_bits c Hc H61) as [(v & Hv & Hvr & Hw & ->)|[(Hv & Hw & ->)|(Hv & Hw & ->)]].
      + replace (v <? 0) with false by lia.
        pose proof (inv_value _ _ _ _ _ _ _ _ _ _ Hinv H61 Hv Hvr Hw Hsz) as Hstep. cbv zeta in Hstep.
        destruct (count + 6 >=? 8).
        * destruct Hstep as [Hstep _]. destruct Hstep as (cur' & -> & Hinv'); [lia|]. cbn [bind].
          destruct (IH _ _ fuel Hr' Ht' ltac:(simpl in Hf; lia) Hinv')
            as [(st' & done' & todo' & E & Hrun & Hi & Hs)|(d' & Hrun & Hb)].
          -- left. exists st', done', todo'. rewrite <- app_assoc in E. auto.
          -- right. exists d'. rewrite <- app_assoc in Hb. auto.
        * destruct (IH _ _ fuel Hr' Ht' ltac:(simpl in Hf; lia) Hstep)
            as [(st' & done' & todo' & E & Hrun & Hi & Hs)|(d' & Hrun & Hb)].
          -- left. exists st', done', todo'. rewrite <- app_assoc in E. auto.
          -- right. exists d'. rewrite <- app_assoc in Hb. auto.
      + cbn [Z.ltb Z.compare]. change (-2 =? BASE64_ILLEGAL_WHITESPACE) with true. cbv iota.
        pose proof (inv_wsp _ _ _ _ _ _ _ _ _ Hinv H61 Hw) as Hstep.
        destruct (IH _ _ fuel Hr' Ht' ltac:(simpl in Hf; lia) Hstep)
            as [(st' & done' & todo' & E & Hrun & Hi & Hs)|(d' & Hrun & Hb)].
        -- left. exists st', done', todo'. rewrite <- app_assoc in E. auto.
        -- right. exists d'. rewrite <- app_assoc in Hb. auto.
      + right. destruct Hinv as (_ & _ & d & _ & _ & _ & _ & Hcur). exists d.
        cbn [d_dest] in Hcur. subst cur. split; [reflexivity|].
        exists c. rewrite in_app_iff. cbn [In]. auto.
  Qed.

  Lemma count_ok_loop dest size src n : 0 <= size <= zlen dest -> forall todo done st fuel,
    reads src n done todo -> Forall text_char todo -> (length todo < fuel)%nat ->
    inv value wsp dest size done st -> (stops todo \/ size <= d_pi st) ->
    (exists st' done' todo', done ++ todo = done' ++ todo' /\
       decode_count fuel src n p62 p63 ign st = Ok (LDone st') /\
       inv value wsp dest size done' st' /\ stops todo') \/
    (exists d', decode_count fuel src n p62 p63 ign st = Ok (LBad (stored dest size d')) /\
       has_bad value wsp (done ++ todo)).
  Proof.
    intros Hsz. induction todo as [|c todo IH]; intros done st fuel Hr Ht Hf Hinv Hst;
      (destruct fuel as [|fuel]; [simpl in Hf; lia|]); cbn [decode_count];
      destruct st as [si pi bits count cur]; pose proof Hinv as (Hsi & _); cbn [d_si] in Hsi.
    - left. exists (DecState si pi bits count cur), done, []. split; [reflexivity|].
      split; [|split; [exact Hinv|left; reflexivity]].
      destruct (si <? n) eqn:E; [|reflexivity].
      destruct Hr as (rest & -> & Hn). rewrite app_nil_r in Hn. cbn [app].
      destruct Hn as [Hn|[Hn (r & ->)]]; [lia|].
      rewrite rd_app by assumption. reflexivity.
    - inversion Ht as [|? ? Hc Ht']; subst.
      pose proof (reads_step _ _ _ _ _ Hr) as Hr'.
      destruct Hr as (rest & -> & Hn).
      replace (zlen done <? n) with true
        by (pose proof (zlen_nonneg todo); destruct Hn as [Hn|[Hn _]];
            rewrite zlen_app, zlen_cons in Hn; lia).
      cbn [app]. rewrite rd_app by reflexivity. cbn [bind].
      replace (truth c) with true by (destruct Hc; unfold truth; lia). cbn [andb].
      destruct (c =? 61) eqn:E61; cbn [negb].
      { left. exists (DecState (zlen done) pi bits count cur), done, (c :: todo). split; [reflexivity|].
        split; [reflexivity|]. split; [exact Hinv|]. right. exists todo. f_equal. lia. }
      assert (H61 : c <> 61) by lia.
      assert (Hpi : size <= pi).
      { destruct Hst as [[Hst|(r & Hst)]|Hst]; [discriminate|congruence|exact Hst]. }
      destruct (step_get_bits c Hc H61) as [(v & Hv & Hvr & Hw & ->)|[(Hv & Hw & ->)|(Hv & Hw & ->)]].
      + replace (v <? 0) with false by lia.
        pose proof (inv_value _ _ _ _ _ _ _ _ _ _ Hinv H61 Hv Hvr Hw Hsz) as Hstep. cbv zeta in Hstep.
        destruct (count + 6 >=? 8).
        * destruct Hstep as [_ Hstep]. specialize (Hstep Hpi).
          destruct (IH _ _ fuel Hr' Ht' ltac:(simpl in Hf; lia) Hstep ltac:(right; cbn [d_pi]; lia))
            as [(st' & done' & todo' & E & Hrun & Hi & Hs)|(d' & Hrun & Hb)].
          -- left. exists st', done', todo'. rewrite <- app_assoc in E. auto.
          -- right. exists d'. rewrite <- app_assoc in Hb. auto.
        * destruct (IH _ _ fuel Hr' Ht' ltac:(simpl in Hf; lia) Hstep ltac:(right; cbn [d_pi]; lia))
            as [(st' & done' & todo' & E & Hrun & Hi & Hs)|(d' & Hrun & Hb)].
          -- left. exists st', done', todo'. rewrite <- app_assoc in E. auto.
          -- right. exists d'. rewrite <- app_assoc in Hb. auto.
      + cbn [Z.ltb Z.compare]. change (-2 =? BASE64_ILLEGAL_WHITESPACE) with true. cbv iota.
        pose proof (inv_wsp _ _ _ _ _ _ _ _ _ Hinv H61 Hw) as Hstep.
        destruct (IH _ _ fuel Hr' Ht' ltac:(simpl in Hf; lia) Hstep ltac:(right; cbn [d_pi]; lia))
            as [(st' & done' & todo' & E & Hrun & Hi & Hs)|(d' & Hrun & Hb)].
        -- left. exists st', done', todo'. rewrite <- app_assoc in E. auto.
        -- right. exists d'. rewrite <- app_assoc in Hb. auto.
      + right. destruct Hinv as (_ & _ & d & _ & _ & _ & _ & Hcur). exists d.
        cbn [d_dest] in Hcur. subst cur. split; [reflexivity|].
        exists c. rewrite in_app_iff. cbn [In]. auto.
  Qed.

  (** * The tail *)
  Lemma termination_ok src n : forall trail pre fuel,
    reads src n pre trail -> Forall text_char trail -> (length trail < fuel)%nat ->
    termination_loop fuel src (zlen pre) (n - zlen pre) = Ok (forallb code_wsp trail).
  Proof.
    induction trail as [|c trail IH]; intros pre fuel Hr Ht Hf;
      (destruct fuel as [|fuel]; [simpl in Hf; lia|]); cbn [termination_loop forallb].
    - destruct Hr as (rest & -> & Hn). rewrite app_nil_r in Hn. cbn [app].
      unfold truth at 1. destruct (n - zlen pre =? 0) eqn:E; [reflexivity|]. cbn [negb].
      destruct Hn as [Hn|[Hn (r & ->)]]; [lia|].
      rewrite rd_app by reflexivity. reflexivity.
    - inversion Ht as [|? ? Hc Ht']; subst.
      pose proof (reads_step _ _ _ _ _ Hr) as Hr'.
      destruct Hr as (rest & -> & Hn).
      replace (truth (n - zlen pre)) with true
        by (unfold truth; pose proof (zlen_nonneg trail); destruct Hn as [Hn|[Hn _]];
            rewrite zlen_app, zlen_cons in Hn; lia).
      cbn [app]. rewrite rd_app by reflexivity. cbn [bind].
      destruct Hc as [Hb H0].
      replace (truth c) with true by (unfold truth; lia).
      unfold BASE64_ILLEGAL_WHITESPACE. rewrite table_wsp by assumption.
      destruct (code_wsp c); cbn [negb andb]; [|reflexivity].
      rewrite <- (IH (pre ++ [c]) fuel Hr' Ht' ltac:(simpl in Hf; lia)).
      rewrite zlen_app, zlen_cons, zlen_nil. f_equal; lia.
  Qed.

  Lemma good_termination_ok src n trail pre :
    reads src n pre trail -> Forall text_char trail ->
    good_termination src (zlen pre) (n - zlen pre) ign = Ok (forallb wsp trail).
  Proof.
    intros Hr Ht. unfold wsp. generalize ign as ig. intros ig. unfold good_termination.
    destruct ig; cbn [negb andb].
    - apply termination_ok; auto.
      destruct Hr as (rest & -> & _). rewrite !app_length. lia.
    - destruct Hr as (rest & -> & Hn). destruct trail as [|c trail]; cbn [forallb app].
      + rewrite app_nil_r in Hn. destruct (_ =? 0) eqn:E; [reflexivity|].
        destruct Hn as [Hn|[Hn (r & ->)]]; [lia|]. rewrite rd_app by reflexivity. reflexivity.
      + replace (_ =? 0) with false
          by (pose proof (zlen_nonneg trail); destruct Hn as [Hn|[Hn _]];
              rewrite zlen_app, zlen_cons in Hn; lia).
        rewrite rd_app by reflexivity. cbn [bind].
        inversion Ht as [|? ? [Hb H0] _]; subst. unfold truth. replace (c =? 0) with false by lia.
        reflexivity.
  Qed.

  (** The check of padding and trailer. *)
  Definition tail_ok (todo : list Z) (padlen : nat) : bool :=
    (if list_eq_dec Z.eq_dec (firstn padlen todo) (repeat 61 padlen) then true else false) &&
    forallb wsp (skipn padlen todo).

  Lemma good_tail_ok src n done todo count padlen :
    reads src n done todo -> Forall text_char todo ->
    (count = 0 /\ padlen = O) \/ (count = 4 /\ padlen = 2%nat) \/ (count = 2 /\ padlen = 1%nat) ->
    good_base64_tail src (zlen done) (n - zlen done) count ign = Ok (tail_ok todo padlen).
  Proof.
    intros Hr Ht Hc. unfold good_base64_tail, tail_ok.
    destruct Hc as [[-> ->]|[[-> ->]|[-> ->]]].
    - cbn [Z.eqb bind starts_with firstn repeat skipn]. rewrite zlen_nil.
      replace (n - zlen done >=? 0) with true
        by (destruct Hr as (rest & _ & Hn); pose proof (zlen_nonneg todo); destruct Hn as [Hn|[Hn _]];
              rewrite zlen_app in Hn; lia).
      rewrite Z.add_0_r, Z.sub_0_r. rewrite (good_termination_ok src n todo done) by assumption.
      destruct (list_eq_dec _ _ _); [reflexivity|congruence].
    - cbn [Z.eqb Pos.eqb bind]. rewrite !zlen_cons, zlen_nil. cbn [Z.add Pos.add Pos.succ].
      destruct todo as [|a [|b todo]].
      + cbn [firstn repeat skipn]. destruct (list_eq_dec _ _ _) as [E|_]; [discriminate|].
        cbn [andb]. destruct (_ >=? _) eqn:E; [|reflexivity].
        destruct Hr as (rest & -> & Hn). rewrite app_nil_r in Hn. cbn [app].
        destruct Hn as [Hn|[Hn (r & ->)]]; [lia|]. cbn [starts_with].
        rewrite rd_app by reflexivity. reflexivity.
      + cbn [firstn repeat skipn]. destruct (list_eq_dec _ _ _) as [E|_]; [discriminate|].
        cbn [andb]. destruct (_ >=? _) eqn:E; [|reflexivity].
        destruct Hr as (rest & -> & Hn). cbn [app].
        destruct Hn as [Hn|[Hn (r & ->)]]; [rewrite zlen_app, zlen_cons, zlen_nil in Hn; lia|].
        cbn [starts_with]. rewrite rd_app by reflexivity. cbn [bind].
        destruct (a =? 61); [|reflexivity].
        change (a :: 0 :: r) with ([a] ++ 0 :: r). rewrite app_assoc, rd_app
          by (rewrite zlen_app; reflexivity). reflexivity.
      + pose proof Hr as (rest & E & Hn).
        replace (_ >=? _) with true
          by (pose proof (zlen_nonneg todo); destruct Hn as [Hn|[Hn _]];
              rewrite zlen_app, !zlen_cons in Hn; lia).
        apply reads_step, reads_step in Hr. cbn [starts_with]. rewrite E at 1. cbn [app].
        rewrite rd_app by reflexivity. cbn [bind firstn repeat skipn].
        destruct (a =? 61) eqn:Ea.
        2:{ destruct (list_eq_dec _ _ _) as [F|_]; [injection F; lia|reflexivity]. }
        rewrite E at 1. cbn [app].
        change (a :: b :: todo ++ rest) with ([a] ++ b :: todo ++ rest).
        rewrite app_assoc, rd_app by (rewrite zlen_app; reflexivity). cbn [bind].
        destruct (b =? 61) eqn:Eb.
        2:{ destruct (list_eq_dec _ _ _) as [F|_]; [injection F; lia|reflexivity]. }
        destruct (list_eq_dec _ _ _) as [_|F]; [|contradiction F; repeat f_equal; lia].
        cbn [andb].
        replace (zlen done + 2) with (zlen ((done ++ [a]) ++ [b]))
          by (rewrite !zlen_app, !zlen_cons, zlen_nil; lia).
        replace (n - zlen done - 2) with (n - zlen ((done ++ [a]) ++ [b]))
          by (rewrite !zlen_app, !zlen_cons, zlen_nil; lia).
        apply good_termination_ok; auto. inversion Ht as [|? ? _ Ht1]; subst; inversion Ht1; auto.
    - cbn [Z.eqb Pos.eqb bind]. rewrite !zlen_cons, zlen_nil. cbn [Z.add Pos.add Pos.succ].
      destruct todo as [|a todo].
      + cbn [firstn repeat skipn]. destruct (list_eq_dec _ _ _) as [E|_]; [discriminate|].
        cbn [andb]. destruct (_ >=? _) eqn:E; [|reflexivity].
        destruct Hr as (rest & -> & Hn). rewrite app_nil_r in Hn. cbn [app].
        destruct Hn as [Hn|[Hn (r & ->)]]; [lia|]. cbn [starts_with].
        rewrite rd_app by reflexivity. reflexivity.
      + pose proof Hr as (rest & E & Hn).
        replace (_ >=? _) with true
          by (pose proof (zlen_nonneg todo); destruct Hn as [Hn|[Hn _]];
              rewrite zlen_app, !zlen_cons in Hn; lia).
        apply reads_step in Hr. cbn [starts_with]. rewrite E at 1. cbn [app].
        rewrite rd_app by reflexivity. cbn [bind firstn repeat skipn].
        destruct (a =? 61) eqn:Ea.
        2:{ destruct (list_eq_dec _ _ _) as [F|_]; [injection F; lia|reflexivity]. }
        destruct (list_eq_dec _ _ _) as [_|F]; [|contradiction F; repeat f_equal; lia].
        cbn [andb].
        replace (zlen done + 1) with (zlen (done ++ [a]))
          by (rewrite !zlen_app, !zlen_cons, zlen_nil; lia).
        replace (n - zlen done - 1) with (n - zlen (done ++ [a]))
          by (rewrite !zlen_app, !zlen_cons, zlen_nil; lia).
        apply good_termination_ok; auto. inversion Ht; auto.
  Qed.

  (** * Relation to the grammar *)
  Lemma decodes_chars t d : decodes value wsp t d -> ~ has_bad value wsp t.
  Proof.
    intros (_ & body & pad & trail & -> & Hv & Hp & Htr) (c & Hin & H61 & Hn & Hw).
    rewrite !in_app_iff in Hin. destruct Hin as [Hin|[Hin|Hin]].
    - assert (Hin' : In (value c) (map value (filter (fun c => negb (wsp c)) body))).
      { apply in_map, filter_In. rewrite Hw. auto. }
      rewrite Hv, Hn in Hin'. apply in_map_iff in Hin'. destruct Hin' as (x & Hx & _). discriminate.
    - subst pad. unfold padding in Hin.
      destruct (length d mod 3)%nat as [|[|k]]; cbn [In] in Hin; lia.
    - rewrite Forall_forall in Htr. rewrite (Htr c Hin) in Hw. discriminate.
  Qed.

  Lemma value_61 : value 61 = None /\ wsp 61 = false.
  Proof.
    destruct G62 as (_ & _ & N62 & _). destruct G63 as (_ & _ & N63 & _).
    unfold value, code_value, std_value, wsp.
    destruct (61 =? u8 p62) eqn:E1; [lia|]. destruct (61 =? u8 p63) eqn:E2; [lia|].
    split; [reflexivity|apply andb_false_r].
  Qed.

  Lemma body_no_pad body d :
    map value (filter (fun c => negb (wsp c)) body) = map Some (sextets d) -> ~ In 61 body.
  Proof.
    intros Hv Hin. destruct value_61 as [V W].
    assert (Hin' : In (value 61) (map value (filter (fun c => negb (wsp c)) body))).
    { apply in_map, filter_In. rewrite W. auto. }
    rewrite Hv, V in Hin'. apply in_map_iff in Hin'. destruct Hin' as (x & Hx & _). discriminate.
  Qed.

  Lemma split_unique (done todo body rest : list Z) :
    done ++ todo = body ++ rest -> ~ In 61 done -> ~ In 61 body -> stops todo ->
    (exists r, rest = 61 :: r) -> done = body /\ todo = rest.
  Proof.
    revert body. induction done as [|x done IH]; intros body E Hd Hb Hs (r & Hr).
    - destruct body as [|y body]; [auto|]. cbn [app] in E. destruct Hs as [->|(s & ->)]; [discriminate|].
      injection E as E _. contradiction Hb. left; auto.
    - destruct body as [|y body].
      + cbn [app] in E. rewrite Hr in E. injection E as E _. contradiction Hd. left; auto.
      + cbn [app] in E. injection E as -> E. destruct (IH body E) as [-> ->]; auto.
        * intros H; apply Hd; right; exact H.
        * intros H; apply Hb; right; exact H.
        * exists r; exact Hr.
  Qed.

  Lemma vals_wsp trail : Forall (fun c => wsp c = true) trail -> vals value wsp trail = [].
  Proof.
    unfold vals. induction 1 as [|c trail Hc _ IH]; [reflexivity|]. cbn [filter]. rewrite Hc. exact IH.
  Qed.

  (** Final verdict of the loops, in terms of the grammar. *)
  Lemma verdict done todo d count r :
    ~ In 61 done -> stops todo -> bytes d -> count_ok d count -> 0 <= r < 2 ^ count ->
    vals value wsp done = map Some (sxr d count r) ->
    forall d', decodes value wsp (done ++ todo) d' <->
      (d = d' /\ r = 0 /\ count <> 6 /\ tail_ok todo (padlen d) = true).
  Proof.
    intros Hno Hst Hb Hc Hr Hv d'. split.
    - intros (Hb' & body & pad & trail & E & Hv' & Hp & Htr).
      pose proof (body_no_pad _ _ Hv') as Hnob.
      destruct value_61 as [V61 W61].
      assert (Hnot : ~ In 61 trail).
      { intros Hin. rewrite Forall_forall in Htr. rewrite (Htr _ Hin) in W61. discriminate. }
      assert (H : vals value wsp done = map Some (sextets d') /\
                  (todo = pad ++ trail \/ (todo = [] /\ pad = []))).
      { destruct pad as [|x pad].
        - cbn [app] in E.
          assert (Hnt : ~ In 61 (body ++ trail)) by (rewrite in_app_iff; tauto).
          rewrite <- E in Hnt. rewrite in_app_iff in Hnt.
          destruct Hst as [->|(s & ->)]; [|contradiction Hnt; right; left; reflexivity].
          rewrite app_nil_r in E. subst done. split; [|right; auto].
          rewrite vals_app, (vals_wsp trail), app_nil_r by assumption. exact Hv'.
        - assert (x = 61) as ->.
          { rewrite padding_repeat in Hp. destruct (padlen d'); [discriminate|].
            injection Hp; auto. }
          destruct (split_unique _ _ _ _ E Hno Hnob Hst) as [-> ->]; [eexists; reflexivity|].
          split; [exact Hv'|left; reflexivity]. }
      destruct H as [Hv'' Htail]. rewrite Hv in Hv''. apply map_Some_inj in Hv''.
      destruct (count_of_ok d') as [Hc' Hc6]. rewrite <- (sxr_0 d' _ Hc' Hc6) in Hv''.
      apply sxr_inj in Hv''; auto.
      2:{ unfold count_of. destruct (length d' mod 3)%nat as [|[|k]]; lia. }
      destruct Hv'' as (-> & -> & ->). repeat split; auto.
      unfold tail_ok. rewrite padding_repeat in Hp.
      destruct Htail as [->|[-> Hpe]].
      + rewrite Hp. rewrite firstn_app, repeat_length, Nat.sub_diag, firstn_O, app_nil_r.
        rewrite firstn_all2 by (rewrite repeat_length; lia).
        destruct (list_eq_dec _ _ _) as [_|F]; [|congruence].
        rewrite skipn_app, repeat_length, Nat.sub_diag, skipn_all2 by (rewrite repeat_length; lia).
        cbn [app skipn andb]. apply forallb_forall. apply Forall_forall. exact Htr.
      + rewrite Hpe in Hp. destruct (padlen d'); [|discriminate]. cbn [firstn repeat skipn forallb].
        destruct (list_eq_dec _ _ _) as [_|F]; [reflexivity|congruence].
    - intros (<- & -> & H6 & Ht). split; [exact Hb|].
      exists done, (padding d), (skipn (padlen d) todo).
      unfold tail_ok in Ht. destruct (list_eq_dec _ _ _) as [F|]; [|discriminate].
      cbn [andb] in Ht. repeat split.
      + rewrite padding_repeat, <- F, firstn_skipn. reflexivity.
      + rewrite <- (sxr_0 d count Hc H6). exact Hv.
      + apply Forall_forall. apply forallb_forall. exact Ht.
  Qed.
End Loops.

(** * base64_decode_buffer *)

(** base64_decode_buffer after the defaults for pos62 and pos63 have been put in. *)
Definition decode_raw (src : list Z) (source_size : Z) (dest : list Z) (dest_size : Z) (pos62 pos63 : Z) (ignore_wsp : bool) : res dec_result :=
  r <- decode_store (S (length src)) src source_size dest_size pos62 pos63 ignore_wsp (DecState 0 0 0 0 dest) ;;
  match r with
  | LBad dest => Ok (DecFail EILSEQ dest)
  | LDone st =>
    r <- decode_count (S (length src)) src source_size pos62 pos63 ignore_wsp st ;;
    match r with
    | LBad dest => Ok (DecFail EILSEQ dest)
    | LDone (DecState si pi bits bit_count dest) =>
      if truth (Z.land bits (Z.ones bit_count)) then Ok (DecFail EILSEQ dest)
      else
        g <- good_base64_tail src si (source_size - si) bit_count ignore_wsp ;;
        if negb g then Ok (DecFail EILSEQ dest)
        else if s64 pi <? 0 then Ok (DecFail EOVERFLOW dest)
        else Ok (DecOk pi dest)
    end
  end.

Lemma decode_raw_ok src n t dest size q62 q63 ign :
  text_of src n t -> zlen t < 2 ^ 63 -> 0 <= size <= zlen dest ->
  schar q62 -> schar q63 -> good_pos (u8 q62) -> good_pos (u8 q63) ->
  let value := code_value (u8 q62) (u8 q63) in
  let wsp c := ign && code_wsp c in
  (exists d, decodes value wsp t d /\
     decode_raw src n dest size q62 q63 ign = Ok (DecOk (zlen d) (stored dest size d))) \/
  ((forall d, ~ decodes value wsp t d) /\
   exists d', decode_raw src n dest size q62 q63 ign = Ok (DecFail EILSEQ (stored dest size d'))).
Proof.
  intros (Htc & rest & Hsrc & Hn) Hlen Hsz Q62 Q63 HG62 HG63. unfold decode_raw. cbv zeta.
  set (value := code_value (u8 q62) (u8 q63)). set (wsp := fun c => ign && code_wsp c).
  assert (Hr : reads src n [] t) by (exists rest; cbn [app]; auto).
  assert (Hf : (length t < S (length src))%nat) by (rewrite Hsrc, app_length; lia).
  assert (H0 : inv value wsp dest size [] (DecState 0 0 0 0 dest)).
  { split; [reflexivity|]. split; [intros []|]. exists []. cbn [d_si d_pi d_bits d_count d_dest].
    split; [constructor|]. split; [reflexivity|]. split; [left; auto|]. split; [reflexivity|].
    unfold stored. rewrite zlen_nil, Z.min_r by lia. reflexivity. }
  destruct (store_ok q62 q63 ign Q62 Q63 HG62 HG63 dest size src n Hsz t [] _ _ Hr Htc Hf H0)
    as [(st & done & todo & E & Hrun & Hinv & Hst)|(d' & Hrun & Hbad)]; rewrite Hrun; cbn [bind].
  2:{ right. split; [|exists d'; reflexivity]. intros d Hd. apply decodes_chars in Hd; auto. }
  cbn [app] in E.
  assert (Hr2 : reads src n done todo).
  { exists rest. rewrite app_assoc, <- E. auto. }
  assert (Htc2 : Forall text_char todo).
  { rewrite E in Htc. apply Forall_app in Htc. apply Htc. }
  assert (Hf2 : (length todo < S (length src))%nat) by (rewrite E, app_length in Hf; lia).
  destruct (count_ok_loop q62 q63 ign Q62 Q63 HG62 HG63 dest size src n Hsz todo done _ _ Hr2 Htc2 Hf2 Hinv Hst)
    as [(st' & done' & todo' & E' & Hrun' & Hinv' & Hst')|(d' & Hrun' & Hbad)]; rewrite Hrun'; cbn [bind].
  2:{ right. split; [|exists d'; reflexivity]. intros d Hd. apply decodes_chars in Hd; auto.
      rewrite E in Hd. contradiction. }
  destruct st' as [si pi bits count cur].
  destruct Hinv' as (Hsi & Hno & d & Hb & Hpi & Hc & Hv & Hcur).
  cbn [d_si d_pi d_bits d_count d_dest] in *. subst si pi cur.
  assert (Hc0 : 0 <= count) by (unfold count_ok in Hc; lia).
  rewrite Z.land_ones by assumption.
  assert (Hr3 : reads src n done' todo').
  { exists rest. rewrite app_assoc, <- E', <- E. auto. }
  assert (Htc3 : Forall text_char todo').
  { rewrite E, E' in Htc. apply Forall_app in Htc. apply Htc. }
  pose proof (verdict q62 q63 ign HG62 HG63 done' todo' d count (bits mod 2 ^ count) Hno Hst' Hb Hc
                ltac:(apply Z.mod_pos_bound, Z.pow_pos_nonneg; lia) Hv) as Hver.
  fold value in Hver. fold wsp in Hver. rewrite <- E', <- E in Hver.
  unfold truth. destruct (bits mod 2 ^ count =? 0) eqn:Er; cbn [negb].
  2:{ right. split; [|exists d; reflexivity]. intros d' Hd. apply Hver in Hd. lia. }
  destruct (Z.eq_dec count 6) as [->|H6].
  { right. split; [|exists d; reflexivity]. intros d' Hd. apply Hver in Hd. lia. }
  rewrite (good_tail_ok q62 q63 ign src n done' todo' count (padlen d)); auto.
  2:{ unfold padlen, padding, count_ok in *. destruct (length d mod 3)%nat as [|[|k]]; cbn [length]; lia. }
  cbn [bind].
  destruct (tail_ok ign todo' (padlen d)) eqn:Et; cbn [negb].
  2:{ right. split; [|exists d; reflexivity]. intros d' Hd. apply Hver in Hd.
      destruct Hd as (_ & _ & _ & Hd). congruence. }
  left. exists d. split; [apply Hver; repeat split; auto; lia|].
  assert (Hdl : 0 <= zlen d < 2 ^ 63).
  { split; [apply zlen_nonneg|].
    apply Z.le_lt_trans with (2 := Hlen). rewrite E, E'.
    assert (Hl : zlen (vals value wsp done') <= zlen done').
    { unfold vals. rewrite zlen_map. unfold zlen. clear.
      induction done' as [|x l IH]; cbn [filter length]; [lia|].
      destruct (negb _); cbn [length]; lia. }
    assert (Hx : zlen d <= zlen (sxr d count (bits mod 2 ^ count))).
    { clear. generalize (bits mod 2 ^ count) as r. intros r.
      induction d as [| | |a b e d IH] using list_ind3; cbn [sxr]; rewrite ?zlen_cons, ?zlen_nil;
        try lia. apply zlen_nonneg. }
    fold value in Hv. fold wsp in Hv. rewrite Hv, zlen_map in Hl. rewrite zlen_app. pose proof (zlen_nonneg todo'). lia. }
  assert (Hs : s64 (zlen d) = zlen d).
  { unfold s64, sgn. change (64 - 1) with 63. rewrite Z.mod_small by lia.
    destruct (_ <? _) eqn:F; lia. }
  rewrite Hs. replace (zlen d <? 0) with false by lia. reflexivity.
Qed.

Lemma decode_buffer_ok src n t dest size p62 p63 ign :
  text_of src n t -> zlen t < 2 ^ 63 -> 0 <= size <= zlen dest ->
  schar p62 -> schar p63 -> good_pos (pos_char p62 43) -> good_pos (pos_char p63 47) ->
  let value := code_value (pos_char p62 43) (pos_char p63 47) in
  let wsp c := ign && code_wsp c in
  (exists d, decodes value wsp t d /\
     base64_decode_buffer src n dest size p62 p63 ign = Ok (DecOk (zlen d) (stored dest size d))) \/
  ((forall d, ~ decodes value wsp t d) /\
   exists d', base64_decode_buffer src n dest size p62 p63 ign =
              Ok (DecFail EILSEQ (stored dest size d'))).
Proof.
  intros Ht Hlen Hsz HS62 HS63 HG62 HG63.
  change (base64_decode_buffer src n dest size p62 p63 ign)
    with (decode_raw src n dest size (if p62 =? -1 then 43 else p62) (if p63 =? -1 then 47 else p63) ign).
  set (q62 := if p62 =? -1 then 43 else p62). set (q63 := if p63 =? -1 then 47 else p63).
  assert (E62 : pos_char p62 43 = u8 q62) by (unfold pos_char, q62; destruct (p62 =? -1); reflexivity).
  assert (E63 : pos_char p63 47 = u8 q63) by (unfold pos_char, q63; destruct (p63 =? -1); reflexivity).
  rewrite E62, E63 in *.
  apply decode_raw_ok; try assumption; unfold q62, q63, schar in *; [destruct (p62 =? -1)|destruct (p63 =? -1)]; lia.
Qed.

