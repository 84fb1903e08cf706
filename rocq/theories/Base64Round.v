(** Consequences: round trip, refutations, examples (src/base64.c). *)
From Verif Require Import Base Base64Model Base64Spec Base64Proofs Base64Decode.
From Coq Require Import ZifyBool ZifyNat.
Ltac Zify.zify_post_hook ::= Z.div_mod_to_equations.

Lemma decode_exact src n t dest size p62 p63 ign :
  text_of src n t -> zlen t < 2 ^ 63 -> 0 <= size <= zlen dest ->
  -128 <= p62 <= 127 -> -128 <= p63 <= 127 ->
  good_pos (pos_char p62 43) -> good_pos (pos_char p63 47) ->
  let value := code_value (pos_char p62 43) (pos_char p63 47) in
  let wsp c := ign && code_wsp c in
  (exists d dest', decodes value wsp t d /\
     base64_decode_buffer src n dest size p62 p63 ign = Ok (DecOk (zlen d) dest')) \/
  ((forall d, ~ decodes value wsp t d) /\
   exists dest', base64_decode_buffer src n dest size p62 p63 ign = Ok (DecFail EILSEQ dest')).
Proof.
  intros Ht Hl Hs H62 H63 G62 G63 value wsp.
  destruct (decode_buffer_ok src n t dest size p62 p63 ign Ht Hl Hs H62 H63 G62 G63)
    as [(d & Hd & Hr)|(Hd & d' & Hr)].
  - left. exists d, (stored dest size d). auto.
  - right. split; [exact Hd|]. eexists; exact Hr.
Qed.

Lemma decodes_ext v1 w1 v2 w2 t d :
  (forall c, In c t -> v1 c = v2 c) -> (forall c, In c t -> w1 c = w2 c) ->
  decodes v1 w1 t d -> decodes v2 w2 t d.
Proof.
  intros Hv Hw (Hb & body & pad & trail & -> & H & Hp & Htr). split; [exact Hb|].
  exists body, pad, trail. repeat split; auto.
  - rewrite <- H. rewrite (filter_ext_in (fun c => negb (w2 c)) (fun c => negb (w1 c))).
    + apply map_ext_in. intros c Hc. apply filter_In in Hc. symmetry. apply Hv.
      rewrite in_app_iff. tauto.
    + intros c Hc. rewrite Hw; [reflexivity|]. rewrite in_app_iff; tauto.
  - rewrite Forall_forall in *. intros c Hc. rewrite <- Hw; [auto|]. rewrite !in_app_iff; tauto.
Qed.

Lemma decode_rfc src n t dest size p62 p63 ign :
  text_of src n t -> zlen t < 2 ^ 63 -> 0 <= size <= zlen dest ->
  -128 <= p62 <= 127 -> -128 <= p63 <= 127 ->
  good_pos (pos_char p62 43) -> good_pos (pos_char p63 47) ->
  ~ In 127 t -> ~ In 255 t ->
  let value := std_value (pos_char p62 43) (pos_char p63 47) in
  let wsp c := ign && std_wsp c in
  (exists d dest', decodes value wsp t d /\
     base64_decode_buffer src n dest size p62 p63 ign = Ok (DecOk (zlen d) dest')) \/
  ((forall d, ~ decodes value wsp t d) /\
   exists dest', base64_decode_buffer src n dest size p62 p63 ign = Ok (DecFail EILSEQ dest')).
Proof.
  intros Ht Hl Hs H62 H63 G62 G63 N127 N255 value wsp.
  assert (Hv : forall c, In c t -> value c = code_value (pos_char p62 43) (pos_char p63 47) c).
  { intros c Hc. unfold value, code_value. destruct (std_value _ _ c); [reflexivity|].
    destruct (c =? 255) eqn:E; [|reflexivity].
    apply Z.eqb_eq in E. subst c. contradiction. }
  assert (Hw : forall c, In c t -> wsp c = (ign && code_wsp c)).
  { intros c Hc. unfold wsp, code_wsp. destruct (c =? 127) eqn:E; [|rewrite orb_false_r; reflexivity].
    apply Z.eqb_eq in E. subst c. contradiction. }
  destruct (decode_exact src n t dest size p62 p63 ign Ht Hl Hs H62 H63 G62 G63)
    as [(d & dest' & Hd & Hr)|(Hd & dest' & Hr)].
  - left. exists d, dest'. split; [|exact Hr]. eapply decodes_ext; [| |exact Hd].
    + intros c Hc; symmetry; apply Hv; exact Hc.
    + intros c Hc; symmetry; apply Hw; exact Hc.
  - right. split; [|exists dest'; exact Hr]. intros d Hd'. apply (Hd d).
    eapply decodes_ext; [| |exact Hd']; auto.
Qed.

Lemma decode_refuted :
  exists src n t dest,
    text_of src n t /\
    (forall d, ~ decodes (std_value 43 47) (fun _ => false) t d) /\
    base64_decode_buffer src n dest (zlen dest) (-1) (-1) false = Ok (DecOk 3 [0; 0; 0]).
Proof.
  exists [255; 255; 255; 255], 4, [255; 255; 255; 255], [1; 2; 3]. split; [|split].
  - split; [repeat constructor; lia|]. exists []. split; [reflexivity|left; reflexivity].
  - intros d (_ & body & pad & trail & E & Hv & Hp & Htr).
    destruct trail as [|x trail]; [|inversion Htr; discriminate].
    destruct body as [|x body].
    + assert (pad = [255; 255; 255; 255]) as -> by (cbn [app] in E; rewrite app_nil_r in E; auto).
      unfold padding in Hp. destruct (length d mod 3)%nat as [|[|k]]; discriminate.
    + cbn [app] in E. injection E as <- E. cbn in Hv.
      destruct (sextets d); discriminate.
  - vm_compute. reflexivity.
Qed.

Lemma decode_refuted_del :
  exists src n t dest,
    text_of src n t /\
    (forall d, ~ decodes (std_value 43 47) std_wsp t d) /\
    base64_decode_buffer src n dest (zlen dest) (-1) (-1) true = Ok (DecOk 3 [0; 0; 0]).
Proof.
  exists [127; 65; 65; 65; 65], 5, [127; 65; 65; 65; 65], [1; 2; 3]. split; [|split].
  - split; [repeat constructor; lia|]. exists []. split; [reflexivity|left; reflexivity].
  - intros d (_ & body & pad & trail & E & Hv & Hp & Htr).
    destruct body as [|x body].
    + cbn [app] in E. destruct pad as [|y pad].
      * cbn [app] in E. subst trail. inversion Htr; discriminate.
      * cbn [app] in E. injection E as <- E. unfold padding in Hp.
        destruct (length d mod 3)%nat as [|[|k]]; discriminate.
    + cbn [app] in E. injection E as <- E. cbn in Hv. destruct (sextets d); discriminate.
  - vm_compute. reflexivity.
Qed.

Lemma u8_id p : byte p -> u8 p = p.
Proof. unfold byte; intros; apply u8_small; lia. Qed.

(** A byte as the argument of type char. *)
Definition as_char (p : Z) : Z := if p <? 128 then p else p - 256.
Lemma as_char_ok p : byte p -> schar (as_char p) /\ u8 (as_char p) = p.
Proof.
  unfold byte, schar, as_char, u8. intros H. change (2 ^ 8) with 256.
  destruct (p <? 128) eqn:E; lia.
Qed.

Lemma value_class p q ign c :
  good_pos p -> good_pos q -> code_value p q c <> None -> (ign && code_wsp c) = false.
Proof.
  intros Gp Gq H. destruct (code_value p q c) as [v|] eqn:E; [|congruence].
  destruct Gp as (_ & _ & _ & Wp). destruct Gq as (_ & _ & _ & Wq).
  destruct ign; [cbn [andb]|reflexivity].
  unfold code_value, std_value in E. unfold code_wsp, std_wsp in *.
  destruct (c =? p) eqn:E1. { apply Z.eqb_eq in E1. subst c. exact Wp. }
  destruct (c =? q) eqn:E2. { apply Z.eqb_eq in E2. subst c. exact Wq. }
  repeat match goal with H : context [if ?b then _ else _] |- _ => destruct b eqn:? end;
    try discriminate E; lia.
Qed.

Lemma decodes_unique p q ign t d d' :
  good_pos p -> good_pos q ->
  let value := code_value p q in
  let wsp c := ign && code_wsp c in
  decodes value wsp t d -> decodes value wsp t d' -> d = d'.
Proof.
  intros Gp Gq value wsp H1 H2.
  destruct (as_char_ok p (proj1 Gp)) as [Sp Up]. destruct (as_char_ok q (proj1 Gq)) as [Sq Uq].
  (* both decodings give the same value sequence *)
  assert (K : forall d, decodes value wsp t d -> vals value wsp
             (filter (fun c => negb (c =? 61)) t) = map Some (sextets d)).
  { clear d d' H1 H2. intros d (_ & body & pad & trail & -> & Hv & Hp & Htr).
    rewrite !filter_app, !vals_app.
    assert (E1 : filter (fun c => negb (c =? 61)) body = body).
    { pose proof (body_no_pad (as_char p) (as_char q) ign) as B. rewrite Up, Uq in B.
      specialize (B Gp Gq body d Hv).
      clear - B. induction body as [|x l IH]; [reflexivity|]. cbn [filter In] in *.
      destruct (x =? 61) eqn:E; cbn [negb]; [apply Z.eqb_eq in E; tauto|].
      rewrite IH; tauto. }
    assert (E2 : filter (fun c => negb (c =? 61)) pad = []).
    { rewrite Hp. unfold padding. destruct (length d mod 3)%nat as [|[|k]]; reflexivity. }
    assert (E3 : vals value wsp (filter (fun c => negb (c =? 61)) trail) = []).
    { unfold vals. clear - Htr. induction Htr as [|x l Hx _ IH]; [reflexivity|].
      cbn [filter]. destruct (negb (x =? 61)); [|exact IH]. cbn [filter]. rewrite Hx. exact IH. }
    rewrite E1, E2, E3. cbn [vals filter map app]. rewrite app_nil_r. exact Hv. }
  pose proof (K d H1) as K1. pose proof (K d' H2) as K2. rewrite K1 in K2.
  apply map_Some_inj in K2.
  destruct (count_of_ok d) as [C1 N1]. destruct (count_of_ok d') as [C2 N2].
  rewrite <- (sxr_0 d _ C1 N1), <- (sxr_0 d' _ C2 N2) in K2.
  apply sxr_inj in K2; [tauto|apply H1|apply H2|exact C1|exact C2| |].
  - unfold count_of. destruct (length d mod 3)%nat as [|[|k]]; lia.
  - unfold count_of. destruct (length d' mod 3)%nat as [|[|k]]; lia.
Qed.

Lemma decode_short src n t dest size p62 p63 ign :
  text_of src n t -> zlen t < 2 ^ 63 -> 0 <= size <= zlen dest ->
  -128 <= p62 <= 127 -> -128 <= p63 <= 127 ->
  good_pos (pos_char p62 43) -> good_pos (pos_char p63 47) ->
  let value := code_value (pos_char p62 43) (pos_char p63 47) in
  let wsp c := ign && code_wsp c in
  forall d, decodes value wsp t d ->
  let k := Z.to_nat (Z.min size (zlen d)) in
  base64_decode_buffer src n dest size p62 p63 ign = Ok (DecOk (zlen d) (firstn k d ++ skipn k dest)).
Proof.
  intros Ht Hl Hs H62 H63 G62 G63 value wsp d Hd k.
  destruct (decode_buffer_ok src n t dest size p62 p63 ign Ht Hl Hs H62 H63 G62 G63)
    as [(d' & Hd' & Hr)|(Hno & d' & Hr)].
  - rewrite Hr. unfold k. rewrite (decodes_unique _ _ ign t d d' G62 G63 Hd Hd'). reflexivity.
  - exfalso. apply (Hno d Hd).
Qed.

Lemma decode_failure_bounds src n t dest size p62 p63 ign :
  text_of src n t -> zlen t < 2 ^ 63 -> 0 <= size <= zlen dest ->
  -128 <= p62 <= 127 -> -128 <= p63 <= 127 ->
  good_pos (pos_char p62 43) -> good_pos (pos_char p63 47) ->
  forall e dest', base64_decode_buffer src n dest size p62 p63 ign = Ok (DecFail e dest') ->
  length dest' = length dest /\ skipn (Z.to_nat size) dest' = skipn (Z.to_nat size) dest.
Proof.
  intros Ht Hl Hs H62 H63 G62 G63 e dest' He.
  destruct (decode_buffer_ok src n t dest size p62 p63 ign Ht Hl Hs H62 H63 G62 G63)
    as [(d & Hd & Hr)|(Hno & d & Hr)]; rewrite Hr in He; [discriminate|].
  injection He as <- <-. unfold stored. set (k := Z.to_nat (Z.min size (zlen d))).
  pose proof (zlen_nonneg d).
  assert (Hk : (k <= length d)%nat) by (unfold zlen in *; lia).
  assert (Hk2 : (k <= length dest)%nat) by (unfold zlen in *; lia).
  split.
  - rewrite app_length, firstn_length, skipn_length. lia.
  - rewrite skipn_app, firstn_length.
    rewrite skipn_all2 by (rewrite firstn_length; lia). cbn [app].
    assert (Hss : forall (l : list Z) a b, skipn a (skipn b l) = skipn (a + b) l).
    { clear. intros l a b. revert l. induction b as [|b IH]; intros l.
      - rewrite Nat.add_0_r. reflexivity.
      - rewrite Nat.add_succ_r. destruct l as [|x l]; [rewrite !skipn_nil; reflexivity|].
        cbn [skipn]. apply IH. }
    rewrite Hss. f_equal. lia.
Qed.

Lemma decode_example :
  text_of [90; 10; 109; 57; 118; 0; 55] (u64 (-1)) [90; 10; 109; 57; 118] /\
  decodes (code_value 43 47) code_wsp [90; 10; 109; 57; 118] [102; 111; 111] /\
  base64_decode_buffer [90; 10; 109; 57; 118; 0; 55] (u64 (-1)) [9; 9; 9] 2 (-1) (-1) true
  = Ok (DecOk 3 [102; 111; 9]).
Proof.
  split; [|split].
  - split; [repeat constructor; lia|]. exists [0; 55]. split; [reflexivity|]. right.
    split; [reflexivity|]. exists [55]. reflexivity.
  - split; [repeat constructor; unfold byte; lia|].
    exists [90; 10; 109; 57; 118], [], []. repeat split; auto.
  - vm_compute. reflexivity.
Qed.

(** * Round trip *)
Lemma alphabet_value p q v :
  std_value 0 0 p = None -> std_value 0 0 q = None -> p <> q -> 0 < p -> 0 < q ->
  0 <= v < 64 -> code_value p q (alphabet p q v) = Some v.
Proof.
  intros Hp Hq Hpq P0 Q0 Hv. unfold code_value, std_value, alphabet in *.
  destruct (v <? 26) eqn:E1; [|destruct (v <? 52) eqn:E2; [|destruct (v <? 62) eqn:E3;
    [|destruct (v =? 62) eqn:E4]]];
  repeat match goal with H : context [if ?b then _ else _] |- _ => destruct b eqn:? end;
  try discriminate Hp; try discriminate Hq;
  repeat match goal with |- context [if ?b then _ else _] => destruct b eqn:? end;
  try lia; f_equal; lia.
Qed.

Lemma sextets_range d : bytes d -> Forall (fun v => 0 <= v < 64) (sextets d).
Proof.
  induction d as [|a|a b|a b c d IH] using list_ind3; intros H; cbn [sextets];
    repeat match goal with H : bytes (_ :: _) |- _ => inversion H; clear H; subst end;
    unfold byte, bytes in *;
    repeat match goal with H : Forall _ (_ :: _) |- _ => inversion H; clear H; subst end;
    repeat (constructor; [lia|]); auto.
Qed.

Lemma base64_text p q d :
  good_pos p -> good_pos q -> bytes d -> Forall (fun c => byte c /\ c <> 0) (base64 p q d).
Proof.
  intros Gp Gq Hd. unfold base64. apply Forall_app. split.
  - apply Forall_map. eapply Forall_impl; [|apply sextets_range; exact Hd].
    intros v Hv. destruct Gp as (Bp & Np & _). destruct Gq as (Bq & Nq & _).
    unfold alphabet, byte in *. repeat match goal with |- context [if ?b then _ else _] => destruct b eqn:? end; lia.
  - unfold padding. destruct (length d mod 3)%nat as [|[|k]]; repeat constructor; lia.
Qed.

Lemma base64_decodes p q d ign :
  good_pos p -> good_pos q -> p <> q -> std_value 0 0 p = None -> std_value 0 0 q = None -> bytes d ->
  decodes (code_value p q) (fun c => ign && code_wsp c) (base64 p q d) d.
Proof.
  intros Gp Gq Hpq Sp Sq Hd. split; [exact Hd|].
  exists (map (alphabet p q) (sextets d)), (padding d), []. repeat split.
  - rewrite app_nil_r. reflexivity.
  - pose proof (sextets_range d Hd) as Hr. revert Hr. generalize (sextets d). clear d Hd.
    intros l Hr. induction Hr as [|v l Hv _ IH]; [reflexivity|].
    cbn [map filter]. pose proof (alphabet_value p q v Sp Sq Hpq) as Ha.
    destruct Gp as (Bp & Np & Gp'). destruct Gq as (Bq & Nq & Gq'). unfold byte in *.
    specialize (Ha ltac:(lia) ltac:(lia) Hv).
    rewrite (value_class p q) by (try congruence; repeat split; unfold byte; tauto || lia).
    cbn [negb map]. rewrite Ha, IH. reflexivity.
  - constructor.
Qed.

Lemma terminated_room dest size E :
  zlen E < size <= zlen dest -> terminated dest size E = E ++ 0 :: skipn (S (length E)) dest.
Proof.
  intros H. unfold terminated. pose proof (zlen_nonneg E). replace (size =? 0) with false by lia.
  rewrite Z.min_l by lia. rewrite zlen_to_nat, firstn_all. reflexivity.
Qed.

Lemma round_trip data dest size p62 p63 ign n out osize :
  bytes data -> zlen data < 2 ^ 60 ->
  -128 <= p62 <= 127 -> -128 <= p63 <= 127 ->
  good_pos (pos_char p62 43) -> good_pos (pos_char p63 47) ->
  pos_char p62 43 <> pos_char p63 47 ->
  std_value 0 0 (pos_char p62 43) = None -> std_value 0 0 (pos_char p63 47) = None ->
  base64_encoding_size (zlen data) < size -> size <= zlen dest ->
  base64_encoding_size (zlen data) <= n ->
  0 <= osize <= zlen out -> zlen data <= osize ->
  exists enc len,
    base64_encode_buffer data (zlen data) dest size p62 p63 = Ok (enc, len) /\
    base64_decode_buffer enc n out osize p62 p63 ign
    = Ok (DecOk (zlen data) (data ++ skipn (length data) out)).
Proof.
  intros Hb Hl H62 H63 G62 G63 Hne S62 S63 Hsz Hszd Hn Hos Hod.
  pose proof (zlen_nonneg data) as Hdn.
  rewrite encoding_size_correct in * by (unfold SIZE_MAX; lia).
  assert (Hfit : (zlen data + 2) / 3 * 4 <= SIZE_MAX) by (unfold SIZE_MAX; lia).
  replace ((zlen data + 2) / 3 * 4 <=? SIZE_MAX) with true in * by lia.
  set (E := base64 (pos_char p62 43) (pos_char p63 47) data).
  assert (HE : zlen E = (zlen data + 2) / 3 * 4) by apply base64_zlen.
  pose proof (zlen_nonneg E).
  exists (E ++ 0 :: skipn (S (length E)) dest), (zlen E). split.
  - pose proof (encode_buffer_ok data [] dest size p62 p63 Hb) as H1. rewrite app_nil_r in H1.
    rewrite H1 by lia. fold E. cbv zeta. rewrite terminated_room by lia. reflexivity.
  - pose proof (decode_short (E ++ 0 :: skipn (S (length E)) dest) n E out osize p62 p63 ign) as H2.
    cbv zeta in H2. rewrite (H2) with (d := data); auto.
    + rewrite Z.min_r by lia. rewrite zlen_to_nat, firstn_all. reflexivity.
    + split; [apply base64_text; assumption|].
      exists (0 :: skipn (S (length E)) dest). split; [reflexivity|].
      destruct (Z.eq_dec n (zlen E)); [left; auto|]. right. split; [lia|]. eexists; reflexivity.
    + unfold SIZE_MAX in *. lia.
    + apply base64_decodes; assumption.
Qed.

Lemma good_43 : good_pos 43. Proof. repeat split; unfold byte; lia. Qed.
Lemma good_47 : good_pos 47. Proof. repeat split; unfold byte; lia. Qed.

Lemma simple_round_trip junk1 junk2 data :
  bytes data -> zlen data < 2 ^ 60 ->
  exists enc, base64_encode_simple junk1 data (zlen data) = Ok (Some enc) /\
    enc = base64 43 47 data ++ [0] /\
    base64_decode_simple junk2 enc = Ok (Some (data ++ [0], zlen data)).
Proof.
  intros Hb Hl. pose proof (zlen_nonneg data) as Hdn.
  exists (base64 43 47 data ++ [0]). set (E := base64 43 47 data).
  assert (HE : zlen E = (zlen data + 2) / 3 * 4) by apply base64_zlen.
  pose proof (zlen_nonneg E).
  split; [|split; [reflexivity|]].
  - unfold base64_encode_simple. rewrite encoding_size_correct by (unfold SIZE_MAX; lia).
    replace (_ <=? SIZE_MAX) with true by (unfold SIZE_MAX; lia). rewrite <- HE.
    change (u64 (-1)) with (2 ^ 64 - 1). replace (zlen E =? 2 ^ 64 - 1) with false by lia.
    rewrite u64_small by lia.
    pose proof (encode_buffer_ok data [] (fresh_block junk1 (zlen E + 1)) (zlen E + 1) (-1) (-1) Hb) as H1.
    rewrite app_nil_r in H1. rewrite H1; [|lia|rewrite fresh_block_zlen; lia]. cbv zeta.
    change (pos_char (-1) 43) with 43. change (pos_char (-1) 47) with 47. fold E. cbn [bind].
    rewrite terminated_room by (rewrite fresh_block_zlen; lia).
    rewrite skipn_all2; [reflexivity|].
    assert (K : zlen (fresh_block junk1 (zlen E + 1)) = zlen E + 1) by (apply fresh_block_zlen; lia).
    unfold zlen in K |- *. lia.
  - unfold base64_decode_simple.
    assert (Htext : text_of (E ++ [0]) (u64 (-1)) E).
    { split; [apply base64_text; [apply good_43|apply good_47|assumption]|].
      exists [0]. split; [reflexivity|]. right. split; [|exists []; reflexivity].
      change (u64 (-1)) with (2 ^ 64 - 1). lia. }
    assert (Hdec : decodes (code_value 43 47) (fun c => true && code_wsp c) E data).
    { apply base64_decodes; auto using good_43, good_47. lia. }
    pose proof (decode_short (E ++ [0]) (u64 (-1)) E [] 0 (-1) (-1) true Htext ltac:(lia)
                  ltac:(cbn; lia) ltac:(lia) ltac:(lia) good_43 good_47 data Hdec) as H1.
    cbv zeta in H1. rewrite H1. cbn [bind].
    assert (K : zlen (fresh_block junk2 (zlen data + 1)) = zlen data + 1) by (apply fresh_block_zlen; lia).
    set (blk := fresh_block junk2 (zlen data + 1)) in *. clearbody blk.
    pose proof (decode_short (E ++ [0]) (u64 (-1)) E blk (zlen data) (-1) (-1) true Htext ltac:(lia)
                  ltac:(lia) ltac:(lia) ltac:(lia) good_43 good_47 data Hdec) as H2.
    cbv zeta in H2. rewrite H2. cbn [bind]. rewrite Z.min_id, zlen_to_nat, firstn_all.
    destruct (skipn_S_cons (length data) blk) as [x Hx]; [unfold zlen in K; lia|].
    rewrite Hx. rewrite (wr_app data) by reflexivity. cbn [bind]. rewrite skipn_all2; [reflexivity|].
    unfold zlen in K; lia.
Qed.

Lemma round_trip_example :
  bytes [0; 255; 16; 7] /\ good_pos (pos_char 45 43) /\ good_pos (pos_char 95 47) /\
  std_value 0 0 (pos_char 45 43) = None /\ std_value 0 0 (pos_char 95 47) = None /\
  base64_encode_buffer [0; 255; 16; 7] 4 (repeat 1 9) 9 45 95
  = Ok ([65; 80; 56; 81; 66; 119; 61; 61; 0], 8).
Proof.
  split; [repeat constructor; unfold byte; lia|].
  split; [split; [unfold byte; vm_compute; split; congruence|split; vm_compute; [congruence|split; congruence]]|].
  split; [split; [unfold byte; vm_compute; split; congruence|split; vm_compute; [congruence|split; congruence]]|].
  vm_compute. auto.
Qed.
