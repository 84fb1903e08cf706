(** Proofs about the model of src/base64.c. *)
From Verif Require Import Base Base64Model Base64Spec.
From Coq Require Import ZifyBool ZifyNat.
Ltac Zify.zify_post_hook ::= Z.div_mod_to_equations.

(** * Sizes *)
Lemma encoding_size_correct n :
  0 <= n <= SIZE_MAX ->
  base64_encoding_size n =
  (if (n + 2) / 3 * 4 <=? SIZE_MAX then (n + 2) / 3 * 4 else SIZE_MAX).
Proof.
  intros H. unfold base64_encoding_size, u64, SIZE_MAX in *.
  destruct (_ <=? _) eqn:E.
  - destruct (_ <? _) eqn:F; lia.
  - destruct (_ <? _) eqn:F; lia.
Qed.

(** * Encoding *)
Lemma group_bits a b c :
  byte a -> byte b -> byte c ->
  Z.lor (Z.lor (Z.shiftl a 16) (Z.shiftl b 8)) c = a * 65536 + b * 256 + c.
Proof.
  unfold byte; intros Ha Hb Hc.
  rewrite <- Z.lor_assoc.
  rewrite (lor_shiftl_add b c 8) by lia.
  rewrite lor_shiftl_add by lia. lia.
Qed.
Lemma group_bits2 a b :
  byte a -> byte b -> Z.lor (Z.shiftl a 16) (Z.shiftl b 8) = a * 65536 + b * 256.
Proof.
  intros Ha Hb. pose proof (group_bits a b 0 Ha Hb ltac:(unfold byte; lia)) as H.
  rewrite Z.lor_0_r in H. lia.
Qed.

Lemma base64_char_alphabet v p62 p63 :
  base64_char v p62 p63 = alphabet (u8 p62) (u8 p63) (v mod 64).
Proof.
  unfold base64_char.
  assert (E : Z.land (u8 v) 63 = v mod 64).
  { change 63 with (Z.ones 6). rewrite Z.land_ones by lia. unfold u8. lia. }
  rewrite E. clear E.
  assert (B : 0 <= v mod 64 < 64) by lia. revert B. generalize (v mod 64). clear v. intros w B.
  unfold alphabet.
  destruct (w =? 62) eqn:E62. { replace w with 62 by lia. reflexivity. }
  destruct (w =? 63) eqn:E63. { replace w with 63 by lia. reflexivity. }
  replace w with (Z.of_nat (Z.to_nat w)) in * by lia.
  rewrite Nat2Z.id.
  assert (L : (Z.to_nat w < 62)%nat) by lia. clear - L. revert L. generalize (Z.to_nat w).
  intros n L.
  do 62 (destruct n as [|n]; [reflexivity|]). lia.
Qed.

Section Encode.
  Variables p62 p63 : Z. (* after the replacement of -1 *)
  Let al := alphabet (u8 p62) (u8 p63).

  Lemma char18 a b c : byte a -> byte b -> byte c ->
    base64_char (Z.shiftr (a * 65536 + b * 256 + c) 18) p62 p63 = al (a / 4).
  Proof.
    unfold byte; intros. rewrite base64_char_alphabet, Z.shiftr_div_pow2 by lia.
    unfold al; f_equal. change (2 ^ 18) with 262144. lia.
  Qed.
  Lemma char12 a b c : byte a -> byte b -> byte c ->
    base64_char (Z.shiftr (a * 65536 + b * 256 + c) 12) p62 p63 = al (a mod 4 * 16 + b / 16).
  Proof.
    unfold byte; intros. rewrite base64_char_alphabet, Z.shiftr_div_pow2 by lia.
    unfold al; f_equal. change (2 ^ 12) with 4096. lia.
  Qed.
  Lemma char6 a b c : byte a -> byte b -> byte c ->
    base64_char (Z.shiftr (a * 65536 + b * 256 + c) 6) p62 p63 = al (b mod 16 * 4 + c / 64).
  Proof.
    unfold byte; intros. rewrite base64_char_alphabet, Z.shiftr_div_pow2 by lia.
    unfold al; f_equal. change (2 ^ 6) with 64. lia.
  Qed.
  Lemma char0 a b c : byte a -> byte b -> byte c ->
    base64_char (a * 65536 + b * 256 + c) p62 p63 = al (c mod 64).
  Proof. unfold byte; intros. rewrite base64_char_alphabet. unfold al; f_equal. lia. Qed.
End Encode.

Lemma sextets_app d e : (length d mod 3 = 0)%nat -> sextets (d ++ e) = sextets d ++ sextets e.
Proof.
  revert e. induction d as [| | |a b c d IH] using list_ind3; intros e H.
  - reflexivity.
  - discriminate H.
  - discriminate H.
  - cbn [app sextets]. rewrite IH; [reflexivity|].
    cbn [length] in H. lia.
Qed.

Lemma sextets_length d : (length d mod 3 = 0)%nat -> zlen (sextets d) = zlen d / 3 * 4.
Proof.
  induction d as [| | |a b c d IH] using list_ind3; intros H; try discriminate H; auto.
  cbn [sextets length] in *. rewrite !zlen_cons, IH by lia. unfold zlen in *. lia.
Qed.

(** Content of [dest] after characters [E] were emitted with limit [size]. *)
Definition stored (dest : list Z) (size : Z) (E : list Z) : list Z :=
  let k := Z.to_nat (Z.min size (zlen E)) in firstn k E ++ skipn k dest.

Lemma stored_over dest size E F : 0 <= size <= zlen E -> stored dest size (E ++ F) = stored dest size E.
Proof.
  intros H. unfold stored. rewrite zlen_app. pose proof (zlen_nonneg F).
  rewrite !Z.min_l by lia. cbn zeta. f_equal.
  rewrite firstn_app. replace (_ - _)%nat with O by (unfold zlen in *; lia).
  rewrite firstn_O, app_nil_r. reflexivity.
Qed.

Lemma stored_full dest size E : zlen E <= size -> stored dest size E = E ++ skipn (length E) dest.
Proof.
  intros H. unfold stored. rewrite Z.min_r by lia. rewrite zlen_to_nat, firstn_all. reflexivity.
Qed.

Lemma skipn_S_cons {A} n (l : list A) :
  (n < length l)%nat -> exists x, skipn n l = x :: skipn (S n) l.
Proof.
  revert l; induction n; intros [|y l] H; simpl in H; try lia.
  - exists y; reflexivity.
  - destruct (IHn l) as [x Hx]; [lia|]. exists x. exact Hx.
Qed.

Lemma stored_wr dest size E c :
  zlen E < size <= zlen dest ->
  wr (stored dest size E) (zlen E) c = Ok (stored dest size (E ++ [c])).
Proof.
  intros H. rewrite !stored_full by (rewrite ?zlen_app, ?zlen_cons, ?zlen_nil; lia).
  destruct (skipn_S_cons (length E) dest) as [x Hx]; [unfold zlen in H; lia|].
  rewrite Hx, wr_app by reflexivity.
  rewrite <- app_assoc. cbn [app]. do 3 f_equal. rewrite app_length. cbn [length].
  f_equal. lia.
Qed.

Lemma stored_put1 dest size E c :
  0 <= size <= zlen dest -> zlen E + 1 < 2 ^ 64 ->
  put1 (stored dest size E, zlen E) size c = Ok (stored dest size (E ++ [c]), zlen (E ++ [c])).
Proof.
  intros H HE. pose proof (zlen_nonneg E). unfold put1.
  rewrite zlen_app, zlen_cons, zlen_nil, Z.add_0_r.
  rewrite u64_small by lia.
  destruct (_ <? _) eqn:F.
  - rewrite stored_wr by lia. reflexivity.
  - rewrite stored_over by lia. reflexivity.
Qed.

Lemma stored_put4 dest size E c0 c1 c2 c3 :
  0 <= size <= zlen dest -> zlen E + 4 < 2 ^ 64 ->
  put4 (stored dest size E) (zlen E) size c0 c1 c2 c3 =
  Ok (stored dest size (E ++ [c0; c1; c2; c3]), zlen (E ++ [c0; c1; c2; c3])).
Proof.
  intros H HE. unfold put4.
  rewrite stored_put1 by lia. cbn [bind].
  rewrite stored_put1 by (rewrite ?zlen_app, ?zlen_cons, ?zlen_nil; lia). cbn [bind].
  rewrite stored_put1 by (rewrite ?zlen_app, ?zlen_cons, ?zlen_nil; lia). cbn [bind].
  rewrite stored_put1 by (rewrite ?zlen_app, ?zlen_cons, ?zlen_nil; lia).
  rewrite <- !app_assoc. reflexivity.
Qed.

Lemma group3_app pre a b c post :
  byte a -> byte b -> byte c ->
  group3 (pre ++ a :: b :: c :: post) (zlen pre) = Ok (a * 65536 + b * 256 + c).
Proof.
  intros Ha Hb Hc. unfold group3. rewrite rd_app by reflexivity. cbn [bind].
  change (a :: b :: c :: post) with ([a] ++ b :: c :: post). rewrite app_assoc, rd_app
    by (rewrite zlen_app; reflexivity). cbn [bind].
  change (b :: c :: post) with ([b] ++ c :: post). rewrite app_assoc, rd_app
    by (rewrite !zlen_app; unfold zlen; simpl length; lia). cbn [bind].
  rewrite group_bits by assumption. reflexivity.
Qed.

Lemma encode_body_ok p62 p63 dest size tl : forall todo done cnt fuel,
  0 <= size <= zlen dest ->
  bytes todo -> (length done mod 3 = 0)%nat -> (length todo mod 3 = 0)%nat ->
  (length todo < fuel)%nat ->
  zlen done + zlen todo < 2 ^ 63 ->
  cnt = size / 4 - zlen done / 3 -> 0 <= cnt ->
  let al := alphabet (u8 p62) (u8 p63) in
  let E := map al (sextets done) in
  zlen E = zlen done / 3 * 4 ->
  exists done' todo',
    done ++ todo = done' ++ todo' /\
    (length done' mod 3 = 0)%nat /\ (length todo' mod 3 = 0)%nat /\
    (todo' = [] \/ size < zlen (sextets done') + 4) /\
    encode_body fuel (done ++ todo ++ tl) (stored dest size E) (zlen done)
                (zlen (done ++ todo)) (zlen E) cnt p62 p63
    = Ok (stored dest size (map al (sextets done')), zlen done', zlen (sextets done')).
Proof.
  induction todo as [| | |a b c todo IH] using list_ind3;
    intros done cnt fuel Hsz Hb Hd Ht Hf Hlen Hc Hc0 al E HE.
  - exists done, []. repeat split; auto.
    destruct fuel; [simpl in Hf; lia|]. cbn [encode_body].
    rewrite app_nil_r, Z.ltb_irrefl, andb_false_r.
    unfold E. unfold zlen. rewrite map_length. reflexivity.
  - discriminate Ht.
  - discriminate Ht.
  - destruct fuel; [simpl in Hf; lia|].
    assert (Hdone : zlen done mod 3 = 0) by (unfold zlen; lia).
    cbn [encode_body].
    pose proof (zlen_nonneg todo). rewrite !zlen_cons in Hlen.
    replace (zlen done <? zlen (done ++ a :: b :: c :: todo)) with true
      by (rewrite zlen_app, !zlen_cons; lia).
    rewrite andb_true_r. unfold truth.
    destruct (cnt =? 0) eqn:Ec; cbn [negb].
    + exists done, (a :: b :: c :: todo). repeat split; auto.
      * right. rewrite sextets_length by assumption. lia.
      * unfold E, zlen. rewrite map_length. reflexivity.
    + inversion Hb as [|? ? Ha Hb1]; subst. inversion Hb1 as [|? ? Hbb Hb2]; subst.
      inversion Hb2 as [|? ? Hcc Hb3]; subst.
      change ((a :: b :: c :: todo) ++ tl) with (a :: b :: c :: todo ++ tl).
      rewrite group3_app by assumption. cbn [bind].
      rewrite char18, char12, char6, char0 by assumption.
      fold al.
      destruct (IH (done ++ [a; b; c]) (size / 4 - zlen done / 3 - 1) fuel)
        as (done' & todo' & E1 & E2 & E3 & E4 & E5); auto.
      * rewrite app_length. cbn [length]. lia.
      * cbn [length] in Ht. lia.
      * cbn [length] in Hf. lia.
      * rewrite zlen_app, !zlen_cons, zlen_nil. lia.
      * rewrite zlen_app, !zlen_cons, zlen_nil. lia.
      * lia.
      * rewrite sextets_app, map_app by assumption. rewrite !zlen_app. fold al. fold E.
        rewrite HE. cbn [sextets map]. rewrite !zlen_cons, zlen_nil. lia.
      * fold al in E5. exists done', todo'. repeat split; auto.
        { rewrite <- E1, <- app_assoc. reflexivity. }
        rewrite stored_wr by lia. cbn [bind].
        replace (zlen E + 1) with (zlen (E ++ [al (a / 4)])) by (rewrite zlen_app; reflexivity).
        rewrite stored_wr by (rewrite zlen_app, zlen_cons, zlen_nil; lia). cbn [bind].
        rewrite <- app_assoc. cbn [app].
        match goal with |- context [wr (stored dest size ?X) (zlen E + 2) ?v] =>
          replace (zlen E + 2) with (zlen X) by (rewrite zlen_app; reflexivity) end.
        rewrite stored_wr by (rewrite zlen_app, !zlen_cons, zlen_nil; lia). cbn [bind].
        rewrite <- app_assoc. cbn [app].
        match goal with |- context [wr (stored dest size ?X) (zlen E + 3) ?v] =>
          replace (zlen E + 3) with (zlen X) by (rewrite zlen_app; reflexivity) end.
        rewrite stored_wr by (rewrite zlen_app, !zlen_cons, zlen_nil; lia). cbn [bind].
        rewrite <- app_assoc. cbn [app].
        rewrite sextets_app, map_app in E5 by assumption. cbn [sextets map] in E5. fold E in E5.
        rewrite <- !app_assoc in E5. cbn [app] in E5.
        rewrite <- E5. f_equal.
        -- rewrite zlen_app, !zlen_cons, zlen_nil. lia.
        -- rewrite !zlen_app, !zlen_cons, zlen_nil. lia.
Qed.

Lemma zlen_map {A B} (f : A -> B) l : zlen (map f l) = zlen l.
Proof. unfold zlen. rewrite map_length. reflexivity. Qed.

Lemma padding_app d e : (length d mod 3 = 0)%nat -> padding (d ++ e) = padding e.
Proof.
  intros H. unfold padding. replace (length (d ++ e) mod 3)%nat with (length e mod 3)%nat; auto.
  rewrite app_length. lia.
Qed.

Lemma base64_app p q d e :
  (length d mod 3 = 0)%nat -> base64 p q (d ++ e) = map (alphabet p q) (sextets d) ++ base64 p q e.
Proof.
  intros H. unfold base64. rewrite sextets_app, padding_app, map_app, app_assoc by assumption.
  reflexivity.
Qed.

Lemma base64_zlen p q d : zlen (base64 p q d) = (zlen d + 2) / 3 * 4.
Proof.
  induction d as [| | |a b c d IH] using list_ind3; try reflexivity.
  change (a :: b :: c :: d) with ([a; b; c] ++ d).
  rewrite base64_app by reflexivity. rewrite zlen_app, IH, zlen_app. cbn [sextets map].
  rewrite !zlen_cons, zlen_nil. lia.
Qed.

(** Final NUL. *)
Definition terminated (dest : list Z) (size : Z) (E : list Z) : list Z :=
  if size =? 0 then dest
  else
    let k := Z.to_nat (Z.min (zlen E) (size - 1)) in
    firstn k E ++ 0 :: skipn (S k) dest.

Lemma terminate_ok dest size E :
  0 <= size <= zlen dest ->
  (if zlen E <? size then wr (stored dest size E) (zlen E) 0
   else if truth size then wr (stored dest size E) (size - 1) 0
   else Ok (stored dest size E)) = Ok (terminated dest size E).
Proof.
  intros H. unfold terminated, truth. pose proof (zlen_nonneg E).
  destruct (zlen E <? size) eqn:F.
  - replace (size =? 0) with false by lia. rewrite stored_wr by lia.
    rewrite stored_full by (rewrite zlen_app, zlen_cons, zlen_nil; lia).
    rewrite Z.min_l by lia. rewrite zlen_to_nat, firstn_all, <- app_assoc. cbn [app].
    rewrite app_length. cbn [length]. do 4 f_equal. lia.
  - destruct (size =? 0) eqn:G; cbn [negb].
    + unfold stored. rewrite Z.min_l by lia. replace (Z.to_nat size) with O by lia. reflexivity.
    + rewrite Z.min_r by lia.
      unfold stored. rewrite Z.min_l by lia. cbn zeta.
      set (k := Z.to_nat (size - 1)). replace (Z.to_nat size) with (S k) by lia.
      destruct (skipn_S_cons k E) as [x Hx]; [unfold zlen in *; lia|].
      assert (Hf : firstn (S k) E = firstn k E ++ [x]).
      { rewrite <- (firstn_skipn k E) at 1. rewrite Hx.
        rewrite firstn_app. rewrite firstn_firstn. rewrite firstn_length.
        replace (S k - Nat.min k (length E))%nat with 1%nat by (unfold zlen in *; lia).
        replace (Nat.min (S k) k) with k by lia. reflexivity. }
      rewrite Hf, <- app_assoc. cbn [app]. rewrite wr_app; [reflexivity|].
      unfold zlen in *. rewrite firstn_length. lia.
Qed.

Lemma encode_buffer_ok data tl dest size p62 p63 :
  bytes data -> zlen data < 2 ^ 62 -> 0 <= size <= zlen dest ->
  base64_encode_buffer (data ++ tl) (zlen data) dest size p62 p63 =
  let E := base64 (pos_char p62 43) (pos_char p63 47) data in
  Ok (terminated dest size E, zlen E).
Proof.
  intros Hb Hlen Hsz. unfold base64_encode_buffer. cbv zeta.
  set (q62 := if p62 =? -1 then 43 else p62). set (q63 := if p63 =? -1 then 47 else p63).
  assert (E62 : pos_char p62 43 = u8 q62) by (unfold pos_char, q62; destruct (p62 =? -1); reflexivity).
  assert (E63 : pos_char p63 47 = u8 q63) by (unfold pos_char, q63; destruct (p63 =? -1); reflexivity).
  rewrite E62, E63. clear E62 E63. clearbody q62 q63. clear p62 p63.
  pose proof (zlen_nonneg data) as Hn.
  (* split off the tail *)
  assert (exists full part, data = full ++ part /\ (length full mod 3 = 0)%nat /\
             zlen full = zlen data - zlen data mod 3 /\ zlen part = zlen data mod 3)
    as (full & part & Hdata & Hfull & Hfl & Hpl).
  { set (k := Z.to_nat (zlen data - zlen data mod 3)).
    exists (firstn k data), (skipn k data). rewrite firstn_skipn.
    unfold zlen in *. rewrite firstn_length, skipn_length. repeat split; lia. }
  rewrite <- Hfl, <- Hpl.
  subst data. unfold bytes in Hb. apply Forall_app in Hb. destruct Hb as [Hbf Hbp].
  destruct (encode_body_ok q62 q63 dest size (part ++ tl) full [] (size / 4)
              (S (length ((full ++ part) ++ tl)))) as (done & todo & E1 & E2 & E3 & E4 & E5); auto.
  all: try (rewrite ?zlen_nil; unfold zlen in *; rewrite ?app_length in *; cbn [length]; lia).
  cbn [app] in E1, E5. rewrite zlen_nil in E5.
  cbn [sextets map] in E5. rewrite ?zlen_nil in E5.
  replace (stored dest size []) with dest in E5.
  2:{ unfold stored. rewrite zlen_nil, Z.min_r by lia. reflexivity. }
  rewrite app_assoc in E5. change (zlen (@nil Z)) with 0 in E5. rewrite E5. clear E5. cbn [bind].
  set (al := alphabet (u8 q62) (u8 q63)).
  rewrite E1. rewrite (zlen_app done todo).
  assert (Hdm : zlen done mod 3 = 0) by (unfold zlen; lia).
  assert (Hdl : zlen done < 2 ^ 62).
  { pose proof (zlen_nonneg part). pose proof (zlen_nonneg todo).
    rewrite E1, !zlen_app in Hlen. lia. }
  (* bits of the truncated group *)
  assert (Hmid :
    exists done2 todo2, done ++ todo = done2 ++ todo2 /\ (length done2 mod 3 = 0)%nat /\
      (length todo2 mod 3 = 0)%nat /\
      (todo2 = [] \/ size <= zlen (sextets done2)) /\
     (if zlen done <? zlen done + zlen todo then
        bits <- group3 (((done ++ todo) ++ part) ++ tl) (zlen done) ;;
        '(dest, i) <- put4 (stored dest size (map al (sextets done))) (zlen (sextets done)) size
             (base64_char (Z.shiftr bits 18) q62 q63)
             (base64_char (Z.shiftr bits 12) q62 q63)
             (base64_char (Z.shiftr bits 6) q62 q63)
             (base64_char bits q62 q63) ;;
        Ok (dest, zlen done + 3, i)
      else Ok (stored dest size (map al (sextets done)), zlen done, zlen (sextets done)))
     = Ok (stored dest size (map al (sextets done2)), zlen done2, zlen (sextets done2))).
  { destruct todo as [|a [|b [|c todo]]]; try discriminate E3.
    - exists done, []. repeat split; auto. rewrite zlen_nil, Z.add_0_r, Z.ltb_irrefl. reflexivity.
    - exists (done ++ [a; b; c]), todo. repeat split.
      + rewrite <- app_assoc. reflexivity.
      + rewrite app_length. cbn [length]. lia.
      + cbn [length] in E3. lia.
      + right. destruct E4 as [E4|E4]; [discriminate|].
        rewrite sextets_app by assumption. rewrite zlen_app. cbn [sextets].
        rewrite !zlen_cons, zlen_nil. lia.
      + rewrite !zlen_cons. pose proof (zlen_nonneg todo).
        replace (_ <? _) with true by lia.
        rewrite E1 in Hbf. apply Forall_app in Hbf. destruct Hbf as [_ Hbt].
        inversion Hbt as [|? ? Ha Hb1]; subst. inversion Hb1 as [|? ? Hbb Hb2]; subst.
        inversion Hb2 as [|? ? Hcc Hb3]; subst.
        rewrite <- !app_assoc. cbn [app]. rewrite group3_app by assumption. cbn [bind].
        rewrite char18, char12, char6, char0 by assumption. fold al.
        rewrite <- (zlen_map al (sextets done)).
        rewrite stored_put4; [|lia|].
        2:{ rewrite zlen_map, sextets_length by assumption. lia. }
        cbn [bind]. rewrite sextets_app by assumption. rewrite map_app. cbn [sextets map].
        rewrite !zlen_app, zlen_map. reflexivity. }
  destruct Hmid as (done2 & todo2 & M1 & M2 & M3 & M4 & M5).
  rewrite M5. clear M5. cbn [bind]. clear E2 E3 E4 Hdm.
  rewrite <- (zlen_app done todo). rewrite M1. rewrite (zlen_app done2 todo2).
  set (E := map al (sextets (done2 ++ todo2))).
  assert (HE : zlen E = zlen (done2 ++ todo2) / 3 * 4).
  { unfold E. rewrite zlen_map, sextets_length; auto. rewrite <- M1, <- E1. exact Hfull. }
  assert (HS : stored dest size (map al (sextets done2)) = stored dest size E).
  { destruct M4 as [->|M4].
    - unfold E. rewrite app_nil_r. reflexivity.
    - unfold E. rewrite sextets_app, map_app by assumption.
      rewrite stored_over; auto. rewrite zlen_map. lia. }
  rewrite HS. clear HS.
  assert (Hfz : zlen full = zlen done2 + zlen todo2) by (rewrite E1, M1, zlen_app; reflexivity).
  assert (HI : u64 (zlen (sextets done2) + (zlen done2 + zlen todo2 - zlen done2) / 3 * 4) = zlen E).
  { rewrite HE, sextets_length by assumption.
    rewrite zlen_app. rewrite u64_small; unfold zlen in *; rewrite app_length in *; lia. }
  rewrite HI. clear HI.
  assert (HEsz : zlen E + 4 < 2 ^ 64).
  { rewrite HE, zlen_app. rewrite zlen_app in *. lia. }
  rewrite base64_app by (rewrite <- M1, <- E1; exact Hfull). fold al. fold E.
  assert (HQ : zlen done2 + zlen todo2 = zlen (done2 ++ todo2)) by (rewrite zlen_app; reflexivity).
  rewrite HQ.
  destruct part as [|a [|b [|c part]]].
  - cbn [base64 sextets padding map app length Nat.modulo]. rewrite zlen_nil. cbn [Z.eqb bind].
    change (base64 (u8 q62) (u8 q63) []) with (@nil Z). rewrite !app_nil_r.
    rewrite terminate_ok by lia. reflexivity.
  - rewrite zlen_cons, zlen_nil. cbn [Z.eqb Z.add Pos.eqb].
    rewrite <- app_assoc. cbn [app]. rewrite rd_app by reflexivity. cbn [bind].
    inversion Hbp as [|? ? Ha Hb1]; subst.
    rewrite Z.shiftl_mul_pow2 by lia.
    replace (a * 2 ^ 16) with (a * 65536 + 0 * 256 + 0) by lia.
    rewrite char18, char12 by (unfold byte in *; lia).
    rewrite stored_put4 by lia. cbn [bind].
    change (0 / 16) with 0. rewrite Z.add_0_r.
    rewrite terminate_ok by lia. reflexivity.
  - rewrite !zlen_cons, zlen_nil. cbn [Z.eqb Z.add Pos.eqb Pos.add Pos.succ].
    rewrite <- app_assoc. cbn [app]. rewrite rd_app by reflexivity. cbn [bind].
    change (a :: b :: tl) with ([a] ++ b :: tl). rewrite app_assoc, rd_app
      by (rewrite (zlen_app _ [a]); reflexivity). cbn [bind].
    inversion Hbp as [|? ? Ha Hb1]; subst. inversion Hb1 as [|? ? Hbb _]; subst.
    rewrite group_bits2 by assumption.
    replace (a * 65536 + b * 256) with (a * 65536 + b * 256 + 0) by lia.
    rewrite char18, char12, char6 by (unfold byte in *; lia).
    rewrite stored_put4 by lia. cbn [bind].
    change (0 / 64) with 0. rewrite Z.add_0_r.
    rewrite terminate_ok by lia. reflexivity.
  - rewrite !zlen_cons in Hpl. pose proof (zlen_nonneg part). lia.
Qed.

(** * Decoding *)
Definition table_value (c : Z) : Z :=
  if (65 <=? c) && (c <=? 90) then c - 65
  else if (97 <=? c) && (c <=? 122) then c - 97 + 26
  else if (48 <=? c) && (c <=? 57) then c - 48 + 52
  else if c =? 43 then 62
  else if c =? 47 then 63
  else if c =? 255 then 0
  else if code_wsp c then -2
  else if c =? 61 then -3
  else if c =? 0 then -4
  else -1.

Lemma decoding_table c : byte c -> decoding c = table_value c.
Proof.
  intros H.
  assert (F : forallb (fun n => decoding (Z.of_nat n) =? table_value (Z.of_nat n)) (seq 0 256) = true)
    by (vm_compute; reflexivity).
  rewrite forallb_forall in F. specialize (F (Z.to_nat c)).
  rewrite Z2Nat.id in F by (unfold byte in H; lia).
  apply Z.eqb_eq, F. apply in_seq. unfold byte in H; lia.
Qed.

Definition schar (p : Z) : Prop := -128 <= p <= 127.

Lemma s8_eqb c p : byte c -> schar p -> (s8 c =? p) = (c =? u8 p).
Proof.
  unfold byte, schar, s8, sgn, u8; intros Hc Hp.
  change (2 ^ 8) with 256. change (2 ^ (8 - 1)) with 128.
  destruct (c mod 256 <? 128) eqn:E; lia.
Qed.

Lemma table_wsp c : byte c -> (decoding c =? -2) = code_wsp c.
Proof.
  intros H. rewrite decoding_table by assumption.
  unfold table_value, code_wsp, std_wsp, byte in *.
  repeat match goal with |- context [if ?b then _ else _] => destruct b eqn:? end; lia.
Qed.

Lemma get_bits_spec c p62 p63 ign :
  byte c -> c <> 0 -> c <> 61 -> schar p62 -> schar p63 -> good_pos (u8 p62) -> good_pos (u8 p63) ->
  get_bits c p62 p63 ign =
  match code_value (u8 p62) (u8 p63) c with
  | Some v => v
  | None => if ign && code_wsp c then -2 else -1
  end.
Proof.
  intros Hc H0 H61 Hp Hq _ _. unfold get_bits.
  rewrite !s8_eqb by assumption. unfold code_value, std_value.
  destruct (c =? u8 p62); [reflexivity|]. destruct (c =? u8 p63); [reflexivity|].
  rewrite decoding_table by assumption. unfold byte in Hc.
  unfold table_value, code_wsp, std_wsp, BASE64_ILLEGAL_OTHER, BASE64_ILLEGAL_WHITESPACE.
  destruct ign; cbn [negb andb];
  repeat match goal with |- context [if ?b then _ else _] => destruct b eqn:? end; try lia;
  repeat match goal with H : context [if ?b then _ else _] |- _ => destruct b eqn:? end; lia.
Qed.

Lemma code_value_range p q c v : code_value p q c = Some v -> 0 <= v < 64.
Proof.
  unfold code_value, std_value.
  repeat match goal with |- context [if ?b then _ else _] => destruct b eqn:? end;
    intros H; inversion H; subst; lia.
Qed.

(** 6-bit values seen so far: those of the bytes [d], plus [c] pending bits of
    value [r]. *)
Fixpoint sxr (d : list Z) (c r : Z) : list Z :=
  match d with
  | [] => if c =? 6 then [r] else []
  | [a] => [a / 4; (a mod 4) * 16 + r]
  | [a; b] => [a / 4; (a mod 4) * 16 + b / 16; (b mod 16) * 4 + r]
  | a :: b :: e :: d =>
    a / 4 :: (a mod 4) * 16 + b / 16 :: (b mod 16) * 4 + e / 64 :: e mod 64 :: sxr d c r
  end.

Definition count_ok (d : list Z) (c : Z) : Prop :=
  ((length d mod 3 = 0)%nat /\ (c = 0 \/ c = 6)) \/
  ((length d mod 3 = 1)%nat /\ c = 4) \/
  ((length d mod 3 = 2)%nat /\ c = 2).

Lemma sxr_0 d c : count_ok d c -> c <> 6 -> sxr d c 0 = sextets d.
Proof.
  induction d as [| | |a b e d IH] using list_ind3; intros H Hc; cbn [sxr sextets].
  - replace (c =? 6) with false by lia. reflexivity.
  - rewrite Z.add_0_r. reflexivity.
  - rewrite Z.add_0_r. reflexivity.
  - rewrite IH; auto. unfold count_ok in *. cbn [length] in H. lia.
Qed.

Lemma sxr_step0 d v : (length d mod 3 = 0)%nat -> sxr d 0 0 ++ [v] = sxr d 6 v.
Proof.
  induction d as [| | |a b e d IH] using list_ind3; intros H; try discriminate H; auto.
  cbn [sxr app]. rewrite IH; auto. cbn [length] in H. lia.
Qed.
Lemma sxr_step6 d r v : (length d mod 3 = 0)%nat -> 0 <= r < 64 -> 0 <= v < 64 ->
  sxr d 6 r ++ [v] = sxr (d ++ [r * 4 + v / 16]) 4 (v mod 16).
Proof.
  induction d as [| | |a b e d IH] using list_ind3; intros H Hr Hv; try discriminate H.
  - cbn [sxr app Z.eqb Pos.eqb]. repeat f_equal; lia.
  - cbn [sxr app]. rewrite IH; auto. cbn [length] in H. lia.
Qed.
Lemma sxr_step4 d r v : (length d mod 3 = 1)%nat -> 0 <= r < 16 -> 0 <= v < 64 ->
  sxr d 4 r ++ [v] = sxr (d ++ [r * 16 + v / 4]) 2 (v mod 4).
Proof.
  induction d as [| | |a b e d IH] using list_ind3; intros H Hr Hv; try discriminate H.
  - cbn [sxr app Z.eqb Pos.eqb]. repeat f_equal; lia.
  - cbn [sxr app]. rewrite IH; auto. cbn [length] in H. lia.
Qed.
Lemma sxr_step2 d r v : (length d mod 3 = 2)%nat -> 0 <= r < 4 -> 0 <= v < 64 ->
  sxr d 2 r ++ [v] = sxr (d ++ [r * 64 + v]) 0 0.
Proof.
  induction d as [| | |a b e d IH] using list_ind3; intros H Hr Hv; try discriminate H.
  - cbn [sxr app Z.eqb Pos.eqb]. repeat f_equal; lia.
  - cbn [sxr app]. rewrite IH; auto. cbn [length] in H. lia.
Qed.

Lemma sxr_inj d : forall d' c c' r r',
  bytes d -> bytes d' -> count_ok d c -> count_ok d' c' ->
  0 <= r < 2 ^ c -> 0 <= r' < 2 ^ c' ->
  sxr d c r = sxr d' c' r' -> d = d' /\ c = c' /\ r = r'.
Proof.
  assert (B : forall a : Z, forall l, bytes (a :: l) -> 0 <= a < 256 /\ bytes l)
    by (intros a l H; inversion H; auto).
  assert (P6 : 2 ^ 6 = 64) by reflexivity. assert (P4 : 2 ^ 4 = 16) by reflexivity.
  assert (P2 : 2 ^ 2 = 4) by reflexivity. assert (P0 : 2 ^ 0 = 1) by reflexivity.
  induction d as [|a|a b|a b e d IH] using list_ind3;
    intros d' c c' r r' Hd Hd' Hc Hc' Hr Hr' E;
    destruct d' as [|a' [|b' [|e' d']]];
    repeat match goal with H : bytes (_ :: _) |- _ => apply B in H; destruct H end;
    unfold count_ok in Hc, Hc'; cbn [length] in Hc, Hc';
    try (assert (c = 0 \/ c = 6) as [-> | ->] by lia);
    try (assert (c = 4) as -> by lia); try (assert (c = 2) as -> by lia);
    try (assert (c' = 0 \/ c' = 6) as [-> | ->] by lia);
    try (assert (c' = 4) as -> by lia); try (assert (c' = 2) as -> by lia);
    rewrite ?P6, ?P4, ?P2, ?P0 in *;
    cbn [sxr Z.eqb Pos.eqb] in E; try discriminate E;
    try (injection E; intros; repeat split; try (repeat f_equal; lia); lia);
    try (split; [reflexivity|]; split; [reflexivity|lia]).
  all: try (destruct d as [|? [|? [|? ?]]]; cbn [sxr Z.eqb Pos.eqb] in E; discriminate E).
  all: try (destruct d' as [|? [|? [|? ?]]]; cbn [sxr Z.eqb Pos.eqb] in E; discriminate E).
  all: injection E; intros Et E4 E3 E2 E1.
  all: apply IH in Et; [destruct Et as (-> & -> & ->); repeat split; repeat f_equal; lia| | | | | | ];
    auto; unfold count_ok; lia.
Qed.
