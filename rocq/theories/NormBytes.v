(** charstr_unicode_decompose and the quick checks on bytes. *)
From Verif Require Import Base CMem CharstrModel CharstrSpec CharstrProofs Utf8Model Utf8Spec Utf8Proofs.
From Verif Require Import UcdData NormModel NormSpec NormTables NormFacts NormOrder.
From Coq Require Import ZifyBool ZifyNat.

#[local] Opaque decomposition_data ccc_data exclusion_data nfc_qc_data nfd_qc_data.

Notation encs := encoding.
Lemma encs_app a b : encs (a ++ b) = encs a ++ encs b.
Proof. apply flat_map_app. Qed.
Lemma encs_cons c l : encs (c :: l) = utf8 c ++ encs l.
Proof. reflexivity. Qed.
Lemma encs_zlen l : Forall scalar l -> zlen (encs l) = total l.
Proof. apply total_zlen. Qed.
Lemma utf8_zlen cp : scalar cp -> zlen (utf8 cp) = width cp.
Proof. intros S. apply utf8_width, scalar_range, S. Qed.
Lemma scalar_bytes cp : scalar cp -> bytes (utf8 cp).
Proof. intros S. eapply pattern_bytes. apply utf8_accepted. exact S. Qed.
Lemma encs_bytes l : Forall scalar l -> bytes (encs l).
Proof. induction 1 as [|c l S _ IH]; [constructor|]. rewrite encs_cons. apply bytes_app. split; [apply scalar_bytes; exact S|exact IH]. Qed.
Lemma utf8_text cp : scalar cp -> cp <> 0 -> text (utf8 cp).
Proof.
  intros S N. apply scalar_range in S. unfold utf8, text. pose proof (Z.mod_pos_bound cp 64 ltac:(lia)).
  pose proof (Z.mod_pos_bound (cp / 64) 64 ltac:(lia)). pose proof (Z.mod_pos_bound (cp / 4096) 64 ltac:(lia)).
  pose proof (Z.div_mod cp 64 ltac:(lia)). pose proof (Z.div_mod cp 4096 ltac:(lia)). pose proof (Z.mod_pos_bound cp 4096 ltac:(lia)).
  pose proof (Z.div_mod cp 262144 ltac:(lia)). pose proof (Z.mod_pos_bound cp 262144 ltac:(lia)).
  destruct (cp <? 0x80) eqn:E1; [repeat constructor; lia|]. destruct (cp <? 0x800) eqn:E2; [repeat constructor; lia|].
  destruct (cp <? 0x10000) eqn:E3; repeat constructor; lia.
Qed.
Lemma encs_text l : Forall scalar l -> Forall (fun c => c <> 0) l -> text (encs l).
Proof.
  induction 1 as [|c l S _ IH]; intros N; [constructor|]. inversion_clear N as [|? ? N1 N2]. rewrite encs_cons. apply text_app. split; [apply utf8_text; assumption|auto].
Qed.

(** * The input *)

(** The codepoints of [s] up to the first error. *)
Inductive scanned : list Z -> list Z -> bool -> Prop :=
| Sc_nil : scanned [] [] true
| Sc_bad c s : (~ exists bs cp u, c :: s = bs ++ u /\ accepted bs cp) -> scanned (c :: s) [] false
| Sc_cons bs cp s cps ok : accepted bs cp -> scanned s cps ok -> scanned (bs ++ s) (cp :: cps) ok.

Lemma encodes_scanned s cps : encodes s cps <-> scanned s cps true.
Proof.
  split.
  - intros (parts & -> & F). induction F as [|bs cp parts cps A _ IH]; [constructor|]. cbn [concat]. constructor; assumption.
  - intros H. remember true as ok eqn:E. induction H as [|c s N|bs cp s cps ok A _ IH]; [|discriminate|].
    + exists []. split; [reflexivity|constructor].
    + destruct (IH E) as (parts & -> & F). exists (bs :: parts). split; [reflexivity|constructor; assumption].
Qed.
Lemma scanned_total s : bytes s -> exists cps ok, scanned s cps ok.
Proof.
  assert (G : forall n s, (length s <= n)%nat -> bytes s -> exists cps ok, scanned s cps ok).
  { clear s. induction n as [|n IH]; intros s L B; [destruct s; [|cbn in L; lia]; exists [], true; constructor|].
    destruct s as [|c s]; [exists [], true; constructor|]. destruct (dec (c :: s)) as [[u cp]|] eqn:E.
    - destruct (dec_sound _ _ _ B E) as (bs & Eb & A). pose proof (pattern_length _ _ (proj1 A)) as PL. rewrite Eb in *. rewrite app_length in L.
      destruct (IH u) as (cps & ok & H); [lia|apply bytes_app in B; tauto|]. exists (cp :: cps), ok. constructor; assumption.
    - exists [], false. apply Sc_bad. apply dec_none; assumption. }
  intros B. apply (G (length s) s); auto.
Qed.
Lemma scanned_scalar s cps ok : scanned s cps ok -> Forall scalar cps.
Proof. induction 1 as [|c s N|bs cp s cps ok A _ IH]; [constructor|constructor|]. constructor; [apply A|exact IH]. Qed.
Lemma scanned_valid s cps : scanned s cps false -> ~ exists cps', encodes s cps'.
Proof.
  intros H (cps' & (parts & E & F)). assert (V : valid s).
  { exists parts. split; [exact E|]. clear - F. induction F; constructor; eauto. }
  clear - H V. remember false as ok eqn:Eo. induction H as [|c s N|bs cp s cps ok A _ IH]; [discriminate| |].
  - eapply valid_bad; eauto.
  - apply IH; [exact Eo|]. eapply valid_step; eauto.
Qed.
Lemma scanned_width_strict s cps ok : scanned s cps ok -> total cps + (if ok then 0 else 1) <= zlen s.
Proof.
  induction 1 as [|c s N|bs cp s cps ok A _ IH]; [cbn; lia|rewrite zlen_cons; pose proof (zlen_nonneg s); change (total []) with 0; lia|].
  change (total (cp :: cps)) with (width cp + total cps). rewrite zlen_app. destruct A as [P S].
  pose proof (proj1 (utf8_shortest bs cp P)) as U. rewrite utf8_zlen in U by exact S. lia.
Qed.
Lemma scanned_width s cps : scanned s cps true -> total cps <= zlen s.
Proof. intros H. apply scanned_width_strict in H. lia. Qed.
Lemma encodes_encs l : Forall scalar l -> encodes (encs l) l.
Proof.
  intros F. exists (map utf8 l). split; [apply flat_map_concat_map|]. induction F as [|c l S _ IH]; [constructor|].
  cbn. constructor; [apply utf8_accepted; exact S|exact IH].
Qed.
Lemma encodes_det s cps cps' : encodes s cps -> encodes s cps' -> cps = cps'.
Proof.
  rewrite !encodes_scanned. intros H. remember true as ok eqn:Eo. revert cps'. induction H as [|c s N|bs cp s cps ok A H IH]; intros cps' H'.
  - inversion H' as [| |bs cp s cps ok A Hs E]; [reflexivity|]. apply app_eq_nil in E as [-> _]. destruct (pattern_nonempty _ _ (proj1 A)). reflexivity.
  - discriminate.
  - subst ok. inversion H' as [E| |bs' cp' s' cps2 ok' A' Hs E]; subst.
    + symmetry in E. apply app_eq_nil in E as [-> _]. destruct (pattern_nonempty _ _ (proj1 A)). reflexivity.
    + destruct (pattern_prefix _ _ _ _ _ _ (proj1 A) (proj1 A') (eq_sym E)) as (-> & -> & ->). f_equal. apply IH; auto.
Qed.

Lemma head_nil q e : input [] q e -> at_end q e = true \/ (at_end q e = false /\ cur q = Ok 0).
Proof.
  intros (_ & [->|(r1 & r2 & -> & _ & E)]).
  - left. cbn. lia.
  - right. split; [|reflexivity]. destruct E as [->| ->]; [reflexivity|]. cbn [at_end]. rewrite zlen_cons, zlen_app. pose proof (zlen_nonneg r1). lia.
Qed.
Lemma input_app a s q e : input (a ++ s) q e -> input s q e.
Proof. intros (T & R). split; [apply text_app in T; tauto|exact R]. Qed.
Lemma head_cons c s q e : input (c :: s) q e ->
  at_end ((c :: s) ++ q) e = false /\ cur ((c :: s) ++ q) = Ok c /\ truth c = true /\
  exists p q', (c :: s) ++ q = p ++ q' /\ bytes p /\ view p q' e /\ (p = c :: s \/ exists r, p = (c :: s) ++ 0 :: r).
Proof.
  intros (T & E). pose proof T as T'. apply text_cons in T' as [Tc Ts]. pose proof (zlen_nonneg s).
  split; [|split; [reflexivity|split; [apply truth_pos; exact Tc|]]].
  - destruct E as [->|(r1 & r2 & -> & _ & [->| ->])]; cbn [at_end]; [rewrite zlen_app, zlen_cons; lia|reflexivity|].
    rewrite zlen_app, !zlen_cons, zlen_app. pose proof (zlen_nonneg r1). lia.
  - destruct E as [->|(r1 & r2 & -> & B & [->| ->])].
    + exists (c :: s), q. split; [reflexivity|]. split; [apply text_bytes; exact T|]. split; [left; reflexivity|]. left; reflexivity.
    + exists ((c :: s) ++ [0]), (r1 ++ r2). split; [rewrite <- app_assoc; reflexivity|]. split; [apply text_bytes_nul; exact T|]. split; [apply view_string|].
      right. eexists. reflexivity.
    + exists ((c :: s) ++ 0 :: r1), r2. split; [rewrite <- app_assoc; reflexivity|]. split; [|split].
      * apply bytes_app. split; [apply text_bytes; exact T|]. apply bytes_cons. split; [unfold byte; lia|exact B].
      * left. reflexivity.
      * right. eexists. reflexivity.
Qed.
Lemma head_good bs cp s q e : accepted bs cp -> input (bs ++ s) q e ->
  exists c, at_end ((bs ++ s) ++ q) e = false /\ cur ((bs ++ s) ++ q) = Ok c /\ truth c = true /\
    charstr_decode_utf8_codepoint (Some ((bs ++ s) ++ q)) e = Ok (Some (s ++ q, cp)) /\ input s q e.
Proof.
  intros A I. pose proof (input_app _ _ _ _ I) as I'. destruct bs as [|c bs]; [destruct (pattern_nonempty _ _ (proj1 A)); reflexivity|].
  cbn [app] in I. destruct (head_cons _ _ _ _ I) as (E1 & E2 & E3 & p & q' & Ep & B & V & P). exists c. cbn [app] in *.
  split; [exact E1|]. split; [exact E2|]. split; [exact E3|]. split; [|exact I']. rewrite Ep. rewrite decode_ok by assumption.
  assert (U : exists u, p = (c :: bs) ++ u).
  { destruct P as [->|(r & ->)]; [exists s; reflexivity|]. exists (s ++ 0 :: r). cbn. rewrite <- app_assoc. reflexivity. }
  destruct U as (u & ->). rewrite (dec_complete _ u _ A). cbn [lift option_map fst snd]. f_equal. f_equal. f_equal.
  apply (app_inv_head (c :: bs)). rewrite !app_assoc. symmetry. exact Ep.
Qed.
Lemma head_bad c s q e : (~ exists bs cp u, c :: s = bs ++ u /\ accepted bs cp) -> input (c :: s) q e ->
  at_end ((c :: s) ++ q) e = false /\ cur ((c :: s) ++ q) = Ok c /\ truth c = true /\
  charstr_decode_utf8_codepoint (Some ((c :: s) ++ q)) e = Ok None.
Proof.
  intros N I. destruct (head_cons _ _ _ _ I) as (E1 & E2 & E3 & p & q' & Ep & B & V & P). repeat split; try assumption.
  rewrite Ep. rewrite decode_ok by assumption. destruct (dec p) as [[u cp]|] eqn:D; [|reflexivity]. exfalso.
  destruct (dec_sound _ _ _ B D) as (bs & Eb & A). destruct P as [->|(r & ->)]; [apply N; eauto|].
  apply N. exists bs, cp. destruct I as [T _].
  assert (NZ : ~ In 0 bs).
  { destruct A as [Pt _]. intros I0. assert (X : bs = [0]).
    { destruct Pt; cbn [In] in I0; [destruct I0 as [->|[]]; reflexivity|..]; exfalso; intuition lia. }
    subst bs. cbn in Eb. injection Eb as Ec _. apply text_cons in T. lia. }
  clear - Eb NZ A. exists (skipn (length bs) (c :: s)). split; [|exact A].
  assert (L : (length bs <= length (c :: s))%nat).
  { destruct (Nat.le_gt_cases (length bs) (length (c :: s))) as [|G]; [assumption|]. exfalso. apply NZ.
    assert (X : nth (length (c :: s)) ((c :: s) ++ 0 :: r) 1 = 0) by (rewrite app_nth2 by lia; rewrite Nat.sub_diag; reflexivity).
    rewrite Eb in X. rewrite app_nth1 in X by exact G. rewrite <- X. apply nth_In. exact G. }
  transitivity (firstn (length bs) (c :: s) ++ skipn (length bs) (c :: s)); [symmetry; apply firstn_skipn|]. f_equal.
  apply (f_equal (firstn (length bs))) in Eb. rewrite firstn_app in Eb. replace (length bs - length (c :: s))%nat with 0%nat in Eb by lia.
  cbn [firstn] in Eb. rewrite app_nil_r in Eb. rewrite Eb. rewrite firstn_app, Nat.sub_diag, firstn_all. cbn. apply app_nil_r.
Qed.

(** * Quick checks *)

Lemma lor_parts a b c d x f m : x = 1 \/ x = 4 ->
  (a = 0 \/ a = 1 \/ a = 2) -> (b = 0 \/ b = 4 \/ b = 8) -> (c = 0 \/ c = 0x10 \/ c = 0x20) -> (d = 0 \/ d = 0x40 \/ d = 0x80) ->
  f = x -> m = 2 * x ->
  (truth (Z.land (Z.lor (Z.lor (Z.lor a b) c) d) f) = ((if x =? 1 then a else b) =? f)) /\
  (truth (Z.land (Z.lor (Z.lor (Z.lor a b) c) d) m) = ((if x =? 1 then a else b) =? m)).
Proof.
  intros X A B C D -> ->. destruct X as [-> | ->]; destruct A as [->|[->| ->]]; destruct B as [->|[->| ->]];
    destruct C as [->|[->| ->]]; destruct D as [->|[->| ->]]; split; reflexivity.
Qed.
Lemma qc_flags_cases rows d m cp : qc_flags rows d m cp = 0 \/ qc_flags rows d m cp = d \/ qc_flags rows d m cp = m.
Proof. unfold qc_flags. destruct (qc_value rows cp) as [[]|]; auto. Qed.
Lemma allowed_nfc cp :
  truth (Z.land (charstr_allowed_unicode_normal_forms cp) UNICODE_NFC_DISALLOWED) = (qc_flags nfc_qc_data 1 2 cp =? 1) /\
  truth (Z.land (charstr_allowed_unicode_normal_forms cp) UNICODE_NFC_MAYBE) = (qc_flags nfc_qc_data 1 2 cp =? 2).
Proof.
  unfold charstr_allowed_unicode_normal_forms. apply (lor_parts _ _ _ _ 1); try apply qc_flags_cases; try reflexivity. left; reflexivity.
Qed.
Lemma allowed_nfd cp :
  truth (Z.land (charstr_allowed_unicode_normal_forms cp) UNICODE_NFD_DISALLOWED) = (qc_flags nfd_qc_data 4 8 cp =? 4) /\
  truth (Z.land (charstr_allowed_unicode_normal_forms cp) UNICODE_NFD_MAYBE) = (qc_flags nfd_qc_data 4 8 cp =? 8).
Proof.
  unfold charstr_allowed_unicode_normal_forms. apply (lor_parts _ _ _ _ 4); try apply qc_flags_cases; try reflexivity. right; reflexivity.
Qed.

(** The detector as a function of codepoints. *)
Definition dis (f : Z) (cp : Z) : bool := truth (Z.land (charstr_allowed_unicode_normal_forms cp) f).
Fixpoint detect (cps : list Z) (ok : bool) (d m last result : Z) : Z :=
  match cps with
  | [] => if ok then result else -1
  | cp :: cps =>
      if truth (ccc cp) && (last >? ccc cp) then d
      else if dis d cp then d
      else detect cps ok d m (ccc cp) (if dis m cp then m else result)
  end.
Lemma detect_loop_ok s cps ok : scanned s cps ok -> forall q e, input s q e -> forall fuel d m last result, (length s < fuel)%nat ->
  detect_loop fuel (s ++ q) e d m last result = Ok (detect cps ok d m last result).
Proof.
  induction 1 as [|c s N|bs cp s cps ok A _ IH]; intros q e I fuel d m last result F; (destruct fuel as [|fuel]; [lia|]); cbn [detect_loop].
  - cbn [app]. destruct (head_nil _ _ I) as [->|[-> E]]; [reflexivity|]. rewrite E. cbn [bind]. reflexivity.
  - destruct (head_bad _ _ _ _ N I) as (-> & -> & Tc & ->). cbn [bind]. rewrite Tc. reflexivity.
  - destruct (head_good _ _ _ _ _ A I) as (c & -> & -> & Tc & -> & I'). cbn [bind]. rewrite Tc. cbn [bind detect]. fold (dis d cp) (dis m cp).
    destruct (truth (ccc cp) && (last >? ccc cp)); [reflexivity|]. destruct (dis d cp); [reflexivity|]. apply IH; [exact I'|].
    pose proof (pattern_length _ _ (proj1 A)). rewrite app_length in F. lia.
Qed.
Lemma detect_zero cps ok d m : d <> 0 -> m <> 0 -> d <> m -> forall last result, detect cps ok d m last result = 0 ->
  ok = true /\ result = 0 /\ Forall (fun c => dis d c = false /\ dis m c = false) cps /\
  ordered cps /\ (match cps with [] => True | c :: _ => ~ (last > ccc c /\ ccc c > 0) end).
Proof.
  intros D M DM. induction cps as [|c cps IH]; intros last result H; cbn [detect] in H.
  - destruct ok; [|discriminate]. repeat split; auto. apply ordered_nil.
  - destruct (truth (ccc c) && (last >? ccc c)) eqn:E; [congruence|]. destruct (dis d c) eqn:Ed; [congruence|].
    apply IH in H as (-> & R & F & O & L). destruct (dis m c) eqn:Em; [congruence|].
    split; [reflexivity|]. split; [exact R|]. split; [constructor; auto|]. split; [apply ordered_cons; auto|].
    unfold truth in E. lia.
Qed.
Lemma detect_nfd s q e : input s q e -> exists b, charstr_unicode_canonically_decomposed (s ++ q) e = Ok b /\
  (b = true -> exists cps, encodes s cps /\ nfd cps cps).
Proof.
  intros I. destruct (scanned_total s) as (cps & ok & S); [apply text_bytes; apply I|].
  unfold charstr_unicode_canonically_decomposed, charstr_detect_unicode_normal_form. rewrite (detect_loop_ok s cps ok S) by (try exact I; rewrite app_length; lia).
  cbn [bind]. eexists. split; [reflexivity|]. intros H. apply Z.eqb_eq, detect_zero in H; try discriminate. destruct H as (-> & _ & F & O & _).
  exists cps. split; [apply encodes_scanned; exact S|]. apply nfd_quick; [|exact O]. eapply Forall_impl; [|exact F]. intros c [X Y]. unfold dis in *.
  rewrite (proj1 (allowed_nfd c)) in X. rewrite (proj2 (allowed_nfd c)) in Y. unfold qc_flags in *. destruct (qc_value nfd_qc_data c) as [[]|]; try discriminate. reflexivity.
Qed.
Lemma detect_nfc s q e : input s q e -> exists b, charstr_unicode_canonically_composed (s ++ q) e = Ok b /\
  (b = true -> exists cps, encodes s cps /\ nfc cps cps).
Proof.
  intros I. destruct (scanned_total s) as (cps & ok & S); [apply text_bytes; apply I|].
  unfold charstr_unicode_canonically_composed, charstr_detect_unicode_normal_form. rewrite (detect_loop_ok s cps ok S) by (try exact I; rewrite app_length; lia).
  cbn [bind]. eexists. split; [reflexivity|]. intros H. apply Z.eqb_eq, detect_zero in H; try discriminate. destruct H as (-> & _ & F & O & _).
  exists cps. split; [apply encodes_scanned; exact S|]. apply nfc_quick; [|exact O]. eapply Forall_impl; [|exact F]. intros c [X Y]. unfold dis, quick in *.
  rewrite (proj1 (allowed_nfc c)) in X. rewrite (proj2 (allowed_nfc c)) in Y. unfold qc_flags in *. destruct (qc_value nfc_qc_data c) as [[]|]; try discriminate. reflexivity.
Qed.

(** * Writing *)

Lemma puts_app v : forall b s e w, puts b s e (v ++ w) =
  '(b, o) <- puts b s e v ;; match o with None => Ok (b, None) | Some s => puts b s e w end.
Proof.
  induction v as [|x v IH]; intros b s e w; [reflexivity|]. cbn [app puts]. destruct (at_index s e); [reflexivity|].
  destruct (wr b s x) as [b'| | |]; cbn [bind]; [apply IH|reflexivity|reflexivity|reflexivity].
Qed.
Definition wrote (cps : list Z) : list Z := flat_map enc cps.
Lemma wrote_encs cps : Forall scalar cps -> wrote cps = encs cps.
Proof.
  induction 1 as [|c cps S _ IH]; [reflexivity|]. unfold wrote, encs in *. cbn [flat_map]. rewrite IH. f_equal. apply enc_utf8, scalar_range, S.
Qed.
Lemma encode_none cp b e : charstr_encode_utf8_codepoint cp b None e = Ok (b, None).
Proof. reflexivity. Qed.
Lemma puts_cps_app b s e v w : puts b s e (wrote (v ++ w)) =
  '(b, o) <- puts b s e (wrote v) ;; match o with None => Ok (b, None) | Some s => puts b s e (wrote w) end.
Proof. unfold wrote. rewrite flat_map_app. apply puts_app. Qed.

Lemma hangul_bounds cp : (cp - S_BASE <? 0) || (cp - S_BASE >=? S_COUNT) = negb (is_syllable cp).
Proof. unfold is_syllable, S_BASE, S_COUNT, L_COUNT, N_COUNT, V_COUNT, T_COUNT. lia. Qed.
Lemma decompose_hangul_ok cp b s e : is_syllable cp = true -> decompose_hangul cp b (Some s) e = puts b s e (wrote (syllable_jamo cp)).
Proof.
  intros H. unfold decompose_hangul. rewrite hangul_bounds, H. cbn [negb]. unfold syllable_jamo, jamo.
  change S_BASE with 0xAC00. change L_BASE with 0x1100. change V_BASE with 0x1161. change T_BASE with 0x11A7. change N_COUNT with (21 * 28). change T_COUNT with 28.
  cbn zeta. set (i := cp - 0xAC00). rewrite <- app_comm_cons, <- app_comm_cons. cbn [app].
  change (wrote (?x :: ?y :: ?l)) with (enc x ++ enc y ++ wrote l). rewrite encode_puts.
  rewrite puts_app. destruct (puts b s e (enc (0x1100 + i / (21 * 28)))) as [[b1 [s1|]]| | |]; cbn [bind]; try reflexivity.
  - rewrite encode_puts, puts_app. destruct (puts b1 s1 e _) as [[b2 [s2|]]| | |]; cbn [bind]; try reflexivity.
    + unfold truth. destruct (i mod 28 =? 0); cbn [negb]; [reflexivity|]. rewrite encode_puts. unfold wrote. cbn [flat_map]. rewrite app_nil_r. reflexivity.
    + unfold truth. destruct (i mod 28 =? 0); reflexivity.
  - rewrite encode_none. cbn [bind]. unfold truth. destruct (i mod 28 =? 0); reflexivity.
Qed.
Lemma decompose_fully_ok n : forall cp b s e, forallb plain (full n cp) = true -> hangul cp = false ->
  decompose_fully (S n) cp b (Some s) e = puts b s e (wrote (full n cp)).
Proof.
  assert (P : forall fuel cp b s e, plain cp = true -> decompose_fully (S fuel) cp b (Some s) e = puts b s e (wrote [cp])).
  { intros fuel cp b s e H. cbn [decompose_fully]. unfold plain in H. unfold _charstr_unicode_decomposition. destruct (switch decomposition_data cp); [discriminate|].
    unfold decompose_hangul. rewrite hangul_bounds, H. cbn [bind]. rewrite encode_puts. unfold wrote. cbn [flat_map]. rewrite app_nil_r. reflexivity. }
  induction n as [|n IH]; intros cp b s e H HG.
  - cbn [full] in *. cbn [forallb] in H. apply P. apply andb_prop in H. tauto.
  - cbn [full] in *. destruct (switch decomposition_data cp) as [d|] eqn:E.
    + change (decompose_fully (S (S n)) cp b (Some s) e) with
        (match _charstr_unicode_decomposition cp with
         | None => '(b, hangul_end) <- decompose_hangul cp b (Some s) e ;;
                   match hangul_end with Some _ => Ok (b, hangul_end) | None => charstr_encode_utf8_codepoint cp b (Some s) e end
         | Some dp => for_each (fun d b s => decompose_fully (S n) d b s e) dp b (Some s)
         end).
      unfold _charstr_unicode_decomposition. rewrite E. apply decomposition_row in E as (_ & _ & _ & _ & D). clear HG. revert b s.
      induction d as [|c d IHd]; intros b s; [reflexivity|]. cbn [app for_each flat_map] in *. destruct (D c ltac:(left; reflexivity)) as (_ & Dc & Dh).
      replace (truth c) with true by (unfold truth; lia). rewrite forallb_app in H. apply andb_prop in H as [H1 H2].
      rewrite IH by assumption. rewrite puts_cps_app. destruct (puts b s e (wrote (full n c))) as [[b1 [s1|]]| | |]; cbn [bind]; try reflexivity.
      * apply IHd; [|exact H2]. intros x I. apply D. right; exact I.
      * destruct (d ++ [0]); reflexivity.
    + replace (is_syllable cp) with false in *; [apply P; cbn [forallb] in H; apply andb_prop in H; tauto|].
      destruct (is_syllable cp) eqn:S; [|reflexivity]. apply is_syllable_hangul in S. congruence.
Qed.
(** What is written for a codepoint: a syllable is left as it is if its
    decomposition does not fit. *)
Lemma decompose_syllable cp b s e : is_syllable cp = true -> decompose_fully recursion_depth cp b (Some s) e =
  '(b, o) <- puts b s e (wrote (fd cp)) ;; match o with Some s => Ok (b, Some s) | None => puts b s e (wrote [cp]) end.
Proof.
  intros H. pose proof (is_syllable_hangul _ H) as HG. unfold recursion_depth. cbn [decompose_fully]. unfold _charstr_unicode_decomposition.
  destruct (switch decomposition_data cp) as [d|] eqn:E; [apply decomposition_row in E as (_ & _ & K & _); congruence|].
  rewrite decompose_hangul_ok by exact H. replace (fd cp) with (syllable_jamo cp) by (unfold fd; cbn [full]; rewrite E, H; reflexivity).
  destruct (puts b s e (wrote (syllable_jamo cp))) as [[b1 [s1|]]| | |]; cbn [bind]; try reflexivity.
  rewrite encode_puts. unfold wrote. cbn [flat_map]. rewrite app_nil_r. reflexivity.
Qed.
Lemma decompose_other cp b s e : is_syllable cp = false -> decompose_fully recursion_depth cp b (Some s) e = puts b s e (wrote (fd cp)).
Proof.
  intros H. destruct (hangul cp) eqn:HG.
  - assert (P : plain cp = true) by (apply hangul_plain; assumption). rewrite fd_plain by exact P. unfold plain in P. unfold recursion_depth. cbn [decompose_fully].
    unfold _charstr_unicode_decomposition. destruct (switch decomposition_data cp); [discriminate|]. unfold decompose_hangul. rewrite hangul_bounds, H. cbn [bind negb].
    rewrite encode_puts. unfold wrote. cbn [flat_map]. rewrite app_nil_r. reflexivity.
  - apply (decompose_fully_ok 4); [apply full_stable|exact HG].
Qed.

(** Writing into the free part of a buffer *)
Lemma split_firstn {A} (l : list A) n : 0 <= n <= zlen l -> exists a b, l = a ++ b /\ zlen a = n.
Proof.
  intros H. exists (firstn (Z.to_nat n) l), (skipn (Z.to_nat n) l). split; [symmetry; apply firstn_skipn|]. unfold zlen in *. rewrite firstn_length. lia.
Qed.
Lemma puts_room pre free post cps : Forall scalar cps -> total cps <= zlen free ->
  exists free', puts (pre ++ free ++ post) (zlen pre) (Some (zlen pre + zlen free)) (wrote cps) =
    Ok (pre ++ encs cps ++ free' ++ post, Some (zlen pre + total cps)) /\ zlen free' = zlen free - total cps.
Proof.
  intros S L. rewrite wrote_encs by exact S. rewrite <- encs_zlen in * by exact S. pose proof (zlen_nonneg (encs cps)).
  destruct (split_firstn free (zlen (encs cps))) as (a & b & -> & E); [lia|]. exists b. rewrite zlen_app. split; [|lia].
  rewrite <- !app_assoc. apply puts_fits; [exact E|]. intros n En. injection En as <-. pose proof (zlen_nonneg b). lia.
Qed.
Lemma puts_no_room pre free post cps : Forall scalar cps -> total cps > zlen free ->
  exists free', puts (pre ++ free ++ post) (zlen pre) (Some (zlen pre + zlen free)) (wrote cps) =
    Ok (pre ++ free' ++ post, None) /\ zlen free' = zlen free.
Proof.
  intros S L. rewrite wrote_encs by exact S. rewrite <- encs_zlen in * by exact S. exists (firstn (length free) (encs cps)). split; [apply puts_full; lia|].
  unfold zlen in *. rewrite firstn_length. lia.
Qed.
