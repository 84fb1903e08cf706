(** The cost of charstr_unicode_recompose. *)
From Verif Require Import Base CMem CharstrModel CharstrSpec CharstrProofs Utf8Model Utf8Spec Utf8Proofs.
From Verif Require Import UcdData NormModel NormSpec NormBytes NormRecompose NormCost RecompCostModel.
From Coq Require Import ZifyBool ZifyNat.

#[local] Opaque decomposition_data ccc_data exclusion_data nfc_qc_data nfd_qc_data.
#[local] Opaque _charstr_unicode_primary_composite charstr_unicode_canonical_combining_class deliver_fuel.

(** * The results are the same *)

Lemma blocked_erase n : forall seq j c, strip (blocked_from_cost n seq j c) = blocked_from n seq j c.
Proof.
  induction n as [|n IH]; intros seq j c; [reflexivity|]. cbn [blocked_from_cost blocked_from]. destruct (rd seq j) as [x| | |]; try reflexivity.
  cbn [bind]. destruct (_ >=? c); [reflexivity|]. rewrite <- IH. destruct (blocked_from_cost n seq (j + 1) c) as [[b k]| | |]; reflexivity.
Qed.
Lemma feed_erase r c e : strip (recomposer_feed_cost r c e) = recomposer_feed r c e.
Proof.
  unfold recomposer_feed_cost, recomposer_feed, recomposer_blocked_cost, recomposer_blocked. destruct (r_state r); try reflexivity; [destruct (truth _); reflexivity|].
  cbv zeta. rewrite <- blocked_erase. destruct (blocked_from_cost _ _ 0 _) as [[b k]| | |]; try reflexivity. unfold strip at 2. cbn [bind fst].
  destruct (_ >=? 0); [reflexivity|]. destruct (truth _); [|reflexivity]. destruct (r_wr r >=? _); [reflexivity|].
  destruct (wr (r_ccs r) (r_wr r) c); reflexivity.
Qed.
Lemma deliver_erase n : forall c r h b q oe e, strip (deliver_cost n c r h b q oe e) = deliver n c r h b q oe e.
Proof.
  induction n as [|n IH]; intros c r h b q oe e; [reflexivity|]. cbn [deliver_cost deliver]. destruct (c >=? 0); [|reflexivity].
  destruct (hangul_recomposer_feed h c) as [[h1 c1]| | |]; try reflexivity. cbn [bind].
  destruct (if c1 >=? 0 then _ else _) as [[b1 [q1|]]| | |]; try reflexivity. cbn [bind].
  destruct (recomposer_read r e) as [[[r1 c2] e1]| | |]; try reflexivity. cbn [bind]. rewrite <- IH.
  destruct (deliver_cost n c2 r1 h1 b1 q1 oe e1) as [[[[b2 e2] o] k]| | |]; reflexivity.
Qed.
Lemma recompose_loop_erase n : forall s e r h b q oe err, strip (recompose_loop_cost n s e r h b q oe err) = recompose_loop n s e r h b q oe err.
Proof.
  induction n as [|n IH]; intros s e r h b q oe err; [reflexivity|]. cbn [recompose_loop_cost recompose_loop]. destruct (at_end s e); [reflexivity|].
  destruct (cur s) as [c| | |]; try reflexivity. cbn [bind]. destruct (truth c); [|reflexivity].
  destruct (charstr_decode_utf8_codepoint (Some s) e) as [[[s1 cp]|]| | |]; try reflexivity. cbn [bind].
  rewrite <- feed_erase. destruct (recomposer_feed_cost r cp err) as [[[[r1 c1] e1] k1]| | |]; try reflexivity. unfold strip at 2. cbn [bind fst].
  rewrite <- deliver_erase. destruct (deliver_cost deliver_fuel c1 r1 h b q oe e1) as [[[[b2 e2] [[[r2 h2] q2]|]] k2]| | |]; try reflexivity.
  unfold strip at 2. cbn [bind fst]. destruct (e2 =? EAGAIN); [|reflexivity]. rewrite <- IH.
  destruct (recompose_loop_cost n s1 e r2 h2 b2 q2 oe e2) as [[[[b3 e3] o] k3]| | |]; reflexivity.
Qed.
Lemma recompose_erase r h s e b output oe err : strip (charstr_unicode_recompose_cost r h s e b output oe err) = charstr_unicode_recompose r h s e b output oe err.
Proof.
  unfold charstr_unicode_recompose_cost, charstr_unicode_recompose. rewrite <- recompose_loop_erase.
  destruct (recompose_loop_cost _ s e _ _ b output oe err) as [[[[b1 e1] [[[r1 h1] q1]|]] k1]| | |]; try reflexivity. unfold strip at 2. cbn [bind fst].
  destruct (recomposer_terminate r1 e1) as [[[r2 c2] e2]| | |]; try reflexivity. cbn [bind]. rewrite <- deliver_erase.
  destruct (deliver_cost deliver_fuel c2 r2 h1 b1 q1 oe e2) as [[[[b3 e3] [[[r3 h3] q3]|]] k3]| | |]; try reflexivity. unfold strip at 2. cbn [bind fst].
  destruct (negb _); [reflexivity|]. destruct (hangul_recomposer_terminate h3) as [[h4 c4]| | |]; try reflexivity. cbn [bind].
  destruct (if c4 >=? 0 then _ else _) as [[b5 [q5|]]| | |]; try reflexivity. cbn [bind]. destruct (q5 =? oe); [reflexivity|].
  destruct (wr b5 q5 0); reflexivity.
Qed.

(** * The codepoints that the first recomposer holds *)

Definition held (r : recomposer) : Z :=
  match r_state r with
  | RECOMPOSER_INIT | RECOMPOSER_TERMINATED => 0
  | RECOMPOSER_STARTED => 1 + r_wr r
  | RECOMPOSER_DELIVERING => 1 + (r_wr r - r_rd r)
  | RECOMPOSER_DELIVERING_TERMINATED => r_wr r - r_rd r
  end.
Definition sane (r : recomposer) : Prop :=
  match r_state r with
  | RECOMPOSER_INIT | RECOMPOSER_TERMINATED => True
  | RECOMPOSER_STARTED => 0 <= r_wr r <= 100
  | RECOMPOSER_DELIVERING | RECOMPOSER_DELIVERING_TERMINATED => 0 <= r_rd r <= r_wr r
  end.
Definition one (c : Z) : Z := if c >=? 0 then 1 else 0.
Lemma one_range c : 0 <= one c <= 1. Proof. unfold one. destruct (c >=? 0); lia. Qed.
Lemma one_minus : one (-1) = 0. Proof. reflexivity. Qed.
Lemma held_nonneg r : sane r -> 0 <= held r.
Proof. unfold sane, held. destruct (r_state r); lia. Qed.
Lemma blocked_most n : forall seq j c b k, blocked_from_cost n seq j c = Ok (b, k) -> 0 <= k <= Z.of_nat n.
Proof.
  induction n as [|n IH]; intros seq j c b k; cbn [blocked_from_cost]; [intros [= <- <-]; lia|].
  destruct (rd seq j) as [x| | |]; try discriminate. cbn [bind]. destruct (_ >=? c); [intros E; assert (k = 1) by congruence; lia|].
  destruct (blocked_from_cost n seq (j + 1) c) as [[b' k']| | |] eqn:E; try discriminate. cbn [bind]. intros X. apply IH in E. assert (k = 1 + k') by congruence. lia.
Qed.
Lemma feed_most r c e r' c' e' k : recomposer_feed_cost r c e = Ok (r', c', e', k) -> sane r ->
  0 <= k <= 100 /\ sane r' /\ held r' + one c' <= held r + 1.
Proof.
  unfold recomposer_feed_cost. intros R S. pose proof (one_range c'). destruct (r_state r) eqn:ST; try discriminate.
  - destruct (truth _).
    + assert (r' = r /\ k = 0) as [-> ->] by (split; congruence). split; [lia|]. split; [exact S|]. lia.
    + injection R as <- <- <- <-. split; [lia|]. split; [cbv; split; discriminate|]. rewrite one_minus. unfold held. rewrite ST. cbn [set_wr set_state set_starter set_rd set_ccs r_state r_wr r_rd]. lia.
  - cbv zeta in R. unfold sane in S. rewrite ST in S. destruct (recomposer_blocked_cost (r_ccs r) (r_wr r) _) as [[b k0]| | |] eqn:B; try discriminate.
    apply blocked_most in B. cbn [bind] in R. destruct (_ >=? 0).
    + injection R as <- <- <- <-. split; [lia|]. rewrite one_minus. unfold sane, held. cbn [set_wr set_state set_starter set_rd set_ccs r_state r_wr r_rd]. rewrite ST. lia.
    + destruct (truth _).
      * destruct (r_wr r >=? MAX_CC_SEQ_LENGTH) eqn:M; unfold MAX_CC_SEQ_LENGTH in M.
        -- injection R as <- <- <- <-. split; [lia|]. rewrite one_minus. unfold sane, held. cbn [set_wr set_state set_starter set_rd set_ccs r_state r_wr r_rd]. rewrite ST. lia.
        -- destruct (wr (r_ccs r) (r_wr r) c) as [ccs| | |]; try discriminate. cbn [bind] in R.
           assert (E1 : r' = set_wr (r_wr r + 1) (set_ccs ccs r)) by congruence. assert (E2 : c' = -1) by congruence. assert (k0 = k) as <- by congruence. subst r' c'.
           split; [lia|]. rewrite one_minus. unfold sane, held. cbn [set_wr set_ccs r_state r_wr]. rewrite ST. lia.
      * assert (E1 : r' = set_rd 0 (set_state RECOMPOSER_DELIVERING (set_starter c r))) by congruence. assert (k0 = k) as <- by congruence. subst r'.
        split; [lia|]. unfold sane, held. cbn [set_rd set_state set_starter r_state r_wr r_rd]. rewrite ST. lia.
Qed.
Lemma read_most r e r' c' e' : recomposer_read r e = Ok (r', c', e') -> sane r -> sane r' /\ held r' + one c' <= held r.
Proof.
  unfold recomposer_read. intros R S. pose proof (one_range c'). unfold sane in S. destruct (r_state r) eqn:ST; try discriminate.
  - injection R as <- <- <-. rewrite one_minus. unfold sane, held. rewrite ST. lia.
  - injection R as <- <- <-. rewrite one_minus. unfold sane, held. rewrite ST. lia.
  - destruct (r_rd r >=? r_wr r) eqn:L.
    + injection R as <- <- <-. rewrite one_minus. unfold sane, held. rewrite ST. cbn [set_wr set_state set_starter set_rd set_ccs r_state r_wr r_rd]. lia.
    + destruct (rd (r_ccs r) (r_rd r)) as [x| | |]; try discriminate. cbn [bind] in R. assert (E1 : r' = set_rd (r_rd r + 1) r) by congruence. subst r'.
      unfold sane, held. cbn [set_rd r_state r_wr r_rd]. rewrite ST. lia.
  - destruct (r_rd r >=? r_wr r) eqn:L.
    + injection R as <- <- <-. rewrite one_minus. unfold sane, held. rewrite ST. cbn [set_wr set_state set_starter set_rd set_ccs r_state r_wr r_rd]. lia.
    + destruct (rd (r_ccs r) (r_rd r)) as [x| | |]; try discriminate. cbn [bind] in R. assert (E1 : r' = set_rd (r_rd r + 1) r) by congruence. subst r'.
      unfold sane, held. cbn [set_rd r_state r_wr r_rd]. rewrite ST. lia.
  - injection R as <- <- <-. rewrite one_minus. unfold sane, held. rewrite ST. lia.
Qed.
Lemma terminate_most r e r' c' e' : recomposer_terminate r e = Ok (r', c', e') -> sane r -> sane r' /\ held r' + one c' <= held r.
Proof.
  unfold recomposer_terminate. intros R S. pose proof (one_range c'). unfold sane in S. destruct (r_state r) eqn:ST; try discriminate.
  - injection R as <- <- <-. rewrite one_minus. unfold sane, held. rewrite ST. cbn [set_wr set_state set_starter set_rd set_ccs r_state r_wr r_rd]. lia.
  - assert (E1 : r' = set_rd 0 (set_state RECOMPOSER_DELIVERING_TERMINATED r)) by congruence. subst r'.
    unfold sane, held. cbn [set_rd set_state r_state r_wr r_rd]. rewrite ST. lia.
Qed.
Lemma deliver_most n : forall c r h b q oe e b' e' o k, deliver_cost n c r h b q oe e = Ok (b', e', o, k) -> sane r ->
  0 <= k /\ match o with
            | Some (r', _, _) => sane r' /\ k + held r' <= held r + one c
            | None => k <= held r + one c
            end.
Proof.
  induction n as [|n IH]; intros c r h b q oe e b' e' o k; cbn [deliver_cost]; [discriminate|]. intros R S. unfold one. pose proof (held_nonneg r S).
  destruct (c >=? 0) eqn:C.
  - destruct (hangul_recomposer_feed h c) as [[h1 c1]| | |]; try discriminate. cbn [bind] in R.
    destruct (if c1 >=? 0 then _ else _) as [[b1 [q1|]]| | |]; try discriminate; cbn [bind] in R.
    + destruct (recomposer_read r e) as [[[r1 c2] e1]| | |] eqn:RD; try discriminate. cbn [bind] in R.
      destruct (read_most _ _ _ _ _ RD S) as [S1 H1].
      destruct (deliver_cost n c2 r1 h1 b1 q1 oe e1) as [[[[b2 e2] o2] k2]| | |] eqn:D; try discriminate. cbn [bind] in R.
      assert (o2 = o) by congruence. assert (k = 1 + k2) by congruence. subst o2 k. destruct (IH _ _ _ _ _ _ _ _ _ _ _ D S1) as [K O].
      split; [lia|]. destruct o as [[[r2 h2] q2]|]; [destruct O; split; [assumption|lia]|lia].
    + assert (o = None) as -> by congruence. assert (k = 1) as -> by congruence. lia.
  - injection R as <- <- <- <-. split; [lia|]. split; [exact S|lia].
Qed.
Lemma recompose_loop_most s cps ok : scanned s cps ok -> forall q e, input s q e -> forall fuel r h b p oe err b' err' o k, (length s < fuel)%nat ->
  sane r -> recompose_loop_cost fuel (s ++ q) e r h b p oe err = Ok (b', err', o, k) ->
  0 <= k /\ match o with
            | Some (r', _, _) => sane r' /\ k + held r' <= held r + 102 * zlen s
            | None => k <= held r + 102 * zlen s
            end.
Proof.
  induction 1 as [|c s N|bs cp s cps ok A H IH]; intros q e I fuel r h b p oe err b1 err1 o k F S; (destruct fuel as [|fuel]; [lia|]); cbn [recompose_loop_cost].
  - intros R. assert (X : Ok (b, err, Some (r, h, p), 0) = Ok (b1, err1, o, k)).
    { revert R. cbn [app]. destruct (head_nil _ _ I) as [->|[-> E]]; [exact (fun x => x)|]. rewrite E. exact (fun x => x). }
    injection X as <- <- <- <-. split; [lia|]. split; [exact S|]. change (zlen (@nil Z)) with 0. lia.
  - destruct (head_bad _ _ _ _ N I) as (-> & -> & Tc & ->). cbn [bind]. rewrite Tc. cbn [bind]. intros [= <- <- <- <-]. pose proof (held_nonneg r S).
    rewrite zlen_cons. pose proof (zlen_nonneg s). lia.
  - destruct (head_good _ _ _ _ _ A I) as (c & -> & -> & Tc & -> & I'). cbn [bind]. rewrite Tc. cbn [bind].
    destruct (recomposer_feed_cost r cp err) as [[[[r1 c1] e1] k1]| | |] eqn:E1; try discriminate. cbn [bind].
    destruct (feed_most _ _ _ _ _ _ _ E1 S) as (K1 & S1 & H1).
    destruct (deliver_cost deliver_fuel c1 r1 h b p oe e1) as [[[[b2 e2] o2] k2]| | |] eqn:E2; try discriminate. cbn [bind].
    destruct (deliver_most _ _ _ _ _ _ _ _ _ _ _ _ E2 S1) as (K2 & O2).
    pose proof (pattern_length _ _ (proj1 A)) as PL. rewrite app_length in F. assert (ZL : zlen (bs ++ s) >= 1 + zlen s) by (unfold zlen; rewrite app_length; lia).
    pose proof (zlen_nonneg s). destruct o2 as [[[r2 h2] q2]|].
    + destruct O2 as [S2 H2]. pose proof (held_nonneg _ S2). destruct (e2 =? EAGAIN).
      * destruct (recompose_loop_cost fuel (s ++ q) e r2 h2 b2 q2 oe e2) as [[[[b3 e3] o3] k3]| | |] eqn:E3; try discriminate. cbn [bind]. intros R.
        assert (o3 = o) by congruence. assert (k = 1 + k1 + k2 + k3) by congruence. subst o3 k. destruct (IH q e I' fuel r2 h2 b2 q2 oe e2 _ _ _ _ ltac:(lia) S2 E3) as [K3 O3].
        split; [lia|]. destruct o as [[[r4 h4] q4]|]; [destruct O3; split; [assumption|lia]|lia].
      * intros R. assert (o = None) as -> by congruence. assert (k = 1 + k1 + k2) as -> by congruence. lia.
    + intros R. assert (o = None) as -> by congruence. assert (k = 1 + k1 + k2) as -> by congruence. lia.
Qed.
Lemma recompose_most s q e pre free post r h errno : input s q e -> zlen (r_ccs r) = 100 ->
  exists b o k, charstr_unicode_recompose_cost r h (s ++ q) e (pre ++ free ++ post) (zlen pre) (zlen pre + zlen free) errno = Ok (b, o, k) /\
    0 <= k <= 102 * zlen s.
Proof.
  intros I L. destruct (scanned_total s (text_bytes _ (proj1 I))) as (cps & ok & S).
  destruct (recompose_ok s cps ok q e pre free post r h errno S I L) as (free' & o & E & _). rewrite <- recompose_erase in E. unfold strip in E.
  destruct (charstr_unicode_recompose_cost _ _ _ _ _ _ _ _) as [[[b o'] k]| | |] eqn:R; try discriminate. clear E o. exists b, o', k. split; [reflexivity|].
  unfold charstr_unicode_recompose_cost in R. assert (I_sane : sane (init_recomposer r)) by exact Logic.I.
  destruct (recompose_loop_cost _ _ _ _ _ _ _ _ _) as [[[[b1 e1] o1] k1]| | |] eqn:E1; try discriminate. cbn [bind] in R.
  destruct (recompose_loop_most s cps ok S q e I (Datatypes.S (length (s ++ q))) _ _ _ _ _ _ _ _ _ _ ltac:(rewrite app_length; lia) I_sane E1) as [K1 O1].
  change (held (init_recomposer r)) with 0 in O1. destruct o1 as [[[r1 h1] q1]|].
  - destruct O1 as [S1 H1]. destruct (recomposer_terminate r1 e1) as [[[r2 c2] e2]| | |] eqn:T; try discriminate. cbn [bind] in R.
    destruct (terminate_most _ _ _ _ _ T S1) as [S2 H2].
    destruct (deliver_cost deliver_fuel c2 r2 h1 b1 q1 _ e2) as [[[[b3 e3] o3] k3]| | |] eqn:D; try discriminate. cbn [bind] in R.
    destruct (deliver_most _ _ _ _ _ _ _ _ _ _ _ _ D S2) as [K3 O3].
    assert (K : k = k1 + k3).
    { destruct o3 as [[[r3 h3] q3]|]; [|congruence]. destruct (negb _); [congruence|]. destruct (hangul_recomposer_terminate h3) as [[h4 c4]| | |]; try discriminate.
      cbn [bind] in R. destruct (if c4 >=? 0 then _ else _) as [[b5 [q5|]]| | |]; try discriminate; cbn [bind] in R; [|congruence]. destruct (q5 =? _); [congruence|].
      destruct (wr b5 q5 0); cbn [bind] in R; congruence. }
    destruct o3 as [[[r3 h3] q3]|]; [destruct O3 as [S3 O3]; pose proof (held_nonneg _ S3)|]; lia.
  - assert (k1 = k) as -> by congruence. lia.
Qed.
