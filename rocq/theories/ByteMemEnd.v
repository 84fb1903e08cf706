(** Several byte arrays: what follows from the invariant of ByteMemHist.v. *)
From Verif Require Import Base CMem ByteArrayModel ByteArraySpec ByteArrayProofs ByteMemModel ByteMemSpec ByteMem ByteMemHist.
From Coq Require Import ZifyBool ZifyNat.
Ltac Zify.zify_post_hook ::= Z.div_mod_to_equations.

Lemma begin_inv m0 : fresh m0 -> inv m0 empty (begin m0).
Proof.
  intros F. constructor; cbn [begin empty memory made buffers arrs bufs]; try reflexivity.
  - exact F.
  - constructor.
  - constructor.
  - constructor.
  - intros [|k] x s H; discriminate H.
  - intros [|k] x H; discriminate H.
  - intros x y a c _ _ [].
  - intros [|k] x s H; discriminate H.
  - intros x Hx H. destruct (proj1 F x Hx) as [E _]. contradiction.
  - intros x Hx H. destruct (proj1 F x Hx) as [_ E]. contradiction.
Qed.

Lemma on_slots w k f w' r j : on w k f = Some (w', r) -> (j < length (arrs w))%nat -> slot w j = None -> slot w' j = None.
Proof.
  unfold on. destruct (slot w k) as [s|] eqn:Hs; [|discriminate]. destruct (f s) as [s' r'].
  intros E Hj Hn. injection E as <- <-. assert (j <> k) by (intros ->; congruence).
  rewrite (slot_set_other _ _ _ _ _ Hs) by assumption. exact Hn.
Qed.
(** A destroyed array does not come back. *)
Lemma wstep_none w c w' r j : wstep w c = Some (w', r) -> (j < length (arrs w))%nat -> slot w j = None -> slot w' j = None.
Proof.
  intros H Hj Hn. destruct c; cbn [wstep] in H; try (eapply on_slots; eassumption).
  - injection H as <- <-. exact Hn.
  - injection H as <- <-. rewrite slot_snoc. destruct (Nat.eqb_spec j (length (arrs w))); [lia|exact Hn].
  - destruct (slot w k) as [s|] eqn:Hs; [|discriminate H]. injection H as <- <-.
    assert (j <> k) by (intros ->; congruence). rewrite (slot_set_other _ _ _ _ _ Hs) by assumption. exact Hn.
  - destruct (source_bytes w src len); [eapply on_slots; eassumption|discriminate H].
  - destruct (source_string w src); [eapply on_slots; eassumption|discriminate H].
  - destruct (source_bytes w src len); [eapply on_slots; eassumption|discriminate H].
  - destruct (source_string w src); [eapply on_slots; eassumption|discriminate H].
Qed.
Lemma on_length w k f w' r : on w k f = Some (w', r) -> length (arrs w') = length (arrs w).
Proof.
  unfold on. destruct (slot w k) as [s|] eqn:Hs; [|discriminate]. destruct (f s) as [s' r'].
  intros E. injection E as <- <-. apply upd_length. eapply slot_bound; exact Hs.
Qed.
Lemma wstep_length w c w' r : wstep w c = Some (w', r) -> (length (arrs w) <= length (arrs w'))%nat.
Proof.
  intros H. destruct c; cbn [wstep] in H; try (rewrite (on_length _ _ _ _ _ H); reflexivity).
  - injection H as <- <-. reflexivity.
  - injection H as <- <-. cbn [arrs]. rewrite app_length. lia.
  - destruct (slot w k) as [s|] eqn:Hs; [|discriminate H]. injection H as <- <-.
    unfold set_slot. cbn [arrs]. rewrite upd_length by (eapply slot_bound; exact Hs). lia.
  - destruct (source_bytes w src len); [rewrite (on_length _ _ _ _ _ H); reflexivity|discriminate H].
  - destruct (source_string w src); [rewrite (on_length _ _ _ _ _ H); reflexivity|discriminate H].
  - destruct (source_bytes w src len); [rewrite (on_length _ _ _ _ _ H); reflexivity|discriminate H].
  - destruct (source_string w src); [rewrite (on_length _ _ _ _ _ H); reflexivity|discriminate H].
Qed.
Lemma history_none w cs w' rs j : history w cs w' rs -> (j < length (arrs w))%nat -> slot w j = None -> slot w' j = None.
Proof.
  induction 1 as [w|w c w1 r cs w2 rs Hw _ _ _ IH]; intros Hj Hn; [exact Hn|].
  apply IH; [pose proof (wstep_length _ _ _ _ Hw); lia|]. eapply wstep_none; eassumption.
Qed.

Lemma run_history m0 w cs w' rs : history w cs w' rs -> forall junk st, inv m0 w st -> bufs_ok w ->
  exists st', exec_all junk st cs = Ok (st', rs) /\ inv m0 w' st' /\ bufs_ok w' /\ evolves w st w' st'.
Proof.
  induction 1 as [w|w c w1 r cs w2 rs Hw Ha Hm Hh IH]; intros junk st I B.
  - exists st. split; [reflexivity|]. split; [exact I|]. split; [exact B|]. apply evolves_same; reflexivity.
  - destruct (step_ok m0 w st c w1 r (junk O) I B Hw Ha Hm) as (st1 & E1 & I1 & V1).
    destruct (IH (fun i => junk (S i)) st1 I1 (wstep_bufs _ _ _ _ B Ha Hw)) as (st2 & E2 & I2 & B2 & V2).
    exists st2. cbn [exec_all]. rewrite E1. cbn [bind]. rewrite E2. cbn [bind]. split; [reflexivity|].
    split; [exact I2|]. split; [exact B2|].
    destruct V1 as (N1 & D1 & M1 & P1). destruct V2 as (N2 & D2 & M2 & P2).
    split; [lia|]. split; [intros b Hb Hn; apply D2; [lia|]; apply D1; assumption|]. split; [auto|].
    intros k x s s2 b Hk Hs Hs2 Hd.
    destruct (slot w1 k) as [s1|] eqn:Hs1.
    2: { exfalso. assert (slot w2 k = None); [|congruence].
         eapply history_none; [exact Hh| |exact Hs1]. pose proof (wstep_length _ _ _ _ Hw).
         apply slot_bound in Hs. lia. }
    assert (Hb : b < next (memory st)).
    { destruct (i_live _ _ _ I k x s Hk Hs) as (b1 & v & rest & L & _).
      rewrite (data_at _ _ _ _ (l_view _ _ _ _ _ _ _ L)) in Hd. injection Hd as <-. apply L. }
    destruct (P1 k x s s1 b Hk Hs Hs1 Hd) as [[Hd1 R1]|[R1 F1]].
    + destruct (P2 k x s1 s2 b (M1 _ _ Hk) Hs1 Hs2 Hd1) as [[Hd2 R2]|[R2 F2]].
      * left. split; [exact Hd2|congruence].
      * right. split; [lia|exact F2].
    + right. split; [|apply D2; [lia|exact F1]].
      destruct (i_live _ _ _ I1 k x s1 (M1 _ _ Hk) Hs1) as (b1 & v & rest & L & _).
      destruct (P2 k x s1 s2 b1 (M1 _ _ Hk) Hs1 Hs2 (data_at _ _ _ _ (l_view _ _ _ _ _ _ _ L))) as [[_ R2]|[R2 _]]; lia.
Qed.

Lemma inv_sees m0 w st : inv m0 w st -> sees w st.
Proof.
  intros I. split; [apply I|]. split; [apply I|]. split; [|apply I].
  intros k x Hk. destruct (slot w k) as [s|] eqn:Hs; [|eapply (i_dead _ _ _ I); eassumption].
  destruct (i_live _ _ _ I k x s Hk Hs) as (b & v & rest & L & _).
  pose proof (l_view _ _ _ _ _ _ _ L) as V. pose proof (l_rep _ _ _ _ _ _ _ L) as (Rd & Rc & _).
  split.
  - unfold p_byte_array_size. rewrite (view_arr _ _ _ _ V). cbn. rewrite Rc. reflexivity.
  - exists (b, 0). split; [eapply data_at; exact V|].
    destruct V as [_ V]. rewrite Rd in V.
    assert (B : behind (memory st) (b, 0) = Ok (content s ++ 0 :: rest)).
    { rewrite (behind_block _ _ _ _ V) by (pose proof (zlen_nonneg (content s ++ 0 :: rest)); lia). reflexivity. }
    pose proof (zlen_nonneg (content s)). pose proof (zlen_nonneg rest).
    rewrite (load_prefix _ _ _ _ B) by (rewrite zlen_app, zlen_cons; lia).
    f_equal. replace (content s ++ 0 :: rest) with ((content s ++ [0]) ++ rest) by (rewrite <- app_assoc; reflexivity).
    replace (zlen (content s) + 1) with (zlen (content s ++ [0])) by (rewrite zlen_app; reflexivity).
    apply firstn_zlen.
Qed.
Lemma inv_untouched m0 w st : fresh m0 -> inv m0 w st -> untouched m0 (memory st).
Proof.
  intros F I. split.
  - intros x a H. rewrite (i_old_arr _ _ _ I); [exact H|].
    destruct (Z_lt_le_dec x (next m0)) as [|L]; [assumption|]. destruct (proj1 F x L). congruence.
  - intros x a H. rewrite (i_old_blk _ _ _ I); [exact H|].
    destruct (Z_lt_le_dec x (next m0)) as [|L]; [assumption|]. destruct (proj1 F x L). congruence.
Qed.
Lemma inv_no_leak m0 w st : inv m0 w st -> no_leak w m0 st.
Proof.
  intros I. split.
  - intros x H. destruct (Z_lt_le_dec x (next m0)) as [L|L].
    + left. rewrite (i_old_arr _ _ _ I) in H by assumption. exact H.
    + right. pose proof (i_only_arr _ _ _ I x L H) as Hin. apply In_nth_error in Hin as (k & Hk).
      destruct (slot w k) as [s|] eqn:Hs; [eauto|]. exfalso. apply H. eapply (i_dead _ _ _ I); eassumption.
  - intros b H. destruct (Z_lt_le_dec b (next m0)) as [L|L].
    + left. rewrite (i_old_blk _ _ _ I) in H by assumption. exact H.
    + right. destruct (i_only_blk _ _ _ I b L H) as [|(x & a & Hin & Ha & Hd)]; [auto|]. right.
      apply In_nth_error in Hin as (k & Hk). destruct (slot w k) as [s|] eqn:Hs.
      2: { rewrite (i_dead _ _ _ I k x Hk Hs) in Ha. discriminate Ha. }
      exists k, s, x. split; [exact Hk|]. split; [exact Hs|].
      unfold p_byte_array_data, the_arr. rewrite Ha. cbn. rewrite Hd. reflexivity.
Qed.

Lemma world_ok m0 junk cs w rs : fresh m0 -> history empty cs w rs ->
  exists st, exec_all junk (begin m0) cs = Ok (st, rs) /\ sees w st /\ untouched m0 (memory st) /\ no_leak w m0 st.
Proof.
  intros F H. destruct (run_history m0 _ _ _ _ H junk (begin m0) (begin_inv m0 F)) as (st & E & I & _).
  { constructor. }
  exists st. split; [exact E|]. split; [eapply inv_sees; exact I|].
  split; [eapply inv_untouched; eassumption|eapply inv_no_leak; exact I].
Qed.

(** All arrays destroyed. *)
Lemma all_dropped m0 junk cs w rs : fresh m0 -> history empty cs w rs -> (forall k, slot w k = None) ->
  exists st, exec_all junk (begin m0) cs = Ok (st, rs) /\
    (forall x, arrays (memory st) x = arrays m0 x) /\
    (forall b, ~ In b (buffers st) -> blocks (memory st) b = blocks m0 b).
Proof.
  intros F H N. destruct (world_ok m0 junk cs w rs F H) as (st & E & _ & [U1 U2] & [L1 L2]).
  exists st. split; [exact E|]. split.
  - intros x. destruct (arrays m0 x) as [a|] eqn:Ea; [apply U1; exact Ea|].
    destruct (arrays (memory st) x) as [a|] eqn:Eb; [|reflexivity]. exfalso.
    destruct (L1 x) as [C|(k & s & _ & Hs)]; [congruence|contradiction|]. rewrite N in Hs. discriminate Hs.
  - intros b Hb. destruct (blocks m0 b) as [a|] eqn:Ea; [apply U2; exact Ea|].
    destruct (blocks (memory st) b) as [a|] eqn:Eb; [|reflexivity]. exfalso.
    destruct (L2 b) as [C|[C|(k & s & x & _ & Hs & _)]]; [congruence|contradiction|contradiction|].
    rewrite N in Hs. discriminate Hs.
Qed.

(** * Own bytes *)
Lemma behind_gone m p : blocks m (fst p) = None -> behind m p = UB.
Proof. unfold behind, the_block. intros ->. reflexivity. Qed.

Lemma append_gone junk m x b v lim l t rest p len : view m x b v -> b < next m -> rep lim v l t rest ->
  0 <= len < 2 ^ 64 -> fst p = b -> size v <= zlen l + len < lim -> p_byte_array_append junk m x p len = UB.
Proof.
  intros V Hb R Hlen Hp Hn. pose proof (ensure_sim junk m x b v lim l t rest len V Hb R Hlen) as ES.
  replace (zlen l + len <? lim) with true in ES by lia.
  destruct ES as (m1 & b1 & v1 & rest1 & E1 & VE & V1 & R1 & L1 & C1 & S1 & F1 & K1).
  unfold p_byte_array_append. rewrite E1. cbn [bind negb]. rewrite (view_arr _ _ _ _ V1).
  cbn [bind p_data p_cursor]. pose proof R as (_ & _ & _ & _ & ? & _).
  unfold grown in S1. replace (zlen l + len <? size v) with false in S1 by lia.
  pose proof (zlen_nonneg l). pose proof R as (_ & _ & _ & Rs & _). pose proof (rep_len _ _ _ _ _ R) as RL. pose proof (zlen_nonneg rest).
  pose proof (pow2_bounds (zlen l + len + 1) ltac:(lia)) as PB.
  destruct F1 as (_ & _ & [(_ & _ & _ & E)|(Eb & _ & D & _)]); [lia|].
  unfold memcpy. cbn [fst snd]. destruct (Z.eqb_spec b1 (fst p)); [lia|]. cbn [andb].
  unfold memmove, load. rewrite behind_gone by congruence. reflexivity.
Qed.

Lemma copy_gone junk m x b v lim l t rest pos p len : view m x b v -> b < next m -> rep lim v l t rest ->
  0 <= len < 2 ^ 64 -> fst p = b -> 0 <= pos <= zlen l -> size v <= pos + len < lim ->
  p_byte_array_copy junk m x pos p len = UB.
Proof.
  intros V Hb R Hlen Hp Hpos Hn. pose proof R as (_ & Rc & _ & Rs & Rl & _). pose proof (rep_len _ _ _ _ _ R) as RL.
  pose proof (zlen_nonneg l). pose proof (zlen_nonneg rest).
  pose proof (ensure_sim junk m x b v lim l t rest (pos + len - zlen l) V Hb R ltac:(lia)) as ES.
  replace (zlen l + (pos + len - zlen l)) with (pos + len) in ES by lia.
  replace (pos + len <? lim) with true in ES by lia.
  destruct ES as (m1 & b1 & v1 & rest1 & E1 & VE & V1 & R1 & L1 & C1 & S1 & F1 & K1).
  unfold p_byte_array_copy. rewrite (view_arr _ _ _ _ V). cbn [bind p_cursor]. rewrite Rc.
  replace (pos >? zlen l) with false by lia. rewrite !(u64_small (zlen l - pos)) by lia.
  replace (len >? zlen l - pos) with true by lia. rewrite (u64_small (pos + len - zlen l)) by lia.
  rewrite E1. cbn [bind negb]. rewrite (view_arr _ _ _ _ V1). cbn [bind p_data p_cursor].
  unfold grown in S1. replace (pos + len <? size v) with false in S1 by lia.
  pose proof (pow2_bounds (pos + len + 1) ltac:(lia)) as PB.
  destruct F1 as (_ & _ & [(_ & _ & _ & E)|(Eb & _ & D & _)]); [lia|].
  unfold memmove, load. rewrite behind_gone by congruence. reflexivity.
Qed.

Lemma own_gone m0 w st c w' r k junk : inv m0 w st -> bufs_ok w -> wstep w c = Some (w', r) -> args_ok w c ->
  from_itself c k -> moves w c k -> exec junk st c = UB.
Proof.
  intros I B H Ha (off & Hso) (s & n & Hs & Hh & Hn).
  destruct (made_at _ _ _ _ _ I Hs) as (x & Hx).
  destruct (i_live _ _ _ I k x s Hx Hs) as (b & v & rest & L & Nb).
  pose proof (content_small _ _ _ _ _ _ _ L) as (C1 & C2 & C3). pose proof (l_size _ _ _ _ _ _ _ L) as LS.
  pose proof (l_view _ _ _ _ _ _ _ L) as V. pose proof (l_rep _ _ _ _ _ _ _ L) as R.
  assert (Hb : b < next (memory st)) by apply L.
  assert (P : forall l p extra, source_all w (Own k off) = Some l -> pointer st (Own k off) = Ok p ->
     behind (memory st) p = Ok (l ++ extra) -> fst p = b).
  { intros l p extra El Hp _. unfold pointer, the in Hp. rewrite Hx in Hp. cbn [bind] in Hp.
    rewrite (data_at _ _ _ _ V) in Hp. cbn [bind fst snd] in Hp. injection Hp as <-. reflexivity. }
  destruct c as [l0|n0|k0|k0|k0 src len|k0 src|k0 pos src len|k0 pos src|k0 cb len|k0|k0 n0 c];
    cbn [source_of] in Hso; try discriminate Hso; injection Hso as -> ->; cbn [wstep exec holds_after args_ok] in *.
  - injection Hh as Hh. unfold source_bytes in H. destruct (source_all w (Own k off)) as [l|] eqn:El; [|discriminate H].
    destruct ((0 <=? len) && (len <=? zlen l)) eqn:Elen; [|discriminate H].
    destruct (source_ok _ _ _ _ _ I El) as (p & extra & Hp & Hbh & _).
    pose proof (source_len64 _ _ _ _ _ _ I B El Hp).
    unfold the. rewrite Hx. cbn [bind]. rewrite Hp. cbn [bind].
    erewrite append_gone; try eassumption; [reflexivity|lia|exact (P l p extra eq_refl Hp Hbh)|lia].
  - injection Hh as Hh. destruct (source_string w (Own k off)) as [d|] eqn:Ed; [|discriminate H].
    destruct (string_ok _ _ _ _ _ I Ed) as (l & El & Hdl & Hdf & Hstr).
    destruct (source_ok _ _ _ _ _ I El) as (p & extra & Hp & Hbh & Hc).
    pose proof (source_len64 _ _ _ _ _ _ I B El Hp). pose proof (zlen_nonneg d).
    unfold the. rewrite Hx. cbn [bind]. rewrite Hp. cbn [bind]. unfold p_byte_array_append_string.
    rewrite (Hstr p extra Hp Hbh) by apply Hc. cbn [bind].
    erewrite append_gone; try eassumption; [reflexivity|lia|exact (P l p extra El Hp Hbh)|lia].
  - destruct (pos <=? zlen (content s)) eqn:Ep; [|discriminate Hh]. injection Hh as Hh.
    unfold source_bytes in H. destruct (source_all w (Own k off)) as [l|] eqn:El; [|discriminate H].
    destruct ((0 <=? len) && (len <=? zlen l)) eqn:Elen; [|discriminate H].
    destruct (source_ok _ _ _ _ _ I El) as (p & extra & Hp & Hbh & _).
    pose proof (source_len64 _ _ _ _ _ _ I B El Hp).
    unfold the. rewrite Hx. cbn [bind]. rewrite Hp. cbn [bind].
    erewrite copy_gone; try eassumption; [reflexivity|lia|exact (P l p extra eq_refl Hp Hbh)|lia|lia].
  - destruct (pos <=? zlen (content s)) eqn:Ep; [|discriminate Hh]. injection Hh as Hh.
    destruct (source_string w (Own k off)) as [d|] eqn:Ed; [|discriminate H].
    destruct (string_ok _ _ _ _ _ I Ed) as (l & El & Hdl & Hdf & Hstr).
    destruct (source_ok _ _ _ _ _ I El) as (p & extra & Hp & Hbh & Hc).
    pose proof (source_len64 _ _ _ _ _ _ I B El Hp). pose proof (zlen_nonneg d).
    unfold the. rewrite Hx. cbn [bind]. rewrite Hp. cbn [bind]. unfold p_byte_array_copy_string.
    rewrite (Hstr p extra Hp Hbh) by apply Hc. cbn [bind].
    erewrite copy_gone; try eassumption; [reflexivity|lia|exact (P l p extra El Hp Hbh)|lia|lia].
Qed.

(** After any history, a command that takes an array's own bytes works if the
    array need not move, and is undefined otherwise. *)
Lemma own_bytes m0 junk cs w rs c k w' r junk' : fresh m0 -> history empty cs w rs ->
  wstep w c = Some (w', r) -> args_ok w c -> from_itself c k ->
  exists st, exec_all junk (begin m0) cs = Ok (st, rs) /\
    (moves w c k -> exec junk' st c = UB) /\
    (~ moves w c k -> exists st', exec junk' st c = Ok (st', r) /\ sees w' st').
Proof.
  intros F H Hw Ha Hk. destruct (run_history m0 _ _ _ _ H junk (begin m0) (begin_inv m0 F)) as (st & E & I & B & _).
  { constructor. }
  exists st. split; [exact E|]. split.
  - intros Hm. eapply own_gone; eassumption.
  - intros Hm. destruct (step_ok m0 w st c w' r junk' I B Hw Ha) as (st1 & E1 & I1 & V1).
    { intros j Hj. destruct Hk as (o1 & H1). destruct Hj as (o2 & H2). assert (j = k) by congruence. subst j. exact Hm. }
    exists st1. split; [exact E1|]. eapply inv_sees; exact I1.
Qed.

(** Pointers handed out earlier. *)
Lemma pointers_kept m0 junk1 junk2 cs1 w1 rs1 cs2 w2 rs2 k x s1 s2 : fresh m0 ->
  history empty cs1 w1 rs1 -> history w1 cs2 w2 rs2 -> slot w1 k = Some s1 -> slot w2 k = Some s2 ->
  exists st1 st2, exec_all junk1 (begin m0) cs1 = Ok (st1, rs1) /\ exec_all junk2 st1 cs2 = Ok (st2, rs2) /\
  (nth_error (made st1) k = Some x ->
   exists b, p_byte_array_data (memory st1) x = Ok (b, 0) /\
     if room s1 =? room s2 then p_byte_array_data (memory st2) x = Ok (b, 0)
     else blocks (memory st2) b = None).
Proof.
  intros F H1 H2 Hs1 Hs2.
  destruct (run_history m0 _ _ _ _ H1 junk1 (begin m0) (begin_inv m0 F)) as (st1 & E1 & I1 & B1 & _); [constructor|].
  destruct (run_history m0 _ _ _ _ H2 junk2 st1 I1 B1) as (st2 & E2 & I2 & B2 & V2).
  exists st1, st2. split; [exact E1|]. split; [exact E2|]. intros Hx.
  destruct (i_live _ _ _ I1 k x s1 Hx Hs1) as (b & v & rest & L & Nb).
  pose proof (data_at _ _ _ _ (l_view _ _ _ _ _ _ _ L)) as Hd. exists b. split; [exact Hd|].
  destruct V2 as (_ & _ & _ & P). destruct (P k x s1 s2 b Hx Hs1 Hs2 Hd) as [[Hd2 R]|[R D]].
  - rewrite R, Z.eqb_refl. exact Hd2.
  - replace (room s1 =? room s2) with false by lia. exact D.
Qed.

(** * Storage and reallocations *)
Lemma storage_ok m0 junk cs w rs k s : fresh m0 -> history empty cs w rs -> slot w k = Some s ->
  exists st x b l, exec_all junk (begin m0) cs = Ok (st, rs) /\
    nth_error (made st) k = Some x /\ p_byte_array_data (memory st) x = Ok (b, 0) /\
    blocks (memory st) b = Some l /\
    zlen (content s) <= reached s < limit s /\
    reached s < zlen l <= Z.max 128 (2 * (reached s + 1)) /\
    sum (map fst (moved_for (memory st) x)) < zlen l /\
    (moved_for (memory st) x = [] \/ 64 * 2 ^ zlen (moved_for (memory st) x) <= reached s).
Proof.
  intros F H Hs. destruct (run_history m0 _ _ _ _ H junk (begin m0) (begin_inv m0 F)) as (st & E & I & _); [constructor|].
  destruct (made_at _ _ _ _ _ I Hs) as (x & Hx).
  destruct (i_live _ _ _ I k x s Hx Hs) as (b & v & rest & L & Nb).
  pose proof (content_small _ _ _ _ _ _ _ L) as (C1 & C2 & C3).
  pose proof (l_view _ _ _ _ _ _ _ L) as V. pose proof (l_rep _ _ _ _ _ _ _ L) as (_ & _ & _ & Rs & _).
  pose proof (l_size _ _ _ _ _ _ _ L) as LS. pose proof (l_reached _ _ _ _ _ _ _ L) as LR.
  pose proof (room_bounds s C3 C2) as RB.
  exists st, x, b, (data v). split; [exact E|]. split; [exact Hx|]. split; [eapply data_at; exact V|].
  split; [apply V|]. split; [exact LR|].
  assert (Hz : zlen (data v) = room s) by congruence. rewrite Hz.
  pose proof (l_log _ _ _ _ _ _ _ L) as [G1 G2].
  assert (Hlg : reached s <? 128 = true /\ lg s = 7 /\ room s <= 128 \/
    128 <= reached s /\ lg s = Z.log2_up (reached s + 1) /\ room s = pow2 (reached s + 1)).
  { unfold lg, room, pow2, SIZE_MAX. destruct (reached s <? 128) eqn:Er; [left|right]; lia. }
  destruct Hlg as [(E1 & E2 & E3)|(E1 & E2 & E3)].
  - rewrite E2 in *. split; [lia|].
    assert (Hnil : moved_for (memory st) x = []).
    { destruct (moved_for (memory st) x); [reflexivity|]. rewrite zlen_cons in G2. pose proof (zlen_nonneg l). lia. }
    rewrite Hnil in *. cbn [map sum fold_right]. split; [lia|]. left. reflexivity.
  - pose proof (pow2_bounds (reached s + 1) ltac:(lia)) as PB. rewrite <- E3 in PB. split; [lia|].
    pose proof (Z.log2_up_spec (reached s + 1) ltac:(lia)) as [U1 U2]. rewrite <- E2 in *.
    split.
    + unfold pow2, SIZE_MAX in E3. rewrite <- E2 in E3.
      assert (0 <= lg s <= 64).
      { rewrite E2. split; [apply Z.log2_up_nonneg|]. apply Z.log2_up_le_pow2; lia. }
      assert (2 ^ lg s <= 2 ^ 64) by (apply Z.pow_le_mono_r; lia). lia.
    + right. assert (2 ^ (6 + zlen (moved_for (memory st) x)) <= 2 ^ Z.pred (lg s)).
      { apply Z.pow_le_mono_r; lia. }
      pose proof (zlen_nonneg (moved_for (memory st) x)).
      rewrite Z.pow_add_r in * by lia. change (2 ^ 6) with 64 in *. lia.
Qed.
