(** Histories over several byte arrays. *)
From Verif Require Import Base CMem ByteArrayModel ByteArraySpec ByteArrayProofs ByteMemModel ByteMemSpec ByteMem.
From Coq Require Import ZifyBool ZifyNat.
Ltac Zify.zify_post_hook ::= Z.div_mod_to_equations.

(** The binary logarithm of the room. *)
Definition lg (s : sarr) : Z := if reached s <? 128 then 7 else Z.log2_up (reached s + 1).
Definition log_ok (s : sarr) (l : list (Z * Z)) : Prop :=
  sum (map fst l) + 128 <= 2 ^ lg s /\ zlen l + 7 <= lg s.

(** Array [s] of the world is at [x] with its bytes in block [b]. *)
Record lives (m0 m : mem) (s : sarr) (x b : Z) (v : byte_array) (rest : list Z) : Prop :=
  { l_view : view m x b v;
    l_rep : rep (limit s) v (content s) 0 rest;
    l_ref : ref_count v = owners s;
    l_owners : 1 <= owners s < 2 ^ 32;
    l_size : size v = room s;
    l_reached : zlen (content s) <= reached s < limit s;
    l_block : next m0 <= b < next m;
    l_log : log_ok s (moved_for m x) }.

Record inv (m0 : mem) (w : world) (st : state) : Prop :=
  { i_fresh : fresh (memory st);
    i_next : next m0 <= next (memory st);
    i_made : length (made st) = length (arrs w);
    i_bufs : length (buffers st) = length (bufs w);
    i_nodup : NoDup (made st);
    i_range : Forall (fun x => next m0 <= x < next (memory st)) (made st);
    i_brange : Forall (fun x => next m0 <= x < next (memory st)) (buffers st);
    i_old_arr : forall x, x < next m0 -> arrays (memory st) x = arrays m0 x;
    i_old_blk : forall b, b < next m0 -> blocks (memory st) b = blocks m0 b;
    i_live : forall k x s, nth_error (made st) k = Some x -> slot w k = Some s ->
      exists b v rest, lives m0 (memory st) s x b v rest /\ ~ In b (buffers st);
    i_dead : forall k x, nth_error (made st) k = Some x -> slot w k = None -> arrays (memory st) x = None;
    i_inj : forall x y a c, arrays (memory st) x = Some a -> arrays (memory st) y = Some c ->
      In x (made st) -> In y (made st) -> p_data a = p_data c -> x = y;
    i_buf : forall k b l, nth_error (buffers st) k = Some b -> nth_error (bufs w) k = Some l ->
      blocks (memory st) b = Some l;
    i_only_arr : forall x, next m0 <= x -> arrays (memory st) x <> None -> In x (made st);
    i_only_blk : forall b, next m0 <= b -> blocks (memory st) b <> None ->
      In b (buffers st) \/ exists x a, In x (made st) /\ arrays (memory st) x = Some a /\ p_data a = b }.

(** * Room *)
Lemma room_bounds s : 0 <= reached s < limit s -> limit s < 2 ^ 64 ->
  reached s < room s /\ room s < 2 ^ 64.
Proof.
  intros H L. unfold room. destruct (reached s <? 128) eqn:E; [lia|].
  pose proof (pow2_bounds (reached s + 1) ltac:(lia)) as B. unfold pow2, SIZE_MAX in B. lia.
Qed.

Lemma room_grown s n l : 0 <= reached s < limit s -> limit s < 2 ^ 64 -> 0 <= n < limit s ->
  room (hold s n l) = grown (room s) n.
Proof.
  intros H L Hn. pose proof (room_bounds s H L) as RB. unfold grown.
  change (room (hold s n l)) with (if Z.max (reached s) n <? 128 then Z.min 128 (limit s)
    else Z.min (2 ^ 64 - 1) (2 ^ Z.log2_up (Z.max (reached s) n + 1))).
  destruct (Z_le_gt_dec n (reached s)) as [Le|Gt].
  { rewrite Z.max_l by lia. replace (n <? room s) with true by lia. reflexivity. }
  rewrite Z.max_r by lia. destruct (n <? room s) eqn:E.
  - unfold room in E |- *. destruct (n <? 128) eqn:E1.
    + replace (reached s <? 128) with true by lia. reflexivity.
    + destruct (reached s <? 128) eqn:E2; [lia|].
      assert (Z.log2_up (reached s + 1) <= Z.log2_up (n + 1)) by (apply Z.log2_up_le_mono; lia).
      assert (Z.log2_up (n + 1) <= Z.log2_up (reached s + 1)) by (apply Z.log2_up_le_pow2; lia).
      f_equal. f_equal. lia.
  - unfold room in E. destruct (n <? 128) eqn:E1; [|reflexivity].
    destruct (reached s <? 128) eqn:E2; lia.
Qed.

Lemma lg_mono s n l : 0 <= reached s -> 0 <= n -> lg s <= lg (hold s n l).
Proof.
  intros H Hn. unfold lg, hold. cbn [reached].
  destruct (reached s <? 128) eqn:E.
  - destruct (Z.max (reached s) n <? 128) eqn:E2; [lia|].
    assert (Z.log2_up 129 <= Z.log2_up (Z.max (reached s) n + 1)) by (apply Z.log2_up_le_mono; lia).
    change (Z.log2_up 129) with 8 in *. lia.
  - replace (Z.max (reached s) n <? 128) with false by lia. apply Z.log2_up_le_mono. lia.
Qed.

Lemma log_mono s n l lo : 0 <= reached s -> 0 <= n -> log_ok s lo -> log_ok (hold s n l) lo.
Proof.
  intros H Hn [A B]. pose proof (lg_mono s n l H Hn). split; [|lia].
  assert (2 ^ lg s <= 2 ^ lg (hold s n l)) by (apply Z.pow_le_mono_r; lia). lia.
Qed.

Lemma log_grow s n l lo sz : 0 <= reached s < limit s -> limit s < 2 ^ 64 -> 0 <= n < limit s ->
  log_ok s lo -> room s < room (hold s n l) -> log_ok (hold s n l) ((room s, sz) :: lo).
Proof.
  intros H L Hn [A B] G. pose proof (room_grown s n l H L Hn) as RG. pose proof (room_bounds s H L) as RB.
  assert (Hge : room s <= n).
  { unfold grown in RG. destruct (n <? room s) eqn:E; lia. }
  assert (Hl : lg s + 1 <= lg (hold s n l) /\ room s = 2 ^ lg s).
  { unfold lg, room in *. change (reached (hold s n l)) with (Z.max (reached s) n) in *.
    change (limit (hold s n l)) with (limit s) in *.
    destruct (reached s <? 128) eqn:E.
    - replace (Z.max (reached s) n <? 128) with false by lia.
      assert (Z.log2_up 129 <= Z.log2_up (Z.max (reached s) n + 1)) by (apply Z.log2_up_le_mono; lia).
      change (Z.log2_up 129) with 8 in *. change (2 ^ 7) with 128. lia.
    - replace (Z.max (reached s) n <? 128) with false by lia.
      assert (X : 2 ^ Z.log2_up (reached s + 1) <= 2 ^ 64 - 1) by lia.
      rewrite Z.min_r in * by lia. split; [|reflexivity].
      assert (Z.log2_up (reached s + 1) < Z.log2_up (Z.max (reached s) n + 1)); [|lia].
      apply Z.log2_up_lt_pow2; lia. }
  destruct Hl as [Hl1 Hl2]. unfold log_ok. cbn [map fst sum fold_right]. fold (sum (map fst lo)).
  rewrite zlen_cons. split; [|lia].
  assert (2 ^ (lg s + 1) <= 2 ^ lg (hold s n l)) by (apply Z.pow_le_mono_r; lia).
  assert (0 <= lg s) by (unfold lg; destruct (reached s <? 128); [lia|apply Z.log2_up_nonneg]).
  rewrite Z.pow_add_r in * by lia. lia.
Qed.

(** * Lists *)
Lemma upd_nth {A} (l : list A) k v : (k < length l)%nat -> nth_error (Base.upd l k v) k = Some v.
Proof.
  intros H. unfold Base.upd. rewrite nth_error_app2; rewrite firstn_length; [|lia].
  replace (k - Nat.min k (length l))%nat with 0%nat by lia. reflexivity.
Qed.
Lemma upd_length {A} (l : list A) k v : (k < length l)%nat -> length (Base.upd l k v) = length l.
Proof. intros H. unfold Base.upd. rewrite app_length, firstn_length. cbn [length]. rewrite skipn_length. lia. Qed.
Lemma upd_other {A} (l : list A) k v j : (k < length l)%nat -> j <> k -> nth_error (Base.upd l k v) j = nth_error l j.
Proof.
  intros H Hj. unfold Base.upd. revert k j H Hj. induction l as [|a l IH]; intros k j H Hj; [cbn in H; lia|].
  destruct k as [|k]; cbn [firstn skipn app].
  - destruct j as [|j]; [lia|]. reflexivity.
  - destruct j as [|j]; [reflexivity|]. cbn [nth_error]. apply (IH k j); [cbn in H; lia|lia].
Qed.
Lemma upd_id {A} (l : list A) k v : nth_error l k = Some v -> Base.upd l k v = l.
Proof.
  unfold Base.upd. revert k. induction l as [|a l IH]; intros [|k] H; try discriminate H.
  - injection H as ->. reflexivity.
  - cbn [firstn skipn app]. f_equal. apply IH. exact H.
Qed.

Lemma slot_nth w k s : slot w k = Some s -> nth_error (arrs w) k = Some (Some s).
Proof. unfold slot. destruct (nth_error (arrs w) k) as [[x|]|]; congruence. Qed.
Lemma slot_bound w k s : slot w k = Some s -> (k < length (arrs w))%nat.
Proof. intros H. apply slot_nth in H. apply nth_error_Some. congruence. Qed.
Lemma slot_set w k s s' : slot w k = Some s -> slot (set_slot w k s') k = s'.
Proof.
  intros H. unfold slot, set_slot. cbn [arrs]. rewrite upd_nth by (eapply slot_bound; eassumption).
  destruct s'; reflexivity.
Qed.
Lemma slot_set_other w k s s' j : slot w k = Some s -> j <> k -> slot (set_slot w k s') j = slot w j.
Proof. intros H Hj. unfold slot, set_slot. cbn [arrs]. rewrite upd_other by (try eassumption; eapply slot_bound; eassumption). reflexivity. Qed.
Lemma set_slot_id w k s : slot w k = Some s -> set_slot w k (Some s) = w.
Proof. intros H. apply slot_nth in H. unfold set_slot. rewrite upd_id by exact H. destruct w; reflexivity. Qed.

Lemma NoDup_nth {A} (l : list A) i j x : NoDup l -> nth_error l i = Some x -> nth_error l j = Some x -> i = j.
Proof.
  intros N Hi Hj. eapply NoDup_nth_error; [exact N| |congruence]. apply nth_error_Some. congruence.
Qed.

(** The place of an array of the world. *)
Lemma made_at m0 w st k s : inv m0 w st -> slot w k = Some s ->
  exists x, nth_error (made st) k = Some x.
Proof.
  intros I H. apply slot_bound in H. rewrite <- (i_made _ _ _ I) in H.
  destruct (nth_error (made st) k) as [x|] eqn:E; [eauto|]. apply nth_error_None in E. lia.
Qed.

Lemma moved_for_other m m' x y : (moved m' = moved m \/ exists old, moved m' = (x, old) :: moved m) -> y <> x ->
  moved_for m' y = moved_for m y.
Proof.
  intros [H|[old H]] Hy; unfold moved_for; rewrite H; [reflexivity|]. cbn [filter fst].
  destruct (Z.eqb_spec x y); [congruence|reflexivity].
Qed.

(** * One step *)

(** What a step does to the addresses: old blocks that are gone stay gone, and
    an array keeps its block as long as its room is the same. *)
Definition evolves (w : world) (st : state) (w' : world) (st' : state) : Prop :=
  next (memory st) <= next (memory st') /\
  (forall b, b < next (memory st) -> blocks (memory st) b = None -> blocks (memory st') b = None) /\
  (forall k x, nth_error (made st) k = Some x -> nth_error (made st') k = Some x) /\
  (forall k x s s' b, nth_error (made st) k = Some x -> slot w k = Some s -> slot w' k = Some s' ->
     p_byte_array_data (memory st) x = Ok (b, 0) ->
     (p_byte_array_data (memory st') x = Ok (b, 0) /\ room s = room s') \/
     (room s < room s' /\ blocks (memory st') b = None)).

Lemma data_at m x b v : view m x b v -> p_byte_array_data m x = Ok (b, 0).
Proof. intros V. unfold p_byte_array_data. rewrite (view_arr _ _ _ _ V). reflexivity. Qed.
Lemma data_arr m x b : p_byte_array_data m x = Ok (b, 0) -> exists a, arrays m x = Some a /\ p_data a = b.
Proof.
  unfold p_byte_array_data, the_arr. destruct (arrays m x) as [a|]; [|discriminate].
  cbn [bind]. intros H. injection H as H. eauto.
Qed.

Lemma frame_moved m x b v m' b' v' : frame m x b v m' b' v' ->
  moved m' = moved m \/ exists old, moved m' = (x, old) :: moved m.
Proof. intros (_ & _ & [(_ & _ & H & _)|(_ & _ & _ & _ & H)]); eauto. Qed.

Lemma lives_other m0 m m' s y c u rest x b v b' v' : lives m0 m s y c u rest ->
  fresh m -> frame m x b v m' b' v' -> y <> x -> c <> b -> lives m0 m' s y c u rest.
Proof.
  intros [V R Rf O S Re B L] Fr F Hy Hc. pose proof (frame_moved _ _ _ _ _ _ _ F) as FM.
  destruct F as (FA & FB & FC). assert (Hn : next m <= next m') by (destruct FC as [(_ & ? & _)|(_ & ? & _)]; lia).
  constructor; try assumption.
  - destruct V as [V1 V2]. split; [rewrite FA; assumption|]. rewrite FB; [assumption|assumption|].
    destruct FC as [(-> & _)|(-> & _)]; [assumption|lia].
  - lia.
  - rewrite (moved_for_other _ _ _ _ FM Hy). exact L.
Qed.

Lemma frame_fresh m x b v m' b' v' : fresh m -> x < next m -> b < next m -> frame m x b v m' b' v' -> fresh m'.
Proof.
  intros [Fr FrM] Hx Hb (FA & FB & FC). split.
  - intros y Hy.
    assert (Hn : next m <= next m' /\ (b' = b \/ b' < next m')) by (destruct FC as [(? & ? & _)|(? & ? & _)]; lia).
    rewrite FA, FB by lia. apply Fr. lia.
  - destruct FC as [(_ & N & M & _)|(_ & N & _ & _ & M)]; rewrite N, M; [exact FrM|].
    constructor; [cbn; lia|]. eapply Forall_impl; [|exact FrM]. cbn. intros; lia.
Qed.

Lemma step_core m0 w st k x s b v rest m' b' v' rest' s' :
  inv m0 w st -> nth_error (made st) k = Some x -> slot w k = Some s ->
  lives m0 (memory st) s x b v rest -> ~ In b (buffers st) ->
  frame (memory st) x b v m' b' v' -> lives m0 m' s' x b' v' rest' ->
  inv m0 (set_slot w k (Some s')) (keep st m') /\
  evolves w st (set_slot w k (Some s')) (keep st m').
Proof.
  intros I Hk Hs L NB F L'.
  pose proof I as [IF IN IM IB ID IR IBR IOA IOB IL IDe II IBu IA IBl].
  set (m := memory st) in *. set (w' := set_slot w k (Some s')).
  pose proof (l_view _ _ _ _ _ _ _ L') as V'. pose proof (l_size _ _ _ _ _ _ _ L') as S'.
  pose proof L as [LV LR LRf LO LS LRe LB LL].
  assert (Hx : next m0 <= x < next m).
  { rewrite Forall_forall in IR. apply IR. eapply nth_error_In; exact Hk. }
  pose proof (frame_fresh m x b v m' b' v' IF ltac:(lia) ltac:(lia) F) as IF'.
  pose proof (frame_moved _ _ _ _ _ _ _ F) as FM.
  pose proof F as (FA & FB & FC).
  assert (Hnx : next m <= next m') by (destruct FC as [(_ & ? & _)|(_ & ? & _)]; lia).
  assert (Hb' : next m0 <= b' < next m') by (destruct FC as [(-> & N & _)|(-> & N & _)]; lia).
  assert (NB' : ~ In b' (buffers st)).
  { destruct FC as [(-> & _)|(-> & _)]; [exact NB|]. intros C. rewrite Forall_forall in IBR. specialize (IBR _ C). cbn in IBR. lia. }
  assert (Oth : forall j y q, nth_error (made st) j = Some y -> slot w j = Some q -> j <> k ->
     exists c u r, lives m0 m q y c u r /\ ~ In c (buffers st) /\ y <> x /\ c <> b).
  { intros j y q Hj Hq Hjk. destruct (IL j y q Hj Hq) as (c & u & r & Lc & Nc).
    exists c, u, r. split; [exact Lc|]. split; [exact Nc|].
    assert (y <> x) by (intros ->; apply Hjk; eapply NoDup_nth; eassumption).
    split; [assumption|]. intros ->. apply H.
    eapply II; [apply (l_view _ _ _ _ _ _ _ Lc)|apply LV| | |reflexivity].
    - eapply nth_error_In; exact Hj.
    - eapply nth_error_In; exact Hk. }
  split.
  - constructor; cbn [memory made buffers keep]; fold m.
    + exact IF'.
    + lia.
    + unfold w', set_slot. cbn [arrs]. rewrite upd_length by (eapply slot_bound; exact Hs). exact IM.
    + exact IB.
    + exact ID.
    + eapply Forall_impl; [|exact IR]. cbn. intros; lia.
    + eapply Forall_impl; [|exact IBR]. cbn. intros; lia.
    + intros y Hy. rewrite FA by lia. apply IOA. exact Hy.
    + intros c Hc. rewrite FB by lia. apply IOB. exact Hc.
    + intros j y q Hj Hq. destruct (Nat.eq_dec j k) as [->|Hjk].
      * unfold w' in Hq. rewrite (slot_set _ _ _ _ Hs) in Hq. injection Hq as <-.
        replace y with x by congruence. eauto.
      * unfold w' in Hq. rewrite (slot_set_other _ _ _ _ _ Hs Hjk) in Hq.
        destruct (Oth j y q Hj Hq Hjk) as (c & u & r & Lc & Nc & Hy & Hc).
        exists c, u, r. split; [eapply lives_other; eassumption|exact Nc].
    + intros j y Hj Hq. destruct (Nat.eq_dec j k) as [->|Hjk].
      * unfold w' in Hq. rewrite (slot_set _ _ _ _ Hs) in Hq. discriminate Hq.
      * unfold w' in Hq. rewrite (slot_set_other _ _ _ _ _ Hs Hjk) in Hq.
        rewrite FA; [eapply IDe; eassumption|]. intros ->. apply Hjk. eapply NoDup_nth; eassumption.
    + assert (Sym : forall z d, arrays m' z = Some d -> In z (made st) -> z <> x -> p_data d <> b').
      { intros z d Hz Hin Hzx. rewrite FA in Hz by assumption.
        apply In_nth_error in Hin as (j & Hj). destruct (slot w j) as [q|] eqn:Hq.
        2: { exfalso. rewrite (IDe j z Hj Hq) in Hz. discriminate Hz. }
        assert (Hjk : j <> k) by (intros ->; congruence).
        destruct (Oth j z q Hj Hq Hjk) as (c & u & r & Lc & _ & _ & Hc).
        pose proof (l_view _ _ _ _ _ _ _ Lc) as [Vc _]. rewrite Hz in Vc. injection Vc as ->. cbn [p_data].
        pose proof (l_block _ _ _ _ _ _ _ Lc). destruct FC as [(-> & _)|(-> & _)]; [exact Hc|lia]. }
      intros y z a d Ha Hd Hy Hz E. pose proof V' as [Vx _].
      destruct (Z.eq_dec y x) as [->|Nyx]; destruct (Z.eq_dec z x) as [->|Nzx]; [reflexivity| | |].
      * exfalso. rewrite Vx in Ha. injection Ha as <-. apply (Sym z d Hd Hz Nzx). symmetry. exact E.
      * exfalso. rewrite Vx in Hd. injection Hd as <-. apply (Sym y a Ha Hy Nyx). exact E.
      * rewrite FA in Ha, Hd by assumption. eapply II; eassumption.
    + intros j c q Hj Hq. unfold w', set_slot in Hq. cbn [bufs] in Hq.
      assert (In c (buffers st)) by (eapply nth_error_In; exact Hj).
      rewrite FB by (intros ->; contradiction). eapply IBu; eassumption.
    + intros y Hy Hne. destruct (Z.eq_dec y x) as [->|Ny]; [eapply nth_error_In; exact Hk|].
      rewrite FA in Hne by assumption. apply IA; assumption.
    + intros c Hc Hne. destruct (Z.eq_dec c b') as [->|Ncb'].
      { right. exists x. eexists. split; [eapply nth_error_In; exact Hk|]. split; [apply V'|reflexivity]. }
      assert (Ncb : c <> b).
      { intros ->. destruct FC as [(-> & _)|(_ & _ & D & _)]; [contradiction|congruence]. }
      rewrite FB in Hne by assumption. destruct (IBl c Hc Hne) as [|(y & a & Hy & Ha & Hd)]; [auto|].
      right. exists y, a. split; [exact Hy|]. split; [|exact Hd].
      rewrite FA; [exact Ha|]. intros ->. destruct LV as [LV1 _]. rewrite LV1 in Ha. injection Ha as <-.
      apply Ncb. symmetry. exact Hd.
  - unfold evolves. cbn [memory made keep]. fold m. split; [exact Hnx|]. split; [|split; [auto|]].
    + intros c Hc Hd. assert (c <> b) by (intros ->; destruct LV as [_ LV2]; congruence).
      rewrite FB; [exact Hd|assumption|]. destruct FC as [(-> & _)|(-> & _)]; [assumption|lia].
    + intros j y q q' c Hj Hq Hq' Hd. destruct (Nat.eq_dec j k) as [->|Hjk].
      * unfold w' in Hq'. rewrite (slot_set _ _ _ _ Hs) in Hq'. injection Hq' as <-.
        assert (y = x) by congruence. subst y. assert (q = s) by congruence. subst q.
        rewrite (data_at _ _ _ _ LV) in Hd. injection Hd as <-.
        destruct FC as [(-> & _ & _ & Z2)|(_ & _ & D & Z2 & _)].
        -- left. split; [apply (data_at _ _ _ _ V')|]. congruence.
        -- right. split; [congruence|exact D].
      * unfold w' in Hq'. rewrite (slot_set_other _ _ _ _ _ Hs Hjk) in Hq'.
        destruct (Oth j y q Hj Hq Hjk) as (c1 & u & r & Lc & Nc & Hy & Hc).
        left. split; [|congruence]. unfold p_byte_array_data, the_arr in *. rewrite FA by assumption. exact Hd.
Qed.

Lemma step_went m0 w st k x s b v rest m' n l' :
  inv m0 w st -> nth_error (made st) k = Some x -> slot w k = Some s ->
  lives m0 (memory st) s x b v rest -> ~ In b (buffers st) ->
  went (memory st) x b v (limit s) 0 n l' m' -> 0 <= n < limit s -> zlen l' <= Z.max (reached s) n ->
  inv m0 (set_slot w k (Some (hold s n l'))) (keep st m') /\
  evolves w st (set_slot w k (Some (hold s n l'))) (keep st m').
Proof.
  intros I Hk Hs L NB (b' & v' & t' & rest' & V' & R' & T' & Rf' & F & S') Hn Hl.
  set (m := memory st) in *.
  pose proof L as [LV LR LRf LO LS LRe LB LL].
  assert (Lim : limit s < 2 ^ 64) by (destruct LR as (_ & _ & _ & _ & ? & _); lia).
  assert (Re0 : 0 <= reached s < limit s) by (pose proof (zlen_nonneg (content s)); lia).
  pose proof (T' eq_refl) as ->.
  pose proof (room_grown s n l' Re0 Lim Hn) as RG.
  pose proof F as (FA & FB & FC). pose proof (i_next _ _ _ I) as IN. fold m in IN.
  assert (Hsz : zlen (data v) = size v) by (destruct LR as (_ & _ & _ & ? & _); congruence).
  assert (Hb' : next m0 <= b' < next m') by (destruct FC as [(-> & N & _)|(-> & N & _)]; lia).
  assert (L' : lives m0 m' (hold s n l') x b' v' rest').
  { constructor; cbn [limit content owners reached hold]; try assumption.
    - congruence.
    - congruence.
    - lia.
    - destruct FC as [(_ & _ & M & _)|(_ & _ & _ & G & M)].
      + replace (moved_for m' x) with (moved_for m x) by (unfold moved_for; rewrite M; reflexivity).
        apply log_mono; [lia|lia|exact LL].
      + unfold moved_for. rewrite M. cbn [filter fst]. rewrite Z.eqb_refl. cbn [map snd].
        replace (zlen (data v)) with (room s) by congruence. apply log_grow; try assumption. congruence. }
  eapply step_core; eassumption.
Qed.

(** Changes that leave the blocks alone. *)
Lemma evolves_same w st st' : made st' = made st -> arrays (memory st') = arrays (memory st) ->
  blocks (memory st') = blocks (memory st) -> next (memory st') = next (memory st) -> evolves w st w st'.
Proof.
  intros A B C D. unfold evolves. rewrite A, C, D. split; [lia|]. split; [auto|]. split; [auto|].
  intros k x s s' b _ Hs Hs' Hd. left. unfold p_byte_array_data, the_arr in *. rewrite B. split; [exact Hd|congruence].
Qed.

Lemma lives_errno m0 m s x b v rest e : lives m0 m s x b v rest -> lives m0 (set_errno m e) s x b v rest.
Proof. intros [V R Rf O S Re B L]. constructor; assumption. Qed.

Lemma step_errno m0 w st e : inv m0 w st ->
  inv m0 w (keep st (set_errno (memory st) e)) /\ evolves w st w (keep st (set_errno (memory st) e)).
Proof.
  intros [IF IN IM IB ID IR IBR IOA IOB IL IDe II IBu IA IBl]. split; [|apply evolves_same; reflexivity].
  constructor; try assumption. intros k x s Hk Hs. destruct (IL k x s Hk Hs) as (b & v & rest & L & N).
  exists b, v, rest. split; [apply lives_errno; exact L|exact N].
Qed.
Lemma keep_same st : keep st (memory st) = st.
Proof. destruct st; reflexivity. Qed.
Lemma step_same m0 w st : inv m0 w st -> inv m0 w (keep st (memory st)) /\ evolves w st w (keep st (memory st)).
Proof. intros I. rewrite keep_same. split; [exact I|]. apply evolves_same; reflexivity. Qed.

(** Number of references. *)
Lemma step_refs m0 w st k x s b v rest r : inv m0 w st -> nth_error (made st) k = Some x -> slot w k = Some s ->
  lives m0 (memory st) s x b v rest -> ~ In b (buffers st) -> 1 <= r < 2 ^ 32 ->
  let s' := Sarr (content s) (limit s) r (reached s) in
  let m' := set_arr (memory st) x (Some (Arr b (cursor v) (max_size v) (size v) r)) in
  inv m0 (set_slot w k (Some s')) (keep st m') /\ evolves w st (set_slot w k (Some s')) (keep st m').
Proof.
  intros I Hk Hs L NB Hr s' m'. set (v' := BA (data v) (cursor v) (max_size v) (size v) r (errno v)).
  apply (step_core m0 w st k x s b v rest m' b v' rest s' I Hk Hs L NB).
  - split; [|split].
    + intros y Hy. cbn. apply put_other. exact Hy.
    + auto.
    + left. auto.
  - destruct L as [V R Rf O S Re B L]. constructor; try assumption; try reflexivity.
    split; [cbn; apply put_same|apply V].
Qed.

(** The last reference dropped. *)
Lemma step_drop m0 w st k x s b v rest : inv m0 w st -> nth_error (made st) k = Some x -> slot w k = Some s ->
  lives m0 (memory st) s x b v rest -> ~ In b (buffers st) -> forall a,
  let m' := set_arr (set_block (set_arr (memory st) x a) b None) x None in
  inv m0 (set_slot w k None) (keep st m') /\ evolves w st (set_slot w k None) (keep st m').
Proof.
  intros I Hk Hs L NB a m'.
  pose proof I as [IF IN IM IB ID IR IBR IOA IOB IL IDe II IBu IA IBl].
  set (m := memory st) in *. set (w' := set_slot w k None).
  pose proof L as [LV LR LRf LO LS LRe LB LL].
  assert (Hx : next m0 <= x < next m).
  { rewrite Forall_forall in IR. apply IR. eapply nth_error_In; exact Hk. }
  assert (Ax : arrays m' x = None) by (cbn; apply put_same).
  assert (Ay : forall y, y <> x -> arrays m' y = arrays m y) by (intros y Hy; cbn; rewrite !put_other by assumption; reflexivity).
  assert (Bb : blocks m' b = None) by (cbn; apply put_same).
  assert (Bc : forall c, c <> b -> blocks m' c = blocks m c) by (intros c Hc; cbn; rewrite !put_other by assumption; reflexivity).
  assert (Oth : forall j y q, nth_error (made st) j = Some y -> slot w j = Some q -> j <> k ->
     exists c u r, lives m0 m q y c u r /\ ~ In c (buffers st) /\ y <> x /\ c <> b).
  { intros j y q Hj Hq Hjk. destruct (IL j y q Hj Hq) as (c & u & r & Lc & Nc).
    exists c, u, r. split; [exact Lc|]. split; [exact Nc|].
    assert (y <> x) by (intros ->; apply Hjk; eapply NoDup_nth; eassumption).
    split; [assumption|]. intros ->. apply H.
    eapply II; [apply (l_view _ _ _ _ _ _ _ Lc)|apply LV| | |reflexivity].
    - eapply nth_error_In; exact Hj.
    - eapply nth_error_In; exact Hk. }
  split.
  - constructor; cbn [memory made buffers keep]; fold m.
    + destruct IF as [IF1 IF2]. split; [|exact IF2]. change (next m') with (next m).
      intros y Hy. rewrite Ay, Bc by lia. apply IF1. exact Hy.
    + exact IN.
    + unfold w', set_slot. cbn [arrs]. rewrite upd_length by (eapply slot_bound; exact Hs). exact IM.
    + exact IB.
    + exact ID.
    + exact IR.
    + exact IBR.
    + intros y Hy. rewrite Ay by lia. apply IOA. exact Hy.
    + intros c Hc. rewrite Bc by lia. apply IOB. exact Hc.
    + intros j y q Hj Hq. destruct (Nat.eq_dec j k) as [->|Hjk].
      { unfold w' in Hq. rewrite (slot_set _ _ _ _ Hs) in Hq. discriminate Hq. }
      unfold w' in Hq. rewrite (slot_set_other _ _ _ _ _ Hs Hjk) in Hq.
      destruct (Oth j y q Hj Hq Hjk) as (c & u & r & Lc & Nc & Hy & Hc).
      exists c, u, r. split; [|exact Nc]. destruct Lc as [V2 R2 Rf2 O2 S2 Re2 B2 L2]. constructor; try assumption.
      split; [rewrite Ay by assumption; apply V2|rewrite Bc by assumption; apply V2].
    + intros j y Hj Hq. destruct (Nat.eq_dec j k) as [->|Hjk].
      { replace y with x by congruence. exact Ax. }
      unfold w' in Hq. rewrite (slot_set_other _ _ _ _ _ Hs Hjk) in Hq.
      rewrite Ay; [eapply IDe; eassumption|]. intros ->. apply Hjk. eapply NoDup_nth; eassumption.
    + intros y z c d Hc Hd Hy Hz E.
      assert (y <> x) by (intros ->; congruence). assert (z <> x) by (intros ->; congruence).
      rewrite Ay in Hc, Hd by assumption. eapply II; eassumption.
    + intros j c q Hj Hq. assert (In c (buffers st)) by (eapply nth_error_In; exact Hj).
      rewrite Bc by (intros ->; contradiction). eapply IBu; eassumption.
    + intros y Hy Hne. assert (y <> x) by (intros ->; contradiction).
      rewrite Ay in Hne by assumption. apply IA; assumption.
    + intros c Hc Hne. assert (Ncb : c <> b) by (intros ->; contradiction).
      rewrite Bc in Hne by assumption. destruct (IBl c Hc Hne) as [|(y & a1 & Hy & Ha & Hd)]; [auto|].
      right. exists y, a1. split; [exact Hy|]. split; [|exact Hd].
      rewrite Ay; [exact Ha|]. intros ->. destruct LV as [LV1 _]. rewrite LV1 in Ha. injection Ha as <-.
      apply Ncb. symmetry. exact Hd.
  - unfold evolves. cbn [memory made keep]. fold m. split; [change (next m') with (next m); lia|].
    split; [|split; [auto|]].
    + intros c Hc Hd. destruct (Z.eq_dec c b) as [->|]; [exact Bb|]. rewrite Bc; assumption.
    + intros j y q q' c Hj Hq Hq' Hd. destruct (Nat.eq_dec j k) as [->|Hjk].
      { unfold w' in Hq'. rewrite (slot_set _ _ _ _ Hs) in Hq'. discriminate Hq'. }
      unfold w' in Hq'. rewrite (slot_set_other _ _ _ _ _ Hs Hjk) in Hq'.
      destruct (Oth j y q Hj Hq Hjk) as (c1 & u & r & Lc & Nc & Hy & Hc).
      left. split; [|congruence]. unfold p_byte_array_data, the_arr in *. rewrite Ay by assumption. exact Hd.
Qed.

(** Something new. *)
Lemma nth_error_snoc {A} (l : list A) x k y : nth_error (l ++ [x]) k = Some y ->
  nth_error l k = Some y \/ (k = length l /\ y = x).
Proof.
  intros H. destruct (Nat.lt_ge_cases k (length l)) as [L|L].
  - rewrite nth_error_app1 in H by assumption. auto.
  - rewrite nth_error_app2 in H by assumption. right.
    destruct (k - length l)%nat as [|n] eqn:E; [|destruct n; discriminate H].
    injection H as ->. split; [lia|reflexivity].
Qed.
Lemma nth_error_snoc_old {A} (l : list A) x k y : nth_error l k = Some y -> nth_error (l ++ [x]) k = Some y.
Proof. intros H. rewrite nth_error_app1; [exact H|]. apply nth_error_Some. congruence. Qed.
Lemma NoDup_snoc {A} (l : list A) x : NoDup l -> ~ In x l -> NoDup (l ++ [x]).
Proof.
  intros N H. apply (NoDup_Add (a := x) (l := l)); [|auto]. rewrite <- (app_nil_r l) at 1. apply Add_app.
Qed.

Lemma slot_snoc_buf w l k : slot (World (arrs w) (bufs w ++ [l])) k = slot w k.
Proof. reflexivity. Qed.
Lemma slot_snoc w s k : slot (World (arrs w ++ [s]) (bufs w)) k =
  if (k =? length (arrs w))%nat then s else slot w k.
Proof.
  unfold slot. cbn [arrs]. destruct (Nat.eqb_spec k (length (arrs w))) as [->|N].
  - rewrite nth_error_app2 by lia. rewrite Nat.sub_diag. cbn. destruct s; reflexivity.
  - destruct (Nat.lt_ge_cases k (length (arrs w))) as [L|L].
    + rewrite nth_error_app1 by assumption. reflexivity.
    + rewrite (proj2 (nth_error_None (arrs w ++ [s]) k)) by (rewrite app_length; cbn; lia).
      rewrite (proj2 (nth_error_None (arrs w) k)) by lia. reflexivity.
Qed.

Lemma step_newbuf m0 w st l : inv m0 w st ->
  let m' := snd (new_block (memory st) l) in
  let st' := State m' (made st) (buffers st ++ [next (memory st)]) in
  let w' := World (arrs w) (bufs w ++ [l]) in
  inv m0 w' st' /\ evolves w st w' st'.
Proof.
  intros I m' st' w'.
  pose proof I as [IF IN IM IB ID IR IBR IOA IOB IL IDe II IBu IA IBl].
  set (m := memory st) in *.
  assert (Nx : next m' = next m + 1) by reflexivity.
  assert (Bn : blocks m' (next m) = Some l) by (cbn; apply put_same).
  assert (Bc : forall c, c <> next m -> blocks m' c = blocks m c) by (intros c Hc; cbn; rewrite !put_other by assumption; reflexivity).
  assert (Nb : blocks m (next m) = None) by (apply (proj1 IF); lia).
  split.
  - constructor; cbn [memory made buffers st' arrs bufs w']; fold m.
    + destruct IF as [IF1 IF2]. split.
      * intros y Hy. rewrite Bc by lia. apply IF1. lia.
      * rewrite Nx. eapply Forall_impl; [|exact IF2]. cbn. intros; lia.
    + lia.
    + exact IM.
    + rewrite !app_length. cbn [length]. lia.
    + exact ID.
    + eapply Forall_impl; [|exact IR]. cbn. intros; lia.
    + apply Forall_app. split; [eapply Forall_impl; [|exact IBR]; cbn; intros; lia|].
      constructor; [lia|constructor].
    + exact IOA.
    + intros c Hc. rewrite Bc by lia. apply IOB. exact Hc.
    + intros j y q Hj Hq. destruct (IL j y q Hj Hq) as (c & u & r & Lc & Nc).
      exists c, u, r. destruct Lc as [V2 R2 Rf2 O2 S2 Re2 B2 L2]. split.
      * constructor; try assumption; [|lia]. split; [apply V2|rewrite Bc by lia; apply V2].
      * intros C. apply in_app_iff in C as [C|[C|[]]]; [contradiction|lia].
    + exact IDe.
    + exact II.
    + intros j c q Hj Hq. apply nth_error_snoc in Hj as [Hj|[-> ->]].
      * apply nth_error_snoc in Hq as [Hq|[-> ->]].
        -- assert (In c (buffers st)) by (eapply nth_error_In; exact Hj).
           rewrite Forall_forall in IBR. specialize (IBR _ H). cbn in IBR. rewrite Bc by lia. eapply IBu; eassumption.
        -- exfalso. assert (length (bufs w) < length (buffers st))%nat by (apply nth_error_Some; congruence). lia.
      * apply nth_error_snoc in Hq as [Hq|[_ ->]]; [|exact Bn].
        exfalso. assert (length (buffers st) < length (bufs w))%nat by (apply nth_error_Some; congruence). lia.
    + exact IA.
    + intros c Hc Hne. destruct (Z.eq_dec c (next m)) as [->|Nc].
      * left. apply in_app_iff. right. left. reflexivity.
      * rewrite Bc in Hne by assumption. destruct (IBl c Hc Hne) as [|E]; [|auto].
        left. apply in_app_iff. auto.
  - unfold evolves. cbn [memory made st']. fold m. split; [lia|]. split; [|split; [auto|]].
    + intros c Hc Hd. rewrite Bc by lia. exact Hd.
    + intros j y q q' c Hj Hq Hq' Hd. unfold w' in Hq'. rewrite slot_snoc_buf in Hq'.
      left. split; [exact Hd|congruence].
Qed.

Lemma step_make m0 w st junk n : inv m0 w st -> 1 <= n < 2 ^ 64 ->
  exists m', p_make_byte_array junk (memory st) n = Ok (next (memory st), m') /\
  let st' := State m' (made st ++ [next (memory st)]) (buffers st) in
  let w' := World (arrs w ++ [Some (Sarr [] n 1 0)]) (bufs w) in
  inv m0 w' st' /\ evolves w st w' st'.
Proof.
  intros I Hn. pose proof I as [IF IN IM IB ID IR IBR IOA IOB IL IDe II IBu IA IBl].
  set (m := memory st) in *. unfold p_make_byte_array. cbn [new_arr new_block].
  destruct (make_ok junk n Hn) as (v & rest & EM & R & Rf). unfold make_byte_array in EM.
  set (sz := if 128 >? n then n else 128) in *.
  apply bind_Ok in EM as (d & E1 & E2). injection E2 as E2.
  unfold store, the_block. cbn [fst snd arrays blocks next p_errno moved]. rewrite put_same. cbn [bind].
  rewrite blit_one, E1. cbn [bind]. unfold set_arr, set_block. cbn [arrays blocks next p_errno moved].
  eexists. split; [reflexivity|]. set (m' := Mem _ _ _ _ _). set (st' := State m' _ _). set (w' := World (arrs w ++ _) _).
  set (x := next m) in *.
  assert (Nx : next m' = x + 2) by (cbn; lia).
  assert (Ax : arrays m' x = Some (Arr (x + 1) 0 n sz 1)) by (cbn; apply put_same).
  assert (Ay : forall y, y <> x -> arrays m' y = arrays m y) by (intros y Hy; cbn; rewrite !put_other by assumption; reflexivity).
  assert (Bb : blocks m' (x + 1) = Some d) by (cbn; apply put_same).
  assert (Bc : forall c, c <> x + 1 -> blocks m' c = blocks m c) by (intros c Hc; cbn; rewrite !put_other by assumption; reflexivity).
  assert (Nm : ~ In x (made st)).
  { intros C. rewrite Forall_forall in IR. specialize (IR _ C). cbn in IR. unfold x in IR. lia. }
  assert (Lx : lives m0 m' (Sarr [] n 1 0) x (x + 1) v rest).
  { constructor; cbn [limit content owners reached]; try assumption.
    - subst v. split; cbn [cursor max_size size ref_count data]; assumption.
    - lia.
    - subst v. cbn [size]. unfold room, sz. cbn [reached limit]. destruct (128 >? n) eqn:E; cbn; lia.
    - change (zlen (@nil Z)) with 0. lia.
    - lia.
    - assert (E : moved_for m' x = []).
      { unfold moved_for. change (moved m') with (moved m). destruct IF as [_ IF2].
        revert IF2. generalize (moved m). intros l Hl. induction Hl as [|e l He Hl IH]; [reflexivity|].
        cbn [filter]. destruct (Z.eqb_spec (fst e) x); [unfold x in *; lia|exact IH]. }
      rewrite E. unfold log_ok, lg. cbn. lia. }
  split.
  - constructor; cbn [memory made buffers st' arrs bufs w']; fold m.
    + destruct IF as [IF1 IF2]. split.
      * intros y Hy. rewrite Ay, Bc by lia. apply IF1. unfold x in *. lia.
      * rewrite Nx. eapply Forall_impl; [|exact IF2]. cbn. intros; unfold x; lia.
    + unfold x in *. lia.
    + rewrite !app_length. cbn [length]. lia.
    + exact IB.
    + apply NoDup_snoc; assumption.
    + apply Forall_app. split; [eapply Forall_impl; [|exact IR]; cbn; intros; unfold x in *; lia|].
      constructor; [unfold x in *; lia|constructor].
    + eapply Forall_impl; [|exact IBR]. cbn; intros; unfold x in *; lia.
    + intros y Hy. rewrite Ay by (unfold x; lia). apply IOA. exact Hy.
    + intros c Hc. rewrite Bc by (unfold x; lia). apply IOB. exact Hc.
    + intros j y q Hj Hq. unfold w' in Hq. rewrite slot_snoc in Hq.
      destruct (Nat.eqb_spec j (length (arrs w))) as [Ej|Ej].
      * injection Hq as <-. apply nth_error_snoc in Hj as [Hj|[_ ->]].
        { exfalso. assert (j < length (made st))%nat by (apply nth_error_Some; congruence). lia. }
        exists (x + 1), v, rest. split; [exact Lx|]. intros C. rewrite Forall_forall in IBR. specialize (IBR _ C).
        cbn in IBR. unfold x in IBR. lia.
      * apply nth_error_snoc in Hj as [Hj|[-> _]]; [|lia].
        destruct (IL j y q Hj Hq) as (c & u & r & Lc & Nc).
        exists c, u, r. split; [|exact Nc]. destruct Lc as [V2 R2 Rf2 O2 S2 Re2 B2 L2].
        constructor; try assumption; [|unfold x in *; lia].
        assert (y <> x) by (intros ->; apply Nm; eapply nth_error_In; exact Hj).
        split; [rewrite Ay by assumption; apply V2|rewrite Bc by (unfold x; lia); apply V2].
    + intros j y Hj Hq. unfold w' in Hq. rewrite slot_snoc in Hq.
      destruct (Nat.eqb_spec j (length (arrs w))) as [Ej|Ej]; [discriminate Hq|].
      apply nth_error_snoc in Hj as [Hj|[-> _]]; [|lia].
      assert (y <> x) by (intros ->; apply Nm; eapply nth_error_In; exact Hj).
      rewrite Ay by assumption. eapply IDe; eassumption.
    + assert (Sym : forall z d, arrays m z = Some d -> In z (made st) -> p_data d <> x + 1).
      { intros z q Hz Hin. apply In_nth_error in Hin as (j & Hj). destruct (slot w j) as [s|] eqn:Hs.
        2: { rewrite (IDe j z Hj Hs) in Hz. discriminate Hz. }
        destruct (IL j z s Hj Hs) as (c & u & r & Lc & Nc). pose proof (l_view _ _ _ _ _ _ _ Lc) as [V _].
        rewrite Hz in V. injection V as ->. cbn [p_data]. pose proof (l_block _ _ _ _ _ _ _ Lc). unfold x. lia. }
      intros y z a c Ha Hc Hy Hz E. apply in_app_iff in Hy as [Hy|[Hy|[]]]; apply in_app_iff in Hz as [Hz|[Hz|[]]].
      * assert (y <> x) by (intros ->; contradiction). assert (z <> x) by (intros ->; contradiction).
        rewrite Ay in Ha, Hc by assumption. eapply II; eassumption.
      * subst z. assert (y <> x) by (intros ->; contradiction). rewrite Ay in Ha by assumption.
        rewrite Ax in Hc. injection Hc as <-. exfalso. apply (Sym y a Ha Hy). exact E.
      * subst y. assert (z <> x) by (intros ->; contradiction). rewrite Ay in Hc by assumption.
        rewrite Ax in Ha. injection Ha as <-. exfalso. apply (Sym z c Hc Hz). symmetry. exact E.
      * congruence.
    + intros j c q Hj Hq. assert (In c (buffers st)) by (eapply nth_error_In; exact Hj).
      rewrite Forall_forall in IBR. specialize (IBR _ H). cbn in IBR. rewrite Bc by (unfold x; lia). eapply IBu; eassumption.
    + intros y Hy Hne. apply in_app_iff. destruct (Z.eq_dec y x) as [->|Ny]; [right; left; reflexivity|].
      left. rewrite Ay in Hne by assumption. apply IA; assumption.
    + intros c Hc Hne. destruct (Z.eq_dec c (x + 1)) as [->|Nc].
      * right. exists x. eexists. split; [apply in_app_iff; right; left; reflexivity|]. split; [exact Ax|reflexivity].
      * rewrite Bc in Hne by assumption. destruct (IBl c Hc Hne) as [|(y & a & Hy & Ha & Hd)]; [auto|].
        right. exists y, a. split; [apply in_app_iff; auto|]. split; [|exact Hd].
        rewrite Ay by (intros ->; contradiction). exact Ha.
  - unfold evolves. cbn [memory made st']. fold m. split; [unfold x in *; lia|]. split; [|split].
    + intros c Hc Hd. rewrite Bc by (unfold x; lia). exact Hd.
    + intros j y Hj. apply nth_error_snoc_old. exact Hj.
    + intros j y q q' c Hj Hq Hq' Hd. unfold w' in Hq'. rewrite slot_snoc in Hq'.
      apply slot_bound in Hq as Hb.
      destruct (Nat.eqb_spec j (length (arrs w))) as [Ej|Ej]; [lia|].
      left. split; [|congruence]. unfold p_byte_array_data, the_arr in *.
      rewrite Ay by (intros ->; apply Nm; eapply nth_error_In; exact Hj). exact Hd.
Qed.

(** * Sources *)
Lemma behind_block m b off l : blocks m b = Some l -> 0 <= off <= zlen l ->
  behind m (b, off) = Ok (skipn (Z.to_nat off) l).
Proof.
  intros H Ho. unfold behind, the_block. cbn [fst snd]. rewrite H. cbn [bind].
  replace ((0 <=? off) && (off <=? zlen l)) with true by lia. reflexivity.
Qed.

(** The pointer of a source, and what is behind it. *)
Lemma source_ok m0 w st src l : inv m0 w st -> source_all w src = Some l ->
  exists p extra, pointer st src = Ok p /\ behind (memory st) p = Ok (l ++ extra) /\
    match src with
    | Buf _ _ => extra = [] /\ In (fst p) (buffers st)
    | Own j off => (exists r, extra = 0 :: r) /\ snd p = off /\
        exists x s b v rest, nth_error (made st) j = Some x /\ slot w j = Some s /\ fst p = b /\
          lives m0 (memory st) s x b v rest /\ off + zlen l = zlen (content s) /\ 0 <= off
    end.
Proof.
  intros I H. destruct src as [k off|k off]; cbn [source_all] in H.
  - destruct (nth_error (bufs w) k) as [q|] eqn:Eq; [|discriminate H].
    destruct ((0 <=? off) && (off <=? zlen q)) eqn:E; [|discriminate H]. injection H as <-.
    assert (Hk : (k < length (buffers st))%nat) by (rewrite (i_bufs _ _ _ I); apply nth_error_Some; congruence).
    destruct (nth_error (buffers st) k) as [b|] eqn:Eb; [|apply nth_error_None in Eb; lia].
    exists (b, off), []. unfold pointer, the. rewrite Eb. split; [reflexivity|].
    rewrite app_nil_r. split; [|split; [reflexivity|eapply nth_error_In; exact Eb]].
    apply behind_block; [|lia]. eapply (i_buf _ _ _ I); eassumption.
  - destruct (slot w k) as [s|] eqn:Es; [|discriminate H].
    destruct ((0 <=? off) && (off <=? zlen (content s))) eqn:E; [|discriminate H]. injection H as <-.
    destruct (made_at _ _ _ _ _ I Es) as (x & Hx).
    destruct (i_live _ _ _ I k x s Hx Es) as (b & v & rest & L & Nb).
    exists (b, off), (0 :: rest). unfold pointer, the. rewrite Hx. cbn [bind].
    rewrite (data_at _ _ _ _ (l_view _ _ _ _ _ _ _ L)). cbn [bind fst snd]. split; [reflexivity|].
    pose proof (l_rep _ _ _ _ _ _ _ L) as (Rd & _).
    pose proof (zlen_nonneg rest). split.
    + rewrite <- skipn_app_le by (unfold zlen in *; lia). apply behind_block; [|].
      * rewrite <- Rd. apply (l_view _ _ _ _ _ _ _ L).
      * rewrite zlen_app, zlen_cons. lia.
    + split; [eauto|]. split; [reflexivity|]. exists x, s, b, v, rest.
      split; [reflexivity|]. split; [reflexivity|]. split; [reflexivity|]. split; [exact L|]. split; [|lia].
      unfold zlen in *. rewrite skipn_length. lia.
Qed.

Lemma before_nul_no_nul l : no_nul (before_nul l).
Proof.
  induction l as [|c l IH]; cbn [before_nul]; [constructor|]. destruct (Z.eqb_spec c 0); [constructor|].
  constructor; assumption.
Qed.
Lemma before_nul_split l : exists r, l = before_nul l ++ r /\ match r with [] => True | c :: _ => c = 0 end.
Proof.
  induction l as [|c l (r & E & Hr)]; [exists []; auto|]. cbn [before_nul].
  destruct (Z.eqb_spec c 0) as [->|]; [exists (0 :: l); auto|]. exists r. cbn [app]. split; [congruence|exact Hr].
Qed.
Lemma before_nul_exists l : existsb (Z.eqb 0) l = true -> exists r, l = before_nul l ++ 0 :: r.
Proof.
  intros H. destruct (before_nul_split l) as (r & E & Hr). destruct r as [|c r]; [|subst c; eauto].
  exfalso. rewrite app_nil_r in E. pose proof (before_nul_no_nul l) as N. rewrite <- E in N.
  apply existsb_exists in H as (c & Hc & E0). apply Z.eqb_eq in E0. subst c.
  unfold no_nul in N. rewrite Forall_forall in N. exact (N _ Hc eq_refl).
Qed.

(** A string source: what strlen finds. *)
Lemma string_ok m0 w st src d : inv m0 w st -> source_string w src = Some d ->
  exists l, source_all w src = Some l /\ zlen d <= zlen l /\ firstn (Z.to_nat (zlen d)) l = d /\
    forall p extra, pointer st src = Ok p -> behind (memory st) p = Ok (l ++ extra) ->
      match src with Buf _ _ => True | Own _ _ => exists r, extra = 0 :: r end ->
      strlen_at (memory st) p = Ok (zlen d).
Proof.
  intros I H. unfold source_string in H. destruct (source_all w src) as [l|] eqn:El; [|discriminate H].
  exists l. split; [reflexivity|]. destruct (before_nul_split l) as (r & E & Hr).
  assert (Hd : d = before_nul l).
  { destruct src; [destruct (existsb (Z.eqb 0) l); congruence|congruence]. }
  split; [subst d; apply (f_equal (@zlen Z)) in E; rewrite zlen_app in E; pose proof (zlen_nonneg r); lia|].
  split; [subst d; rewrite E at 2; apply firstn_zlen|].
  intros p extra Hp Hb Hx. unfold strlen_at. rewrite Hb. cbn [bind]. subst d.
  destruct src as [k off|k off].
  - destruct (existsb (Z.eqb 0) l) eqn:Ee; [|discriminate H].
    destruct (before_nul_exists l Ee) as (r' & E'). rewrite E' at 1. rewrite <- app_assoc. cbn [app].
    apply strlen_ok. apply before_nul_no_nul.
  - destruct Hx as (q & ->). rewrite E at 1. rewrite <- app_assoc. destruct r as [|c r]; cbn [app].
    + apply strlen_ok. apply before_nul_no_nul.
    + subst c. apply strlen_ok. apply before_nul_no_nul.
Qed.

(** * Every command *)
Definition stepped (m0 : mem) (w : world) (st : state) (e : res (state * Z)) (w' : world) (r : Z) : Prop :=
  exists st', e = Ok (st', r) /\ inv m0 w' st' /\ evolves w st w' st'.

(** The source is out of the way of the array at [k]. *)
Lemma source_apart m0 w st k x s b v rest src l p extra :
  inv m0 w st -> nth_error (made st) k = Some x -> slot w k = Some s ->
  lives m0 (memory st) s x b v rest -> ~ In b (buffers st) ->
  source_all w src = Some l -> pointer st src = Ok p -> behind (memory st) p = Ok (l ++ extra) ->
  fst p <> b \/ (exists off, src = Own k off /\ snd p = off /\ off + zlen l = zlen (content s) /\ 0 <= off).
Proof.
  intros I Hk Hs L NB Hl Hp Hb. destruct (source_ok _ _ _ _ _ I Hl) as (p' & extra' & Hp' & Hb' & C).
  assert (p' = p) by congruence. subst p'. destruct src as [j off|j off].
  - destruct C as [_ C]. left. intros E. rewrite E in C. contradiction.
  - destruct C as (_ & So & y & q & c & u & r & Hj & Hq & Ec & Lc & Hlen & Hoff).
    destruct (Nat.eq_dec j k) as [->|Hjk].
    + right. exists off. assert (q = s) by congruence. subst q. auto.
    + left. intros E. apply Hjk. assert (y = x); [|subst y; eapply NoDup_nth; [apply (i_nodup _ _ _ I)| |]; eassumption].
      eapply (i_inj _ _ _ I); [apply (l_view _ _ _ _ _ _ _ Lc)|apply (l_view _ _ _ _ _ _ _ L)| | |].
      * eapply nth_error_In; exact Hj.
      * eapply nth_error_In; exact Hk.
      * cbn [p_data]. congruence.
Qed.

Lemma content_small m0 m s x b v rest : lives m0 m s x b v rest ->
  0 <= zlen (content s) < limit s /\ limit s < 2 ^ 64 /\ 0 <= reached s < limit s.
Proof.
  intros L. pose proof (l_rep _ _ _ _ _ _ _ L) as (_ & _ & _ & _ & ? & _). pose proof (l_reached _ _ _ _ _ _ _ L).
  pose proof (zlen_nonneg (content s)). lia.
Qed.

Lemma append_step m0 w st k x s b v rest src l p extra junk len :
  inv m0 w st -> nth_error (made st) k = Some x -> slot w k = Some s ->
  lives m0 (memory st) s x b v rest -> ~ In b (buffers st) ->
  source_all w src = Some l -> pointer st src = Ok p -> behind (memory st) p = Ok (l ++ extra) ->
  0 <= len <= zlen l -> len < 2 ^ 64 ->
  (forall off, src = Own k off -> ~ (room s <= zlen (content s) + len < limit s)) ->
  let d := firstn (Z.to_nat len) l in
  stepped m0 w st ('(ok, m) <- p_byte_array_append junk (memory st) x p len ;; Ok (keep st m, b2z ok))
    (set_slot w k (Some (fst (do_append s d)))) (snd (do_append s d)).
Proof.
  intros I Hk Hs L NB Hl Hp Hb Hlen H64 Nm d.
  pose proof (source_apart _ _ _ _ _ _ _ _ _ _ _ _ _ I Hk Hs L NB Hl Hp Hb) as Ap.
  pose proof (content_small _ _ _ _ _ _ _ L) as (C1 & C2 & C3).
  pose proof (l_size _ _ _ _ _ _ _ L) as LS.
  assert (Hd : zlen d = len) by (apply firstn_zlen_self; lia).
  assert (Hf : firstn (Z.to_nat len) (l ++ extra) = d).
  { rewrite firstn_app_le by (unfold zlen in *; lia). reflexivity. }
  pose proof (zlen_nonneg extra).
  pose proof (p_append_ok junk (memory st) x b v (limit s) (content s) 0 rest p (l ++ extra) len
    (i_fresh _ _ _ I) (l_view _ _ _ _ _ _ _ L) ltac:(apply L) (l_rep _ _ _ _ _ _ _ L) Hb
    ltac:(rewrite zlen_app; lia) ltac:(lia)) as A.
  rewrite Hf in A. unfold do_append. rewrite Hd.
  assert (A' : if zlen (content s) + len <? limit s
    then exists m', p_byte_array_append junk (memory st) x p len = Ok (true, m') /\
      went (memory st) x b v (limit s) 0 (zlen (content s) + len) (content s ++ d) m'
    else p_byte_array_append junk (memory st) x p len = Ok (false, set_errno (memory st) ENOSPC)).
  { apply A.
    - destruct Ap as [Ap|(off & E & _)]; [left; exact Ap|]. right. rewrite LS. specialize (Nm off E). lia.
    - intros E. destruct Ap as [Ap|(off & _ & Eo & El & _)]; [contradiction|]. lia. }
  destruct (zlen (content s) + len <? limit s) eqn:E.
  - destruct A' as (m' & E1 & W). rewrite E1. cbn [bind fst snd b2z]. eexists. split; [reflexivity|].
    eapply step_went; try eassumption; [lia|]. rewrite zlen_app. lia.
  - rewrite A'. cbn [bind fst snd b2z]. rewrite (set_slot_id _ _ _ Hs). eexists. split; [reflexivity|].
    apply step_errno. exact I.
Qed.

Lemma zlen_splice (l : list Z) pos d : 0 <= pos <= zlen l ->
  zlen (firstn (Z.to_nat pos) l ++ d ++ skipn (Z.to_nat (pos + zlen d)) l) = Z.max (zlen l) (pos + zlen d).
Proof.
  intros H. pose proof (zlen_nonneg d). unfold zlen in *. rewrite !app_length, firstn_length, skipn_length. lia.
Qed.

Lemma copy_step m0 w st k x s b v rest src l p extra junk pos len :
  inv m0 w st -> nth_error (made st) k = Some x -> slot w k = Some s ->
  lives m0 (memory st) s x b v rest -> ~ In b (buffers st) ->
  source_all w src = Some l -> pointer st src = Ok p -> behind (memory st) p = Ok (l ++ extra) ->
  0 <= len <= zlen l -> len < 2 ^ 64 -> 0 <= pos < 2 ^ 64 ->
  (forall off, src = Own k off -> pos <= zlen (content s) -> ~ (room s <= pos + len < limit s)) ->
  let d := firstn (Z.to_nat len) l in
  stepped m0 w st ('(ok, m) <- p_byte_array_copy junk (memory st) x pos p len ;; Ok (keep st m, b2z ok))
    (set_slot w k (Some (fst (do_copy s pos d)))) (snd (do_copy s pos d)).
Proof.
  intros I Hk Hs L NB Hl Hp Hb Hlen H64 Hpos Nm d.
  pose proof (source_apart _ _ _ _ _ _ _ _ _ _ _ _ _ I Hk Hs L NB Hl Hp Hb) as Ap.
  pose proof (content_small _ _ _ _ _ _ _ L) as (C1 & C2 & C3).
  pose proof (l_size _ _ _ _ _ _ _ L) as LS.
  assert (Hd : zlen d = len) by (apply firstn_zlen_self; lia).
  assert (Hf : firstn (Z.to_nat len) (l ++ extra) = d).
  { rewrite firstn_app_le by (unfold zlen in *; lia). reflexivity. }
  pose proof (zlen_nonneg extra).
  pose proof (p_copy_ok junk (memory st) x b v (limit s) (content s) 0 rest pos p (l ++ extra) len
    (i_fresh _ _ _ I) (l_view _ _ _ _ _ _ _ L) ltac:(apply L) (l_rep _ _ _ _ _ _ _ L) Hb
    ltac:(rewrite zlen_app; lia) ltac:(lia) Hpos) as A.
  rewrite Hf in A. unfold do_copy. rewrite Hd.
  assert (S : pos <= zlen (content s) -> source_safe (memory st) b v (limit s) p (pos + len)).
  { intros Hle. destruct Ap as [Ap|(off & E & _)]; [left; exact Ap|]. right. rewrite LS. specialize (Nm off E Hle). lia. }
  specialize (A S).
  destruct ((pos <=? zlen (content s)) && (pos + len <? limit s)) eqn:E.
  - destruct A as (m' & E1 & W). rewrite E1. cbn [bind fst snd b2z]. eexists. split; [reflexivity|].
    eapply step_went; try eassumption; [lia|]. rewrite <- Hd at 1. rewrite zlen_splice by lia.
    pose proof (l_reached _ _ _ _ _ _ _ L). lia.
  - destruct A as (m' & E1 & Hm). rewrite E1. cbn [bind fst snd b2z]. rewrite (set_slot_id _ _ _ Hs).
    eexists. split; [reflexivity|]. destruct Hm as [->| ->]; [apply step_same|apply step_errno]; exact I.
Qed.

Lemma source_len64 m0 w st src l p : inv m0 w st -> Forall (fun b => zlen b < 2 ^ 64) (bufs w) ->
  source_all w src = Some l -> pointer st src = Ok p -> zlen l < 2 ^ 64.
Proof.
  intros I Fb H Hp. destruct src as [k off|k off]; cbn [source_all] in H.
  - destruct (nth_error (bufs w) k) as [q|] eqn:Eq; [|discriminate H].
    destruct ((0 <=? off) && (off <=? zlen q)) eqn:E; [|discriminate H]. injection H as <-.
    rewrite Forall_forall in Fb. specialize (Fb q (nth_error_In _ _ Eq)). cbn in Fb.
    unfold zlen in *. rewrite skipn_length. lia.
  - destruct (slot w k) as [s|] eqn:Es; [|discriminate H].
    destruct ((0 <=? off) && (off <=? zlen (content s))) eqn:E; [|discriminate H]. injection H as <-.
    destruct (made_at _ _ _ _ _ I Es) as (x & Hx).
    destruct (i_live _ _ _ I k x s Hx Es) as (b & v & rest & L & Nb).
    pose proof (content_small _ _ _ _ _ _ _ L) as (C1 & C2 & C3).
    unfold zlen in *. rewrite skipn_length. lia.
Qed.

Definition bufs_ok (w : world) : Prop := Forall (fun b => zlen b < 2 ^ 64) (bufs w).
Lemma wstep_bufs w c w' r : bufs_ok w -> args_ok w c -> wstep w c = Some (w', r) -> bufs_ok w'.
Proof.
  intros B A H. unfold bufs_ok in *.
  destruct c; cbn [wstep args_ok] in *; unfold on in *;
    repeat match goal with
    | H : context [match ?e with _ => _ end] |- _ =>
        lazymatch e with
        | context [match _ with _ => _ end] => fail
        | _ => destruct e; try discriminate H
        end
    end; injection H as <- <-; cbn [bufs set_slot]; try exact B.
  apply Forall_app. auto.
Qed.

Lemma step_ok m0 w st c w' r junk : inv m0 w st -> bufs_ok w -> wstep w c = Some (w', r) -> args_ok w c ->
  no_moving_source w c -> stepped m0 w st (exec junk st c) w' r.
Proof.
  intros I Bok H Ha Hm.
  assert (At : forall k s, slot w k = Some s -> exists x b v rest, nth_error (made st) k = Some x /\
     lives m0 (memory st) s x b v rest /\ ~ In b (buffers st)).
  { intros k s Hs. destruct (made_at _ _ _ _ _ I Hs) as (x & Hx).
    destruct (i_live _ _ _ I k x s Hx Hs) as (b & v & rest & L & Nb). exists x, b, v, rest. auto. }
  assert (Nm : forall k src s n, source_of c = Some (k, src) -> slot w k = Some s -> holds_after w c s = Some n ->
    forall off, src = Own k off -> ~ (room s <= n < limit s)).
  { intros k src s n Hso Hs Hh off -> Hr. apply (Hm k); [exists off; exact Hso|]. exists s, n. auto. }
  destruct c as [l|n|k|k|k src len|k src|k pos src len|k pos src|k cb len|k|k n c];
    cbn [wstep args_ok exec] in *; unfold on in *.
  - injection H as <- <-. destruct (step_newbuf m0 w st l I) as [I' E]. eexists. split; [reflexivity|]. auto.
  - injection H as <- <-. destruct (step_make m0 w st junk n I Ha) as (m' & E & I' & Ev).
    rewrite E. cbn [bind]. eexists. split; [reflexivity|]. auto.
  - destruct (slot w k) as [s|] eqn:Hs; [|discriminate H]. injection H as <- <-.
    destruct (At k s Hs) as (x & b & v & rest & Hx & L & Nb). unfold the. rewrite Hx. cbn [bind].
    unfold p_share_byte_array. rewrite (view_arr _ _ _ _ (l_view _ _ _ _ _ _ _ L)).
    cbn [bind p_data p_cursor p_max_size p_size p_ref_count].
    pose proof (l_ref _ _ _ _ _ _ _ L). pose proof (l_owners _ _ _ _ _ _ _ L). specialize (Ha s eq_refl).
    replace (u32 (ref_count v + 1)) with (owners s + 1) by (unfold u32; rewrite Z.mod_small; lia).
    eexists. split; [reflexivity|]. eapply step_refs; try eassumption. lia.
  - destruct (slot w k) as [s|] eqn:Hs; [|discriminate H]. injection H as <- <-.
    destruct (At k s Hs) as (x & b & v & rest & Hx & L & Nb). unfold the. rewrite Hx. cbn [bind].
    unfold p_destroy_byte_array. rewrite (view_arr _ _ _ _ (l_view _ _ _ _ _ _ _ L)).
    cbn [bind p_data p_cursor p_max_size p_size p_ref_count].
    pose proof (l_ref _ _ _ _ _ _ _ L). pose proof (l_owners _ _ _ _ _ _ _ L).
    replace (u32 (ref_count v - 1)) with (owners s - 1) by (unfold u32; rewrite Z.mod_small; lia).
    unfold truth. destruct (owners s =? 1) eqn:Eo.
    + replace (owners s - 1 =? 0) with true by lia. cbn [negb].
      pose proof (l_view _ _ _ _ _ _ _ L) as [V1 V2].
      unfold free_block, the_block. cbn [set_arr blocks]. rewrite V2. cbn [bind].
      unfold free_arr, the_arr. cbn [set_block set_arr arrays]. rewrite put_same. cbn [bind].
      eexists. split; [reflexivity|]. apply (step_drop m0 w st k x s b v rest I Hx Hs L Nb).
    + replace (owners s - 1 =? 0) with false by lia. cbn [negb bind].
      eexists. split; [reflexivity|]. eapply step_refs; try eassumption. lia.
  - unfold source_bytes in H. destruct (source_all w src) as [l|] eqn:El; [|discriminate H].
    destruct ((0 <=? len) && (len <=? zlen l)) eqn:Elen; [|discriminate H].
    destruct (slot w k) as [s|] eqn:Hs; [|discriminate H].
    destruct (At k s Hs) as (x & b & v & rest & Hx & L & Nb).
    destruct (source_ok _ _ _ _ _ I El) as (p & extra & Hp & Hb & _).
    pose proof (source_len64 _ _ _ _ _ _ I Bok El Hp).
    unfold the. rewrite Hx. cbn [bind]. rewrite Hp. cbn [bind].
    pose proof (append_step m0 w st k x s b v rest src l p extra junk len I Hx Hs L Nb El Hp Hb
      ltac:(lia) ltac:(lia) (Nm k src s _ eq_refl Hs eq_refl)) as A. cbv zeta in A.
    destruct (do_append s (firstn (Z.to_nat len) l)) as [s' r']. injection H as <- <-. exact A.
  - destruct (source_string w src) as [d|] eqn:Ed; [|discriminate H].
    destruct (string_ok _ _ _ _ _ I Ed) as (l & El & Hdl & Hdf & Hstr).
    destruct (slot w k) as [s|] eqn:Hs; [|discriminate H].
    destruct (At k s Hs) as (x & b & v & rest & Hx & L & Nb).
    destruct (source_ok _ _ _ _ _ I El) as (p & extra & Hp & Hb & Hc).
    pose proof (source_len64 _ _ _ _ _ _ I Bok El Hp). pose proof (zlen_nonneg d).
    unfold the. rewrite Hx. cbn [bind]. rewrite Hp. cbn [bind]. unfold p_byte_array_append_string.
    rewrite (Hstr p extra Hp Hb) by (destruct src; [constructor|apply Hc]). cbn [bind].
    assert (Hh : holds_after w (AppendString k src) s = Some (zlen (content s) + zlen d)) by (cbn; rewrite Ed; reflexivity).
    pose proof (append_step m0 w st k x s b v rest src l p extra junk (zlen d) I Hx Hs L Nb El Hp Hb
      ltac:(lia) ltac:(lia) (Nm k src s _ eq_refl Hs Hh)) as A. cbv zeta in A. rewrite Hdf in A.
    destruct (do_append s d) as [s' r']. injection H as <- <-. exact A.
  - unfold source_bytes in H. destruct (source_all w src) as [l|] eqn:El; [|discriminate H].
    destruct ((0 <=? len) && (len <=? zlen l)) eqn:Elen; [|discriminate H].
    destruct (slot w k) as [s|] eqn:Hs; [|discriminate H].
    destruct (At k s Hs) as (x & b & v & rest & Hx & L & Nb).
    destruct (source_ok _ _ _ _ _ I El) as (p & extra & Hp & Hb & _).
    pose proof (source_len64 _ _ _ _ _ _ I Bok El Hp).
    unfold the. rewrite Hx. cbn [bind]. rewrite Hp. cbn [bind].
    assert (N' : forall off, src = Own k off -> pos <= zlen (content s) -> ~ (room s <= pos + len < limit s)).
    { intros off E Hle. apply (Nm k src s _ eq_refl Hs) with (off := off); [|exact E]. cbn.
      replace (pos <=? zlen (content s)) with true by lia. reflexivity. }
    pose proof (copy_step m0 w st k x s b v rest src l p extra junk pos len I Hx Hs L Nb El Hp Hb
      ltac:(lia) ltac:(lia) Ha N') as A. cbv zeta in A.
    destruct (do_copy s pos (firstn (Z.to_nat len) l)) as [s' r']. injection H as <- <-. exact A.
  - destruct (source_string w src) as [d|] eqn:Ed; [|discriminate H].
    destruct (string_ok _ _ _ _ _ I Ed) as (l & El & Hdl & Hdf & Hstr).
    destruct (slot w k) as [s|] eqn:Hs; [|discriminate H].
    destruct (At k s Hs) as (x & b & v & rest & Hx & L & Nb).
    destruct (source_ok _ _ _ _ _ I El) as (p & extra & Hp & Hb & Hc).
    pose proof (source_len64 _ _ _ _ _ _ I Bok El Hp). pose proof (zlen_nonneg d).
    unfold the. rewrite Hx. cbn [bind]. rewrite Hp. cbn [bind]. unfold p_byte_array_copy_string.
    rewrite (Hstr p extra Hp Hb) by (destruct src; [constructor|apply Hc]). cbn [bind].
    assert (N' : forall off, src = Own k off -> pos <= zlen (content s) -> ~ (room s <= pos + zlen d < limit s)).
    { intros off E Hle. apply (Nm k src s _ eq_refl Hs) with (off := off); [|exact E]. cbn.
      replace (pos <=? zlen (content s)) with true by lia. rewrite Ed. reflexivity. }
    pose proof (copy_step m0 w st k x s b v rest src l p extra junk pos (zlen d) I Hx Hs L Nb El Hp Hb
      ltac:(lia) ltac:(lia) Ha N') as A. cbv zeta in A. rewrite Hdf in A.
    destruct (do_copy s pos d) as [s' r']. injection H as <- <-. exact A.
  - destruct (slot w k) as [s|] eqn:Hs; [|discriminate H].
    destruct (At k s Hs) as (x & b & v & rest & Hx & L & Nb). unfold the. rewrite Hx. cbn [bind].
    destruct Ha as (Hlen & Hcb & Hcl). pose proof (content_small _ _ _ _ _ _ _ L) as (C1 & C2 & C3).
    pose proof (p_stream_ok junk (memory st) x b v (limit s) (content s) 0 rest len cb (i_fresh _ _ _ I)
      (l_view _ _ _ _ _ _ _ L) ltac:(apply L) (l_rep _ _ _ _ _ _ _ L) Hlen Hcb Hcl) as A.
    unfold do_stream in H. cbv zeta in H.
    destruct ((0 <? len) && (ask (limit s) (content s) len =? 0)).
    + rewrite A. cbn [bind]. injection H as <- <-. rewrite (set_slot_id _ _ _ Hs).
      eexists. split; [reflexivity|]. apply step_errno. exact I.
    + assert (Hn : 0 <= ask (limit s) (content s) len /\ zlen (content s) + ask (limit s) (content s) len < limit s)
        by (unfold ask; lia).
      pose proof (Hcb (ask (limit s) (content s) len) ltac:(lia)) as Hw.
      destruct (cb (ask (limit s) (content s) len)) as [[wb count] e]. destruct Hw as [W1 W2].
      destruct A as (m' & E1 & W). rewrite E1. cbn [bind]. injection H as <- <-. eexists. split; [reflexivity|].
      eapply step_went; try eassumption; [lia|]. pose proof (l_reached _ _ _ _ _ _ _ L).
      destruct (count >? 0) eqn:Ec; [|lia]. rewrite zlen_app, firstn_zlen_self by lia. lia.
  - destruct (slot w k) as [s|] eqn:Hs; [|discriminate H].
    destruct (At k s Hs) as (x & b & v & rest & Hx & L & Nb). unfold the. rewrite Hx. cbn [bind].
    pose proof (content_small _ _ _ _ _ _ _ L) as (C1 & C2 & C3).
    destruct (p_clear_ok (memory st) x b v (limit s) (content s) 0 rest (l_view _ _ _ _ _ _ _ L) (l_rep _ _ _ _ _ _ _ L))
      as (m' & E1 & W).
    rewrite E1. cbn [bind]. injection H as <- <-. eexists. split; [reflexivity|].
    eapply step_went; try eassumption; [lia|]. change (zlen (@nil Z)) with 0. lia.
  - destruct (slot w k) as [s|] eqn:Hs; [|discriminate H].
    destruct (At k s Hs) as (x & b & v & rest & Hx & L & Nb). unfold the. rewrite Hx. cbn [bind].
    pose proof (content_small _ _ _ _ _ _ _ L) as (C1 & C2 & C3).
    pose proof (p_resize_ok junk (memory st) x b v (limit s) (content s) 0 rest n c (i_fresh _ _ _ I)
      (l_view _ _ _ _ _ _ _ L) ltac:(apply L) (l_rep _ _ _ _ _ _ _ L) Ha) as A.
    unfold do_resize in H. destruct (n <? limit s) eqn:E.
    + destruct A as (m' & E1 & W). rewrite E1. cbn [bind b2z]. injection H as <- <-. eexists. split; [reflexivity|].
      eapply step_went; try eassumption; [lia|].
      unfold zlen in *. rewrite app_length, firstn_length, repeat_length. lia.
    + rewrite A. cbn [bind b2z]. injection H as <- <-. rewrite (set_slot_id _ _ _ Hs).
      eexists. split; [reflexivity|]. apply step_errno. exact I.
Qed.
