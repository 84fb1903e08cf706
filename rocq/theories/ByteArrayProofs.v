(** Proofs about src/bytearray.c. *)
From Verif Require Import Base CMem ByteArrayModel ByteArraySpec.
From Coq Require Import ZifyBool ZifyNat.
Ltac Zify.zify_post_hook ::= Z.div_mod_to_equations.

(** The array holds [l], followed by the byte [t] and the rest of the block. *)
Definition rep (m : Z) (a : byte_array) (l : list Z) (t : Z) (rest : list Z) : Prop :=
  data a = l ++ t :: rest /\ cursor a = zlen l /\ max_size a = m /\ size a = zlen (data a) /\
  zlen l < m < 2 ^ 64 /\ size a < 2 ^ 64.

Lemma round_loop_ok target : target < 2 ^ 64 -> forall fuel k,
  0 <= k <= 63 -> (Z.to_nat (64 - k) < fuel)%nat ->
  exists n, round_loop fuel target (2 ^ k) = Ok n /\ target <= n < 2 ^ 64 /\ 2 ^ k <= n.
Proof.
  intros Ht. induction fuel as [|fuel IH]; intros k Hk Hf; [lia|]. cbn [round_loop].
  assert (P : 0 < 2 ^ k < 2 ^ 64) by (split; [apply Z.pow_pos_nonneg; lia|apply Z.pow_lt_mono_r; lia]).
  destruct (2 ^ k <? target) eqn:E; [|exists (2 ^ k); split; [reflexivity|lia]].
  destruct (2 ^ k >? SIZE_MAX / 2) eqn:E2.
  - exists SIZE_MAX. split; [reflexivity|]. unfold SIZE_MAX. lia.
  - assert (Hk' : k < 63).
    { destruct (Z.eq_dec k 63) as [->|]; [|lia]. exfalso. unfold SIZE_MAX in E2. lia. }
    rewrite Z.shiftl_mul_pow2 by lia.
    assert (P2 : 2 ^ (k + 1) = 2 ^ k * 2 ^ 1) by (apply Z.pow_add_r; lia).
    assert (Q : 2 ^ (k + 1) < 2 ^ 64) by (apply Z.pow_lt_mono_r; lia).
    rewrite <- P2. rewrite u64_small by lia.
    destruct (IH (k + 1) ltac:(lia) ltac:(lia)) as (n & H1 & H2 & H3).
    exists n. split; [exact H1|]. lia.
Qed.

Definition same_but_errno (a a' : byte_array) : Prop :=
  data a' = data a /\ cursor a' = cursor a /\ max_size a' = max_size a /\ size a' = size a /\
  ref_count a' = ref_count a.

Lemma rep_same m a a' l t rest : same_but_errno a a' -> rep m a l t rest -> rep m a' l t rest.
Proof. unfold rep. intros (-> & -> & -> & -> & _). auto. Qed.

Lemma rep_len m a l t rest : rep m a l t rest -> zlen (data a) = zlen l + 1 + zlen rest.
Proof. intros (-> & _). rewrite zlen_app, zlen_cons. lia. Qed.

Lemma ensure_space_fail junk m a l t rest len :
  rep m a l t rest -> 0 <= len < 2 ^ 64 -> m <= zlen l + len ->
  exists a', ensure_space junk a len = Ok (a', false) /\ same_but_errno a a' /\ errno a' = ENOSPC.
Proof.
  intros (Hd & Hc & Hm & Hs & Hlm & Hsz) Hlen H. unfold ensure_space.
  pose proof (zlen_nonneg l). rewrite Hm, Hc, (u64_small (m - zlen l)) by lia.
  replace (len >=? m - zlen l) with true by lia.
  eexists. split; [reflexivity|]. unfold same_but_errno. cbn. rewrite Hc, Hm. auto 10.
Qed.

Lemma ensure_space_ok junk m a l t rest len :
  rep m a l t rest -> 0 <= len < 2 ^ 64 -> zlen l + len < m ->
  exists a' rest', ensure_space junk a len = Ok (a', true) /\ rep m a' l t rest' /\
    len <= zlen rest' /\ ref_count a' = ref_count a /\ errno a' = errno a.
Proof.
  intros R Hlen H. pose proof (rep_len _ _ _ _ _ R) as RL. pose proof R as (Hd & Hc & Hm & Hs & Hlm & Hsz).
  unfold ensure_space.
  pose proof (zlen_nonneg l). pose proof (zlen_nonneg rest).
  rewrite Hm, Hc, (u64_small (m - zlen l)) by lia.
  replace (len >=? m - zlen l) with false by lia.
  rewrite (u64_small (size a - zlen l)) by lia.
  destruct (len >=? size a - zlen l) eqn:E.
  - destruct (round_loop_ok (u64 (zlen l + len + 1)) ltac:(unfold u64; lia) 66 0 ltac:(lia) ltac:(lia))
      as (n & N1 & N2 & N3). change (2 ^ 0) with 1 in N1. rewrite N1. cbn [bind].
    rewrite u64_small in N2 by lia.
    exists (BA (realloc junk (data a) n) (zlen l) m n (ref_count a) (errno a)),
      (rest ++ fresh_block junk (n - zlen (data a))).
    split; [reflexivity|]. rewrite (realloc_grow junk (data a) n) by lia.
    unfold rep. cbn [data cursor max_size size ref_count errno].
    assert (F : zlen (fresh_block junk (n - zlen (data a))) = n - zlen (data a)) by (apply fresh_block_zlen; lia).
    split; [|split; [rewrite zlen_app; lia|auto]].
    split; [rewrite Hd at 1; rewrite <- app_assoc; reflexivity|].
    split; [reflexivity|]. split; [reflexivity|]. rewrite zlen_app, F. lia.
  - exists a, rest. split; [reflexivity|]. split; [exact R|]. split; [lia|auto].
Qed.

(** Writing [d] at the end: the content becomes [l ++ d]. *)
Lemma blit_end l t rest d : zlen d <= zlen rest ->
  exists rest', blit (l ++ t :: rest) (zlen l) d = Ok (l ++ d ++ rest') /\
    zlen rest' = zlen rest + 1 - zlen d /\ (d = [] -> rest' = t :: rest).
Proof.
  intros H. pose proof (zlen_nonneg d).
  assert (E : t :: rest = firstn (Z.to_nat (zlen d)) (t :: rest) ++ skipn (Z.to_nat (zlen d)) (t :: rest))
    by (symmetry; apply firstn_skipn).
  exists (skipn (Z.to_nat (zlen d)) (t :: rest)). split; [|split].
  - rewrite E at 1. apply blit_app; [reflexivity|].
    unfold zlen in *. rewrite firstn_length. cbn [length]. lia.
  - unfold zlen in *. rewrite skipn_length. cbn [length]. lia.
  - intros ->. reflexivity.
Qed.

Lemma wr_end (l : list Z) x rest v : wr (l ++ x :: rest) (zlen l) v = Ok (l ++ v :: rest).
Proof. apply wr_app. reflexivity. Qed.

(** The result of one operation: [l'] and [ok] as specified; the terminator is
    kept when [keep]. *)
Definition step_result (m : Z) (a : byte_array) (t : Z) (keep : Prop) (r : res (byte_array * bool))
  (l' : list Z) (ok : bool) : Prop :=
  exists a' t' rest', r = Ok (a', ok) /\ rep m a' l' t' rest' /\ (t = 0 -> keep -> t' = 0) /\
    ref_count a' = ref_count a.

Lemma append_ok junk m a l t rest d : rep m a l t rest -> zlen d < 2 ^ 64 ->
  step_result m a t True (byte_array_append junk a d (zlen d))
    (if zlen l + zlen d <? m then l ++ d else l) (zlen l + zlen d <? m).
Proof.
  intros R Hd. pose proof (zlen_nonneg d). pose proof (zlen_nonneg l). unfold byte_array_append.
  destruct (zlen l + zlen d <? m) eqn:E.
  - destruct (ensure_space_ok junk m a l t rest (zlen d) R ltac:(lia) ltac:(lia))
      as (a1 & rest1 & E1 & R1 & L1 & C1 & _).
    rewrite E1. cbn [bind negb]. replace (zlen d >? zlen d) with false by lia.
    replace (firstn (Z.to_nat (zlen d)) d) with d by (rewrite zlen_to_nat, firstn_all; reflexivity).
    pose proof R1 as (Dd & Dc & Dm & Ds & Dlm & Dsz). rewrite Dd, Dc.
    destruct (blit_end l t rest1 d L1) as (rest2 & B1 & B2 & _). rewrite B1. cbn [bind].
    pose proof (rep_len _ _ _ _ _ R1) as RL.
    rewrite u64_small by lia. unfold set_cursor.
    destruct rest2 as [|x rest2]; [change (zlen (@nil Z)) with 0 in B2; lia|].
    rewrite zlen_cons in B2.
    rewrite app_assoc, <- zlen_app, wr_end. cbn [bind].
    eexists _, 0, rest2. split; [reflexivity|]. unfold rep. cbn [data cursor max_size size ref_count].
    rewrite !zlen_app, zlen_cons. split; [|auto]. split; [reflexivity|]. split; [reflexivity|]. lia.
  - destruct (ensure_space_fail junk m a l t rest (zlen d) R ltac:(lia) ltac:(lia)) as (a1 & E1 & S1 & _).
    rewrite E1. cbn [bind negb]. exists a1, t, rest. split; [reflexivity|].
    split; [eapply rep_same; eassumption|]. split; [auto|]. apply S1.
Qed.

Lemma byte_array_append_src junk a s x len : len <= zlen s -> 0 <= len ->
  byte_array_append junk a (s ++ x) len = byte_array_append junk a s len.
Proof.
  intros H H0. unfold byte_array_append. destruct (ensure_space junk a len) as [[a' ok]| | |]; try reflexivity.
  cbn [bind]. destruct (negb ok); [reflexivity|]. pose proof (zlen_nonneg x). rewrite zlen_app.
  replace (len >? zlen s + zlen x) with false by lia. replace (len >? zlen s) with false by lia.
  rewrite firstn_app. replace (Z.to_nat len - length s)%nat with 0%nat by (unfold zlen in *; lia).
  rewrite firstn_O, app_nil_r. reflexivity.
Qed.

Lemma byte_array_copy_src junk a p s x len : len <= zlen s -> 0 <= len ->
  byte_array_copy junk a p (s ++ x) len = byte_array_copy junk a p s len.
Proof.
  intros H H0. unfold byte_array_copy. destruct (p >? cursor a); [reflexivity|].
  match goal with |- bind ?e _ = _ => destruct e as [[a' ok]| | |]; try reflexivity end.
  cbn [bind]. destruct (negb ok); [reflexivity|]. pose proof (zlen_nonneg x). rewrite zlen_app.
  replace (len >? zlen s + zlen x) with false by lia. replace (len >? zlen s) with false by lia.
  rewrite firstn_app. replace (Z.to_nat len - length s)%nat with 0%nat by (unfold zlen in *; lia).
  rewrite firstn_O, app_nil_r. reflexivity.
Qed.

Lemma firstn_app_le {A} (a b : list A) n : (n <= length a)%nat -> firstn n (a ++ b) = firstn n a.
Proof.
  intros H. rewrite firstn_app. replace (n - length a)%nat with 0%nat by lia.
  rewrite firstn_O. apply app_nil_r.
Qed.
Lemma skipn_app_le {A} (a b : list A) n : (n <= length a)%nat -> skipn n (a ++ b) = skipn n a ++ b.
Proof.
  intros H. rewrite skipn_app. replace (n - length a)%nat with 0%nat by lia. reflexivity.
Qed.
Lemma skipn_app_ge {A} (a b : list A) n : (length a <= n)%nat -> skipn n (a ++ b) = skipn (n - length a) b.
Proof. intros H. rewrite skipn_app, skipn_all2 by assumption. reflexivity. Qed.

Lemma copy_ok junk m a l t rest pos d : rep m a l t rest -> 0 <= pos < 2 ^ 64 -> zlen d < 2 ^ 64 ->
  step_result m a t True (byte_array_copy junk a pos d (zlen d))
    (if (pos <=? zlen l) && (pos + zlen d <? m)
     then firstn (Z.to_nat pos) l ++ d ++ skipn (Z.to_nat (pos + zlen d)) l else l)
    ((pos <=? zlen l) && (pos + zlen d <? m)).
Proof.
  intros R Hp Hd. pose proof (zlen_nonneg d). pose proof (zlen_nonneg l). unfold byte_array_copy.
  pose proof R as (Rd & Rc & Rm & Rs & Rlm & Rsz). pose proof (rep_len _ _ _ _ _ R) as RL.
  pose proof (zlen_nonneg rest) as Hrest.
  rewrite Rc. destruct (pos <=? zlen l) eqn:Ep; cbn [andb].
  2: { replace (pos >? zlen l) with true by lia. exists a, t, rest. auto. }
  replace (pos >? zlen l) with false by lia. rewrite !(u64_small (zlen l - pos)) by lia.
  destruct (zlen d >? zlen l - pos) eqn:Eg.
  - rewrite (u64_small (pos + zlen d - zlen l)) by lia.
    destruct (pos + zlen d <? m) eqn:E.
    + destruct (ensure_space_ok junk m a l t rest (pos + zlen d - zlen l) R ltac:(lia) ltac:(lia))
        as (a1 & rest1 & E1 & R1 & L1 & C1 & _).
      rewrite E1. cbn [bind negb]. replace (zlen d >? zlen d) with false by lia.
      replace (firstn (Z.to_nat (zlen d)) d) with d by (rewrite zlen_to_nat, firstn_all; reflexivity).
      pose proof R1 as (Dd & Dc & Dm & Ds & Dlm & Dsz). pose proof (rep_len _ _ _ _ _ R1) as RL1.
      unfold blit. rewrite RL1.
      replace ((0 <=? pos) && (pos + zlen d <=? zlen l + 1 + zlen rest1)) with true by lia. cbn [bind].
      rewrite Dc. rewrite !(u64_small (zlen l - pos)) by lia. rewrite Eg.
      rewrite u64_small by lia. unfold set_cursor. rewrite Dd.
      rewrite firstn_app_le by (unfold zlen in *; lia).
      rewrite skipn_app_ge by (unfold zlen in *; lia).
      set (k := (Z.to_nat (pos + zlen d) - length l)%nat).
      assert (Hk : (k <= length rest1)%nat) by (unfold k, zlen in *; lia).
      destruct (skipn k (t :: rest1)) as [|x rest2] eqn:Es.
      { apply (f_equal (@length Z)) in Es. rewrite skipn_length in Es. cbn [length] in Es. lia. }
      assert (Ls : zlen (x :: rest2) = 1 + zlen rest1 - Z.of_nat k).
      { rewrite <- Es. unfold zlen. rewrite skipn_length. cbn [length]. lia. }
      rewrite zlen_cons in Ls.
      set (l' := firstn (Z.to_nat pos) l ++ d).
      assert (Hl' : zlen l' = pos + zlen d).
      { unfold l', zlen. rewrite app_length, firstn_length. unfold zlen in *. lia. }
      rewrite app_assoc. fold l'. rewrite <- Hl', wr_end. cbn [bind].
      exists (BA (l' ++ 0 :: rest2) (zlen l') (max_size a1) (size a1) (ref_count a1) (errno a1)), 0, rest2.
      split; [reflexivity|].
      assert (S0 : skipn (Z.to_nat (zlen l')) l = []) by (apply skipn_all2; unfold zlen in *; lia).
      rewrite S0, app_nil_r. fold l'. unfold rep. cbn [data cursor max_size size ref_count].
      rewrite zlen_app, zlen_cons. split; [|auto].
      split; [reflexivity|]. split; [reflexivity|]. unfold k, zlen in *; lia.
    + destruct (ensure_space_fail junk m a l t rest (pos + zlen d - zlen l) R ltac:(lia) ltac:(lia)) as (a1 & E1 & S1 & _).
      rewrite E1. cbn [bind negb]. exists a1, t, rest. split; [reflexivity|].
      split; [eapply rep_same; eassumption|]. split; [auto|]. apply S1.
  - cbn [bind negb]. replace (pos + zlen d <? m) with true by lia.
    replace (zlen d >? zlen d) with false by lia.
    replace (firstn (Z.to_nat (zlen d)) d) with d by (rewrite zlen_to_nat, firstn_all; reflexivity).
    unfold blit. rewrite RL.
    replace ((0 <=? pos) && (pos + zlen d <=? zlen l + 1 + zlen rest)) with true by lia. cbn [bind].
    rewrite Rc. rewrite !(u64_small (zlen l - pos)) by lia. rewrite Eg.
    rewrite Rd. rewrite firstn_app_le by (unfold zlen in *; lia).
    rewrite skipn_app_le by (unfold zlen in *; lia).
    eexists _, t, rest. split; [reflexivity|]. split; [|auto].
    unfold rep, set_data. cbn [data cursor max_size size ref_count].
    rewrite <- !app_assoc. split; [reflexivity|].
    assert (Hl' : zlen (firstn (Z.to_nat pos) l ++ d ++ skipn (Z.to_nat (pos + zlen d)) l) = zlen l).
    { unfold zlen in *. rewrite !app_length, firstn_length, skipn_length. lia. }
    split; [lia|]. split; [lia|].
    assert (Hl2 : zlen (firstn (Z.to_nat pos) l ++ d ++ skipn (Z.to_nat (pos + zlen d)) l ++ t :: rest) = zlen l + 1 + zlen rest).
    { unfold zlen in *. rewrite !app_length, firstn_length, skipn_length. cbn [length]. lia. }
    lia.
Qed.

Lemma resize_ok junk m a l t rest n c : rep m a l t rest -> 0 <= n < 2 ^ 64 ->
  step_result m a t True (byte_array_resize junk a n c)
    (if n <? m then firstn (Z.to_nat n) l ++ repeat c (Z.to_nat (n - zlen l)) else l) (n <? m).
Proof.
  intros R Hn. pose proof (zlen_nonneg l). unfold byte_array_resize.
  pose proof R as (Rd & Rc & Rm & Rs & Rlm & Rsz). pose proof (rep_len _ _ _ _ _ R) as RL.
  pose proof (zlen_nonneg rest) as Hrest. rewrite Rc.
  destruct (n >? zlen l) eqn:E.
  - rewrite (u64_small (n - zlen l)) by lia. destruct (n <? m) eqn:En.
    + destruct (ensure_space_ok junk m a l t rest (n - zlen l) R ltac:(lia) ltac:(lia))
        as (a1 & rest1 & E1 & R1 & L1 & C1 & _).
      rewrite E1. cbn [bind]. pose proof R1 as (Dd & Dc & Dm & Ds & Dlm & Dsz).
      pose proof (rep_len _ _ _ _ _ R1) as RL1.
      rewrite Dd, Dc, !(u64_small (n - zlen l)) by lia.
      set (d := repeat c (Z.to_nat (n - zlen l))).
      assert (Hd : zlen d = n - zlen l) by (unfold d, zlen in *; rewrite repeat_length; lia).
      destruct (blit_end l t rest1 d ltac:(lia)) as (rest2 & B1 & B2 & _). rewrite B1. cbn [bind negb].
      unfold set_cursor, set_data. cbn [data].
      destruct rest2 as [|x rest2]; [change (zlen (@nil Z)) with 0 in B2; lia|].
      rewrite zlen_cons in B2.
      rewrite app_assoc. replace n with (zlen (l ++ d)) at 1 by (rewrite zlen_app; lia).
      rewrite wr_end. cbn [bind].
      rewrite firstn_all2 by (unfold zlen in *; lia).
      eexists _, 0, rest2. split; [reflexivity|]. unfold rep. cbn [data cursor max_size size ref_count].
      rewrite !zlen_app, zlen_cons. split; [|auto]. split; [reflexivity|]. lia.
    + destruct (ensure_space_fail junk m a l t rest (n - zlen l) R ltac:(lia) ltac:(lia)) as (a1 & E1 & S1 & _).
      rewrite E1. cbn [bind negb]. exists a1, t, rest. split; [reflexivity|].
      split; [eapply rep_same; eassumption|]. split; [auto|]. apply S1.
  - cbn [bind negb]. replace (n <? m) with true by lia.
    replace (Z.to_nat (n - zlen l)) with 0%nat by lia. cbn [repeat]. rewrite app_nil_r.
    unfold set_cursor. rewrite Rd.
    rewrite <- (firstn_skipn (Z.to_nat n) l) at 1. rewrite <- app_assoc.
    set (l' := firstn (Z.to_nat n) l).
    assert (Hl' : zlen l' = n) by (unfold l', zlen in *; rewrite firstn_length; lia).
    destruct (skipn (Z.to_nat n) l ++ t :: rest) as [|x rest'] eqn:Es.
    { apply (f_equal (@length Z)) in Es. rewrite app_length in Es. cbn [length] in Es. lia. }
    assert (Ls : 1 + zlen rest' = zlen l - n + 1 + zlen rest).
    { rewrite <- (zlen_cons x), <- Es. unfold zlen in *. rewrite app_length, skipn_length. cbn [length]. lia. }
    rewrite <- Hl' at 1. rewrite wr_end. cbn [bind].
    eexists _, 0, rest'. split; [reflexivity|]. unfold rep. cbn [data cursor max_size size ref_count].
    rewrite zlen_app, zlen_cons. split; [|auto]. split; [reflexivity|]. lia.
Qed.

Lemma clear_ok m a l t rest : rep m a l t rest ->
  step_result m a t True (a' <- byte_array_clear a ;; Ok (a', true)) [] true.
Proof.
  intros R. pose proof R as (Rd & Rc & Rm & Rs & Rlm & Rsz). pose proof (rep_len _ _ _ _ _ R) as RL.
  pose proof (zlen_nonneg l). pose proof (zlen_nonneg rest).
  unfold byte_array_clear, set_cursor.
  destruct (data a) as [|x d] eqn:Ed; [destruct l; discriminate|].
  rewrite zlen_cons in *. change (wr (x :: d) 0 0) with (wr ([] ++ x :: d) (zlen (@nil Z)) 0).
  rewrite wr_end. cbn [bind app]. eexists _, 0, d. split; [reflexivity|].
  unfold rep. cbn [data cursor max_size size ref_count]. rewrite zlen_cons. change (zlen (@nil Z)) with 0.
  split; [|auto]. split; [reflexivity|]. lia.
Qed.

(** The stream. *)
Lemma stream_ok junk m a l t rest len cb : rep m a l t rest -> 0 <= len < 2 ^ 64 -> cb_ok cb ->
  if (0 <? len) && (ask m l len =? 0) then
    exists a', byte_array_append_stream junk a cb len = Ok (a', None, -1) /\
      same_but_errno a a' /\ errno a' = ENOSPC
  else
    let '(w, count, e) := cb (ask m l len) in
    exists a' t' rest', byte_array_append_stream junk a cb len = Ok (a', Some (ask m l len), count) /\
      rep m a' (if count >? 0 then l ++ firstn (Z.to_nat count) w else l) t' rest' /\
      (t = 0 -> cb_clean cb -> t' = 0) /\ ref_count a' = ref_count a /\ errno a' = e.
Proof.
  intros R Hlen Hcb. pose proof R as (Rd & Rc & Rm & Rs & Rlm & Rsz). pose proof (rep_len _ _ _ _ _ R) as RL.
  pose proof (zlen_nonneg l). unfold byte_array_append_stream. rewrite Rm, Rc.
  rewrite !(u64_small (m - zlen l)) by lia.
  destruct ((0 <? len) && (ask m l len =? 0)) eqn:E0; unfold ask in *.
  { replace ((len >=? m - zlen l) && (m - zlen l =? 1)) with true by lia.
    eexists. split; [reflexivity|]. unfold same_but_errno. cbn. auto 10. }
  replace ((len >=? m - zlen l) && (m - zlen l =? 1)) with false by lia. cbv zeta.
  replace (if len >=? m - zlen l then u64 (m - zlen l - 1) else len) with (Z.min len (m - 1 - zlen l))
    by (destruct (len >=? m - zlen l) eqn:E; [rewrite u64_small|]; lia).
  set (n := Z.min len (m - 1 - zlen l)) in *.
  pose proof (Hcb n ltac:(lia)) as C. destruct (cb n) as [[w count] e] eqn:Ecb. destruct C as [C1 C2].
  destruct (ensure_space_ok junk m a l t rest n R ltac:(lia) ltac:(lia))
    as (a1 & rest1 & E1 & R1 & L1 & Rf1 & _).
  rewrite E1. cbn [bind negb]. pose proof R1 as (Dd & Dc & Dm & Ds & Dlm & Dsz).
  pose proof (rep_len _ _ _ _ _ R1) as RL1. pose proof (zlen_nonneg w).
  rewrite Dd, Dc. destruct (blit_end l t rest1 w ltac:(lia)) as (rest2 & B1 & B2 & B3). rewrite B1. cbn [bind].
  destruct (count >? 0) eqn:Ec.
  - cbn [cursor]. rewrite u64_small by lia. unfold set_cursor.
    set (w1 := firstn (Z.to_nat count) w). set (w2 := skipn (Z.to_nat count) w).
    assert (Ew : w = w1 ++ w2) by (symmetry; apply firstn_skipn).
    assert (Hw1 : zlen w1 = count) by (unfold w1, zlen in *; rewrite firstn_length; lia).
    assert (Hw2 : zlen w2 = zlen w - count) by (unfold w2, zlen in *; rewrite skipn_length; lia).
    replace (l ++ w ++ rest2) with (l ++ (w1 ++ w2) ++ rest2) by (rewrite <- Ew; reflexivity).
    destruct (w2 ++ rest2) as [|x rest3] eqn:E3.
    { apply (f_equal (@zlen Z)) in E3. rewrite zlen_app in E3. change (zlen (@nil Z)) with 0 in E3. lia. }
    apply (f_equal (@zlen Z)) in E3 as L3. rewrite zlen_app, zlen_cons in L3.
    rewrite <- app_assoc, E3, app_assoc. replace (zlen l + count) with (zlen (l ++ w1)) by (rewrite zlen_app; lia). rewrite wr_end. cbn [bind].
    eexists _, 0, rest3. split; [reflexivity|]. unfold rep. cbn [data cursor max_size size ref_count errno].
    rewrite !zlen_app, zlen_cons. split; [|auto]. split; [reflexivity|]. lia.
  - destruct (w ++ rest2) as [|x rest3] eqn:E3.
    { apply (f_equal (@zlen Z)) in E3. rewrite zlen_app in E3. change (zlen (@nil Z)) with 0 in E3. lia. }
    apply (f_equal (@zlen Z)) in E3 as L3. rewrite zlen_app, zlen_cons in L3.
    eexists _, x, rest3. split; [reflexivity|]. unfold rep. cbn [data cursor max_size size ref_count errno].
    rewrite !zlen_app, zlen_cons. split; [split; [reflexivity|]; lia|].
    split; [|auto]. intros Ht Hcl. specialize (Hcl n). rewrite Ecb in Hcl. specialize (Hcl ltac:(lia)).
    rewrite Hcl in E3, B3. rewrite (B3 eq_refl) in E3. cbn [app] in E3. congruence.
Qed.

Lemma step_ok junk m a l t rest o : rep m a l t rest -> op_ok o ->
  step_result m a t (op_clean o) (step junk a o) (fst (spec_step m l o)) (snd (spec_step m l o)).
Proof.
  intros R Ho. unfold spec_step. destruct o as [d|s|pos d|pos s|n c| |len cb]; cbn [step op_ok intended op_clean] in *.
  - rewrite zlen_app. pose proof (append_ok junk m a l t rest d R Ho) as S.
    destruct (zlen l + zlen d <? m); exact S.
  - destruct Ho as [Hl Hn]. unfold byte_array_append_string. rewrite strlen_ok by assumption. cbn [bind].
    pose proof (zlen_nonneg s). rewrite byte_array_append_src by lia.
    rewrite zlen_app. pose proof (append_ok junk m a l t rest s R Hl) as S.
    destruct (zlen l + zlen s <? m); exact S.
  - destruct Ho as [Hp Hl]. pose proof (copy_ok junk m a l t rest pos d R Hp Hl) as S.
    pose proof R as (_ & _ & _ & _ & Rlm & _). pose proof (zlen_nonneg d).
    destruct (pos <=? zlen l) eqn:Ep; cbn [andb] in S; [|exact S].
    assert (E : zlen (firstn (Z.to_nat pos) l ++ d ++ skipn (Z.to_nat (pos + zlen d)) l)
      = Z.max (zlen l) (pos + zlen d)).
    { unfold zlen in *. rewrite !app_length, firstn_length, skipn_length. lia. }
    rewrite E. replace (Z.max (zlen l) (pos + zlen d) <? m) with (pos + zlen d <? m) by lia.
    destruct (pos + zlen d <? m); exact S.
  - destruct Ho as [Hp [Hl Hn]]. unfold byte_array_copy_string. rewrite strlen_ok by assumption. cbn [bind].
    pose proof (zlen_nonneg s). rewrite byte_array_copy_src by lia.
    pose proof (copy_ok junk m a l t rest pos s R Hp Hl) as S.
    pose proof R as (_ & _ & _ & _ & Rlm & _).
    destruct (pos <=? zlen l) eqn:Ep; cbn [andb] in S; [|exact S].
    assert (E : zlen (firstn (Z.to_nat pos) l ++ s ++ skipn (Z.to_nat (pos + zlen s)) l)
      = Z.max (zlen l) (pos + zlen s)).
    { unfold zlen in *. rewrite !app_length, firstn_length, skipn_length. lia. }
    rewrite E. replace (Z.max (zlen l) (pos + zlen s) <? m) with (pos + zlen s <? m) by lia.
    destruct (pos + zlen s <? m); exact S.
  - pose proof (resize_ok junk m a l t rest n c R Ho) as S.
    assert (E : zlen (firstn (Z.to_nat n) l ++ repeat c (Z.to_nat (n - zlen l))) = n).
    { unfold zlen in *. rewrite app_length, firstn_length, repeat_length. lia. }
    rewrite E. destruct (n <? m); exact S.
  - pose proof (clear_ok m a l t rest R) as S. change (zlen (@nil Z)) with 0.
    pose proof R as (_ & _ & _ & _ & Rlm & _). pose proof (zlen_nonneg l).
    replace (0 <? m) with true by lia. exact S.
  - destruct Ho as [Hl Hcb]. pose proof (stream_ok junk m a l t rest len cb R Hl Hcb) as S.
    destruct ((0 <? len) && (ask m l len =? 0)).
    + destruct S as (a' & -> & Sm & _). cbn [bind fst snd]. exists a', t, rest.
      split; [reflexivity|]. split; [eapply rep_same; eassumption|]. split; [auto|]. apply Sm.
    + destruct (cb (ask m l len)) as [[w count] e].
      destruct S as (a' & t' & rest' & -> & R' & K & Rf & _). cbn [bind].
      pose proof R' as (_ & _ & _ & _ & Rlm & _).
      replace (zlen (if count >? 0 then l ++ firstn (Z.to_nat count) w else l) <? m) with true by lia.
      cbn [fst snd]. exists a', t', rest'. auto.
Qed.

Lemma make_ok junk m : 1 <= m < 2 ^ 64 ->
  exists a rest, make_byte_array junk m = Ok a /\ rep m a [] 0 rest /\ ref_count a = 1.
Proof.
  intros Hm. unfold make_byte_array.
  set (sz := if 128 >? m then m else 128).
  assert (Hsz : 1 <= sz < 2 ^ 64) by (unfold sz; destruct (128 >? m) eqn:E; lia).
  assert (Hf : zlen (fresh_block junk sz) = sz) by (apply fresh_block_zlen; lia).
  destruct (fresh_block junk sz) as [|x b]; [change (zlen (@nil Z)) with 0 in Hf; lia|].
  change (wr (x :: b) 0 0) with (wr ([] ++ x :: b) (zlen (@nil Z)) 0). rewrite wr_end. cbn [bind app].
  eexists _, b. split; [reflexivity|]. split; [|reflexivity].
  unfold rep. cbn [data cursor max_size size app]. rewrite !zlen_cons in *. change (zlen (@nil Z)) with 0.
  split; [reflexivity|]. lia.
Qed.

Lemma run_ok m ops : Forall (fun jo => op_ok (snd jo)) ops -> forall a l t rest, rep m a l t rest ->
  exists a' t' rest', run a ops = Ok (a', snd (spec_run m l (map snd ops))) /\
    rep m a' (fst (spec_run m l (map snd ops))) t' rest' /\
    (t = 0 -> Forall (fun jo => op_clean (snd jo)) ops -> t' = 0) /\ ref_count a' = ref_count a.
Proof.
  induction ops as [|[junk o] ops IH]; intros Ho a l t rest R.
  - exists a, t, rest. cbn. auto.
  - inversion_clear Ho as [|? ? Ho1 Ho2]. cbn [snd] in Ho1. cbn [run map snd spec_run].
    destruct (step_ok junk m a l t rest o R Ho1) as (a1 & t1 & rest1 & E1 & R1 & K1 & C1).
    rewrite E1. cbn [bind]. destruct (spec_step m l o) as [l1 b]. cbn [fst snd] in *.
    destruct (IH Ho2 a1 l1 t1 rest1 R1) as (a2 & t2 & rest2 & E2 & R2 & K2 & C2).
    rewrite E2. cbn [bind]. destruct (spec_run m l1 (map snd ops)) as [l2 bs]. cbn [fst snd] in *.
    exists a2, t2, rest2. split; [reflexivity|]. split; [exact R2|]. split; [|congruence].
    intros Ht Hc. inversion_clear Hc as [|? ? Hc1 Hc2]. apply K2; auto.
Qed.

(** ** API-level statements *)

Lemma content_ok junk m ops : 1 <= m < 2 ^ 64 -> Forall (fun jo => op_ok (snd jo)) ops ->
  exists a, run_new junk m ops = Ok (a, snd (spec_run m [] (map snd ops))) /\
    let l := fst (spec_run m [] (map snd ops)) in
    byte_array_size a = zlen l /\ firstn (length l) (byte_array_data a) = l.
Proof.
  intros Hm Ho. destruct (make_ok junk m Hm) as (a0 & r0 & E0 & R0 & _).
  destruct (run_ok m ops Ho a0 [] 0 r0 R0) as (a & t & rest & E & R & _).
  exists a. unfold run_new. rewrite E0. cbn [bind]. split; [exact E|].
  destruct R as (Rd & Rc & _). unfold byte_array_size, byte_array_data. split; [exact Rc|].
  rewrite Rd. rewrite <- zlen_to_nat. apply firstn_zlen.
Qed.

Lemma bounds_ok junk m ops : 1 <= m < 2 ^ 64 -> Forall (fun jo => op_ok (snd jo)) ops ->
  exists a bs, run_new junk m ops = Ok (a, bs) /\
    0 <= byte_array_size a < m /\ byte_array_size a < zlen (byte_array_data a) /\
    (Forall (fun jo => op_clean (snd jo)) ops ->
     nth (Z.to_nat (byte_array_size a)) (byte_array_data a) 1 = 0).
Proof.
  intros Hm Ho. destruct (make_ok junk m Hm) as (a0 & r0 & E0 & R0 & _).
  destruct (run_ok m ops Ho a0 [] 0 r0 R0) as (a & t & rest & E & R & K & _).
  pose proof (rep_len _ _ _ _ _ R) as RL.
  exists a. eexists. unfold run_new. rewrite E0. cbn [bind]. split; [exact E|].
  destruct R as (Rd & Rc & _ & _ & Rm & _). unfold byte_array_size, byte_array_data. rewrite Rc.
  set (l := fst _) in *. pose proof (zlen_nonneg l). pose proof (zlen_nonneg rest).
  split; [lia|]. split; [lia|]. intros Hc. rewrite Rd, zlen_to_nat, app_nth2, Nat.sub_diag by lia.
  cbn [nth]. auto.
Qed.

(** A failed operation changes nothing but errno and happens for lack of room. *)
Lemma copy_out_of_range junk a pos d len : pos > cursor a -> byte_array_copy junk a pos d len = Ok (a, false).
Proof. intros H. unfold byte_array_copy. replace (pos >? cursor a) with true by lia. reflexivity. Qed.

Lemma failure_atomic junk m ops o junk' : 1 <= m < 2 ^ 64 ->
  Forall (fun jo => op_ok (snd jo)) ops -> op_ok o ->
  exists a bs, run_new junk m ops = Ok (a, bs) /\
  exists a' ok, step junk' a o = Ok (a', ok) /\
    (ok = false ->
     byte_array_size a' = byte_array_size a /\
     firstn (Z.to_nat (byte_array_size a)) (byte_array_data a') =
     firstn (Z.to_nat (byte_array_size a)) (byte_array_data a)) /\
    (ok = true <->
     exists l', intended m (firstn (Z.to_nat (byte_array_size a)) (byte_array_data a)) o = Some l' /\
                zlen l' + 1 <= m).
Proof.
  intros Hm Ho Ho1. destruct (make_ok junk m Hm) as (a0 & r0 & E0 & R0 & _).
  destruct (run_ok m ops Ho a0 [] 0 r0 R0) as (a & t & rest & E & R & K & _).
  exists a. eexists. unfold run_new. rewrite E0. cbn [bind]. split; [exact E|].
  set (l := fst _) in *.
  destruct (step_ok junk' m a l t rest o R Ho1) as (a1 & t1 & rest1 & E1 & R1 & K1 & C1).
  exists a1. eexists. split; [exact E1|].
  destruct R as (Rd & Rc & _). destruct R1 as (Rd1 & Rc1 & _).
  unfold byte_array_size, byte_array_data. rewrite Rc, Rc1, Rd, Rd1. rewrite firstn_zlen.
  unfold spec_step. destruct (intended m l o) as [l'|] eqn:Ei.
  - destruct (zlen l' <? m) eqn:El; cbn [fst snd].
    + split; [discriminate|]. split; [|reflexivity]. intros _. exists l'. split; [reflexivity|]. lia.
    + split; [intros _; rewrite firstn_zlen; auto|]. split; [discriminate|].
      intros (l'' & H1 & H2). injection H1 as <-. lia.
  - cbn [fst snd]. split; [intros _; rewrite firstn_zlen; auto|]. split; [discriminate|].
    intros (l'' & H1 & _). discriminate.
Qed.

Lemma stream_after junk m ops len cb junk' : 1 <= m < 2 ^ 64 ->
  Forall (fun jo => op_ok (snd jo)) ops -> 0 <= len < 2 ^ 64 -> cb_ok cb ->
  exists a bs, run_new junk m ops = Ok (a, bs) /\
  let room := m - 1 - byte_array_size a in
  let content x := firstn (Z.to_nat (byte_array_size x)) (byte_array_data x) in
  if (room =? 0) && (0 <? len) then
    exists a', byte_array_append_stream junk' a cb len = Ok (a', None, -1) /\
      errno a' = ENOSPC /\ content a' = content a
  else
    let n := Z.min len room in
    let '(w, count, e) := cb n in
    exists a', byte_array_append_stream junk' a cb len = Ok (a', Some n, count) /\
      errno a' = e /\
      content a' = if count >? 0 then content a ++ firstn (Z.to_nat count) w else content a.
Proof.
  intros Hm Ho Hl Hcb. destruct (make_ok junk m Hm) as (a0 & r0 & E0 & R0 & _).
  destruct (run_ok m ops Ho a0 [] 0 r0 R0) as (a & t & rest & E & R & K & _).
  exists a. eexists. unfold run_new. rewrite E0. cbn [bind]. split; [exact E|].
  set (l := fst _) in *. cbv zeta.
  pose proof (stream_ok junk' m a l t rest len cb R Hl Hcb) as S.
  destruct R as (Rd & Rc & _ & _ & Rlm & _). unfold byte_array_size, byte_array_data. rewrite Rc, Rd, firstn_zlen.
  replace ((m - 1 - zlen l =? 0) && (0 <? len)) with ((0 <? len) && (ask m l len =? 0))
    by (unfold ask; lia).
  change (Z.min len (m - 1 - zlen l)) with (ask m l len).
  destruct ((0 <? len) && (ask m l len =? 0)).
  - destruct S as (a' & -> & (Sd & Sc & _) & Se). exists a'. split; [reflexivity|]. split; [exact Se|].
    rewrite Sd, Sc, Rc, Rd, firstn_zlen. reflexivity.
  - destruct (cb (ask m l len)) as [[w count] e]. destruct S as (a' & t' & rest' & -> & R' & _ & _ & Se).
    exists a'. split; [reflexivity|]. split; [exact Se|]. destruct R' as (-> & -> & _).
    rewrite firstn_zlen. reflexivity.
Qed.

(** ** Sharing *)
Lemma ref_run_ok ops : forall a, 0 < ref_count a < 2 ^ 32 -> refs_ok (ref_count a) ops ->
  exists o, ref_run (Some a) ops = Ok o /\
    match o with
    | Some a' => 0 < refs (ref_count a) ops /\ ref_count a' = refs (ref_count a) ops /\
        data a' = data a /\ cursor a' = cursor a
    | None => refs (ref_count a) ops = 0
    end.
Proof.
  induction ops as [|[|] ops IH]; intros a Ha Hok; cbn [ref_run refs refs_ok] in *.
  - exists (Some a). split; [reflexivity|]. cbn [refs]. lia || (split; [lia|auto]).
  - destruct Hok as [H1 H2].
    destruct (IH (share_byte_array a)) as (o & E & S).
    { cbn. rewrite u32_small; lia. }
    { cbn. rewrite u32_small by lia. exact H2. }
    unfold share_byte_array in S. cbn [ref_count data cursor] in S. rewrite u32_small in S by lia. exists o. auto.
  - destruct Hok as [H1 H2]. unfold destroy_byte_array. rewrite u32_small by lia. unfold truth.
    destruct (ref_count a - 1 =? 0) eqn:E0; cbn [negb].
    + replace (ref_count a - 1) with 0 in * by lia. destruct ops as [|[|] ops].
      * exists None. cbn. auto.
      * exfalso. cbn in H2. lia.
      * exfalso. cbn in H2. lia.
    + apply (IH (BA (data a) (cursor a) (max_size a) (size a) (ref_count a - 1) (errno a))); cbn; [lia|exact H2].
Qed.

Lemma sharing_ok junk m ops : 1 <= m < 2 ^ 64 -> refs_ok 1 ops ->
  exists a o, make_byte_array junk m = Ok a /\ ref_run (Some a) ops = Ok o /\
    match o with
    | Some a' => 0 < refs 1 ops /\ byte_array_data a' = byte_array_data a /\ byte_array_size a' = byte_array_size a
    | None => refs 1 ops = 0
    end.
Proof.
  intros Hm Ho. destruct (make_ok junk m Hm) as (a & r0 & E0 & R0 & C).
  destruct (ref_run_ok ops a) as (o & E & S); [lia|rewrite C; exact Ho|].
  exists a, o. split; [exact E0|]. split; [exact E|]. rewrite C in S. destruct o as [a'|]; [|exact S].
  destruct S as (S1 & _ & S2 & S3). auto.
Qed.
