(** Proofs about several byte arrays in one memory. *)
From Verif Require Import Base CMem ByteArrayModel ByteArraySpec ByteArrayProofs ByteMemModel ByteMemSpec.
From Coq Require Import ZifyBool ZifyNat.
Ltac Zify.zify_post_hook ::= Z.div_mod_to_equations.

(** * One array: the functions on pointers against the functions on values *)

(** The array at [x] has its bytes in block [b] and looks like [v]. *)
Definition view (m : mem) (x b : Z) (v : byte_array) : Prop :=
  arrays m x = Some (Arr b (cursor v) (max_size v) (size v) (ref_count v)) /\
  blocks m b = Some (data v).

(** The array at [x] with block [b] was changed and has block [b'] now. *)
Definition inplace (m : mem) (x b : Z) (m' : mem) : Prop :=
  (forall y, y <> x -> arrays m' y = arrays m y) /\
  (forall c, c <> b -> blocks m' c = blocks m c) /\
  next m' = next m /\ moved m' = moved m.
Definition frame (m : mem) (x b : Z) (v : byte_array) (m' : mem) (b' : Z) (v' : byte_array) : Prop :=
  (forall y, y <> x -> arrays m' y = arrays m y) /\
  (forall c, c <> b -> c <> b' -> blocks m' c = blocks m c) /\
  ((b' = b /\ next m' = next m /\ moved m' = moved m /\ size v' = size v) \/
   (b' = next m /\ next m' = next m + 1 /\ blocks m' b = None /\ size v < size v' /\
    moved m' = (x, (zlen (data v), size v')) :: moved m)).

Lemma put_same {A} (f : Z -> option A) x v : put f x v x = v.
Proof. unfold put. rewrite Z.eqb_refl. reflexivity. Qed.
Lemma put_other {A} (f : Z -> option A) x v y : y <> x -> put f x v y = f y.
Proof. unfold put. intros H. destruct (Z.eqb_spec y x); [contradiction|reflexivity]. Qed.

Lemma inplace_refl m x b : inplace m x b m.
Proof. unfold inplace. auto. Qed.
Lemma inplace_trans m x b m1 m2 : inplace m x b m1 -> inplace m1 x b m2 -> inplace m x b m2.
Proof.
  intros (A1 & B1 & C1 & D1) (A2 & B2 & C2 & D2). split; [|split; [|split]].
  - intros y H. rewrite A2, A1 by assumption. reflexivity.
  - intros y H. rewrite B2, B1 by assumption. reflexivity.
  - congruence.
  - congruence.
Qed.
Lemma frame_inplace m x b v m1 b1 v1 m2 v2 : b < next m -> frame m x b v m1 b1 v1 -> inplace m1 x b1 m2 ->
  size v2 = size v1 -> frame m x b v m2 b1 v2.
Proof.
  intros Hb (A1 & B1 & C1) (A2 & B2 & C2 & D2) Hs. split; [|split].
  - intros y H. rewrite A2, A1 by assumption. reflexivity.
  - intros y H H'. rewrite B2, B1 by assumption. reflexivity.
  - destruct C1 as [(-> & N & M & S)|(-> & N & F & S & M)].
    + left. repeat split; congruence.
    + right. repeat split; try congruence. rewrite B2 by lia. exact F.
Qed.
Lemma frame_of_inplace m x b v m' v' : inplace m x b m' -> size v' = size v -> frame m x b v m' b v'.
Proof. intros (A & B & C & D) Hs. split; [exact A|]. split; [auto|]. left. auto. Qed.

Lemma view_arr m x b v : view m x b v ->
  the_arr m x = Ok (Arr b (cursor v) (max_size v) (size v) (ref_count v)).
Proof. intros [H _]. unfold the_arr. rewrite H. reflexivity. Qed.

Lemma view_errno m x b v e : view m x b v -> view (set_errno m e) x b v.
Proof. intros H. exact H. Qed.
Lemma inplace_errno m x b e : inplace m x b (set_errno m e).
Proof. unfold inplace. auto. Qed.

(** Stores into the array's own block. *)
Lemma store_sim m x b v i d l : view m x b v -> blit (data v) i d = Ok l ->
  exists m', store m (b, i) d = Ok m' /\ view m' x b (set_data v l) /\ inplace m x b m'.
Proof.
  intros [A B] H. exists (set_block m b (Some l)). unfold store. cbn [fst snd]. unfold the_block. rewrite B. cbn [bind].
  rewrite H. cbn [bind]. split; [reflexivity|]. split.
  - split; [exact A|]. cbn. apply put_same.
  - unfold inplace, set_block. cbn. repeat split; auto. intros c Hc. apply put_other. exact Hc.
Qed.

Lemma blit_one l i x : blit l i [x] = wr l i x.
Proof.
  unfold blit, wr, inb, Base.upd. change (zlen [x]) with 1.
  replace ((0 <=? i) && (i + 1 <=? zlen l)) with ((0 <=? i) && (i <? zlen l)) by lia.
  destruct ((0 <=? i) && (i <? zlen l)) eqn:E; [|reflexivity].
  replace (Z.to_nat (i + 1)) with (S (Z.to_nat i)) by lia. reflexivity.
Qed.

Lemma set_cursor_sim m x b v c v' : view m x b v -> set_cursor v (data v) c = Ok v' ->
  exists m', p_set_cursor m x c = Ok m' /\ view m' x b v' /\ inplace m x b m'.
Proof.
  intros V H. unfold set_cursor in H. apply bind_Ok in H as (l & H1 & H2). injection H2 as <-.
  unfold p_set_cursor. rewrite (view_arr _ _ _ _ V). cbn [bind p_data p_max_size p_size p_ref_count].
  set (m1 := set_arr m x _).
  assert (V1 : view m1 x b (BA (data v) c (max_size v) (size v) (ref_count v) (errno v))).
  { split; cbn; [apply put_same|apply V]. }
  destruct (store_sim m1 x b _ c [0] l V1) as (m2 & E2 & V2 & F2); [cbn [data]; rewrite blit_one; exact H1|].
  exists m2. split; [exact E2|]. split; [exact V2|].
  apply inplace_trans with (m1 := m1); [|exact F2]. unfold inplace, m1, set_arr. cbn.
  repeat split; auto. intros y Hy. apply put_other. exact Hy.
Qed.


(** The size after [n] bytes have been asked for. *)
Definition pow2 (n : Z) : Z := Z.min SIZE_MAX (2 ^ Z.log2_up n).
Definition grown (sz n : Z) : Z := if n <? sz then sz else pow2 (n + 1).

Lemma round_loop_exact target : 0 < target < 2 ^ 64 -> forall fuel k,
  0 <= k <= 63 -> (Z.to_nat (64 - k) < fuel)%nat -> k <= Z.log2_up target ->
  round_loop fuel target (2 ^ k) = Ok (pow2 target).
Proof.
  intros Ht. induction fuel as [|fuel IH]; intros k Hk Hf Hu; [lia|]. cbn [round_loop].
  assert (P : 0 < 2 ^ k < 2 ^ 64) by (split; [apply Z.pow_pos_nonneg; lia|apply Z.pow_lt_mono_r; lia]).
  assert (U : Z.log2_up target <= 64).
  { apply Z.log2_up_le_pow2; lia. }
  destruct (2 ^ k <? target) eqn:E.
  - assert (Hlt : k < Z.log2_up target) by (apply Z.log2_up_lt_pow2; lia).
    destruct (2 ^ k >? SIZE_MAX / 2) eqn:E2.
    + assert (k = 63).
      { destruct (Z.eq_dec k 63) as [->|]; [reflexivity|]. exfalso.
        assert (2 ^ k <= 2 ^ 62) by (apply Z.pow_le_mono_r; lia).
        unfold SIZE_MAX in E2. lia. }
      subst k. unfold pow2.
      replace (Z.log2_up target) with 64 by lia. reflexivity.
    + assert (Hk' : k < 63).
      { destruct (Z.eq_dec k 63) as [->|]; [|lia]. exfalso. unfold SIZE_MAX in E2. lia. }
      rewrite Z.shiftl_mul_pow2 by lia.
      assert (P2 : 2 ^ (k + 1) = 2 ^ k * 2 ^ 1) by (apply Z.pow_add_r; lia).
      assert (Q : 2 ^ (k + 1) < 2 ^ 64) by (apply Z.pow_lt_mono_r; lia).
      rewrite <- P2. rewrite u64_small by lia. apply IH; lia.
  - assert (Z.log2_up target <= k) by (apply Z.log2_up_le_pow2; lia).
    replace k with (Z.log2_up target) by lia. unfold pow2. f_equal.
    replace (Z.log2_up target) with k by lia. unfold SIZE_MAX.
    assert (2 ^ k <= 2 ^ 63) by (apply Z.pow_le_mono_r; lia). lia.
Qed.

Lemma pow2_bounds n : 1 < n < 2 ^ 64 -> n <= pow2 n <= SIZE_MAX /\ pow2 n < 2 * n.
Proof.
  intros H. unfold pow2, SIZE_MAX. pose proof (Z.log2_up_spec n ltac:(lia)) as [L1 L2].
  assert (2 ^ Z.log2_up n = 2 * 2 ^ Z.pred (Z.log2_up n)).
  { pose proof (Z.log2_up_pos n ltac:(lia)).
    replace (Z.log2_up n) with (Z.succ (Z.pred (Z.log2_up n))) at 1 by lia. apply Z.pow_succ_r. lia. }
  lia.
Qed.

Lemma ensure_sim junk m x b v lim l t rest len :
  view m x b v -> b < next m -> rep lim v l t rest -> 0 <= len < 2 ^ 64 ->
  if zlen l + len <? lim then
    exists m' b' v' rest',
      p_ensure_space junk m x len = Ok (true, m') /\ ensure_space junk v len = Ok (v', true) /\
      view m' x b' v' /\ rep lim v' l t rest' /\ len <= zlen rest' /\ ref_count v' = ref_count v /\
      size v' = grown (size v) (zlen l + len) /\ frame m x b v m' b' v' /\
      (zlen l + len < size v -> m' = m /\ b' = b /\ v' = v)
  else p_ensure_space junk m x len = Ok (false, set_errno m ENOSPC).
Proof.
  intros V Hb R Hlen. pose proof R as (Rd & Rc & Rm & Rs & Rlm & Rsz). pose proof (rep_len _ _ _ _ _ R) as RL.
  pose proof (zlen_nonneg l). pose proof (zlen_nonneg rest).
  unfold p_ensure_space. rewrite (view_arr _ _ _ _ V). cbn [bind p_data p_cursor p_max_size p_size p_ref_count].
  rewrite Rm, Rc, (u64_small (lim - zlen l)) by lia.
  destruct (zlen l + len <? lim) eqn:E.
  2: { replace (len >=? lim - zlen l) with true by lia. reflexivity. }
  replace (len >=? lim - zlen l) with false by lia.
  destruct (ensure_space_ok junk lim v l t rest len R Hlen ltac:(lia)) as (v1 & rest1 & E1 & R1 & L1 & C1 & _).
  assert (E1' := E1). unfold ensure_space in E1'. rewrite Rm, Rc, (u64_small (lim - zlen l)) in E1' by lia.
  replace (len >=? lim - zlen l) with false in E1' by lia.
  rewrite (u64_small (size v - zlen l)) in * by lia.
  destruct (len >=? size v - zlen l) eqn:G.
  - rewrite (u64_small (zlen l + len + 1)) in * by lia.
    change 1 with (2 ^ 0) in E1' at 2. change (round_loop 66 (zlen l + len + 1) 1) with (round_loop 66 (zlen l + len + 1) (2 ^ 0)).
    rewrite round_loop_exact in * by (try lia; apply Z.log2_up_nonneg). cbn [bind] in *.
    injection E1' as E1'. unfold realloc_block, the_block. destruct V as [VA VB]. rewrite VB. cbn [bind].
    unfold free_block, the_block. rewrite VB. cbn [bind new_block set_block arrays blocks next p_errno moved set_arr].
    eexists _, (next m), v1, rest1. split; [reflexivity|]. split; [exact E1|].
    assert (Hg : size v < pow2 (zlen l + len + 1)).
    { pose proof (pow2_bounds (zlen l + len + 1) ltac:(lia)). lia. }
    split; [|split; [exact R1|split; [exact L1|split; [exact C1|split; [|split]]]]].
    + subst v1. split; cbn; [apply put_same|apply put_same].
    + subst v1. cbn. unfold grown. replace (zlen l + len <? size v) with false by lia. reflexivity.
    + split; [|split].
      * intros y Hy. cbn. apply put_other. exact Hy.
      * intros c H1 H2. cbn. rewrite !put_other by assumption. reflexivity.
      * right. cbn. rewrite (put_other _ (next m)) by lia. rewrite put_same. subst v1. cbn. repeat split; auto.
    + lia.
  - injection E1' as <-. exists m, b, v, rest1. split; [reflexivity|]. split; [exact E1|].
    split; [exact V|]. split; [exact R1|]. split; [exact L1|]. split; [reflexivity|].
    split; [|split; [|auto]].
    + unfold grown. replace (zlen l + len <? size v) with true by lia. reflexivity.
    + apply frame_of_inplace; [apply inplace_refl|reflexivity].
Qed.

(** ** Sources *)

(** The source can be read behind [p] as long as the array does not move, and is
    elsewhere if it does. *)
Lemma behind_set_block m p b l s : behind m p = Ok s -> fst p <> b -> behind (set_block m b l) p = Ok s.
Proof.
  unfold behind, the_block. cbn. intros H Hb. rewrite put_other by assumption. exact H.
Qed.
Lemma behind_same m m' p : blocks m' (fst p) = blocks m (fst p) -> behind m' p = behind m p.
Proof. unfold behind, the_block. intros ->. reflexivity. Qed.

(** The source of [len] bytes behind [p] survives what ensure_space does for
    [n] bytes. *)
Definition source_safe (m : mem) (b : Z) (v : byte_array) (lim : Z) (p : ptr) (n : Z) : Prop :=
  fst p <> b \/ (n < lim -> n < size v).

Lemma behind_live m p s : fresh m -> behind m p = Ok s -> fst p < next m.
Proof.
  intros F H. destruct (Z_lt_le_dec (fst p) (next m)) as [|L]; [assumption|].
  unfold behind, the_block in H. destruct (proj1 F _ L) as [_ E]. rewrite E in H. discriminate H.
Qed.

Lemma source_kept m x b v m1 b1 v1 p s : fresh m -> b < next m -> behind m p = Ok s ->
  frame m x b v m1 b1 v1 -> fst p <> b \/ m1 = m -> behind m1 p = Ok s.
Proof.
  intros F Hb H (_ & B & C) [Hp| ->]; [|exact H].
  rewrite <- H. apply behind_same. apply B; [exact Hp|].
  pose proof (behind_live _ _ _ F H). destruct C as [(-> & _)|(-> & _)]; [exact Hp|lia].
Qed.

Lemma load_prefix m p s len : behind m p = Ok s -> 0 <= len <= zlen s ->
  load m p len = Ok (firstn (Z.to_nat len) s).
Proof. intros H Hl. unfold load. rewrite H. cbn [bind]. replace (len >? zlen s) with false by lia. reflexivity. Qed.

(** The array at [x] went from [v] to a view with content [l'] in [m']. *)
Definition went (m : mem) (x b : Z) (v : byte_array) (lim t n : Z) (l' : list Z) (m' : mem) : Prop :=
  exists b' v' t' rest', view m' x b' v' /\ rep lim v' l' t' rest' /\ (t = 0 -> t' = 0) /\
    ref_count v' = ref_count v /\ frame m x b v m' b' v' /\ size v' = grown (size v) n.

Lemma set_cursor_parts v l2 c v' : set_cursor v l2 c = Ok v' ->
  set_cursor (set_data v l2) (data (set_data v l2)) c = Ok v'.
Proof. intros H. exact H. Qed.

Lemma set_cursor_size v d c v' : set_cursor v d c = Ok v' -> size v' = size v /\ ref_count v' = ref_count v.
Proof. unfold set_cursor. intros H. apply bind_Ok in H as (l & _ & H). injection H as <-. auto. Qed.

Lemma firstn_zlen_self {A} (s : list A) len : 0 <= len <= zlen s -> zlen (firstn (Z.to_nat len) s) = len.
Proof. intros H. unfold zlen in *. rewrite firstn_length. lia. Qed.

Lemma p_append_ok junk m x b v lim l t rest p s len : fresh m ->
  view m x b v -> b < next m -> rep lim v l t rest -> behind m p = Ok s -> 0 <= len <= zlen s ->
  len < 2 ^ 64 -> source_safe m b v lim p (zlen l + len) -> (fst p = b -> snd p + len <= zlen l) ->
  if zlen l + len <? lim then
    exists m', p_byte_array_append junk m x p len = Ok (true, m') /\
      went m x b v lim t (zlen l + len) (l ++ firstn (Z.to_nat len) s) m'
  else p_byte_array_append junk m x p len = Ok (false, set_errno m ENOSPC).
Proof.
  intros Fr V Hb R Hs Hlen Hl64 Safe Ov. set (d := firstn (Z.to_nat len) s).
  assert (Hd : zlen d = len) by (apply firstn_zlen_self; lia).
  pose proof (ensure_sim junk m x b v lim l t rest len V Hb R ltac:(lia)) as ES.
  unfold p_byte_array_append. destruct (zlen l + len <? lim) eqn:E.
  2: { rewrite ES. cbn [bind negb]. reflexivity. }
  destruct ES as (m1 & b1 & v1 & rest1 & E1 & VE & V1 & R1 & L1 & C1 & S1 & F1 & K1).
  pose proof (append_ok junk lim v l t rest d R ltac:(lia)) as A.
  rewrite Hd, E in A. destruct A as (v2 & t2 & rest2 & A & R2 & T2 & C2).
  rewrite E1. cbn [bind negb].
  rewrite (view_arr _ _ _ _ V1). cbn [bind p_data p_cursor p_max_size p_size p_ref_count].
  unfold byte_array_append in A. rewrite VE in A. cbn [bind negb] in A.
  rewrite Hd in A. replace (len >? len) with false in A by lia.
  rewrite firstn_all2 in A by (unfold zlen in Hd; lia).
  apply bind_Ok in A as (l2 & A1 & A2). apply bind_Ok in A2 as (v3 & A2 & A3). injection A3 as A3. subst v3.
  assert (Hs1 : behind m1 p = Ok s).
  { eapply source_kept; try eassumption. destruct Safe as [N|N]; [left; exact N|].
    right. apply K1. apply N. lia. }
  pose proof R1 as (Rd1 & Rc1 & _).
  unfold memcpy. cbn [fst snd].
  assert (EO : (b1 =? fst p) && (cursor v1 <? snd p + len) && (snd p <? cursor v1 + len) = false).
  { destruct (Z.eqb_spec b1 (fst p)) as [Eb|]; [|reflexivity]. cbn [andb].
    assert (fst p = b).
    { destruct F1 as (_ & _ & [(-> & _)|(-> & _)]); [congruence|]. pose proof (behind_live _ _ _ Fr Hs). lia. }
    specialize (Ov H). replace (cursor v1 <? snd p + len) with false by lia. reflexivity. }
  rewrite EO. unfold memmove. rewrite (load_prefix _ _ _ _ Hs1) by lia. cbn [bind]. fold d.
  destruct (store_sim m1 x b1 v1 _ d l2 V1 A1) as (m2 & E2 & V2 & F2). rewrite E2. cbn [bind].
  destruct (set_cursor_sim m2 x b1 _ _ _ V2 (set_cursor_parts _ _ _ _ A2)) as (m3 & E3 & V3 & F3).
  rewrite E3. cbn [bind]. exists m3. split; [reflexivity|].
  destruct (set_cursor_size _ _ _ _ A2) as [Z2 Q2].
  exists b1, v2, t2, rest2. split; [exact V3|]. split; [exact R2|]. split; [auto|]. split; [congruence|].
  split; [|congruence].
  eapply frame_inplace; [exact Hb|exact F1| |exact Z2]. eapply inplace_trans; eassumption.
Qed.

Lemma p_copy_ok junk m x b v lim l t rest pos p s len : fresh m ->
  view m x b v -> b < next m -> rep lim v l t rest -> behind m p = Ok s -> 0 <= len <= zlen s ->
  len < 2 ^ 64 -> 0 <= pos < 2 ^ 64 ->
  (pos <= zlen l -> source_safe m b v lim p (pos + len)) ->
  if (pos <=? zlen l) && (pos + len <? lim) then
    exists m', p_byte_array_copy junk m x pos p len = Ok (true, m') /\
      went m x b v lim t (pos + len)
        (firstn (Z.to_nat pos) l ++ firstn (Z.to_nat len) s ++ skipn (Z.to_nat (pos + len)) l) m'
  else exists m', p_byte_array_copy junk m x pos p len = Ok (false, m') /\
    (m' = m \/ m' = set_errno m ENOSPC).
Proof.
  intros Fr V Hb R Hs Hlen Hl64 Hpos Safe. set (d := firstn (Z.to_nat len) s).
  assert (Hd : zlen d = len) by (apply firstn_zlen_self; lia).
  pose proof (copy_ok junk lim v l t rest pos d R Hpos ltac:(lia)) as A. rewrite Hd in A.
  pose proof R as (Rd & Rc & Rm & Rs & Rlm & Rsz). pose proof (rep_len _ _ _ _ _ R) as RL.
  pose proof (zlen_nonneg l). pose proof (zlen_nonneg rest).
  unfold p_byte_array_copy. rewrite (view_arr _ _ _ _ V). cbn [bind p_data p_cursor p_max_size p_size p_ref_count].
  rewrite Rc. destruct (pos <=? zlen l) eqn:Ep; cbn [andb] in *.
  2: { replace (pos >? zlen l) with true by lia. exists m. auto. }
  replace (pos >? zlen l) with false by lia. specialize (Safe ltac:(lia)).
  rewrite (u64_small (zlen l - pos)) by lia.
  destruct (len >? zlen l - pos) eqn:Eg.
  - rewrite (u64_small (pos + len - zlen l)) by lia.
    pose proof (ensure_sim junk m x b v lim l t rest (pos + len - zlen l) V Hb R ltac:(lia)) as ES.
    replace (zlen l + (pos + len - zlen l)) with (pos + len) in ES by lia.
    destruct (pos + len <? lim) eqn:E.
    2: { rewrite ES. cbn [bind negb]. eexists. split; [reflexivity|auto]. }
    destruct ES as (m1 & b1 & v1 & rest1 & E1 & VE & V1 & R1 & L1 & C1 & S1 & F1 & K1).
    destruct A as (v2 & t2 & rest2 & A & R2 & T2 & C2).
    rewrite E1. cbn [bind negb].
    rewrite (view_arr _ _ _ _ V1). cbn [bind p_data p_cursor p_max_size p_size p_ref_count].
    unfold byte_array_copy in A. rewrite Rc in A. replace (pos >? zlen l) with false in A by lia.
    rewrite (u64_small (zlen l - pos)) in A by lia. rewrite Eg in A.
    rewrite (u64_small (pos + len - zlen l)) in A by lia. rewrite VE in A. cbn [bind negb] in A.
    rewrite Hd in A. replace (len >? len) with false in A by lia.
    rewrite firstn_all2 in A by (unfold zlen in Hd; lia).
    apply bind_Ok in A as (l2 & A1 & A2).
    pose proof R1 as (Rd1 & Rc1 & _). rewrite Rc1 in *. rewrite (u64_small (zlen l - pos)) in * by lia. rewrite Eg in *.
    apply bind_Ok in A2 as (v3 & A2 & A3). injection A3 as A3. subst v3.
    assert (Hs1 : behind m1 p = Ok s).
    { eapply source_kept; try eassumption. destruct Safe as [N|N]; [left; exact N|].
      right. apply K1. apply N. lia. }
    unfold memmove. rewrite (load_prefix _ _ _ _ Hs1) by lia. cbn [bind]. fold d.
    destruct (store_sim m1 x b1 v1 _ d l2 V1 A1) as (m2 & E2 & V2 & F2). rewrite E2. cbn [bind].
    destruct (set_cursor_sim m2 x b1 _ _ _ V2 (set_cursor_parts _ _ _ _ A2)) as (m3 & E3 & V3 & F3).
    rewrite E3. cbn [bind]. exists m3. split; [reflexivity|].
    destruct (set_cursor_size _ _ _ _ A2) as [Z2 Q2].
    exists b1, v2, t2, rest2. split; [exact V3|]. split; [exact R2|]. split; [auto|]. split; [congruence|].
    split; [|congruence].
    eapply frame_inplace; [exact Hb|exact F1| |exact Z2]. eapply inplace_trans; eassumption.
  - cbn [bind negb]. replace (pos + len <? lim) with true in * by lia.
    destruct A as (v2 & t2 & rest2 & A & R2 & T2 & C2).
    rewrite (view_arr _ _ _ _ V). cbn [bind p_data p_cursor p_max_size p_size p_ref_count].
    unfold byte_array_copy in A. rewrite Rc in A. replace (pos >? zlen l) with false in A by lia.
    rewrite (u64_small (zlen l - pos)) in A by lia. rewrite Eg in A. cbn [bind negb] in A.
    rewrite Hd in A. replace (len >? len) with false in A by lia.
    rewrite firstn_all2 in A by (unfold zlen in Hd; lia).
    apply bind_Ok in A as (l2 & A1 & A2).
    rewrite Rc in *. rewrite (u64_small (zlen l - pos)) in * by lia. rewrite Eg in *. injection A2 as A2. subst v2.
    unfold memmove. rewrite (load_prefix _ _ _ _ Hs) by lia. cbn [bind]. fold d.
    destruct (store_sim m x b v _ d l2 V A1) as (m2 & E2 & V2 & F2). rewrite E2. cbn [bind].
    exists m2. split; [reflexivity|].
    exists b, (set_data v l2), t2, rest2. split; [exact V2|]. split; [exact R2|]. split; [auto|]. split; [reflexivity|].
    split; [apply frame_of_inplace; [exact F2|reflexivity]|].
    unfold grown. replace (pos + len <? size v) with true by lia. reflexivity.
Qed.

Lemma p_resize_ok junk m x b v lim l t rest n c : fresh m ->
  view m x b v -> b < next m -> rep lim v l t rest -> 0 <= n < 2 ^ 64 ->
  if n <? lim then
    exists m', p_byte_array_resize junk m x n c = Ok (true, m') /\
      went m x b v lim t n (firstn (Z.to_nat n) l ++ repeat c (Z.to_nat (n - zlen l))) m'
  else p_byte_array_resize junk m x n c = Ok (false, set_errno m ENOSPC).
Proof.
  intros Fr V Hb R Hn. pose proof (resize_ok junk lim v l t rest n c R Hn) as A.
  pose proof R as (Rd & Rc & Rm & Rs & Rlm & Rsz). pose proof (rep_len _ _ _ _ _ R) as RL.
  pose proof (zlen_nonneg l). pose proof (zlen_nonneg rest).
  unfold p_byte_array_resize. rewrite (view_arr _ _ _ _ V). cbn [bind p_data p_cursor p_max_size p_size p_ref_count].
  unfold byte_array_resize in A. rewrite Rc in *. destruct (n >? zlen l) eqn:Eg.
  - rewrite (u64_small (n - zlen l)) in * by lia.
    pose proof (ensure_sim junk m x b v lim l t rest (n - zlen l) V Hb R ltac:(lia)) as ES.
    replace (zlen l + (n - zlen l)) with n in ES by lia.
    destruct (n <? lim) eqn:E.
    2: { rewrite ES. cbn [bind negb]. reflexivity. }
    destruct ES as (m1 & b1 & v1 & rest1 & E1 & VE & V1 & R1 & L1 & C1 & S1 & F1 & K1).
    destruct A as (v2 & t2 & rest2 & A & R2 & T2 & C2).
    rewrite E1. cbn [bind]. rewrite (view_arr _ _ _ _ V1). cbn [bind p_data p_cursor p_max_size p_size p_ref_count].
    rewrite VE in A. cbn [bind] in A.
    apply bind_Ok in A as ((v3 & ok3) & A1 & A2). apply bind_Ok in A1 as (l2 & A1 & A3).
    injection A3 as <- <-. cbn [negb] in A2. apply bind_Ok in A2 as (v4 & A2 & A4). injection A4 as A4. subst v4.
    pose proof R1 as (Rd1 & Rc1 & _). rewrite Rc1 in *.
    destruct (store_sim m1 x b1 v1 _ _ l2 V1 A1) as (m2 & E2 & V2 & F2). rewrite E2. cbn [bind negb].
    destruct (set_cursor_sim m2 x b1 _ _ _ V2 A2) as (m3 & E3 & V3 & F3).
    rewrite E3. cbn [bind]. exists m3. split; [reflexivity|].
    destruct (set_cursor_size _ _ _ _ A2) as [Z2 Q2].
    exists b1, v2, t2, rest2. split; [exact V3|]. split; [exact R2|]. split; [auto|].
    split; [cbn in Q2; congruence|].
    split; [|cbn in Z2; congruence].
    eapply frame_inplace; [exact Hb|exact F1| |exact Z2]. eapply inplace_trans; eassumption.
  - cbn [bind negb] in *. replace (n <? lim) with true in * by lia.
    destruct A as (v2 & t2 & rest2 & A & R2 & T2 & C2). apply bind_Ok in A as (v4 & A2 & A4). injection A4 as A4. subst v4.
    destruct (set_cursor_sim m x b _ _ _ V A2) as (m3 & E3 & V3 & F3).
    rewrite E3. cbn [bind]. exists m3. split; [reflexivity|].
    destruct (set_cursor_size _ _ _ _ A2) as [Z2 Q2].
    exists b, v2, t2, rest2. split; [exact V3|]. split; [exact R2|]. split; [auto|]. split; [congruence|].
    split; [apply frame_of_inplace; [exact F3|exact Z2]|].
    unfold grown. replace (n <? size v) with true by lia. exact Z2.
Qed.

Lemma p_clear_ok m x b v lim l t rest : view m x b v -> rep lim v l t rest ->
  exists m', p_byte_array_clear m x = Ok m' /\ went m x b v lim t 0 [] m'.
Proof.
  intros V R. destruct (clear_ok lim v l t rest R) as (v2 & t2 & rest2 & A & R2 & T2 & C2).
  apply bind_Ok in A as (v4 & A2 & A4). injection A4 as A4. subst v4.
  pose proof R as (Rd & Rc & Rm & Rs & Rlm & Rsz). pose proof (rep_len _ _ _ _ _ R) as RL.
  pose proof (zlen_nonneg l). pose proof (zlen_nonneg rest).
  unfold byte_array_clear in A2. destruct (set_cursor_sim m x b _ _ _ V A2) as (m3 & E3 & V3 & F3).
  exists m3. split; [exact E3|]. destruct (set_cursor_size _ _ _ _ A2) as [Z2 Q2].
  exists b, v2, t2, rest2. split; [exact V3|]. split; [exact R2|]. split; [auto|]. split; [congruence|].
  split; [apply frame_of_inplace; [exact F3|exact Z2]|].
  unfold grown. replace (0 <? size v) with true by lia. exact Z2.
Qed.

Lemma p_stream_ok junk m x b v lim l t rest len cb : fresh m ->
  view m x b v -> b < next m -> rep lim v l t rest -> 0 <= len < 2 ^ 64 -> cb_ok cb -> cb_clean cb ->
  if (0 <? len) && (ask lim l len =? 0) then
    p_byte_array_append_stream junk m x cb len = Ok (-1, set_errno m ENOSPC)
  else
    let '(w, count, e) := cb (ask lim l len) in
    exists m', p_byte_array_append_stream junk m x cb len = Ok (count, m') /\
      went m x b v lim t (zlen l + ask lim l len)
        (if count >? 0 then l ++ firstn (Z.to_nat count) w else l) m'.
Proof.
  intros Fr V Hb R Hlen Hcb Hcl. pose proof (stream_ok junk lim v l t rest len cb R Hlen Hcb) as A.
  pose proof R as (Rd & Rc & Rm & Rs & Rlm & Rsz). pose proof (rep_len _ _ _ _ _ R) as RL.
  pose proof (zlen_nonneg l). pose proof (zlen_nonneg rest).
  unfold p_byte_array_append_stream. rewrite (view_arr _ _ _ _ V). cbn [bind p_data p_cursor p_max_size p_size p_ref_count].
  unfold byte_array_append_stream in A. rewrite Rm, Rc in *.
  rewrite !(u64_small (lim - zlen l)) in * by lia.
  destruct ((0 <? len) && (ask lim l len =? 0)) eqn:E0.
  { unfold ask in E0. replace ((len >=? lim - zlen l) && (lim - zlen l =? 1)) with true by lia. reflexivity. }
  assert (Hbr : (len >=? lim - zlen l) && (lim - zlen l =? 1) = false) by (unfold ask in E0; lia).
  rewrite Hbr in *. cbv zeta in *.
  assert (Hn : (if len >=? lim - zlen l then u64 (lim - zlen l - 1) else len) = ask lim l len)
    by (unfold ask; destruct (len >=? lim - zlen l) eqn:E; [rewrite u64_small|]; lia).
  rewrite Hn in *. set (n := ask lim l len) in *.
  assert (Hn1 : 0 <= n /\ zlen l + n < lim) by (unfold n, ask; lia).
  pose proof (ensure_sim junk m x b v lim l t rest n V Hb R ltac:(lia)) as ES.
  replace (zlen l + n <? lim) with true in ES by lia.
  destruct ES as (m1 & b1 & v1 & rest1 & E1 & VE & V1 & R1 & L1 & C1 & S1 & F1 & K1).
  rewrite E1. cbn [bind negb]. rewrite (view_arr _ _ _ _ V1). cbn [bind p_data p_cursor p_max_size p_size p_ref_count].
  rewrite VE in A. cbn [bind negb] in A.
  destruct (cb n) as [[w count] e] eqn:Ecb.
  destruct A as (v2 & t2 & rest2 & A & R2 & T2 & C2 & _). apply bind_Ok in A as (l2 & A1 & A2).
  destruct (store_sim m1 x b1 v1 _ _ l2 V1 A1) as (m2 & E2 & V2 & F2). rewrite E2. cbn [bind].
  destruct (count >? 0) eqn:Ec.
  - apply bind_Ok in A2 as (v4 & A2 & A4). injection A4 as A4. subst v4.
    cbn [cursor] in A2.
    assert (V2' : view (set_errno m2 e) x b1 (BA l2 (cursor v1) (max_size v1) (size v1) (ref_count v1) e)) by exact V2.
    destruct (set_cursor_sim (set_errno m2 e) x b1 _ _ _ V2' (set_cursor_parts _ _ _ _ A2)) as (m3 & E3 & V3 & F3).
    rewrite E3. cbn [bind]. exists m3. split; [reflexivity|].
    destruct (set_cursor_size _ _ _ _ A2) as [Z2 Q2]. cbn in Z2, Q2.
    exists b1, v2, t2, rest2. split; [exact V3|]. split; [exact R2|]. split; [auto|]. split; [congruence|].
    split; [|congruence].
    eapply frame_inplace; [exact Hb|exact F1| |exact Z2].
    eapply inplace_trans; [exact F2|]. eapply inplace_trans; [apply inplace_errno|exact F3].
  - injection A2 as A2. subst v2. exists (set_errno m2 e). split; [reflexivity|].
    eexists b1, _, t2, rest2. split; [|split; [exact R2|]].
    { exact V2. }
    split; [auto|]. split; [cbn; congruence|]. split; [|cbn; congruence].
    eapply frame_inplace; [exact Hb|exact F1| |reflexivity].
    eapply inplace_trans; [exact F2|]. apply inplace_errno.
Qed.
