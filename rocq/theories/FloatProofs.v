(** Proofs about src/float.c. *)
From Verif Require Import Base FloatModel FloatSpec.
From Coq Require Import ZifyBool ZifyNat.
Ltac Zify.zify_post_hook ::= Z.div_mod_to_equations.

Lemma fields v : 0 <= v < 2 ^ 64 ->
  0 <= f_sign v <= 1 /\ 0 <= f_exp v < 2048 /\ 0 <= f_frac v < 2 ^ 52 /\
  v = f_sign v * 2 ^ 63 + f_exp v * 2 ^ 52 + f_frac v.
Proof. unfold f_sign, f_exp, f_frac. change (2 ^ 11) with 2048. lia. Qed.

Lemma fields_unique v s e f :
  0 <= s <= 1 -> 0 <= e < 2048 -> 0 <= f < 2 ^ 52 -> v = s * 2 ^ 63 + e * 2 ^ 52 + f ->
  f_sign v = s /\ f_exp v = e /\ f_frac v = f.
Proof. unfold f_sign, f_exp, f_frac. change (2 ^ 11) with 2048. lia. Qed.

Lemma Some_eq (a b : Z) : Some a = Some b <-> a = b.
Proof. split; congruence. Qed.

(** The bit operations in terms of the fields. *)
Lemma m_exp v : 0 <= v < 2 ^ 64 -> Z.land (Z.shiftr v 52) 0x7ff = f_exp v.
Proof.
  intros H. change 0x7ff with (Z.ones 11). rewrite Z.land_ones, Z.shiftr_div_pow2 by lia. reflexivity.
Qed.
Lemma m_neg v : 0 <= v < 2 ^ 64 -> truth (Z.shiftr v 63) = negb (f_sign v =? 0).
Proof. intros H. unfold truth. rewrite Z.shiftr_div_pow2 by lia. reflexivity. Qed.
Lemma m_mask : Z.shiftr (2 ^ 64 - 1) 12 = Z.ones 52.
Proof. reflexivity. Qed.
Lemma m_sig v : Z.lor (Z.land v (Z.shiftr (2 ^ 64 - 1) 12)) (2 ^ 52) = 2 ^ 52 + f_frac v.
Proof.
  rewrite m_mask, Z.land_ones by lia. rewrite Z.lor_comm.
  change (2 ^ 52) with (Z.shiftl 1 52) at 1. rewrite lor_shiftl_add by lia. unfold f_frac. lia.
Qed.
Lemma m_low v k : 0 <= k < 52 -> 0 <= v ->
  Z.land v (Z.shiftr (Z.shiftr (2 ^ 64 - 1) 12) k) = f_frac v mod 2 ^ (52 - k).
Proof.
  intros Hk Hv. rewrite m_mask.
  replace (Z.shiftr (Z.ones 52) k) with (Z.ones (52 - k)).
  2:{ rewrite Z.shiftr_div_pow2, Z.ones_div_pow2 by lia. reflexivity. }
  rewrite Z.land_ones by lia. unfold f_frac.
  rewrite <- Znumtheory.Zmod_div_mod; try lia.
  exists (2 ^ k). rewrite <- Z.pow_add_r by lia. f_equal. lia.
Qed.
Lemma m_zero v : 0 <= v < 2 ^ 64 ->
  truth (u64 (Z.shiftl v 1)) = negb ((f_exp v =? 0) && (f_frac v =? 0)).
Proof.
  intros H. pose proof (fields v H) as (Hs & He & Hf & Hv).
  unfold truth, u64. rewrite Z.shiftl_mul_pow2 by lia.
  f_equal. lia.
Qed.

(** Large powers never appear: everything is compared after dividing by a
    suitable power of two. *)
Definition mant (v : Z) : Z := if f_exp v =? 0 then f_frac v else 2 ^ 52 + f_frac v.
Definition sg (v : Z) : Z := if f_sign v =? 0 then 1 else -1.

Lemma pow_split a b : 0 <= b <= a -> 2 ^ a = 2 ^ b * 2 ^ (a - b).
Proof. intros. rewrite <- Z.pow_add_r by lia. f_equal. lia. Qed.

Lemma is_normal_ge v n : 0 <= v < 2 ^ 64 -> 1075 <= f_exp v < 2047 ->
  binary64_is v n <-> n = sg v * (2 ^ 52 + f_frac v) * 2 ^ (f_exp v - 1075).
Proof.
  intros Hv He. unfold binary64_is, f_finite. fold (sg v).
  replace (f_exp v =? 0) with false by lia.
  rewrite (pow_split (f_exp v - 1) 1074) by lia.
  replace (f_exp v - 1 - 1074) with (f_exp v - 1075) by lia.
  assert (P : 2 ^ 1074 <> 0) by (apply Z.pow_nonzero; lia).
  split.
  - intros [_ E]. apply (Z.mul_cancel_r _ _ (2 ^ 1074) P). rewrite E. ring.
  - intros ->. split; [lia|ring].
Qed.

Lemma is_normal_lt v n : 0 <= v < 2 ^ 64 -> 1 <= f_exp v < 1075 ->
  binary64_is v n <-> n * 2 ^ (1075 - f_exp v) = sg v * (2 ^ 52 + f_frac v).
Proof.
  intros Hv He. unfold binary64_is, f_finite. fold (sg v).
  replace (f_exp v =? 0) with false by lia.
  rewrite (pow_split 1074 (f_exp v - 1)) by lia.
  replace (1074 - (f_exp v - 1)) with (1075 - f_exp v) by lia.
  assert (P : 2 ^ (f_exp v - 1) <> 0) by (apply Z.pow_nonzero; lia).
  split.
  - intros [_ E]. apply (Z.mul_cancel_r _ _ _ P). rewrite <- E. ring.
  - intros E. split; [lia|]. rewrite <- E. ring.
Qed.

Lemma is_subnormal v n : 0 <= v < 2 ^ 64 -> f_exp v = 0 ->
  binary64_is v n <-> n * 2 ^ 1074 = sg v * f_frac v.
Proof.
  intros Hv He. unfold binary64_is, f_finite. fold (sg v). rewrite He. cbn [Z.eqb Z.sub Z.add Z.opp].
  change (2 ^ (1 - 1)) with 1. rewrite Z.mul_1_r. split; [intros [_ E]; exact E|intros E; split; [lia|exact E]].
Qed.

Lemma no_multiple n P x s : 0 < x < P -> s = 1 \/ s = -1 -> n * P = s * x -> False.
Proof.
  intros Hx Hs E. assert (Z.abs n * P = x).
  { rewrite <- (Z.abs_eq P) by lia. rewrite <- Z.abs_mul, E. destruct Hs; subst s; lia. }
  destruct (Z.eq_dec (Z.abs n) 0) as [E0|E0]; [rewrite E0 in *; lia|].
  assert (1 * P <= Z.abs n * P) by (apply Z.mul_le_mono_nonneg_r; lia). lia.
Qed.
Lemma sg_pm v : sg v = 1 \/ sg v = -1.
Proof. unfold sg; destruct (f_sign v =? 0); auto. Qed.

(** Magnitude below one, not zero: not an integer. *)
Lemma small_not_integer v n :
  0 <= v < 2 ^ 64 -> f_exp v < 1023 -> (f_exp v <> 0 \/ f_frac v <> 0) -> ~ binary64_is v n.
Proof.
  intros Hv He Hnz. pose proof (fields v Hv) as (Hs & He' & Hf & _).
  destruct (Z.eq_dec (f_exp v) 0) as [E0|E0].
  - rewrite is_subnormal by assumption. intros E.
    assert (P : 2 ^ 52 <= 2 ^ 1074) by (apply Z.pow_le_mono_r; lia).
    revert E P. generalize (2 ^ 1074). intros P E HP.
    apply no_multiple in E; auto using sg_pm; lia.
  - rewrite is_normal_lt by lia. intros E.
    assert (P : 2 ^ 53 <= 2 ^ (1075 - f_exp v)) by (apply Z.pow_le_mono_r; lia).
    revert E P. generalize (2 ^ (1075 - f_exp v)). intros P E HP.
    apply no_multiple in E; auto using sg_pm; lia.
Qed.

Lemma zero_integer v n : 0 <= v < 2 ^ 64 -> f_exp v = 0 -> f_frac v = 0 -> binary64_is v n <-> n = 0.
Proof.
  intros Hv He Hf. rewrite is_subnormal by assumption. rewrite Hf, Z.mul_0_r.
  assert (P : 2 ^ 1074 <> 0) by (apply Z.pow_nonzero; lia). split; intros H.
  - apply Z.mul_eq_0 in H. tauto.
  - subst. reflexivity.
Qed.

(** Magnitude at least 2^k for exponent k. *)
Lemma big_value v n k : 0 <= v < 2 ^ 64 -> 52 <= k -> 1023 + k <= f_exp v -> binary64_is v n ->
  2 ^ k <= Z.abs n.
Proof.
  intros Hv Hk He H. pose proof (fields v Hv) as (Hs & He' & Hf & _).
  assert (f_exp v <> 2047) by apply H.
  apply is_normal_ge in H; try lia. subst n.
  rewrite !Z.abs_mul.
  replace (Z.abs (sg v)) with 1 by (unfold sg; destruct (f_sign v =? 0); reflexivity).
  rewrite (pow_split k 52) by lia. rewrite !Z.abs_eq by lia.
  assert (2 ^ (k - 52) <= 2 ^ (f_exp v - 1075)) by (apply Z.pow_le_mono_r; lia).
  assert (0 < 2 ^ (k - 52)) by (apply Z.pow_pos_nonneg; lia). nia.
Qed.

(** Exponents 1023..1074: integral iff the low fraction bits vanish. *)
Lemma mid_value v n : 0 <= v < 2 ^ 64 -> 1023 <= f_exp v < 1075 ->
  let k := 1075 - f_exp v in
  binary64_is v n <-> f_frac v mod 2 ^ k = 0 /\ n = sg v * ((2 ^ 52 + f_frac v) / 2 ^ k).
Proof.
  intros Hv He k. rewrite is_normal_lt by lia. fold k.
  assert (P : 0 < 2 ^ k) by (apply Z.pow_pos_nonneg; lia).
  assert (Hd : (2 ^ 52 + f_frac v) mod 2 ^ k = f_frac v mod 2 ^ k).
  { rewrite (pow_split 52 k) by lia. rewrite Z.add_comm, Z.mul_comm, Z.mod_add by lia. reflexivity. }
  split.
  - intros E.
    assert (E2 : 2 ^ 52 + f_frac v = (sg v * n) * 2 ^ k).
    { unfold sg in *. destruct (f_sign v =? 0); lia. }
    split.
    + rewrite <- Hd, E2. apply Z.mod_mul. lia.
    + rewrite E2, Z.div_mul by lia. unfold sg. destruct (f_sign v =? 0); lia.
  - intros [Hm ->]. rewrite <- Hd in Hm.
    pose proof (Z.div_mod (2 ^ 52 + f_frac v) (2 ^ k) ltac:(lia)). nia.
Qed.

Lemma s64_small z : 0 <= z < 2 ^ 63 -> s64 z = z.
Proof.
  intros H. unfold s64, sgn. change (64 - 1) with 63. rewrite Z.mod_small by lia.
  destruct (z <? 2 ^ 63) eqn:E; lia.
Qed.

Lemma to_integer_ok v n : 0 <= v < 2 ^ 64 ->
  binary64_to_integer v = Some n <-> binary64_is v n /\ - 2 ^ 63 <= n < 2 ^ 63.
Proof.
  intros Hv. pose proof (fields v Hv) as (Hs & He & Hf & Hdec).
  unfold binary64_to_integer. rewrite m_zero by assumption.
  rewrite negb_involutive.
  destruct ((f_exp v =? 0) && (f_frac v =? 0)) eqn:E0.
  { rewrite zero_integer by (assumption || lia). rewrite Some_eq; lia. }
  destruct (v =? 14114281232179134464) eqn:Emin.
  { apply Z.eqb_eq in Emin.
    destruct (fields_unique v 1 1086 0 ltac:(lia) ltac:(lia) ltac:(lia) ltac:(lia)) as (S1 & S2 & S3).
    rewrite is_normal_ge by lia. unfold sg. rewrite S1, S2, S3.
    change (if 1 =? 0 then 1 else -1) with (-1). change (1086 - 1075) with 11.
    unfold LLONG_MIN. rewrite Some_eq; lia. }
  cbv zeta. rewrite m_exp by assumption. rewrite m_neg, m_sig by assumption.
  destruct ((f_exp v - 1023 <? 0) || (f_exp v - 1023 >=? 64 - 1)) eqn:Er.
  { split; [discriminate|]. intros [H Hn]. exfalso.
    destruct (f_exp v - 1023 <? 0) eqn:El.
    - apply (small_not_integer v n Hv) in H; [assumption|lia|lia].
    - assert (Hb : 2 ^ 63 <= Z.abs n) by (apply (big_value v n 63 Hv); try lia; assumption).
      (* only -2^63 remains *)
      assert (Hn' : n = - 2 ^ 63) by lia.
      assert (f_exp v <> 2047) by apply H.
      destruct (Z.eq_dec (f_exp v) 1086) as [Ee|Ee].
      + apply is_normal_ge in H; try lia. rewrite Ee in H.
        change (2 ^ (1086 - 1075)) with 2048 in H.
        unfold sg in H. destruct (f_sign v =? 0) eqn:Es; lia.
      + assert (Hb2 : 2 ^ 64 <= Z.abs n) by (apply (big_value v n 64 Hv); try lia; assumption). lia. }
  destruct (f_exp v - 1023 >=? 52) eqn:E52.
  - rewrite is_normal_ge by lia.
    rewrite Z.shiftl_mul_pow2 by lia. replace (f_exp v - 1023 - 52) with (f_exp v - 1075) by lia.
    assert (Hp : 0 < 2 ^ (f_exp v - 1075) <= 2 ^ 10).
    { split; [apply Z.pow_pos_nonneg; lia|apply Z.pow_le_mono_r; lia]. }
    change (2 ^ 10) with 1024 in Hp.
    assert (Hx : 0 <= (2 ^ 52 + f_frac v) * 2 ^ (f_exp v - 1075) < 2 ^ 63) by nia.
    rewrite u64_small, s64_small by lia.
    unfold sg. destruct (f_sign v =? 0); cbn [negb].
    + rewrite Some_eq; lia.
    + rewrite Some_eq; lia.
  - rewrite m_low by lia. rewrite mid_value by lia.
    replace (52 - (f_exp v - 1023)) with (1075 - f_exp v) by lia.
    set (k := 1075 - f_exp v).
    assert (P : 0 < 2 ^ k) by (apply Z.pow_pos_nonneg; lia).
    destruct (f_frac v mod 2 ^ k =? 0) eqn:Em.
    + rewrite Z.shiftr_div_pow2 by lia.
      assert (Hx : 0 <= (2 ^ 52 + f_frac v) / 2 ^ k < 2 ^ 63).
      { split; [apply Z.div_pos; lia|]. apply Z.div_lt_upper_bound; [lia|]. nia. }
      rewrite s64_small by lia. unfold sg. destruct (f_sign v =? 0); cbn [negb].
      * rewrite Some_eq; lia.
      * rewrite Some_eq; lia.
    + split; [discriminate|]. intros [[H _] _]. lia.
Qed.

Lemma to_unsigned_ok v n : 0 <= v < 2 ^ 64 ->
  binary64_to_unsigned v = Some n <-> binary64_is v n /\ 0 <= n < 2 ^ 64.
Proof.
  intros Hv. pose proof (fields v Hv) as (Hs & He & Hf & Hdec).
  unfold binary64_to_unsigned. rewrite m_zero by assumption.
  rewrite negb_involutive.
  destruct ((f_exp v =? 0) && (f_frac v =? 0)) eqn:E0.
  { rewrite zero_integer by (assumption || lia). rewrite Some_eq; lia. }
  cbv zeta. rewrite m_neg, m_exp, m_sig by assumption.
  destruct (f_sign v =? 0) eqn:Es; cbn [negb].
  2:{ split; [discriminate|]. intros [H Hn]. exfalso.
      destruct (Z.lt_ge_cases (f_exp v) 1023) as [El|El].
      { apply (small_not_integer v n Hv) in H; [assumption|lia|lia]. }
      assert (f_exp v <> 2047) by apply H.
      destruct (Z.lt_ge_cases (f_exp v) 1075) as [El2|El2].
      - apply is_normal_lt in H; try lia. unfold sg in H. rewrite Es in H.
        pose proof (Z.pow_pos_nonneg 2 (1075 - f_exp v) ltac:(lia) ltac:(lia)). nia.
      - apply is_normal_ge in H; try lia. unfold sg in H. rewrite Es in H.
        pose proof (Z.pow_pos_nonneg 2 (f_exp v - 1075) ltac:(lia) ltac:(lia)). nia. }
  destruct ((f_exp v - 1023 <? 0) || (f_exp v - 1023 >=? 64)) eqn:Er.
  { split; [discriminate|]. intros [H Hn]. exfalso.
    destruct (f_exp v - 1023 <? 0) eqn:El.
    - apply (small_not_integer v n Hv) in H; [assumption|lia|lia].
    - assert (Hb : 2 ^ 64 <= Z.abs n) by (apply (big_value v n 64 Hv); try lia; assumption). lia. }
  destruct (f_exp v - 1023 >=? 52) eqn:E52.
  - rewrite is_normal_ge by lia.
    rewrite Z.shiftl_mul_pow2 by lia. replace (f_exp v - 1023 - 52) with (f_exp v - 1075) by lia.
    assert (Hp : 0 < 2 ^ (f_exp v - 1075) <= 2 ^ 11).
    { split; [apply Z.pow_pos_nonneg; lia|apply Z.pow_le_mono_r; lia]. }
    change (2 ^ 11) with 2048 in Hp.
    assert (Hx : 0 <= (2 ^ 52 + f_frac v) * 2 ^ (f_exp v - 1075) < 2 ^ 64) by nia.
    rewrite u64_small by lia. unfold sg. rewrite Es.
    rewrite Some_eq; lia.
  - rewrite m_low by lia. rewrite mid_value by lia.
    replace (52 - (f_exp v - 1023)) with (1075 - f_exp v) by lia.
    set (k := 1075 - f_exp v).
    assert (P : 0 < 2 ^ k) by (apply Z.pow_pos_nonneg; lia).
    destruct (f_frac v mod 2 ^ k =? 0) eqn:Em.
    + rewrite Z.shiftr_div_pow2 by lia.
      assert (Hx : 0 <= (2 ^ 52 + f_frac v) / 2 ^ k < 2 ^ 64).
      { split; [apply Z.div_pos; lia|]. apply Z.div_lt_upper_bound; [lia|]. nia. }
      unfold sg. rewrite Es.
      rewrite Some_eq; lia.
    + split; [discriminate|]. intros [[H _] _]. lia.
Qed.
