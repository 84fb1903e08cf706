(** Integer sets on any platform. *)
From Verif Require Import Base IntsetModel IntsetSpec WidthModel.
From Coq Require Import ZifyBool ZifyNat.

Lemma uw_small w x : 0 <= x < 2 ^ w -> uw w x = x.
Proof. intros H. apply Z.mod_small, H. Qed.

Section Set_.
Variable lb : Z.
Hypothesis Hlb : 0 < lb.

Definition words (n : Z) : Z := (n + lb - 1) / lb.
Definition binv (n : Z) (s : intset) : Prop := size s = n /\ zlen (data s) = words n.
Definition wbit (b : list Z) (e : Z) : bool := Z.testbit (nth (Z.to_nat (e / lb)) b 0) (e mod lb).

Lemma word_in n e : 0 <= e < n -> 0 <= e / lb < words n.
Proof.
  intros H. split; [apply Z.div_pos; lia|]. unfold words. replace (n + lb - 1) with (n - 1 + 1 * lb) by lia.
  rewrite Z.div_add by lia. pose proof (Z.div_le_mono e (n - 1) lb ltac:(lia) ltac:(lia)). lia.
Qed.
Lemma mod_in e : 0 <= e mod lb < lb.
Proof. apply Z.mod_pos_bound, Hlb. Qed.
Lemma same_place e k : e / lb = k / lb -> e mod lb = k mod lb -> e = k.
Proof. intros A B. rewrite (Z.div_mod e lb), (Z.div_mod k lb) by lia. rewrite A, B. reflexivity. Qed.

Lemma one_bit k : 0 <= k < lb -> uw lb (Z.shiftl 1 k) = 2 ^ k.
Proof.
  intros H. rewrite Z.shiftl_1_l. apply uw_small. split; [apply Z.pow_nonneg; lia|]. apply Z.pow_lt_mono_r; lia.
Qed.
Lemma not_bit k i : 0 <= k < lb -> 0 <= i < lb -> Z.testbit (2 ^ lb - 1 - 2 ^ k) i = negb (k =? i).
Proof.
  intros Hk Hi. assert (P : 0 < 2 ^ k < 2 ^ lb) by (split; [apply Z.pow_pos_nonneg; lia|apply Z.pow_lt_mono_r; lia]).
  assert (E : 2 ^ lb - 1 - 2 ^ k = Z.land (Z.lnot (2 ^ k)) (Z.ones lb)).
  { rewrite Z.land_ones by lia. unfold Z.lnot. apply (Z.mod_unique_pos _ _ (-1)); lia. }
  rewrite E, Z.land_spec, Z.lnot_spec, Z.pow2_bits_eqb, Z.ones_spec_low by lia. apply andb_true_r.
Qed.

Lemma upd_wbit b e v k : 0 <= e -> 0 <= e / lb < zlen b -> 0 <= k ->
  wbit (upd b (Z.to_nat (e / lb)) v) k = if k / lb =? e / lb then Z.testbit v (k mod lb) else wbit b k.
Proof.
  intros He Hi Hk. unfold wbit. pose proof (Z.div_pos k lb Hk Hlb). destruct (k / lb =? e / lb) eqn:E.
  - apply Z.eqb_eq in E. rewrite E. rewrite nth_upd_eq by (unfold zlen in *; lia). reflexivity.
  - apply Z.eqb_neq in E. rewrite nth_upd_neq by (unfold zlen in *; lia). reflexivity.
Qed.

Lemma upd_len n (b : list Z) e v : zlen b = words n -> 0 <= e < n -> zlen (upd b (Z.to_nat (e / lb)) v) = words n.
Proof. intros H He. pose proof (word_in n e He). unfold zlen in *. rewrite upd_length by lia. exact H. Qed.

Lemma add_on_ok n s e : binv n s -> 0 <= e ->
  exists s', intset_add_on lb s e = Ok s' /\ binv n s' /\
    forall k, 0 <= k < n -> wbit (data s') k = effect k (wbit (data s) k) (Add e).
Proof.
  intros (Hs & Hl) He. unfold intset_add_on. rewrite Hs. destruct (e <? n) eqn:E.
  2:{ exists s. split; [reflexivity|]. split; [split; assumption|]. intros k Hk. cbn [effect]. replace (e =? k) with false by lia. reflexivity. }
  pose proof (word_in n e ltac:(lia)) as Hi. pose proof (mod_in e) as Hm. rewrite rd_Ok by lia. cbn [bind]. rewrite wr_Ok by lia. cbn [bind].
  eexists. split; [reflexivity|]. cbn [size data]. split; [split; [reflexivity|apply upd_len; [assumption|lia]]|].
  intros k Hk. rewrite upd_wbit by lia. rewrite one_bit by assumption. cbn [effect].
  destruct (k / lb =? e / lb) eqn:Q.
  - apply Z.eqb_eq in Q. pose proof (mod_in k). rewrite Z.lor_spec, Z.pow2_bits_eqb by lia. unfold wbit. rewrite Q.
    destruct (e =? k) eqn:K.
    + apply Z.eqb_eq in K. subst k. rewrite Z.eqb_refl. apply orb_true_r.
    + apply Z.eqb_neq in K. replace (e mod lb =? k mod lb) with false.
      * apply orb_false_r.
      * symmetry. apply Z.eqb_neq. intros M. apply K, same_place; [symmetry; exact Q|exact M].
  - apply Z.eqb_neq in Q. replace (e =? k) with false; [reflexivity|]. symmetry. apply Z.eqb_neq. intros ->. apply Q. reflexivity.
Qed.

Lemma remove_on_ok n s e : binv n s -> 0 <= e ->
  exists s', intset_remove_on lb s e = Ok s' /\ binv n s' /\
    forall k, 0 <= k < n -> wbit (data s') k = effect k (wbit (data s) k) (Remove e).
Proof.
  intros (Hs & Hl) He. unfold intset_remove_on. rewrite Hs. destruct (e <? n) eqn:E.
  2:{ exists s. split; [reflexivity|]. split; [split; assumption|]. intros k Hk. cbn [effect]. replace (e =? k) with false by lia. reflexivity. }
  pose proof (word_in n e ltac:(lia)) as Hi. pose proof (mod_in e) as Hm. rewrite rd_Ok by lia. cbn [bind]. rewrite wr_Ok by lia. cbn [bind].
  eexists. split; [reflexivity|]. cbn [size data]. split; [split; [reflexivity|apply upd_len; [assumption|lia]]|].
  intros k Hk. rewrite upd_wbit by lia. rewrite one_bit by assumption. cbn [effect].
  destruct (k / lb =? e / lb) eqn:Q.
  - apply Z.eqb_eq in Q. pose proof (mod_in k). rewrite Z.land_spec, not_bit by assumption. unfold wbit. rewrite Q.
    destruct (e =? k) eqn:K.
    + apply Z.eqb_eq in K. subst k. rewrite Z.eqb_refl. apply andb_false_r.
    + apply Z.eqb_neq in K. replace (e mod lb =? k mod lb) with false.
      * apply andb_true_r.
      * symmetry. apply Z.eqb_neq. intros M. apply K, same_place; [symmetry; exact Q|exact M].
  - apply Z.eqb_neq in Q. replace (e =? k) with false; [reflexivity|]. symmetry. apply Z.eqb_neq. intros ->. apply Q. reflexivity.
Qed.

Lemma fill_loop_on_ok n : forall fuel b i, n < 2 ^ 32 -> zlen b = n -> 0 <= i <= n -> (Z.to_nat (n - i) < fuel)%nat ->
  exists b', fill_loop_on lb fuel n b i = Ok b' /\ zlen b' = n /\
    (forall k, 0 <= k < i -> nth (Z.to_nat k) b' 0 = nth (Z.to_nat k) b 0) /\
    (forall k, i <= k < n -> nth (Z.to_nat k) b' 0 = 2 ^ lb - 1).
Proof.
  induction fuel as [|fuel IH]; intros b i Hn Hb Hi Hf; [lia|]. cbn [fill_loop_on]. destruct (i <? n) eqn:E.
  - rewrite wr_Ok by lia. cbn [bind]. rewrite u32_small by lia.
    assert (Hi' : (Z.to_nat i < length b)%nat) by (unfold zlen in *; lia).
    destruct (IH (upd b (Z.to_nat i) (2 ^ lb - 1)) (i + 1)) as (b' & H1 & H2 & H4 & H5); try lia.
    + unfold zlen in *. rewrite upd_length by assumption. assumption.
    + exists b'. split; [exact H1|]. split; [exact H2|]. split.
      * intros k Hk. rewrite H4 by lia. apply nth_upd_neq; lia.
      * intros k Hk. destruct (Z.eq_dec k i) as [->|]; [|apply H5; lia].
        rewrite H4 by lia. apply nth_upd_eq. assumption.
  - exists b. split; [reflexivity|]. split; [assumption|]. split; [reflexivity|]. intros k Hk. lia.
Qed.

Variable w : Z.

Lemma longs_on n : 0 <= n -> n + lb - 1 < 2 ^ w -> bits_to_longs_on w lb n = words n.
Proof. intros H0 H. unfold bits_to_longs_on. rewrite uw_small by lia. reflexivity. Qed.

Lemma fill_on_ok n s : 0 <= n -> n + lb - 1 < 2 ^ w -> words n < 2 ^ 32 -> binv n s ->
  exists s', intset_fill_on w lb s = Ok s' /\ binv n s' /\ forall k, 0 <= k < n -> wbit (data s') k = true.
Proof.
  intros H0 H Hw (Hs & Hl). unfold intset_fill_on. rewrite Hs, longs_on by assumption.
  destruct (fill_loop_on_ok (words n) (S (length (data s))) (data s) 0) as (b' & E & L & _ & F).
  - assumption.
  - assumption.
  - pose proof (zlen_nonneg (data s)). lia.
  - unfold zlen in Hl. lia.
  - rewrite E. cbn [bind]. eexists. split; [reflexivity|]. split; [split; [reflexivity|exact L]|].
    intros k Hk. cbn [data]. unfold wbit. pose proof (word_in n k Hk). rewrite F by assumption.
    replace (2 ^ lb - 1) with (Z.ones lb) by (rewrite Z.ones_equiv; lia). apply Z.ones_spec_low, mod_in.
Qed.

Lemma has_on_ok n s e : binv n s -> 0 <= e -> intset_has_on lb s e = Ok ((e <? n) && wbit (data s) e).
Proof.
  intros (Hs & Hl) He. unfold intset_has_on. rewrite Hs. destruct (e <? n) eqn:E; [|reflexivity].
  pose proof (word_in n e ltac:(lia)) as Hi. pose proof (mod_in e) as Hm.
  rewrite rd_Ok by lia. cbn [bind]. rewrite one_bit by assumption.
  f_equal. unfold wbit. set (v := nth _ _ _). cbn [andb]. unfold truth.
  destruct (Z.testbit v (e mod lb)) eqn:T.
  - destruct (_ =? 0) eqn:Z0; [|reflexivity]. exfalso.
    assert (Z0' : Z.land v (2 ^ (e mod lb)) = 0) by lia.
    apply (f_equal (fun z => Z.testbit z (e mod lb))) in Z0'.
    rewrite Z.land_spec, Z.pow2_bits_eqb, Z.bits_0, Z.eqb_refl, T in Z0' by lia. discriminate.
  - replace (Z.land v (2 ^ (e mod lb))) with 0; [reflexivity|].
    symmetry. apply Z.bits_inj'. intros i Hi'. rewrite Z.land_spec, Z.pow2_bits_eqb, Z.bits_0 by lia.
    destruct (e mod lb =? i) eqn:Ei; [|apply andb_false_r].
    replace i with (e mod lb) by lia. rewrite T. reflexivity.
Qed.

Lemma step_on_ok n s o : 0 <= n -> n + lb - 1 < 2 ^ w -> words n < 2 ^ 32 -> binv n s -> op_ok o ->
  exists s', step_on w lb s o = Ok s' /\ binv n s' /\ forall k, 0 <= k < n -> wbit (data s') k = effect k (wbit (data s) k) o.
Proof.
  intros H0 H1 H2 Hi Ho. destruct o as [e|e|]; cbn [step_on].
  - apply add_on_ok; [assumption|]. cbn in Ho. lia.
  - apply remove_on_ok; [assumption|]. cbn in Ho. lia.
  - apply fill_on_ok; assumption.
Qed.

Lemma run_on_ok n ops : 0 <= n -> n + lb - 1 < 2 ^ w -> words n < 2 ^ 32 -> Forall op_ok ops -> forall s, binv n s ->
  exists s', run_on w lb s ops = Ok s' /\ binv n s' /\ forall k, 0 <= k < n -> wbit (data s') k = fold_left (effect k) ops (wbit (data s) k).
Proof.
  intros H0 H1 H2. induction ops as [|o ops IH]; intros Ho s Hi.
  - exists s. split; [reflexivity|]. split; [assumption|]. reflexivity.
  - inversion_clear Ho as [|? ? Ho1 Ho2]. destruct (step_on_ok n s o H0 H1 H2 Hi Ho1) as (s1 & E1 & I1 & B1).
    destruct (IH Ho2 s1 I1) as (s2 & E2 & I2 & B2). exists s2. cbn [run_on]. rewrite E1. cbn [bind]. split; [exact E2|]. split; [exact I2|].
    intros k Hk. cbn [fold_left]. rewrite B2, B1 by assumption. reflexivity.
Qed.

Lemma set_on n ops : 0 <= n -> n + lb - 1 < 2 ^ w -> n <= lb * (2 ^ 32 - 1) -> Forall op_ok ops ->
  exists s, run_on w lb (make_intset_on w lb n) ops = Ok s /\ forall e, 0 <= e < 2 ^ 32 -> intset_has_on lb s e = Ok (member n ops e).
Proof.
  intros H0 H1 H2 Ho.
  assert (Hw : words n < 2 ^ 32).
  { unfold words. apply Z.div_lt_upper_bound; [exact Hlb|]. lia. }
  assert (I : binv n (make_intset_on w lb n)).
  { unfold binv, make_intset_on. cbn [size data]. rewrite longs_on by assumption. split; [reflexivity|].
    unfold zlen. rewrite repeat_length. rewrite Z2Nat.id; [reflexivity|]. unfold words. apply Z.div_pos; lia. }
  destruct (run_on_ok n ops H0 H1 Hw Ho _ I) as (s & E & I' & B). exists s. split; [exact E|]. intros e He.
  rewrite (has_on_ok n) by (assumption || lia). unfold member. destruct (e <? n) eqn:L; [|reflexivity]. rewrite B by lia.
  do 3 f_equal. unfold wbit, make_intset_on. cbn [data]. rewrite nth_repeat. apply Z.bits_0.
Qed.

(** Sizes in the last word: the count is 0. *)
Lemma no_words n : n < 2 ^ w -> 2 ^ w <= n + lb - 1 -> lb <= 2 ^ w -> data (make_intset_on w lb n) = [].
Proof.
  intros H1 H2 H3. unfold make_intset_on, bits_to_longs_on, uw. cbn [data].
  replace ((n + lb - 1) mod 2 ^ w) with (n + lb - 1 - 2 ^ w).
  - rewrite Z.div_small by lia. reflexivity.
  - apply (Z.mod_unique_pos _ _ 1); lia.
Qed.

Lemma no_room n e : n < 2 ^ w -> 2 ^ w <= n + lb - 1 -> lb <= 2 ^ w -> 0 <= e < n ->
  intset_add_on lb (make_intset_on w lb n) e = UB /\ intset_remove_on lb (make_intset_on w lb n) e = UB /\
  intset_has_on lb (make_intset_on w lb n) e = UB.
Proof.
  intros H1 H2 H3 He. unfold intset_add_on, intset_remove_on, intset_has_on. rewrite no_words by assumption.
  cbn [make_intset_on size]. replace (e <? n) with true by lia. unfold rd, inb. change (zlen (@nil Z)) with 0.
  replace ((0 <=? e / lb) && (e / lb <? 0)) with false by lia. auto.
Qed.
End Set_.
