(** Proofs about src/intset.c. *)
From Verif Require Import Base IntsetModel IntsetSpec.
From Coq Require Import ZifyBool ZifyNat.
Ltac Zify.zify_post_hook ::= Z.div_mod_to_equations.

Definition word (z : Z) : Prop := 0 <= z < 2 ^ 64.

(** The invariant: enough words, all of them 64-bit. *)
Definition inv (n : Z) (s : intset) : Prop :=
  size s = n /\ zlen (data s) = (n + 63) / 64 /\ Forall word (data s).

(** Bit [e] of the block. *)
Definition bit (b : list Z) (e : Z) : bool := Z.testbit (nth (Z.to_nat (e / 64)) b 0) (e mod 64).

Lemma bits_to_longs_small n : 0 <= n <= 2 ^ 64 - 64 -> bits_to_longs n = (n + 63) / 64.
Proof. intros H. unfold bits_to_longs. rewrite u64_small by lia. f_equal. lia. Qed.

Lemma make_inv n : 0 <= n <= 2 ^ 64 - 64 -> inv n (make_intset n).
Proof.
  intros H. unfold inv, make_intset. cbn [size data]. rewrite bits_to_longs_small by assumption.
  split; [reflexivity|]. split.
  - unfold zlen. rewrite repeat_length. lia.
  - apply Forall_forall. intros x Hx. apply repeat_spec in Hx. subst. unfold word. lia.
Qed.

Lemma make_bit n e : bit (data (make_intset n)) e = false.
Proof. unfold bit, make_intset. cbn [data]. rewrite nth_repeat. apply Z.bits_0. Qed.

Lemma word_nth b i : Forall word b -> word (nth i b 0).
Proof.
  intros H. destruct (Nat.lt_ge_cases i (length b)).
  - rewrite Forall_forall in H. apply H. apply nth_In. assumption.
  - rewrite nth_overflow by assumption. unfold word. lia.
Qed.

Lemma word_testbit z : word z <-> 0 <= z /\ forall i, 64 <= i -> Z.testbit z i = false.
Proof.
  unfold word. split; intros [H1 H2]; split; try lia.
  - intros i Hi. rewrite <- (Z.mod_small z (2 ^ 64)) by lia. apply Z.mod_pow2_bits_high. lia.
  - assert (z = z mod 2 ^ 64).
    { apply Z.bits_inj'. intros i Hi. destruct (Z.lt_ge_cases i 64).
      - rewrite Z.mod_pow2_bits_low by lia. reflexivity.
      - rewrite Z.mod_pow2_bits_high by lia. apply H2. lia. }
    rewrite H. apply Z.mod_pos_bound. lia.
Qed.

Lemma shiftl_1_small k : 0 <= k < 64 -> u64 (Z.shiftl 1 k) = 2 ^ k.
Proof.
  intros Hk. rewrite Z.shiftl_1_l. apply u64_small. split; [apply Z.pow_nonneg; lia|].
  apply Z.pow_lt_mono_r; lia.
Qed.

Lemma lnot64_testbit x i : word x -> 0 <= i -> Z.testbit (lnot64 x) i = (i <? 64) && negb (Z.testbit x i).
Proof.
  intros Hx Hi.
  assert (E : lnot64 x = Z.land (Z.lnot x) (Z.ones 64)).
  { rewrite Z.land_ones by lia. unfold lnot64, Z.lnot. unfold word in Hx. lia. }
  rewrite E, Z.land_spec, Z.lnot_spec by lia.
  destruct (i <? 64) eqn:L; rewrite andb_comm.
  - rewrite Z.ones_spec_low by lia. reflexivity.
  - rewrite Z.ones_spec_high by lia. reflexivity.
Qed.

Lemma lnot64_word x : word x -> word (lnot64 x).
Proof. unfold word, lnot64. lia. Qed.

Lemma pow2_word k : 0 <= k < 64 -> word (2 ^ k).
Proof. intros. split; [apply Z.pow_nonneg; lia|]. apply Z.pow_lt_mono_r; lia. Qed.

Lemma Forall_upd b i (v : Z) : Forall word b -> word v -> Forall word (upd b i v).
Proof.
  intros Hb Hv. unfold upd. apply Forall_app. split; [apply Forall_first; assumption|].
  constructor; [assumption|]. apply Forall_skip. assumption.
Qed.

Lemma upd_bit b i v e : (i < length b)%nat -> 0 <= e ->
  bit (upd b i v) e = if e / 64 =? Z.of_nat i then Z.testbit v (e mod 64) else bit b e.
Proof.
  intros Hi He. unfold bit. destruct (e / 64 =? Z.of_nat i) eqn:E.
  - replace (Z.to_nat (e / 64)) with i by lia. rewrite nth_upd_eq by assumption. reflexivity.
  - rewrite nth_upd_neq by lia. reflexivity.
Qed.

Lemma lor_word x y : word x -> word y -> word (Z.lor x y).
Proof.
  rewrite !word_testbit. intros [H1 H2] [H3 H4]. split; [apply Z.lor_nonneg; lia|].
  intros i Hi. rewrite Z.lor_spec, H2, H4 by lia. reflexivity.
Qed.
Lemma land_word x y : word x -> word y -> word (Z.land x y).
Proof.
  rewrite !word_testbit. intros [H1 H2] [H3 H4]. split; [apply Z.land_nonneg; lia|].
  intros i Hi. rewrite Z.land_spec, H2 by lia. reflexivity.
Qed.

Lemma add_ok n s e : inv n s -> 0 <= e ->
  exists s', intset_add s e = Ok s' /\ inv n s' /\
    forall k, 0 <= k < n -> bit (data s') k = effect k (bit (data s) k) (Add e).
Proof.
  intros [Hs [Hl Hw]] He. unfold intset_add. rewrite Hs.
  destruct (e <? n) eqn:E.
  2: { exists s. split; [reflexivity|]. split; [repeat split; assumption|].
       intros k Hk. cbn [effect]. replace (e =? k) with false by lia. reflexivity. }
  assert (Hi : 0 <= e / 64 < zlen (data s)) by lia.
  rewrite rd_Ok by assumption. cbn [bind]. rewrite wr_Ok by assumption. cbn [bind].
  eexists. split; [reflexivity|]. unfold inv. cbn [size data].
  rewrite shiftl_1_small by lia.
  set (w := nth (Z.to_nat (e / 64)) (data s) 0).
  assert (Ww : word w) by (apply word_nth; assumption).
  assert (Hn : (Z.to_nat (e / 64) < length (data s))%nat) by (unfold zlen in *; lia).
  split.
  { split; [reflexivity|]. split.
    - unfold zlen in *. rewrite upd_length by assumption. exact Hl.
    - apply Forall_upd; [assumption|]. apply lor_word; [assumption|]. apply pow2_word. lia. }
  intros k Hk. rewrite upd_bit by lia. cbn [effect].
  destruct (k / 64 =? Z.of_nat (Z.to_nat (e / 64))) eqn:E2.
  - rewrite Z.lor_spec, Z.pow2_bits_eqb by lia.
    destruct (e =? k) eqn:E3.
    + replace (e mod 64 =? k mod 64) with true by lia. apply orb_true_r.
    + replace (e mod 64 =? k mod 64) with false by lia. rewrite orb_false_r.
      unfold bit, w. replace (k / 64) with (e / 64) by lia. reflexivity.
  - replace (e =? k) with false by lia. reflexivity.
Qed.

Lemma remove_ok n s e : inv n s -> 0 <= e ->
  exists s', intset_remove s e = Ok s' /\ inv n s' /\
    forall k, 0 <= k < n -> bit (data s') k = effect k (bit (data s) k) (Remove e).
Proof.
  intros [Hs [Hl Hw]] He. unfold intset_remove. rewrite Hs.
  destruct (e <? n) eqn:E.
  2: { exists s. split; [reflexivity|]. split; [repeat split; assumption|].
       intros k Hk. cbn [effect]. replace (e =? k) with false by lia. reflexivity. }
  assert (Hi : 0 <= e / 64 < zlen (data s)) by lia.
  rewrite rd_Ok by assumption. cbn [bind]. rewrite wr_Ok by assumption. cbn [bind].
  eexists. split; [reflexivity|]. unfold inv. cbn [size data].
  rewrite shiftl_1_small by lia.
  set (w := nth (Z.to_nat (e / 64)) (data s) 0).
  assert (Ww : word w) by (apply word_nth; assumption).
  assert (Wp : word (2 ^ (e mod 64))) by (apply pow2_word; lia).
  assert (Hn : (Z.to_nat (e / 64) < length (data s))%nat) by (unfold zlen in *; lia).
  split.
  { split; [reflexivity|]. split.
    - unfold zlen in *. rewrite upd_length by assumption. exact Hl.
    - apply Forall_upd; [assumption|]. apply land_word; [assumption|]. apply lnot64_word, Wp. }
  intros k Hk. rewrite upd_bit by lia. cbn [effect].
  destruct (k / 64 =? Z.of_nat (Z.to_nat (e / 64))) eqn:E2.
  - rewrite Z.land_spec, lnot64_testbit, Z.pow2_bits_eqb by (assumption || lia).
    replace (k mod 64 <? 64) with true by lia. cbn [andb].
    destruct (e =? k) eqn:E3.
    + replace (e mod 64 =? k mod 64) with true by lia. apply andb_false_r.
    + replace (e mod 64 =? k mod 64) with false by lia. cbn [negb]. rewrite andb_true_r.
      unfold bit, w. replace (k / 64) with (e / 64) by lia. reflexivity.
  - replace (e =? k) with false by lia. reflexivity.
Qed.

Lemma ones_word : word (2 ^ 64 - 1). Proof. unfold word. lia. Qed.

Lemma fill_loop_ok n : forall fuel b i,
  n < 2 ^ 32 -> zlen b = n -> 0 <= i <= n -> (Z.to_nat (n - i) < fuel)%nat ->
  Forall word b ->
  exists b', fill_loop fuel n b i = Ok b' /\ zlen b' = n /\ Forall word b' /\
    (forall k, 0 <= k < i -> nth (Z.to_nat k) b' 0 = nth (Z.to_nat k) b 0) /\
    (forall k, i <= k < n -> nth (Z.to_nat k) b' 0 = 2 ^ 64 - 1).
Proof.
  induction fuel as [|fuel IH]; intros b i Hn Hb Hi Hf Hw; [lia|]. cbn [fill_loop].
  destruct (i <? n) eqn:E.
  - rewrite wr_Ok by lia. cbn [bind]. rewrite u32_small by lia.
    assert (Hi' : (Z.to_nat i < length b)%nat) by (unfold zlen in *; lia).
    destruct (IH (upd b (Z.to_nat i) (2 ^ 64 - 1)) (i + 1)) as (b' & H1 & H2 & H3 & H4 & H5);
      try lia.
    + unfold zlen in *. rewrite upd_length by assumption. assumption.
    + apply Forall_upd; [assumption|apply ones_word].
    + exists b'. split; [exact H1|]. split; [exact H2|]. split; [exact H3|]. split.
      * intros k Hk. rewrite H4 by lia. apply nth_upd_neq; lia.
      * intros k Hk. destruct (Z.eq_dec k i) as [->|]; [|apply H5; lia].
        rewrite H4 by lia. apply nth_upd_eq. assumption.
  - exists b. split; [reflexivity|]. split; [assumption|]. split; [assumption|].
    split; [reflexivity|]. intros k Hk. lia.
Qed.

Lemma fill_ok n s : 0 <= n <= 64 * (2 ^ 32 - 1) -> inv n s ->
  exists s', intset_fill s = Ok s' /\ inv n s' /\
    forall k, 0 <= k < n -> bit (data s') k = true.
Proof.
  intros Hn [Hs [Hl Hw]]. unfold intset_fill, fill_within. rewrite Hs, bits_to_longs_small by lia.
  destruct (fill_loop_ok ((n + 63) / 64) (S (length (data s))) (data s) 0)
    as (b' & H1 & H2 & H3 & H4 & H5); try (assumption || lia).
  { unfold zlen in Hl. lia. }
  rewrite H1. cbn [bind]. eexists. split; [reflexivity|]. unfold inv. cbn [size data].
  split; [repeat split; assumption|].
  intros k Hk. unfold bit. rewrite H5 by lia. change (2 ^ 64 - 1) with (Z.ones 64).
  apply Z.ones_spec_low. lia.
Qed.

Lemma has_ok n s e : inv n s -> 0 <= e -> intset_has s e = Ok ((e <? n) && bit (data s) e).
Proof.
  intros [Hs [Hl Hw]] He. unfold intset_has. rewrite Hs.
  destruct (e <? n) eqn:E; [|reflexivity].
  rewrite rd_Ok by lia. cbn [bind]. rewrite shiftl_1_small by lia.
  f_equal. unfold bit. set (w := nth _ _ _). cbn [andb]. unfold truth.
  destruct (Z.testbit w (e mod 64)) eqn:T.
  - destruct (_ =? 0) eqn:Z0; [|reflexivity]. exfalso.
    assert (Z0' : Z.land w (2 ^ (e mod 64)) = 0) by lia.
    apply (f_equal (fun z => Z.testbit z (e mod 64))) in Z0'.
    rewrite Z.land_spec, Z.pow2_bits_eqb, Z.bits_0, Z.eqb_refl, T in Z0' by lia. discriminate.
  - replace (Z.land w (2 ^ (e mod 64))) with 0; [reflexivity|].
    symmetry. apply Z.bits_inj'. intros i Hi. rewrite Z.land_spec, Z.pow2_bits_eqb, Z.bits_0 by lia.
    destruct (e mod 64 =? i) eqn:Ei; [|apply andb_false_r].
    replace i with (e mod 64) by lia. rewrite T. reflexivity.
Qed.

Lemma step_ok n s o : 0 <= n <= 64 * (2 ^ 32 - 1) -> inv n s -> op_ok o ->
  exists s', step s o = Ok s' /\ inv n s' /\
    forall k, 0 <= k < n -> bit (data s') k = effect k (bit (data s) k) o.
Proof.
  intros Hn Hi Ho. destruct o as [e|e|]; cbn [step].
  - apply add_ok; [assumption|]. cbn in Ho. lia.
  - apply remove_ok; [assumption|]. cbn in Ho. lia.
  - apply fill_ok; assumption.
Qed.

Lemma run_ok n ops : 0 <= n <= 64 * (2 ^ 32 - 1) -> Forall op_ok ops -> forall s, inv n s ->
  exists s', run s ops = Ok s' /\ inv n s' /\
    forall k, 0 <= k < n -> bit (data s') k = fold_left (effect k) ops (bit (data s) k).
Proof.
  intros Hn. induction ops as [|o ops IH]; intros Ho s Hi.
  - exists s. split; [reflexivity|]. split; [assumption|]. reflexivity.
  - inversion_clear Ho as [|? ? Ho1 Ho2].
    destruct (step_ok n s o Hn Hi Ho1) as (s1 & E1 & I1 & B1).
    destruct (IH Ho2 s1 I1) as (s2 & E2 & I2 & B2).
    exists s2. cbn [run]. rewrite E1. cbn [bind]. split; [exact E2|]. split; [exact I2|].
    intros k Hk. cbn [fold_left]. rewrite B2, B1 by assumption. reflexivity.
Qed.

Lemma run_make n ops : 0 <= n <= 64 * (2 ^ 32 - 1) -> Forall op_ok ops ->
  exists s, run (make_intset n) ops = Ok s /\ inv n s /\
    forall k, 0 <= k -> (k <? n) && bit (data s) k = member n ops k.
Proof.
  intros Hn Ho. destruct (run_ok n ops Hn Ho (make_intset n) (make_inv n ltac:(lia))) as (s & E & I & B).
  exists s. split; [exact E|]. split; [exact I|].
  intros k Hk. unfold member. destruct (k <? n) eqn:Ek; [|reflexivity].
  rewrite B by lia. rewrite make_bit. reflexivity.
Qed.

(** ** Searching *)

Lemma ctz_pos_nonneg p : 0 <= ctz_pos p.
Proof. induction p; cbn [ctz_pos]; lia. Qed.

Lemma ctz_pos_spec p : Z.testbit (Zpos p) (ctz_pos p) = true /\
  forall i, 0 <= i < ctz_pos p -> Z.testbit (Zpos p) i = false.
Proof.
  induction p as [p IH|p IH|]; cbn [ctz_pos].
  - split; [reflexivity|]. intros i Hi. lia.
  - destruct IH as [IH1 IH2]. pose proof (ctz_pos_nonneg p).
    change (Zpos (xO p)) with (2 * Zpos p). split.
    + rewrite Z.add_1_l, Z.double_bits_succ. exact IH1.
    + intros i Hi. destruct (Z.eq_dec i 0) as [->|]; [apply Z.testbit_even_0|].
      replace i with (Z.succ (i - 1)) by lia. rewrite Z.double_bits_succ. apply IH2. lia.
  - split; [reflexivity|]. intros i Hi. lia.
Qed.

Definition pick (hit : bool) (x : Z) : Z := if negb hit then lnot64 x else x.
Lemma pick_word hit x : word x -> word (pick hit x).
Proof. destruct hit; cbn [pick negb]; [auto|apply lnot64_word]. Qed.
Lemma pick_testbit hit x i : word x -> 0 <= i < 64 ->
  Z.testbit (pick hit x) i = Bool.eqb (Z.testbit x i) hit.
Proof.
  intros Hx Hi. destruct hit; cbn [pick negb].
  - destruct (Z.testbit x i); reflexivity.
  - rewrite lnot64_testbit by (assumption || lia). replace (i <? 64) with true by lia.
    destruct (Z.testbit x i); reflexivity.
Qed.

(** The loop stops at the first non-zero word or at the end. *)
Lemma find_loop_ok n s hit : n <= 2 ^ 32 - 64 -> inv n s -> forall fuel x elem,
  0 <= elem < n -> elem mod 64 = 0 -> word x -> (Z.to_nat (n - elem) < 64 * fuel)%nat ->
  (x <> 0 /\ find_loop fuel s hit x elem = Ok (Some (x, elem))) \/
  (x = 0 /\ exists elem', elem < elem' < n /\ elem' mod 64 = 0 /\
     let x' := pick hit (nth (Z.to_nat (elem' / 64)) (data s) 0) in
     x' <> 0 /\ find_loop fuel s hit x elem = Ok (Some (x', elem')) /\
     forall e, elem + 64 <= e < elem' -> bit (data s) e <> hit) \/
  (x = 0 /\ find_loop fuel s hit x elem = Ok None /\
     forall e, elem + 64 <= e < n -> bit (data s) e <> hit).
Proof.
  intros Hn (Hs & Hl & Hw). induction fuel as [|fuel IH]; intros x elem He Hm Hx Hf; [lia|].
  cbn [find_loop]. unfold truth. destruct (x =? 0) eqn:X0; cbn [negb]; [|left; split; [lia|reflexivity]].
  right. rewrite u32_small by lia. cbv zeta. rewrite Hs.
  destruct (elem + 64 >=? n) eqn:E.
  { right. split; [lia|]. split; [reflexivity|]. intros e Hee. lia. }
  rewrite rd_Ok by lia. cbn [bind].
  set (w := nth (Z.to_nat ((elem + 64) / 64)) (data s) 0).
  assert (Ww : word w) by (apply word_nth; assumption).
  fold (pick hit w).
  assert (Z : pick hit w = 0 -> forall e, elem + 64 <= e < elem + 128 -> bit (data s) e <> hit).
  { intros P0 e Hee Hb. unfold bit in Hb. replace (e / 64) with ((elem + 64) / 64) in Hb by lia.
    fold w in Hb. pose proof (pick_testbit hit w (e mod 64) Ww ltac:(lia)) as T.
    rewrite P0, Z.bits_0, Hb in T. destruct hit; discriminate. }
  destruct (IH (pick hit w) (elem + 64)) as [[Y1 Y2]|[(Y1 & e' & Y2 & Y3 & Y4 & Y5 & Y6)|(Y1 & Y2 & Y3)]];
    try lia; try (apply pick_word; assumption).
  - left. split; [lia|]. exists (elem + 64). split; [lia|]. split; [lia|]. fold w. cbv zeta.
    split; [exact Y1|]. split; [exact Y2|]. intros e Hee. lia.
  - left. split; [lia|]. exists e'. split; [lia|]. split; [exact Y3|]. cbv zeta.
    split; [exact Y4|]. split; [exact Y5|]. intros e Hee.
    destruct (Z.lt_ge_cases e (elem + 128)); [apply Z; [exact Y1|lia]|apply Y6; lia].
  - right. split; [lia|]. split; [exact Y2|]. intros e Hee.
    destruct (Z.lt_ge_cases e (elem + 128)); [apply Z; [exact Y1|lia]|apply Y3; lia].
Qed.

Lemma high_mask_testbit r i : 0 <= r < 64 -> 0 <= i < 64 ->
  Z.testbit (u64 (Z.shiftl (2 ^ 64 - 1) r)) i = (r <=? i).
Proof.
  intros Hr Hi. unfold u64. rewrite Z.mod_pow2_bits_low by lia. rewrite Z.shiftl_spec by lia.
  change (2 ^ 64 - 1) with (Z.ones 64).
  destruct (r <=? i) eqn:E.
  - apply Z.ones_spec_low. lia.
  - apply Z.testbit_neg_r. lia.
Qed.

(** The part after the loop. *)
Lemma ctzl_ok x : word x -> x <> 0 -> exists c, ctzl x = Ok c /\ 0 <= c < 64 /\
  Z.testbit x c = true /\ forall i, 0 <= i < c -> Z.testbit x i = false.
Proof.
  intros Hx Hn. destruct x as [|p|p]; [congruence| |unfold word in Hx; lia].
  cbn [ctzl]. exists (ctz_pos p). split; [reflexivity|].
  pose proof (ctz_pos_nonneg p). destruct (ctz_pos_spec p) as [T1 T2].
  split; [|split; assumption]. split; [lia|].
  destruct (Z.lt_ge_cases (ctz_pos p) 64) as [|G]; [assumption|].
  apply word_testbit in Hx. destruct Hx as [_ Hx]. rewrite Hx in T1 by lia. discriminate.
Qed.

Lemma find_next_ok n s elem hit : n <= 2 ^ 32 - 64 -> inv n s -> 0 <= elem ->
  exists r, intset_find_next s elem hit = Ok (s32 r) /\ first_from (bit (data s)) hit elem n r.
Proof.
  intros Hn I He. pose proof I as (Hs & Hl & Hw). unfold intset_find_next, find_within. rewrite Hs.
  destruct (elem >=? n) eqn:E.
  { exists (-1). split; [reflexivity|]. right. split; [reflexivity|]. intros e Hee. lia. }
  rewrite rd_Ok by lia. cbn [bind]. cbv zeta.
  set (w := nth (Z.to_nat (elem / 64)) (data s) 0).
  assert (Ww : word w) by (apply word_nth; assumption).
  fold (pick hit w). rewrite (u32_small (elem - elem mod 64)) by lia.
  set (base := elem - elem mod 64). set (x := Z.land (pick hit w) _).
  assert (Wx : word x).
  { apply land_word; [apply pick_word; assumption|]. unfold word, u64. apply Z.mod_pos_bound. lia. }
  assert (Tx : forall i, 0 <= i < 64 ->
    Z.testbit x i = Bool.eqb (bit (data s) (base + i)) hit && (elem <=? base + i)).
  { intros i Hi. unfold x. rewrite Z.land_spec, high_mask_testbit, pick_testbit by (assumption || lia).
    unfold bit. replace ((base + i) / 64) with (elem / 64) by (unfold base; lia). fold w.
    replace ((base + i) mod 64) with i by (unfold base; lia).
    replace (elem mod 64 <=? i) with (elem <=? base + i) by (unfold base; lia). reflexivity. }
  assert (X0 : x = 0 -> forall e, elem <= e < base + 64 -> bit (data s) e <> hit).
  { intros Ex e Hee Hb. pose proof (Tx (e - base) ltac:(unfold base in *; lia)) as T.
    replace (base + (e - base)) with e in T by lia.
    rewrite Ex, Z.bits_0, Hb in T. replace (elem <=? e) with true in T by lia. destruct hit; discriminate. }
  assert (Hb : 0 <= base < n /\ base mod 64 = 0 /\ base <= elem < base + 64) by (unfold base; lia).
  clearbody x base.
  destruct (find_loop_ok n s hit Hn I (S (length (data s))) x base)
    as [[Y1 Y2]|[(Y1 & e' & Y2 & Y3 & Y4 & Y5 & Y6)|(Y1 & Y2 & Y3)]]; try (assumption || lia).
  { unfold zlen in Hl. lia. }
  - rewrite Y2. cbn [bind].
    destruct (ctzl_ok x Wx Y1) as (c & C1 & C2 & C3 & C4). rewrite C1. cbn [bind].
    rewrite u32_small by lia.
    assert (B : forall e, elem <= e < base + c -> bit (data s) e <> hit).
    { intros e Hee Hbt. pose proof (C4 (e - base) ltac:(lia)) as T.
      rewrite Tx in T by lia. replace (base + (e - base)) with e in T by lia.
      rewrite Hbt in T. replace (elem <=? e) with true in T by lia. destruct hit; discriminate. }
    rewrite Tx in C3 by lia.
    destruct (base + c >=? n) eqn:Ec.
    + exists (-1). split; [reflexivity|]. right. split; [reflexivity|]. intros e Hee. apply B. lia.
    + exists (base + c). split; [reflexivity|]. left. split; [lia|]. split.
      * destruct (bit (data s) (base + c)), hit; cbn in C3; congruence || discriminate.
      * intros e Hee. apply B. lia.
  - cbv zeta in Y4, Y5. rewrite Y5. cbn [bind].
    set (w' := nth (Z.to_nat (e' / 64)) (data s) 0) in *.
    assert (Ww' : word w') by (apply word_nth; assumption).
    destruct (ctzl_ok _ (pick_word hit w' Ww') Y4) as (c & C1 & C2 & C3 & C4). rewrite C1. cbn [bind].
    rewrite u32_small by lia.
    assert (P : forall i, 0 <= i < 64 -> Z.testbit (pick hit w') i = Bool.eqb (bit (data s) (e' + i)) hit).
    { intros i Hi. rewrite pick_testbit by assumption. unfold bit.
      replace ((e' + i) / 64) with (e' / 64) by lia. fold w'.
      replace ((e' + i) mod 64) with i by lia. reflexivity. }
    assert (B : forall e, elem <= e < e' + c -> bit (data s) e <> hit).
    { intros e Hee. destruct (Z.lt_ge_cases e (base + 64)); [apply X0; [assumption|lia]|].
      destruct (Z.lt_ge_cases e e'); [apply Y6; lia|].
      intros Hbt. pose proof (C4 (e - e') ltac:(lia)) as T. rewrite P in T by lia.
      replace (e' + (e - e')) with e in T by lia. rewrite Hbt in T. destruct hit; discriminate. }
    rewrite P in C3 by lia.
    destruct (e' + c >=? n) eqn:Ec.
    + exists (-1). split; [reflexivity|]. right. split; [reflexivity|]. intros e Hee. apply B. lia.
    + exists (e' + c). split; [reflexivity|]. left. split; [lia|]. split.
      * destruct (bit (data s) (e' + c)), hit; cbn in C3; congruence || discriminate.
      * intros e Hee. apply B. lia.
  - rewrite Y2. cbn [bind]. exists (-1). split; [reflexivity|]. right. split; [reflexivity|].
    intros e Hee. destruct (Z.lt_ge_cases e (base + 64)); [apply X0; [assumption|lia]|apply Y3; lia].
Qed.

(** ** Memory safety for every size *)

Lemma upd_zlen {A} (b : list A) i v : 0 <= i < zlen b -> zlen (upd b (Z.to_nat i) v) = zlen b.
Proof. intros H. unfold zlen in *. rewrite upd_length by lia. reflexivity. Qed.

Lemma fill_loop_safe n : forall fuel b i, zlen b = n -> 0 <= i -> Forall word b ->
  fill_loop fuel n b i = NoFuel \/
  exists b', fill_loop fuel n b i = Ok b' /\ zlen b' = n /\ Forall word b'.
Proof.
  induction fuel as [|fuel IH]; intros b i Hb Hi Hw; [left; reflexivity|]. cbn [fill_loop].
  destruct (i <? n) eqn:E; [|right; exists b; auto].
  rewrite wr_Ok by lia. cbn [bind]. apply IH.
  - rewrite upd_zlen by lia. assumption.
  - unfold u32. lia.
  - apply Forall_upd; [assumption|apply ones_word].
Qed.

Lemma step_safe n s o : 0 <= n <= 2 ^ 64 - 64 -> inv n s -> op_ok o ->
  step s o = NoFuel \/ exists s', step s o = Ok s' /\ inv n s'.
Proof.
  intros Hn I Ho. destruct o as [e|e|]; cbn [step op_ok] in *.
  - right. destruct (add_ok n s e I ltac:(lia)) as (s' & ? & ? & _). eauto.
  - right. destruct (remove_ok n s e I ltac:(lia)) as (s' & ? & ? & _). eauto.
  - unfold intset_fill, fill_within. destruct I as (Hs & Hl & Hw). rewrite Hs, bits_to_longs_small by lia.
    destruct (fill_loop_safe ((n + 63) / 64) (S (length (data s))) (data s) 0) as [->|(b & -> & ? & ?)];
      try (assumption || lia); [left; reflexivity|].
    right. eexists. split; [reflexivity|]. unfold inv. auto.
Qed.

Lemma run_safe n ops : 0 <= n <= 2 ^ 64 - 64 -> Forall op_ok ops -> forall s, inv n s ->
  run s ops = NoFuel \/ exists s', run s ops = Ok s' /\ inv n s'.
Proof.
  intros Hn. induction ops as [|o ops IH]; intros Ho s I; [right; exists s; auto|].
  inversion_clear Ho as [|? ? Ho1 Ho2]. cbn [run].
  destruct (step_safe n s o Hn I Ho1) as [->|(s1 & -> & I1)]; [left; reflexivity|].
  apply IH; assumption.
Qed.

Lemma find_loop_safe n s hit : inv n s -> forall fuel x elem, 0 <= elem -> word x ->
  match find_loop fuel s hit x elem with
  | UB | Abort => False
  | Ok (Some (x', _)) => x' <> 0 /\ word x'
  | _ => True
  end.
Proof.
  intros (Hs & Hl & Hw). induction fuel as [|fuel IH]; intros x elem He Hx; [exact I|].
  cbn [find_loop]. unfold truth. destruct (x =? 0) eqn:X0; cbn [negb]; [|split; [lia|assumption]].
  cbv zeta. rewrite Hs. destruct (_ >=? n) eqn:E; [exact I|].
  assert (0 <= u32 (elem + 64)) by (unfold u32; lia).
  rewrite rd_Ok by lia. cbn [bind]. apply IH; [assumption|].
  fold (pick hit (nth (Z.to_nat (u32 (elem + 64) / 64)) (data s) 0)).
  apply pick_word, word_nth, Hw.
Qed.

Lemma find_next_safe n s elem hit : inv n s -> 0 <= elem ->
  intset_find_next s elem hit <> UB /\ intset_find_next s elem hit <> Abort.
Proof.
  intros I He. pose proof I as (Hs & Hl & Hw). unfold intset_find_next, find_within. rewrite Hs.
  destruct (elem >=? n) eqn:E; [split; discriminate|].
  rewrite rd_Ok by lia. cbn [bind]. cbv zeta.
  set (w := nth (Z.to_nat (elem / 64)) (data s) 0). fold (pick hit w).
  set (x := Z.land (pick hit w) _).
  assert (Wx : word x).
  { apply land_word; [apply pick_word, word_nth, Hw|]. unfold word, u64. apply Z.mod_pos_bound. lia. }
  pose proof (find_loop_safe n s hit I (S (length (data s))) x (u32 (elem - elem mod 64))
                ltac:(unfold u32; lia) Wx) as S.
  destruct (find_loop _ s hit x _) as [[[x' e']|]| | |]; cbn [bind]; try (split; discriminate); try contradiction.
  destruct S as [S1 S2]. destruct (ctzl_ok x' S2 S1) as (c & -> & _). cbn [bind].
  match goal with |- context [if ?b then _ else _] => destruct b end; split; discriminate.
Qed.

(** ** The API-level statements *)

Lemma first_from_ext P Q w a n r : 0 <= a -> (forall e, 0 <= e < n -> P e = Q e) ->
  first_from P w a n r -> first_from Q w a n r.
Proof.
  intros Ha H [(H1 & H2 & H3)|(H1 & H2)]; [left|right].
  - split; [assumption|]. split; [rewrite <- H by lia; assumption|].
    intros e He. rewrite <- H by lia. apply H3. assumption.
  - split; [assumption|]. intros e He. rewrite <- H by lia. apply H2. assumption.
Qed.

Lemma first_from_range P w a n r : first_from P w a n r -> 0 <= a -> -1 <= r /\ (r < n \/ r = -1).
Proof. intros [(H & _)|(-> & _)] Ha; lia. Qed.

Lemma has_after n ops : 0 <= n <= 64 * (2 ^ 32 - 1) -> Forall op_ok ops ->
  exists s, run (make_intset n) ops = Ok s /\
    forall e, 0 <= e < 2 ^ 32 -> intset_has s e = Ok (member n ops e).
Proof.
  intros Hn Ho. destruct (run_make n ops Hn Ho) as (s & E & I & B).
  exists s. split; [exact E|]. intros e He. rewrite (has_ok n s e I) by lia. rewrite B by lia. reflexivity.
Qed.

Lemma find_after n ops : 0 <= n <= 2 ^ 32 - 64 -> Forall op_ok ops ->
  exists s, run (make_intset n) ops = Ok s /\
    forall e hit, 0 <= e < 2 ^ 32 -> exists r,
      intset_find_next s e hit = Ok (s32 r) /\ first_from (member n ops) hit e n r.
Proof.
  intros Hn Ho. destruct (run_make n ops ltac:(lia) Ho) as (s & E & I & B).
  exists s. split; [exact E|]. intros e hit He.
  destruct (find_next_ok n s e hit ltac:(lia) I ltac:(lia)) as (r & R1 & R2).
  exists r. split; [exact R1|]. apply (first_from_ext (bit (data s))); [lia| |exact R2].
  intros k Hk. rewrite <- B by lia. replace (k <? n) with true by lia. reflexivity.
Qed.

Lemma s32_small z : - 2 ^ 31 <= z < 2 ^ 31 -> s32 z = z.
Proof.
  intros H. unfold s32, sgn. change (2 ^ 32) with 4294967296. change (2 ^ (32 - 1)) with 2147483648.
  destruct (_ <? _) eqn:E; lia.
Qed.

Lemma search_after n ops : 0 <= n <= INT_MAX + 1 -> Forall op_ok ops ->
  exists s, run (make_intset n) ops = Ok s /\
    (forall e, 0 <= e < 2 ^ 32 -> exists r,
       intset_find_next_hit s e = Ok r /\ first_from (member n ops) true e n r) /\
    (forall e, 0 <= e < 2 ^ 32 -> exists r,
       intset_find_next_miss s e = Ok r /\ first_from (member n ops) false e n r) /\
    exists b, intset_empty s = Ok b /\ (b = true <-> forall e, 0 <= e -> member n ops e = false).
Proof.
  intros Hn Ho. unfold INT_MAX in Hn.
  destruct (find_after n ops ltac:(lia) Ho) as (s & E & F). exists s. split; [exact E|].
  assert (F' : forall e hit, 0 <= e < 2 ^ 32 -> exists r,
      intset_find_next s e hit = Ok r /\ first_from (member n ops) hit e n r).
  { intros e hit He. destruct (F e hit He) as (r & R1 & R2). exists r.
    pose proof (first_from_range _ _ _ _ _ R2 ltac:(lia)). rewrite s32_small in R1 by lia. auto. }
  split; [|split].
  - intros e He. apply F'. assumption.
  - intros e He. apply F'. assumption.
  - unfold intset_empty, intset_find_next_hit.
    destruct (F' 0 true ltac:(lia)) as (r & -> & R2). cbn [bind]. exists (r <? 0). split; [reflexivity|].
    destruct R2 as [(H1 & H2 & H3)|(-> & H2)].
    + split; [lia|]. intros G. rewrite G in H2 by lia. discriminate.
    + split; [|reflexivity]. intros _ e He. destruct (Z.lt_ge_cases e n).
      * specialize (H2 e ltac:(lia)). destruct (member n ops e); congruence.
      * unfold member. replace (e <? n) with false by lia. reflexivity.
Qed.

Lemma safe_after n ops : 0 <= n <= 2 ^ 64 - 64 -> Forall op_ok ops ->
  run (make_intset n) ops <> UB /\ run (make_intset n) ops <> Abort /\
  forall s, run (make_intset n) ops = Ok s -> forall e, 0 <= e < 2 ^ 32 ->
    (exists b, intset_has s e = Ok b) /\
    intset_find_next_hit s e <> UB /\ intset_find_next_miss s e <> UB /\ intset_empty s <> UB.
Proof.
  intros Hn Ho.
  destruct (run_safe n ops Hn Ho (make_intset n) (make_inv n Hn)) as [E|(s & E & I)]; rewrite E.
  { split; [discriminate|]. split; [discriminate|]. intros s Hs. discriminate. }
  split; [discriminate|]. split; [discriminate|]. intros s' Hs e He. injection Hs as <-.
  split; [eexists; apply (has_ok n s e I); lia|].
  split; [apply (find_next_safe n s e true I); lia|]. split; [apply (find_next_safe n s e false I); lia|].
  unfold intset_empty, intset_find_next_hit.
  pose proof (find_next_safe n s 0 true I ltac:(lia)) as [H1 H2].
  destruct (intset_find_next s 0 true); cbn [bind]; congruence.
Qed.

(** ** Beyond the supported sizes *)

Lemma wrap_size n e : 2 ^ 64 - 63 <= n < 2 ^ 64 -> 0 <= e < 2 ^ 32 ->
  intset_add (make_intset n) e = UB /\ intset_has (make_intset n) e = UB.
Proof.
  intros Hn He.
  assert (E : bits_to_longs n = 0) by (unfold bits_to_longs, u64; lia).
  unfold intset_add, intset_has, make_intset. cbn [size data]. rewrite E. cbn [Z.to_nat repeat].
  replace (e <? n) with true by lia. unfold rd, inb. change (zlen (@nil Z)) with 0.
  replace ((0 <=? e / 64) && (e / 64 <? 0)) with false by lia. split; reflexivity.
Qed.

Lemma negative_result n e : 2 ^ 31 <= e < n -> n <= 2 ^ 32 - 64 ->
  exists s, run (make_intset n) [Add e] = Ok s /\
    intset_find_next_hit s e = Ok (e - 2 ^ 32) /\ intset_empty s = Ok true.
Proof.
  intros He Hn.
  destruct (find_after n [Add e] ltac:(lia)) as (s & E & F).
  { constructor; [cbn; lia|constructor]. }
  assert (R : forall a, 0 <= a <= e -> intset_find_next s a true = Ok (e - 2 ^ 32)).
  { intros a Ha. destruct (F a true ltac:(lia)) as (r & R1 & R2). rewrite R1. f_equal.
    assert (r = e).
    { destruct R2 as [(H1 & H2 & H3)|(-> & H2)].
      - unfold member in H2. cbn [fold_left effect] in H2.
        destruct (e =? r) eqn:Er; [lia|]. rewrite andb_false_r in H2. discriminate.
      - exfalso. apply (H2 e); [lia|]. unfold member. cbn [fold_left effect].
        rewrite Z.eqb_refl. replace (e <? n) with true by lia. reflexivity. }
    subst r. unfold s32, sgn. change (2 ^ (32 - 1)) with 2147483648.
    rewrite Z.mod_small by lia. replace (e <? 2147483648) with false by lia. reflexivity. }
  exists s. split; [exact E|]. split; [apply R; lia|].
  unfold intset_empty, intset_find_next_hit. rewrite R by lia. cbn [bind].
  f_equal. lia.
Qed.
