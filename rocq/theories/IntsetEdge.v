(** Sizes above 2^32 - 64: the 32-bit position of the search wraps. *)
From Verif Require Import Base IntsetModel IntsetSpec IntsetProofs.
From Coq Require Import ZifyBool ZifyNat.
Ltac Zify.zify_post_hook ::= Z.div_mod_to_equations.

(** ** The loops that never end *)

Lemma fill_loop_endless n : 2 ^ 32 <= n -> forall fuel b i, zlen b = n -> 0 <= i < 2 ^ 32 ->
  fill_loop fuel n b i = NoFuel.
Proof.
  intros Hn. induction fuel as [|fuel IH]; intros b i Hb Hi; [reflexivity|]. cbn [fill_loop].
  replace (i <? n) with true by lia. rewrite wr_Ok by lia. cbn [bind]. apply IH.
  - rewrite upd_zlen by lia. assumption.
  - unfold u32. lia.
Qed.

Lemma fill_endless n s : 64 * (2 ^ 32 - 1) < n <= 2 ^ 64 - 64 -> inv n s ->
  forall fuel, fill_within fuel s = NoFuel.
Proof.
  intros Hn (Hs & Hl & Hw) fuel. unfold fill_within. rewrite Hs, bits_to_longs_small by lia.
  rewrite (fill_loop_endless ((n + 63) / 64)) by lia. reflexivity.
Qed.

Definition wd (s : intset) (q : Z) : Z := nth (Z.to_nat q) (data s) 0.

Lemma step_around n s hit fuel k : 2 ^ 32 - 64 < n -> inv n s -> 0 <= k < 2 ^ 26 ->
  find_loop (S fuel) s hit 0 (64 * k) =
  find_loop fuel s hit (pick hit (wd s ((k + 1) mod 2 ^ 26))) (64 * ((k + 1) mod 2 ^ 26)).
Proof.
  intros Hn (Hs & Hl & Hw) Hk. cbn [find_loop]. unfold truth. cbn [Z.eqb negb]. cbv zeta.
  replace (u32 (64 * k + 64)) with (64 * ((k + 1) mod 2 ^ 26)) by (unfold u32; lia).
  rewrite Hs. replace (_ >=? n) with false by lia.
  rewrite rd_Ok by lia. cbn [bind]. unfold pick, wd.
  replace (64 * ((k + 1) mod 2 ^ 26) / 64) with ((k + 1) mod 2 ^ 26) by lia. reflexivity.
Qed.

Lemma find_loop_endless n s hit : 2 ^ 32 - 64 < n -> inv n s ->
  (forall q, 0 <= q < 2 ^ 26 -> pick hit (wd s q) = 0) ->
  forall fuel k, 0 <= k < 2 ^ 26 -> find_loop fuel s hit 0 (64 * k) = NoFuel.
Proof.
  intros Hn I H. induction fuel as [|fuel IH]; intros k Hk; [reflexivity|].
  rewrite (step_around n) by assumption. rewrite H by lia. apply IH. lia.
Qed.

(** The loop stops at the first word with a hit, going round. *)
Lemma find_loop_around n s hit : 2 ^ 32 - 64 < n -> inv n s -> forall j fuel k,
  0 <= k < 2 ^ 26 -> (S j < fuel)%nat ->
  (forall i, 1 <= i <= Z.of_nat j -> pick hit (wd s ((k + i) mod 2 ^ 26)) = 0) ->
  pick hit (wd s ((k + Z.of_nat j + 1) mod 2 ^ 26)) <> 0 ->
  find_loop fuel s hit 0 (64 * k) =
  Ok (Some (pick hit (wd s ((k + Z.of_nat j + 1) mod 2 ^ 26)), 64 * ((k + Z.of_nat j + 1) mod 2 ^ 26))).
Proof.
  intros Hn I. induction j as [|j IH]; intros fuel k Hk Hf H0 H1;
    (destruct fuel as [|fuel]; [lia|]); rewrite (step_around n) by assumption.
  - replace (k + Z.of_nat 0 + 1) with (k + 1) in * by lia.
    destruct fuel as [|fuel]; [lia|]. cbn [find_loop]. unfold truth.
    destruct (_ =? 0) eqn:E; [lia|]. reflexivity.
  - rewrite (H0 1) by lia. rewrite IH; try lia.
    + replace (((k + 1) mod 2 ^ 26 + Z.of_nat j + 1) mod 2 ^ 26)
        with ((k + Z.of_nat (S j) + 1) mod 2 ^ 26) by lia. reflexivity.
    + intros i Hi. replace (((k + 1) mod 2 ^ 26 + i) mod 2 ^ 26) with ((k + (i + 1)) mod 2 ^ 26) by lia.
      apply H0. lia.
    + replace (((k + 1) mod 2 ^ 26 + Z.of_nat j + 1) mod 2 ^ 26)
        with ((k + Z.of_nat (S j) + 1) mod 2 ^ 26) by lia. exact H1.
Qed.

(** ** Words and bits *)

Lemma pick_bit s hit q i : Forall word (data s) -> 0 <= i < 64 ->
  Z.testbit (pick hit (wd s q)) i = Bool.eqb (bit (data s) (64 * q + i)) hit.
Proof.
  intros Hw Hi. rewrite pick_testbit by (assumption || apply word_nth, Hw). unfold bit, wd.
  replace ((64 * q + i) / 64) with q by lia. replace ((64 * q + i) mod 64) with i by lia. reflexivity.
Qed.

Lemma miss_eqb b hit : b <> hit -> Bool.eqb b hit = false.
Proof. destruct b, hit; congruence || reflexivity. Qed.

Lemma word_zero x : word x -> (forall i, 0 <= i < 64 -> Z.testbit x i = false) -> x = 0.
Proof.
  intros Hx H. apply Z.bits_inj'. intros i Hi. rewrite Z.bits_0.
  destruct (Z.lt_ge_cases i 64); [apply H; lia|]. apply word_testbit in Hx. apply Hx. assumption.
Qed.

Lemma pick_zero s hit q : Forall word (data s) ->
  (forall e, 64 * q <= e < 64 * q + 64 -> bit (data s) e <> hit) -> pick hit (wd s q) = 0.
Proof.
  intros Hw H. apply word_zero; [apply pick_word, word_nth, Hw|].
  intros i Hi. rewrite pick_bit by assumption. apply miss_eqb, H. lia.
Qed.

Lemma ctzl_first x c : word x -> 0 <= c < 64 -> Z.testbit x c = true ->
  (forall i, 0 <= i < c -> Z.testbit x i = false) -> x <> 0 /\ ctzl x = Ok c.
Proof.
  intros Hx Hc T1 T2. assert (N : x <> 0) by (intros ->; rewrite Z.bits_0 in T1; discriminate).
  split; [exact N|]. destruct (ctzl_ok x Hx N) as (c' & C1 & C2 & C3 & C4). rewrite C1.
  destruct (Z.lt_trichotomy c' c) as [L|[->|L]]; [|reflexivity|].
  - rewrite T2 in C3 by lia. discriminate.
  - rewrite C4 in T1 by lia. discriminate.
Qed.

(** ** The search *)

(** The word the search starts with: the hits of word [elem / 64] from [elem] on. *)
Definition first_word (s : intset) (hit : bool) (elem : Z) : Z :=
  Z.land (pick hit (wd s (elem / 64))) (u64 (Z.shiftl (2 ^ 64 - 1) (elem mod 64))).

Lemma first_word_word s hit elem : Forall word (data s) -> word (first_word s hit elem).
Proof.
  intros Hw. apply land_word; [apply pick_word, word_nth, Hw|]. unfold word, u64. apply Z.mod_pos_bound. lia.
Qed.

Lemma first_word_bit s hit elem i : Forall word (data s) -> 0 <= i < 64 ->
  Z.testbit (first_word s hit elem) i =
  Bool.eqb (bit (data s) (64 * (elem / 64) + i)) hit && (elem <=? 64 * (elem / 64) + i).
Proof.
  intros Hw Hi. unfold first_word. rewrite Z.land_spec, high_mask_testbit, pick_bit by (assumption || lia).
  f_equal. lia.
Qed.

Lemma find_within_eq n s elem hit fuel : 2 ^ 32 - 64 < n -> inv n s -> 0 <= elem < n -> elem < 2 ^ 32 ->
  find_within fuel s elem hit =
  (o <- find_loop fuel s hit (first_word s hit elem) (64 * (elem / 64)) ;;
   match o with
   | None => Ok (-1)
   | Some (x, elem) =>
       c <- ctzl x ;;
       let elem := u32 (elem + c) in
       if elem >=? n then Ok (-1) else Ok (s32 elem)
   end).
Proof.
  intros Hn (Hs & Hl & Hw) H1 H2. unfold find_within. rewrite Hs. replace (elem >=? n) with false by lia.
  rewrite rd_Ok by lia. cbn [bind]. cbv zeta.
  replace (u32 (elem - elem mod 64)) with (64 * (elem / 64)) by (unfold u32; lia). reflexivity.
Qed.

Lemma search_endless n s elem hit : 2 ^ 32 - 64 < n -> inv n s -> 0 <= elem < n -> elem < 2 ^ 32 ->
  (forall e, 0 <= e < 2 ^ 32 -> bit (data s) e <> hit) ->
  forall fuel, find_within fuel s elem hit = NoFuel.
Proof.
  intros Hn I H1 H2 H fuel. pose proof I as (Hs & Hl & Hw). rewrite (find_within_eq n) by assumption.
  replace (first_word s hit elem) with 0.
  - rewrite (find_loop_endless n s hit Hn I); [reflexivity| |lia].
    intros q Hq. apply pick_zero; [assumption|]. intros e He. apply H. lia.
  - symmetry. apply word_zero; [apply first_word_word, Hw|]. intros i Hi.
    rewrite first_word_bit by assumption. specialize (H (64 * (elem / 64) + i) ltac:(lia)).
    rewrite miss_eqb by exact H. reflexivity.
Qed.

(** Nothing from [elem] on and then nothing from 0 to [r]. *)
Definition before (elem r e : Z) : Prop :=
  if elem <=? r then elem <= e < r else elem <= e < 2 ^ 32 \/ 0 <= e < r.

Lemma search_around n s elem hit r : 2 ^ 32 - 64 < n -> inv n s -> 0 <= elem < n -> elem < 2 ^ 32 ->
  0 <= r < 2 ^ 32 -> bit (data s) r = hit ->
  (forall e, before elem r e -> bit (data s) e <> hit) ->
  intset_find_next s elem hit = Ok (reported n r).
Proof.
  intros Hn I H1 H2 Hr B N. pose proof I as (Hs & Hl & Hw).
  unfold intset_find_next. rewrite (find_within_eq n) by assumption. unfold before in N.
  assert (E : forall x, word x -> Z.testbit x (r mod 64) = true ->
    (forall i, 0 <= i < r mod 64 -> Z.testbit x i = false) -> x <> 0 /\
    (c <- ctzl x ;; let elem := u32 (64 * (r / 64) + c) in
     if elem >=? n then Ok (-1) else Ok (s32 elem)) = Ok (reported n r)).
  { intros x Hx T1 T2. destruct (ctzl_first x (r mod 64) Hx ltac:(lia) T1 T2) as [X0 ->].
    split; [exact X0|]. cbn [bind]. replace (u32 (64 * (r / 64) + r mod 64)) with r by (unfold u32; lia).
    cbv zeta. unfold reported. destruct (r <? n) eqn:E1.
    - replace (r >=? n) with false by lia. reflexivity.
    - replace (r >=? n) with true by lia. reflexivity. }
  destruct ((elem <=? r) && (r / 64 =? elem / 64)) eqn:C.
  - (* a hit in the first word *)
    assert (Er : r / 64 = elem / 64 /\ elem <= r) by lia. replace (elem <=? r) with true in N by lia.
    destruct (E (first_word s hit elem)) as [X0 X1].
    + apply first_word_word, Hw.
    + rewrite first_word_bit by (assumption || lia).
      replace (64 * (elem / 64) + r mod 64) with r by lia. rewrite B.
      replace (elem <=? r) with true by lia. destruct hit; reflexivity.
    + intros i Hi. rewrite first_word_bit by (assumption || lia).
      destruct (elem <=? 64 * (elem / 64) + i) eqn:L; [|apply andb_false_r].
      rewrite miss_eqb by (apply N; lia). reflexivity.
    + cbn [find_loop]. unfold truth. destruct (_ =? 0) eqn:Z0; [lia|]. cbn [negb bind].
      replace (elem / 64) with (r / 64) by lia. exact X1.
  - replace (first_word s hit elem) with 0.
    2:{ symmetry. apply word_zero; [apply first_word_word, Hw|]. intros i Hi.
        rewrite first_word_bit by assumption.
        destruct (elem <=? 64 * (elem / 64) + i) eqn:L; [|apply andb_false_r].
        assert (NN : bit (data s) (64 * (elem / 64) + i) <> hit)
          by (apply N; destruct (elem <=? r) eqn:Q; lia).
        rewrite (miss_eqb _ _ NN). reflexivity. }
    set (j := Z.to_nat ((r / 64 - elem / 64 - 1) mod 2 ^ 26)).
    assert (J : (elem / 64 + Z.of_nat j + 1) mod 2 ^ 26 = r / 64) by (unfold j; lia).
    destruct (E (pick hit (wd s (r / 64)))) as [X0 X1].
    + apply pick_word, word_nth, Hw.
    + rewrite pick_bit by (assumption || lia). replace (64 * (r / 64) + r mod 64) with r by lia.
      rewrite B. destruct hit; reflexivity.
    + intros i Hi. rewrite pick_bit by (assumption || lia).
      assert (NN : bit (data s) (64 * (r / 64) + i) <> hit)
        by (apply N; destruct (elem <=? r) eqn:Q; lia).
      exact (miss_eqb _ _ NN).
    + rewrite (find_loop_around n s hit Hn I j); rewrite ?J; try assumption; try lia.
      * unfold zlen in Hl. unfold j. lia.
      * intros i Hi. apply pick_zero; [assumption|]. intros e He. apply N.
        unfold j in Hi. destruct (elem <=? r) eqn:Q; lia.
Qed.

(** ** The bits beyond the size *)

Lemma add_pad n s e s' : inv n s -> 0 <= e -> 0 <= n -> intset_add s e = Ok s' ->
  forall k, n <= k -> bit (data s') k = bit (data s) k.
Proof.
  intros [Hs [Hl Hw]] He Hn. unfold intset_add. rewrite Hs.
  destruct (e <? n) eqn:E; [|intros [= <-]; reflexivity].
  assert (Hi : 0 <= e / 64 < zlen (data s)) by lia.
  rewrite rd_Ok by assumption. cbn [bind]. rewrite wr_Ok by assumption. cbn [bind].
  intros [= <-] k Hk. cbn [data]. rewrite upd_bit by (unfold zlen in *; lia).
  rewrite shiftl_1_small by lia.
  destruct (k / 64 =? Z.of_nat (Z.to_nat (e / 64))) eqn:E2; [|reflexivity].
  rewrite Z.lor_spec, Z.pow2_bits_eqb by lia. replace (e mod 64 =? k mod 64) with false by lia.
  rewrite orb_false_r. unfold bit. replace (k / 64) with (e / 64) by lia. reflexivity.
Qed.

Lemma remove_pad n s e s' : inv n s -> 0 <= e -> 0 <= n -> intset_remove s e = Ok s' ->
  forall k, n <= k -> bit (data s') k = bit (data s) k.
Proof.
  intros [Hs [Hl Hw]] He Hn. unfold intset_remove. rewrite Hs.
  destruct (e <? n) eqn:E; [|intros [= <-]; reflexivity].
  assert (Hi : 0 <= e / 64 < zlen (data s)) by lia.
  rewrite rd_Ok by assumption. cbn [bind]. rewrite wr_Ok by assumption. cbn [bind].
  intros [= <-] k Hk. cbn [data]. rewrite upd_bit by (unfold zlen in *; lia).
  rewrite shiftl_1_small by lia.
  destruct (k / 64 =? Z.of_nat (Z.to_nat (e / 64))) eqn:E2; [|reflexivity].
  rewrite Z.land_spec, lnot64_testbit, Z.pow2_bits_eqb by (lia || (apply pow2_word; lia)).
  replace (e mod 64 =? k mod 64) with false by lia. replace (k mod 64 <? 64) with true by lia.
  cbn [negb andb]. rewrite andb_true_r. unfold bit. replace (k / 64) with (e / 64) by lia. reflexivity.
Qed.

Lemma fill_pad n s s' : 0 <= n <= 64 * (2 ^ 32 - 1) -> inv n s -> intset_fill s = Ok s' ->
  forall k, 0 <= k < 64 * ((n + 63) / 64) -> bit (data s') k = true.
Proof.
  intros Hn [Hs [Hl Hw]]. unfold intset_fill, fill_within. rewrite Hs, bits_to_longs_small by lia.
  destruct (fill_loop_ok ((n + 63) / 64) (S (length (data s))) (data s) 0)
    as (b' & H1 & H2 & H3 & H4 & H5); try (assumption || lia).
  { unfold zlen in Hl. lia. }
  rewrite H1. cbn [bind]. intros [= <-] k Hk. cbn [data].
  unfold bit. rewrite H5 by lia. change (2 ^ 64 - 1) with (Z.ones 64).
  apply Z.ones_spec_low. lia.
Qed.

Lemma run_pad n ops : 0 <= n <= 64 * (2 ^ 32 - 1) -> Forall op_ok ops -> forall s s', inv n s ->
  run s ops = Ok s' -> forall k, n <= k < 64 * ((n + 63) / 64) ->
  bit (data s') k = existsb is_fill ops || bit (data s) k.
Proof.
  intros Hn. induction ops as [|o ops IH]; intros Ho s s' Hi R k Hk; [inversion R; reflexivity|].
  inversion_clear Ho as [|? ? Ho1 Ho2]. cbn [run] in R.
  destruct (step_ok n s o Hn Hi Ho1) as (s1 & E1 & I1 & _). rewrite E1 in R. cbn [bind] in R.
  rewrite (IH Ho2 s1 s' I1 R k Hk). cbn [existsb].
  destruct o as [e|e|]; cbn [step op_ok is_fill orb] in *.
  - rewrite (add_pad n s e s1 Hi) by (assumption || lia). reflexivity.
  - rewrite (remove_pad n s e s1 Hi) by (assumption || lia). reflexivity.
  - rewrite (fill_pad n s s1 Hn Hi E1) by lia. apply orb_true_r.
Qed.

Lemma run_held n ops : 2 ^ 32 - 64 < n <= 64 * (2 ^ 32 - 1) -> Forall op_ok ops ->
  exists s, run (make_intset n) ops = Ok s /\ inv n s /\
    forall k, 0 <= k < 2 ^ 32 -> bit (data s) k = held n ops k.
Proof.
  intros Hn Ho. destruct (run_make n ops ltac:(lia) Ho) as (s & E & I & B).
  exists s. split; [exact E|]. split; [exact I|]. intros k Hk. unfold held.
  destruct (k <? n) eqn:L.
  - rewrite <- B by lia. rewrite L. reflexivity.
  - rewrite (run_pad n ops ltac:(lia) Ho _ _ (make_inv n ltac:(lia)) E) by lia.
    rewrite make_bit. apply orb_false_r.
Qed.

(** ** The API-level statements *)

Lemma endless_after n : 2 ^ 32 - 64 < n <= 2 ^ 64 - 64 ->
  (forall e fuel, 0 <= e < 2 ^ 32 -> e < n -> find_within fuel (make_intset n) e true = NoFuel) /\
  intset_empty (make_intset n) = NoFuel.
Proof.
  intros Hn.
  assert (H : forall e fuel, 0 <= e < 2 ^ 32 -> e < n -> find_within fuel (make_intset n) e true = NoFuel).
  { intros e fuel He H. apply (search_endless n); try lia; [apply make_inv; lia|].
    intros k Hk. rewrite make_bit. discriminate. }
  split; [exact H|]. unfold intset_empty, intset_find_next_hit, intset_find_next.
  rewrite H by lia. reflexivity.
Qed.

Lemma fill_endless_after n ops s fuel : 64 * (2 ^ 32 - 1) < n <= 2 ^ 64 - 64 -> Forall op_ok ops ->
  run (make_intset n) ops = Ok s -> fill_within fuel s = NoFuel.
Proof.
  intros Hn Ho R. destruct (run_safe n ops ltac:(lia) Ho _ (make_inv n ltac:(lia))) as [E|(s' & E & I)];
    rewrite E in R; inversion R; subst. apply (fill_endless n); assumption.
Qed.

Lemma around_after n ops : 2 ^ 32 - 64 < n <= 64 * (2 ^ 32 - 1) -> Forall op_ok ops ->
  exists s, run (make_intset n) ops = Ok s /\
    forall e hit, 0 <= e < 2 ^ 32 -> e < n ->
      (forall r, first_from (held n ops) hit e (2 ^ 32) r -> 0 <= r ->
         intset_find_next s e hit = Ok (reported n r)) /\
      (forall r, first_from (held n ops) hit e (2 ^ 32) (-1) ->
         first_from (held n ops) hit 0 e r -> 0 <= r ->
         intset_find_next s e hit = Ok (reported n r)) /\
      ((forall k, 0 <= k < 2 ^ 32 -> held n ops k <> hit) ->
         forall fuel, find_within fuel s e hit = NoFuel).
Proof.
  intros Hn Ho. destruct (run_held n ops Hn Ho) as (s & E & I & B). exists s. split; [exact E|].
  intros e hit He L. split; [|split].
  - intros r [(R1 & R2 & R3)|(R1 & _)] Hr; [|lia].
    apply search_around; try lia; [assumption|rewrite B by lia; assumption|].
    intros k Hk. unfold before in Hk. replace (e <=? r) with true in Hk by lia.
    rewrite B by lia. apply R3. assumption.
  - intros r [(N1 & _)|(_ & N1)] [(R1 & R2 & R3)|(R1 & _)] Hr; try lia.
    apply search_around; try lia; [assumption|rewrite B by lia; assumption|].
    intros k Hk. unfold before in Hk. replace (e <=? r) with false in Hk by lia.
    rewrite B by lia. destruct Hk; [apply N1|apply R3]; assumption.
  - intros N fuel. apply (search_endless n); try lia; [assumption|].
    intros k Hk. rewrite B by lia. apply N. assumption.
Qed.
