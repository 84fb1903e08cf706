(** Property C126: evenly spaced hash values spread over the slots of a table
    (src/hashtable.c). *)
From Verif Require Import Base Heap ListModel ListSpec ListProofs HashModel HashSpec HashProofs HashProps HashCostModel HashCost HashCostProps
  IntegerModel IntegerProofs IntegerProps HashSpread.
From Coq Require Import Znumtheory.

(** The number of slots of a table is prime and at least 53. It is at least the
    number asked for if that is no more than 1610612741 ... *)
Theorem C126_make : forall fn hash cmp capacity h, legal fn hash cmp -> capacity <= 1610612741 ->
  exists t h' c, make_hash_table capacity hash cmp h = Ok (t, h') /\ get h' t = Some (CHtab c) /\ capacity <= ht_capacity c.
Proof.
  intros fn hash cmp capacity h L B. destruct (C26_capacity fn hash cmp capacity h L) as (t & h' & c & s & E & G & _ & _ & _ & _ & X & _).
  exists t, h', c. split; [exact E|]. split; [exact G|]. destruct X as [X|X]; [exact X|].
  destruct (X 1610612741); [|lia]. cbn [In GOOD_SIZES]. tauto.
Qed.
Print Assumptions C126_make.

Theorem C126_prime : forall fn cmp h t m c, ht_history fn cmp h t m -> get h t = Some (CHtab c) ->
  prime (ht_capacity c) /\ 53 <= ht_capacity c <= 1610612741.
Proof.
  intros fn cmp h t m c H G. destruct (history_good _ _ _ _ _ H) as (c1 & G1 & Good & Pos). rewrite G in G1. injection G1 as <-. split.
  - pose proof good_prime as F. rewrite Forall_forall in F. destruct (F _ Good); [lia|assumption].
  - cbn [In GOOD_SIZES] in Good. lia.
Qed.
Print Assumptions C126_prime.

(** ... and never changes. *)
Theorem C126_kept : forall fn cmp h t m h' r m' c c', ht_history fn cmp h t m -> ht_op fn cmp t h m h' r m' ->
  get h t = Some (CHtab c) -> get h' t = Some (CHtab c') ->
  ht_capacity c' = ht_capacity c /\ ht_hash c' = ht_hash c /\ ht_cmp c' = ht_cmp c.
Proof.
  intros fn cmp h t m h' r m' c c' H O G G'. destruct (op_capacity _ _ _ _ _ _ _ _ H O) as (c1 & c1' & G1 & G1' & X).
  rewrite G in G1. rewrite G' in G1'. injection G1 as <-. injection G1' as <-. exact X.
Qed.
Print Assumptions C126_kept.

(** C126: if the hash values of the keys in a table are different ones of [first],
    [first + step], ..., [first + (n - 1) * step], where [step] is not a multiple of the
    number of slots, then a lookup, an insertion or a removal compares the key with at
    most [q] others, where [q] is [n] over the number of slots, rounded up (so with at
    most one, if [n] is no more than the capacity asked for). *)
Definition evenly_spaced (hash : Z -> Z) (m : list assoc) (first step n : Z) : Prop :=
  (forall a, In a m -> exists i, 0 <= i < n /\ hash (a_key a) = first + i * step) /\
  NoDup (map (fun a => hash (a_key a)) m).

Theorem C126_spread : forall fn cmp h t m c k v first step n q, ht_history fn cmp h t m -> sparse m -> get h t = Some (CHtab c) ->
  evenly_spaced (fun k => u64 (call_hash fn (ht_hash c) k)) m first step n ->
  ~ (ht_capacity c | step) -> n <= q * ht_capacity c -> 0 <= q ->
  (exists e compared, hash_table_get_recorded fn t k h = Ok ((e, compared), h) /\ zlen compared <= q) /\
  (exists e compared h', hash_table_put_recorded fn t k v h = Ok ((e, compared), h') /\ zlen compared <= q) /\
  (exists e compared h', hash_table_pop_recorded fn t k h = Ok ((e, compared), h') /\ zlen compared <= q).
Proof.
  intros fn cmp h t m c k v first step n q H Sp G (AP & ND) Ns Nq Q0.
  assert (S : forall compared, sparing fn h t m k compared -> zlen compared <= q)
    by (intros compared S; exact (sparing_spread _ _ _ _ _ _ _ _ _ _ _ _ H G S AP ND Ns Nq Q0)).
  split; [|split].
  - destruct (C108_get _ _ _ _ _ k H) as (e & l & E & X). eauto.
  - destruct (C108_put _ _ _ _ _ k v H Sp) as (e & l & h' & E & X). exists e, l, h'. auto.
  - destruct (C108_pop _ _ _ _ _ k H) as (e & l & h' & E & X). exists e, l, h'. auto.
Qed.
Print Assumptions C126_spread.

(** In particular with hash_integer, for different multiples of a number that is smaller
    than the table. *)
Theorem C126_integers : forall fn cmp h t m c k step n q, ht_history fn cmp h t m -> get h t = Some (CHtab c) ->
  (forall k, call_hash fn (ht_hash c) k = hash_integer k) ->
  (forall a, In a m -> exists i, 0 <= i < n /\ a_key a = as_integer (i * step)) -> NoDup (map a_key m) ->
  0 < step < ht_capacity c -> n * step < 2 ^ 64 -> n <= q * ht_capacity c -> 0 <= q ->
  exists e compared, hash_table_get_recorded fn t k h = Ok ((e, compared), h) /\ zlen compared <= q.
Proof.
  intros fn cmp h t m c k step n q H G HI AP ND B W Nq Q0. destruct (C108_get _ _ _ _ _ k H) as (e & l & E & X). exists e, l. split; [exact E|].
  assert (HK : forall a, In a m -> u64 (call_hash fn (ht_hash c) (a_key a)) = a_key a /\ exists i, 0 <= i < n /\ a_key a = i * step).
  { intros a Ha. destruct (AP a Ha) as (i & Bi & Ei). assert (R : 0 <= i * step < 2 ^ 64) by nia.
    rewrite HI, Ei, (proj1 (C70_hash_integer_value _)). unfold as_integer, u64. rewrite !Z.mod_mod, Z.mod_small by lia. split; [reflexivity|]. eauto. }
  refine (sparing_spread _ _ _ _ _ _ _ _ 0 step n q H G X _ _ _ Nq Q0).
  - intros a Ha. destruct (HK a Ha) as (-> & i & Bi & Ei). exists i. split; [exact Bi|]. lia.
  - rewrite (map_ext_in _ a_key); [exact ND|]. intros a Ha. apply HK. exact Ha.
  - intros D. apply Z.divide_pos_le in D; lia.
Qed.
Print Assumptions C126_integers.

(** A table of integers with the keys 0, 30 and 60 ... *)
Definition ints : code := mk_code (fun _ k => hash_integer k) (fun _ a b => integer_cmp a b).
Lemma ints_legal hash cmp : legal ints hash cmp.
Proof.
  constructor; cbn [call_cmp call_hash ints]; unfold integer_cmp, hash_integer; intros.
  - rewrite Z.ltb_irrefl, Z.gtb_ltb, Z.ltb_irrefl. reflexivity.
  - destruct (Z.ltb_spec (as_intptr k1) (as_intptr k2)); [lia|]. rewrite Z.gtb_ltb in *. destruct (Z.ltb_spec (as_intptr k2) (as_intptr k1)); [lia|].
    destruct (Z.ltb_spec (as_intptr k1) (as_intptr k2)); [lia|reflexivity].
  - repeat match goal with H : context [if ?b then _ else _] |- _ => destruct b eqn:?; try lia end.
    assert (as_intptr k1 = as_intptr k3) as -> by lia. rewrite Z.ltb_irrefl, Z.gtb_ltb, Z.ltb_irrefl. reflexivity.
  - repeat match goal with H : context [if ?b then _ else _] |- _ => destruct b eqn:?; try lia end. f_equal. lia.
Qed.
Example C126_example : exists h t m c, ht_history ints 2 h t m /\ sparse m /\ get h t = Some (CHtab c) /\
  map a_key m = [60; 30; 0] /\ evenly_spaced (fun k => u64 (call_hash ints (ht_hash c) k)) m 0 30 3 /\
  ~ (ht_capacity c | 30) /\ 3 <= 1 * ht_capacity c /\ 0 < 30 < ht_capacity c.
Proof.
  destruct (make_history ints 1 2 10 heap0 ltac:(lia) (ints_legal 1 2)) as (t & h0 & _ & H0).
  destruct (put_new_history _ _ _ _ _ 0 5 H0 ltac:(reflexivity) ltac:(intros a [])) as (e1 & h1 & _ & H1).
  destruct (put_new_history _ _ _ _ _ 30 6 H1 ltac:(reflexivity) ltac:(intros a [<-|[]]; discriminate)) as (e2 & h2 & _ & H2).
  destruct (put_new_history _ _ _ _ _ 60 7 H2 ltac:(reflexivity) ltac:(intros a [<-|[<-|[]]]; discriminate)) as (e3 & h3 & _ & H3).
  destruct (history_good _ _ _ _ _ H3) as (c & G & _). destruct (C126_prime _ _ _ _ _ _ H3 G) as (_ & B).
  exists h3, t, [(e3, 60, 7); (e2, 30, 6); (e1, 0, 5)], c. split; [exact H3|]. split; [reflexivity|]. split; [exact G|]. split; [reflexivity|]. split; [|].
  - split.
    + intros a [<-|[<-|[<-|[]]]]; [exists 2|exists 1|exists 0]; (split; [lia|reflexivity]).
    + cbn [map]. repeat constructor; cbn; intuition discriminate.
  - split; [intros D; apply Z.divide_pos_le in D; lia|]. lia.
Qed.
(** ... whose lookups compare one key at most. With multiples of 53 in a table of 53
    slots, they compare all. *)
Definition compared (keys : list Z) (k : Z) : option (list Z) :=
  result ((let! t := make_hash_table 10 1 2 in
           do! fold_left (fun m k => let! _ := m in hash_table_put ints t k 1) keys (ret 0) in
           let! r := hash_table_get_recorded ints t k in ret (snd r)) heap0).
Example C126_needed : compared [0; 30; 60] 60 = Some [60] /\ compared [0; 53; 106] 106 = Some [0; 53; 106].
Proof. split; reflexivity. Qed.
