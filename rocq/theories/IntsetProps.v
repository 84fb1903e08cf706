(** Properties C11-C13 and C73 of src/intset.c. [run] applies a history of
    operations with the model's functions; [member] and [first_from] are the
    specification (IntsetSpec.v). *)
From Verif Require Import Base IntsetModel IntsetSpec IntsetProofs IntsetEdge.

(** C11. 64 * (2^32 - 1): the largest size whose words intset_fill can count. *)
Theorem C11_intset_is_a_set : forall n ops,
  0 <= n <= 64 * (2 ^ 32 - 1) -> Forall op_ok ops ->
  exists s, run (make_intset n) ops = Ok s /\
    forall e, 0 <= e < 2 ^ 32 -> intset_has s e = Ok (member n ops e).
Proof. exact has_after. Qed.
Print Assumptions C11_intset_is_a_set.

Example C11_example : Forall op_ok [Fill; Remove 64; Add 200; Add 3; Remove 64] /\
  (s <- run (make_intset 130) [Fill; Remove 64; Add 200; Add 3; Remove 64] ;;
   a <- intset_has s 64 ;; b <- intset_has s 65 ;; c <- intset_has s 129 ;; d <- intset_has s 200 ;;
   Ok (a, b, c, d)) = Ok (false, true, true, false).
Proof. split; [repeat constructor; cbn; discriminate || reflexivity|reflexivity]. Qed.

(** C12 *)
Theorem C12_intset_search : forall n ops,
  0 <= n <= INT_MAX + 1 -> Forall op_ok ops ->
  exists s, run (make_intset n) ops = Ok s /\
    (forall e, 0 <= e < 2 ^ 32 -> exists r,
       intset_find_next_hit s e = Ok r /\ first_from (member n ops) true e n r) /\
    (forall e, 0 <= e < 2 ^ 32 -> exists r,
       intset_find_next_miss s e = Ok r /\ first_from (member n ops) false e n r) /\
    exists b, intset_empty s = Ok b /\ (b = true <-> forall e, 0 <= e -> member n ops e = false).
Proof. exact search_after. Qed.
Print Assumptions C12_intset_search.

Example C12_example :
  (s <- run (make_intset 300) [Add 5; Add 257] ;;
   a <- intset_find_next_hit s 6 ;; b <- intset_find_next_hit s 258 ;; c <- intset_find_next_miss s 257 ;;
   d <- intset_empty s ;; Ok (a, b, c, d)) = Ok (257, -1, 258, false).
Proof. reflexivity. Qed.

(** C13: every size whose word count does not wrap (NoFuel, i.e. an endless
    loop, is possible only beyond the bounds of C11 and C12). *)
Theorem C13_intset_memory_safe : forall n ops,
  0 <= n <= 2 ^ 64 - 64 -> Forall op_ok ops ->
  run (make_intset n) ops <> UB /\ run (make_intset n) ops <> Abort /\
  forall s, run (make_intset n) ops = Ok s -> forall e, 0 <= e < 2 ^ 32 ->
    (exists b, intset_has s e = Ok b) /\
    intset_find_next_hit s e <> UB /\ intset_find_next_miss s e <> UB /\ intset_empty s <> UB.
Proof. exact safe_after. Qed.
Print Assumptions C13_intset_memory_safe.

Example C13_example : exists s, run (make_intset 1) [Add 4294967295; Fill] = Ok s /\
  intset_has s 4294967295 = Ok false.
Proof. eexists. split; reflexivity. Qed.

(** C73 is false of the code: for the 63 largest sizes the word count wraps to
    0 and every access is out of bounds ... *)
Theorem C73_refuted_wrap : forall n e, 2 ^ 64 - 63 <= n < 2 ^ 64 -> 0 <= e < 2 ^ 32 ->
  intset_add (make_intset n) e = UB /\ intset_has (make_intset n) e = UB.
Proof. exact wrap_size. Qed.
Print Assumptions C73_refuted_wrap.

(** ... and for sizes above 2^31 an element above INT_MAX is returned as a
    negative number, and a set with that element counts as empty. *)
Theorem C73_refuted_negative : forall n e, 2 ^ 31 <= e < n -> n <= 2 ^ 32 - 64 ->
  exists s, run (make_intset n) [Add e] = Ok s /\
    intset_find_next_hit s e = Ok (e - 2 ^ 32) /\ intset_empty s = Ok true.
Proof. exact negative_result. Qed.
Print Assumptions C73_refuted_negative.

(** What holds up to 2^32 - 64: the result is right modulo 2^32. *)
Theorem C73_search_mod_partial : forall n ops,
  0 <= n <= 2 ^ 32 - 64 -> Forall op_ok ops ->
  exists s, run (make_intset n) ops = Ok s /\
    forall e hit, 0 <= e < 2 ^ 32 -> exists r,
      intset_find_next s e hit = Ok (s32 r) /\ first_from (member n ops) hit e n r.
Proof. exact find_after. Qed.
Print Assumptions C73_search_mod_partial.

(** ... and for sizes above 2^32 - 64, UINT_MAX among them, a search of a set
    without elements goes round for ever, so intset_empty does not return for
    an empty set: no number of rounds is enough. *)
Theorem C73_refuted_endless : forall n, 2 ^ 32 - 64 < n <= 2 ^ 64 - 64 ->
  (forall e fuel, 0 <= e < 2 ^ 32 -> e < n -> find_within fuel (make_intset n) e true = NoFuel) /\
  intset_empty (make_intset n) = NoFuel.
Proof. exact endless_after. Qed.
Print Assumptions C73_refuted_endless.

(** Nor does intset_fill, whatever was done before, when there are 2^32 words or
    more: the bound of C11 is exact. *)
Theorem C73_refuted_fill : forall n ops s fuel, 64 * (2 ^ 32 - 1) < n <= 2 ^ 64 - 64 ->
  Forall op_ok ops -> run (make_intset n) ops = Ok s -> fill_within fuel s = NoFuel.
Proof. exact fill_endless_after. Qed.
Print Assumptions C73_refuted_fill.

(** What holds of these sizes: the search goes on at 0 when it has passed the
    last 32-bit position, so it returns the first hit at or above [e], then the
    first one below it (reduced to an int, or -1 for a bit beyond the size), and
    it does not return if there is no hit at all. *)
Theorem C73_search_around_partial : forall n ops,
  2 ^ 32 - 64 < n <= 64 * (2 ^ 32 - 1) -> Forall op_ok ops ->
  exists s, run (make_intset n) ops = Ok s /\
    forall e hit, 0 <= e < 2 ^ 32 -> e < n ->
      (forall r, first_from (held n ops) hit e (2 ^ 32) r -> 0 <= r ->
         intset_find_next s e hit = Ok (reported n r)) /\
      (forall r, first_from (held n ops) hit e (2 ^ 32) (-1) ->
         first_from (held n ops) hit 0 e r -> 0 <= r ->
         intset_find_next s e hit = Ok (reported n r)) /\
      ((forall k, 0 <= k < 2 ^ 32 -> held n ops k <> hit) ->
         forall fuel, find_within fuel s e hit = NoFuel).
Proof. exact around_after. Qed.
Print Assumptions C73_search_around_partial.

(** A set of size UINT_MAX with the one element 5: looking for a member above 5
    finds 5. *)
Example C73_around_example : exists s,
  run (make_intset (2 ^ 32 - 1)) [Add 5] = Ok s /\ intset_find_next_hit s 6 = Ok 5.
Proof.
  destruct (around_after (2 ^ 32 - 1) [Add 5]) as (s & R & H); [lia|repeat constructor; cbn; lia|].
  exists s. split; [exact R|]. unfold intset_find_next_hit.
  assert (M : forall k, held (2 ^ 32 - 1) [Add 5] k = true <-> k = 5).
  { intros k. unfold held, member. cbn [fold_left effect existsb is_fill orb].
    destruct (k <? 2 ^ 32 - 1) eqn:E1; cbn [andb]; destruct (5 =? k) eqn:E2; split; intros; try lia; discriminate. }
  change 5 with (reported (2 ^ 32 - 1) 5). apply (H 6 true); try lia.
  - right. split; [reflexivity|]. intros k Hk E. apply M in E. lia.
  - left. split; [lia|]. split; [apply M; reflexivity|]. intros k Hk E. apply M in E. lia.
Qed.
