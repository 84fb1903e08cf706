(** Proofs about src/date.c: from one day to the next. *)
From Verif Require Import Base DateModel DateSpec.
From Coq Require Import ZifyBool ZifyNat.
Ltac Zify.zify_post_hook ::= Z.div_mod_to_equations.

(** The calendar day computed by the code for day number [n] since 1600-03-01,
    as a day of the specification; 1600-03-01 is a Wednesday (3). *)
Definition civil_day (n : Z) : option day :=
  match civil n with
  | Ok (y, m, d) => Some (Day (y + 1900) (m + 1) d ((n + 3) mod 7))
  | _ => None
  end.

(** Consecutive rows of YDAY_INFO are consecutive days, in any year. *)
Definition row_ok (x y : Z * Z * Z) : bool :=
  let '(a, m, d) := x in
  let '(a', m', d') := y in
  if m =? 1 then (d <? 28) && (a' =? a) && (m' =? m) && (d' =? d + 1)
  else
    let len := if (m =? 3) || (m =? 5) || (m =? 8) || (m =? 10) then 30 else 31 in
    if d <? len then (a' =? a) && (m' =? m) && (d' =? d + 1)
    else if m <? 11 then (a' =? a) && (m' =? m + 1) && (d' =? 1)
    else (a' =? a + 1) && (m' =? 0) && (d' =? 1).

Fixpoint rows_ok (l : list (Z * Z * Z)) : bool :=
  match l with
  | x :: (y :: _) as l' => row_ok x y && rows_ok l'
  | _ => true
  end.

Definition row (i : Z) : Z * Z * Z := nth (Z.to_nat i) YDAY_INFO (0, 0, 0).

Lemma rows_ok_nth l : rows_ok l = true -> forall k, (S k < length l)%nat ->
  row_ok (nth k l (0, 0, 0)) (nth (S k) l (0, 0, 0)) = true.
Proof.
  induction l as [|x [|y l] IH]; intros H k Hk; cbn [length] in Hk; try lia.
  cbn [rows_ok] in H. apply andb_prop in H. destruct H as [Hx Hl].
  destruct k; [exact Hx|]. apply (IH Hl k). cbn [length]. lia.
Qed.

Lemma rows_365 : rows_ok (firstn 365 YDAY_INFO) = true.
Proof. vm_cast_no_check (eq_refl true). Qed.

Lemma row_next i : 0 <= i < 364 -> row_ok (row i) (row (i + 1)) = true.
Proof.
  intros Hi. unfold row. replace (Z.to_nat (i + 1)) with (S (Z.to_nat i)) by lia.
  pose proof (rows_ok_nth _ rows_365 (Z.to_nat i)) as H.
  assert (L : length (firstn 365 YDAY_INFO) = 365%nat) by reflexivity. rewrite L in H.
  specialize (H ltac:(lia)).
  rewrite <- (firstn_skipn 365 YDAY_INFO). rewrite !app_nth1 by (rewrite L; lia). exact H.
Qed.

Lemma row_0 : row 0 = (0, 2, 1). Proof. reflexivity. Qed.
Lemma row_364 : row 364 = (1, 1, 28). Proof. reflexivity. Qed.

Lemma row_next_day Y i w : 0 <= i < 364 ->
  let '(a, m, d) := row i in
  let '(a', m', d') := row (i + 1) in
  next_day (Day (Y + a) (m + 1) d w) = Day (Y + a') (m' + 1) d' ((w + 1) mod 7).
Proof.
  intros Hi. pose proof (row_next i Hi) as H.
  destruct (row i) as [[a m] d], (row (i + 1)) as [[a' m'] d']. unfold row_ok in H.
  unfold next_day, days_in_month. cbn [year month mday wday].
  destruct (m =? 1) eqn:E1.
  { replace (m + 1 =? 2) with true by lia.
    replace (d <? (if leap (Y + a) then 29 else 28)) with true by (destruct (leap (Y + a)); lia).
    f_equal; lia. }
  replace (m + 1 =? 2) with false by lia.
  replace ((m + 1 =? 4) || (m + 1 =? 6) || (m + 1 =? 9) || (m + 1 =? 11))
    with ((m =? 3) || (m =? 5) || (m =? 8) || (m =? 10)) by lia.
  cbv zeta in H.
  set (len := if (m =? 3) || (m =? 5) || (m =? 8) || (m =? 10) then 30 else 31) in *. clearbody len.
  destruct (d <? len) eqn:E2; [f_equal; lia|].
  destruct (m <? 11) eqn:E3.
  - replace (m + 1 <? 12) with true by lia. f_equal; lia.
  - replace (m + 1 <? 12) with false by lia. f_equal; lia.
Qed.

Lemma leap_false_4 y : y mod 4 <> 0 -> leap y = false.
Proof. unfold leap. lia. Qed.

(** The digits of a day number. *)
Lemma civil_digits a c q y i :
  0 <= a -> 0 <= c < 4 -> 0 <= q <= 24 -> 0 <= y < 4 -> 0 <= i < 365 ->
  1461 * q + 365 * y + i < 36524 ->
  civil (146097 * a + (36524 * c + (1461 * q + (365 * y + i)))) =
  let '(o, m, d) := row i in Ok (1600 + 400 * a + 100 * c + 4 * q + y + o - 1900, m, d).
Proof.
  intros Ha Hc Hq Hy Hi Hr. unfold civil.
  set (r2 := 365 * y + i). set (r1 := 1461 * q + r2). set (r := 36524 * c + r1).
  assert (H2 : 0 <= r2 < 1461) by (unfold r2; lia).
  assert (H1 : 0 <= r1 < 36524) by (unfold r1, r2; lia).
  assert (H0 : 0 <= r < 146097) by (unfold r; lia).
  rewrite !(Z.quot_div_nonneg (146097 * a + r)), !(Z.rem_mod_nonneg (146097 * a + r)) by lia.
  replace ((146097 * a + r) / 146097) with a by lia.
  replace ((146097 * a + r) mod 146097) with r by lia.
  cbv zeta.
  rewrite (Z.quot_div_nonneg r 36524), (Z.rem_mod_nonneg r 36524) by lia.
  replace (r / 36524) with c by (unfold r; lia).
  replace (r mod 36524) with r1 by (unfold r; lia).
  replace (c =? 4) with false by lia.
  rewrite (Z.quot_div_nonneg r1 1461), (Z.rem_mod_nonneg r1 1461) by lia.
  replace (r1 / 1461) with q by (unfold r1; lia).
  replace (r1 mod 1461) with r2 by (unfold r1; lia).
  rewrite (Z.quot_div_nonneg r2 365), (Z.rem_mod_nonneg r2 365) by lia.
  replace (r2 / 365) with y by (unfold r2; lia).
  replace (r2 mod 365) with i by (unfold r2; lia).
  replace (y =? 4) with false by lia.
  replace (inb YDAY_INFO i) with true
    by (unfold inb; change (zlen YDAY_INFO) with 366; lia).
  fold (row i). destruct (row i) as [[o m] d].
  replace (1600 + a * 400 - 1900 + c * 100 + q * 4 + y + o)
    with (1600 + 400 * a + 100 * c + 4 * q + y + o - 1900) by ring.
  reflexivity.
Qed.

Lemma civil_feb29_4 a c q :
  0 <= a -> 0 <= c < 4 -> 0 <= q <= 23 ->
  civil (146097 * a + (36524 * c + (1461 * q + 1460))) =
  Ok (1600 + 400 * a + 100 * c + 4 * q + 4 - 1900, 1, 29).
Proof.
  intros Ha Hc Hq. unfold civil.
  set (r1 := 1461 * q + 1460). set (r := 36524 * c + r1).
  assert (H1 : 0 <= r1 < 36524) by (unfold r1; lia).
  assert (H0 : 0 <= r < 146097) by (unfold r; lia).
  rewrite !(Z.quot_div_nonneg (146097 * a + r)), !(Z.rem_mod_nonneg (146097 * a + r)) by lia.
  replace ((146097 * a + r) / 146097) with a by lia.
  replace ((146097 * a + r) mod 146097) with r by lia.
  cbv zeta.
  rewrite (Z.quot_div_nonneg r 36524), (Z.rem_mod_nonneg r 36524) by lia.
  replace (r / 36524) with c by (unfold r; lia).
  replace (r mod 36524) with r1 by (unfold r; lia).
  replace (c =? 4) with false by lia.
  rewrite (Z.quot_div_nonneg r1 1461), (Z.rem_mod_nonneg r1 1461) by lia.
  replace (r1 / 1461) with q by (unfold r1; lia).
  replace (r1 mod 1461) with 1460 by (unfold r1; lia).
  change (Z.quot 1460 365) with 4. cbn [Z.eqb Pos.eqb].
  replace (1600 + a * 400 - 1900 + c * 100 + q * 4 + 4)
    with (1600 + 400 * a + 100 * c + 4 * q + 4 - 1900) by ring.
  reflexivity.
Qed.

Lemma civil_feb29_400 a :
  0 <= a -> civil (146097 * a + 146096) = Ok (1600 + 400 * a + 400 - 1900, 1, 29).
Proof.
  intros Ha. unfold civil.
  rewrite !(Z.quot_div_nonneg (146097 * a + 146096)), !(Z.rem_mod_nonneg (146097 * a + 146096)) by lia.
  replace ((146097 * a + 146096) / 146097) with a by lia.
  replace ((146097 * a + 146096) mod 146097) with 146096 by lia.
  cbv zeta. change (Z.quot 146096 36524) with 4. cbn [Z.eqb Pos.eqb].
  replace (1600 + a * 400 - 1900 + 4 * 100) with (1600 + 400 * a + 400 - 1900) by ring.
  reflexivity.
Qed.

Lemma leap_4 a c q : 0 <= q <= 23 -> leap (1600 + 400 * a + 100 * c + 4 * q + 4) = true.
Proof. intros. unfold leap. lia. Qed.
Lemma leap_400 a : leap (1600 + 400 * a + 400) = true.
Proof. unfold leap. lia. Qed.
Lemma leap_100 a c : 0 <= c <= 2 -> leap (1600 + 400 * a + 100 * c + 100) = false.
Proof. intros. unfold leap. lia. Qed.
Lemma leap_1 a c q y : 0 <= y <= 2 -> leap (1600 + 400 * a + 100 * c + 4 * q + y + 1) = false.
Proof. intros. unfold leap. lia. Qed.

Lemma Some_inj {A} (x y : A) : Some x = Some y -> x = y.
Proof. congruence. Qed.

Lemma Day_eq y y' m d w w' : y = y' -> w = w' -> Some (Day y m d w) = Some (Day y' m d w').
Proof. intros -> ->. reflexivity. Qed.

Lemma next_feb28 y w : next_day (Day y (1 + 1) 28 w) =
  if leap y then Day y (1 + 1) 29 ((w + 1) mod 7) else Day y (2 + 1) 1 ((w + 1) mod 7).
Proof. unfold next_day, days_in_month. cbn [year month mday wday]. cbn. destruct (leap y); reflexivity. Qed.

Lemma next_feb29 y w : leap y = true ->
  next_day (Day y (1 + 1) 29 w) = Day y (2 + 1) 1 ((w + 1) mod 7).
Proof. intros E. unfold next_day, days_in_month. cbn [year month mday wday]. cbn. rewrite E. reflexivity. Qed.

Lemma civil_day_next n d : 0 <= n -> civil_day n = Some d -> civil_day (n + 1) = Some (next_day d).
Proof.
  intros Hn.
  pose (a := n / 146097). pose (r := n mod 146097).
  pose (c := r / 36524). pose (r1 := r mod 36524).
  pose (q := r1 / 1461). pose (r2 := r1 mod 1461).
  pose (y := r2 / 365). pose (i := r2 mod 365).
  assert (En : n = 146097 * a + r) by (unfold a, r; lia).
  assert (Ha : 0 <= a) by (unfold a; lia).
  assert (Hr : 0 <= r < 146097) by (unfold r; lia).
  assert (Er : r = 36524 * c + r1) by (unfold c, r1; lia).
  assert (Hr1 : 0 <= r1 < 36524) by (unfold r1; lia).
  assert (Er1 : r1 = 1461 * q + r2) by (unfold q, r2; lia).
  assert (Hr2 : 0 <= r2 < 1461) by (unfold r2; lia).
  assert (Er2 : r2 = 365 * y + i) by (unfold y, i; lia).
  assert (Hi : 0 <= i < 365) by (unfold i; lia).
  clearbody a r c r1 q r2 y i. subst n r r1 r2.
  assert (Hc : 0 <= c <= 4) by lia.
  assert (Hq : 0 <= q <= 24) by lia.
  assert (Hy : 0 <= y <= 4) by lia.
  destruct (Z.eq_dec c 4) as [->|Nc].
  { assert (q = 0 /\ y = 0 /\ i = 0) as (-> & -> & ->) by lia.
    change (36524 * 4 + (1461 * 0 + (365 * 0 + 0))) with 146096.
    unfold civil_day. rewrite civil_feb29_400 by assumption.
    replace (146097 * a + 146096 + 1)
      with (146097 * (a + 1) + (36524 * 0 + (1461 * 0 + (365 * 0 + 0)))) by lia.
    rewrite civil_digits by lia. rewrite row_0. intros E. apply Some_inj in E; subst d.
    replace (1600 + 400 * a + 400 - 1900 + 1900) with (1600 + 400 * a + 400) by lia.
    rewrite next_feb29 by apply leap_400. apply Day_eq; lia. }
  destruct (Z.eq_dec y 4) as [->|Ny].
  { assert (i = 0 /\ q <= 23) as (-> & Hq') by lia.
    change (365 * 4 + 0) with 1460.
    unfold civil_day. rewrite civil_feb29_4 by lia.
    replace (146097 * a + (36524 * c + (1461 * q + 1460)) + 1)
      with (146097 * a + (36524 * c + (1461 * (q + 1) + (365 * 0 + 0)))) by lia.
    rewrite civil_digits by lia. rewrite row_0. intros E. apply Some_inj in E; subst d.
    replace (1600 + 400 * a + 100 * c + 4 * q + 4 - 1900 + 1900)
      with (1600 + 400 * a + 100 * c + 4 * q + 4) by lia.
    rewrite next_feb29 by (apply leap_4; lia). apply Day_eq; lia. }
  unfold civil_day at 1. rewrite civil_digits by lia.
  destruct (Z.eq_dec i 364) as [->|Ni].
  2: { pose proof (row_next_day (1600 + 400 * a + 100 * c + 4 * q + y) i
         ((146097 * a + (36524 * c + (1461 * q + (365 * y + i))) + 3) mod 7) ltac:(lia)) as R.
    replace (146097 * a + (36524 * c + (1461 * q + (365 * y + i))) + 1)
      with (146097 * a + (36524 * c + (1461 * q + (365 * y + (i + 1))))) by lia.
    unfold civil_day. rewrite civil_digits by lia.
    destruct (row i) as [[o m] d0], (row (i + 1)) as [[o' m'] d'].
    intros E. apply Some_inj in E; subst d.
    replace (1600 + 400 * a + 100 * c + 4 * q + y + o - 1900 + 1900)
      with (1600 + 400 * a + 100 * c + 4 * q + y + o) by lia.
    rewrite R. apply Day_eq; lia. }
  rewrite row_364. intros E. apply Some_inj in E; subst d.
  replace (1600 + 400 * a + 100 * c + 4 * q + y + 1 - 1900 + 1900)
    with (1600 + 400 * a + 100 * c + 4 * q + y + 1) by lia.
  rewrite next_feb28. unfold civil_day.
  destruct (Z.eq_dec y 3) as [->|Ny3].
  - destruct (Z.eq_dec q 24) as [->|Nq].
    + destruct (Z.eq_dec c 3) as [->|Nc3].
      * replace (146097 * a + (36524 * 3 + (1461 * 24 + (365 * 3 + 364))) + 1)
          with (146097 * a + 146096) by lia.
        rewrite civil_feb29_400 by assumption.
        replace (1600 + 400 * a + 100 * 3 + 4 * 24 + 3 + 1) with (1600 + 400 * a + 400) by lia.
        rewrite leap_400. apply Day_eq; lia.
      * replace (146097 * a + (36524 * c + (1461 * 24 + (365 * 3 + 364))) + 1)
          with (146097 * a + (36524 * (c + 1) + (1461 * 0 + (365 * 0 + 0)))) by lia.
        rewrite civil_digits by lia. rewrite row_0.
        replace (1600 + 400 * a + 100 * c + 4 * 24 + 3 + 1) with (1600 + 400 * a + 100 * c + 100) by lia.
        rewrite leap_100 by lia. apply Day_eq; lia.
    + replace (146097 * a + (36524 * c + (1461 * q + (365 * 3 + 364))) + 1)
        with (146097 * a + (36524 * c + (1461 * q + 1460))) by lia.
      rewrite civil_feb29_4 by lia.
      replace (1600 + 400 * a + 100 * c + 4 * q + 3 + 1) with (1600 + 400 * a + 100 * c + 4 * q + 4) by lia.
      rewrite leap_4 by lia. apply Day_eq; lia.
  - replace (146097 * a + (36524 * c + (1461 * q + (365 * y + 364))) + 1)
      with (146097 * a + (36524 * c + (1461 * q + (365 * (y + 1) + 0)))) by lia.
    rewrite civil_digits by lia. rewrite row_0.
    rewrite leap_1 by lia. apply Day_eq; lia.
Qed.
