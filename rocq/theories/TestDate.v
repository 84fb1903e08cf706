(** Proofs about the program test/date_test.c. *)
From Verif Require Import Base CharstrModel CharstrSpec CharstrProofs DateModel DateSpec DateCycle DateProofs TestDateModel TestDateSpec.
From Coq Require Import ZifyBool ZifyNat.

Lemma app_inj_length {A} (a : list A) : forall b x y, length a = length b -> a ++ x = b ++ y -> a = b /\ x = y.
Proof.
  induction a as [|c a IH]; intros [|d b] x y L E; try discriminate; [auto|]. injection L as L. cbn [app] in E. injection E as -> E.
  destruct (IH _ _ _ L E) as (-> & ->). auto.
Qed.
Lemma below_nat n (P : nat -> Prop) : (forall k, (k < n)%nat -> P k) -> forall z, 0 <= z < Z.of_nat n -> P (Z.to_nat z).
Proof. intros H z Hz. apply H. lia. Qed.
Lemma day_name w : 0 <= w <= 6 -> length (nth (Z.to_nat w) day_names []) = 3%nat /\ text (nth (Z.to_nat w) day_names []).
Proof.
  intros H. apply (below_nat 7 (fun k => length (nth k day_names []) = 3%nat /\ text (nth k day_names []))); [|lia]. intros k K.
  do 7 (destruct k as [|k]; [split; [reflexivity|]; repeat (constructor; [lia|]); constructor|]). lia.
Qed.
Lemma month_name w : 0 <= w <= 11 -> length (nth (Z.to_nat w) month_names []) = 3%nat /\ text (nth (Z.to_nat w) month_names []).
Proof.
  intros H. apply (below_nat 12 (fun k => length (nth k month_names []) = 3%nat /\ text (nth k month_names []))); [|lia]. intros k K.
  do 12 (destruct k as [|k]; [split; [reflexivity|]; repeat (constructor; [lia|]); constructor|]). lia.
Qed.
Lemma days_differ : NoDup day_names.
Proof. repeat (constructor; [cbn; intuition discriminate|]). constructor. Qed.
Lemma months_differ : NoDup month_names.
Proof. repeat (constructor; [cbn; intuition discriminate|]). constructor. Qed.

(** The bytes before the NUL *)
Definition bytes (t : tm) : list Z :=
  nth (Z.to_nat (tm_wday t)) day_names [] ++ [32] ++ nth (Z.to_nat (tm_mon t)) month_names [] ++
  [32; if tm_mday t <? 10 then 32 else digit (tm_mday t / 10); digit (tm_mday t); 32;
   digit (tm_hour t / 10); digit (tm_hour t); 58; digit (tm_min t / 10); digit (tm_min t); 58;
   digit (tm_sec t / 10); digit (tm_sec t); 32;
   digit ((tm_year t + 1900) / 1000); digit ((tm_year t + 1900) / 100); digit ((tm_year t + 1900) / 10); digit (tm_year t + 1900); 10].
Lemma asctime_ok t : normal t -> asctime t = Ok (bytes t ++ [0]).
Proof.
  intros (H1 & H2 & H3 & H4 & H5 & H6 & H7). unfold asctime. cbv zeta.
  match goal with |- (if ?c then _ else _) = _ => assert (C : c = true) by lia; rewrite C end.
  unfold bytes. rewrite <- !app_assoc. reflexivity.
Qed.
Lemma digit_text n : 0 < digit n < 256.
Proof. unfold digit. pose proof (Z.mod_pos_bound n 10 ltac:(lia)). lia. Qed.
Lemma bytes_text t : normal t -> text (bytes t).
Proof.
  intros (H1 & H2 & H3 & H4 & H5 & H6 & H7). unfold bytes. apply Forall_app. split; [apply day_name; lia|]. apply Forall_app. split; [constructor; [lia|constructor]|].
  apply Forall_app. split; [apply month_name; lia|]. repeat (constructor; [first [apply digit_text|lia|destruct (_ <? _); [lia|apply digit_text]]|]). constructor.
Qed.
Lemma two_digits a b : 0 <= a < 100 -> 0 <= b < 100 -> digit (a / 10) = digit (b / 10) -> digit a = digit b -> a = b.
Proof. unfold digit. intros. rewrite !(Z.mod_small (_ / 10)) in * by lia. lia. Qed.
Lemma four_digits a b : 0 <= a < 10000 -> 0 <= b < 10000 -> digit (a / 1000) = digit (b / 1000) -> digit (a / 100) = digit (b / 100) ->
  digit (a / 10) = digit (b / 10) -> digit a = digit b -> a = b.
Proof.
  intros A B E1 E2 E3 E4. assert (ST : forall x y, x / 10 = y / 10 -> digit x = digit y -> x = y) by (unfold digit; intros x y X Y; pose proof (Z.div_mod x 10 ltac:(lia)); pose proof (Z.div_mod y 10 ltac:(lia)); lia).
  assert (D : forall x, x / 100 = x / 10 / 10 /\ x / 1000 = x / 100 / 10) by (intros x; split; rewrite Z.div_div by lia; reflexivity).
  destruct (D a) as (Da & Da'), (D b) as (Db & Db'). apply ST; [|exact E4]. apply ST; [|exact E3]. rewrite <- Da, <- Db. apply ST; [|exact E2]. rewrite <- Da', <- Db'. unfold digit in E1.
  assert (R : forall x, 0 <= x < 10000 -> 0 <= x / 1000 < 10) by (intros x X; split; [apply Z.div_pos; lia|apply Z.div_lt_upper_bound; lia]).
  pose proof (R a A). pose proof (R b B). rewrite !(Z.mod_small (_ / 1000)) in E1 by lia. lia.
Qed.
Lemma day_digits a b : 1 <= a <= 31 -> 1 <= b <= 31 ->
  (if a <? 10 then 32 else digit (a / 10)) = (if b <? 10 then 32 else digit (b / 10)) -> digit a = digit b -> a = b.
Proof.
  unfold digit. intros A B E1 E2. pose proof (Z.div_mod a 10 ltac:(lia)). pose proof (Z.div_mod b 10 ltac:(lia)). pose proof (Z.mod_pos_bound a 10 ltac:(lia)). pose proof (Z.mod_pos_bound b 10 ltac:(lia)).
  assert (Sa : (a / 10) mod 10 = a / 10) by (apply Z.mod_small; lia). assert (Sb : (b / 10) mod 10 = b / 10) by (apply Z.mod_small; lia). rewrite Sa, Sb in E1.
  destruct (Z.ltb_spec a 10), (Z.ltb_spec b 10); lia.
Qed.
Lemma bytes_inj t u : normal t -> normal u -> bytes t = bytes u -> t = u.
Proof.
  intros (T1 & T2 & T3 & T4 & T5 & T6 & T7) (U1 & U2 & U3 & U4 & U5 & U6 & U7) E. unfold bytes in E.
  apply app_inj_length in E; [|destruct (day_name _ T6) as (-> & _), (day_name _ U6) as (-> & _); reflexivity]. destruct E as (Ew & E).
  apply app_inj_length in E; [|reflexivity]. destruct E as (_ & E).
  apply app_inj_length in E; [|destruct (month_name _ T5) as (-> & _), (month_name _ U5) as (-> & _); reflexivity]. destruct E as (Em & E).
  injection E as D1 D2 A1 A2 B1 B2 C1 C2 Y1 Y2 Y3 Y4.
  apply (NoDup_nth day_names []) in Ew; [|exact days_differ|cbn; lia|cbn; lia]. apply (NoDup_nth month_names []) in Em; [|exact months_differ|cbn; lia|cbn; lia].
  pose proof (day_digits _ _ T4 U4 D1 D2) as X1. pose proof (two_digits (tm_hour t) (tm_hour u) ltac:(lia) ltac:(lia) A1 A2) as X2.
  pose proof (two_digits (tm_min t) (tm_min u) ltac:(lia) ltac:(lia) B1 B2) as X3. pose proof (two_digits (tm_sec t) (tm_sec u) ltac:(lia) ltac:(lia) C1 C2) as X4.
  pose proof (four_digits (tm_year t + 1900) (tm_year u + 1900) ltac:(lia) ltac:(lia) Y1 Y2 Y3 Y4) as X5.
  apply Z2Nat.inj in Ew; [|lia|lia]. apply Z2Nat.inj in Em; [|lia|lia]. clear - Ew Em X1 X2 X3 X4 X5. destruct t, u. cbn in *. f_equal; lia.
Qed.

(** ** The years *)
Lemma year_next d : year d <= year (next_day d).
Proof. unfold next_day. destruct (_ <? _); [cbn; lia|]. destruct (_ <? _); cbn; lia. Qed.
Lemma year_iter n d : 0 <= n -> year d <= year (Z.iter n next_day d).
Proof.
  intros H. pattern n. apply natlike_ind; [cbn; lia| |exact H]. intros x Hx IH. rewrite iter_succ by lia. pose proof (year_next (Z.iter x next_day d)). lia.
Qed.
Lemma last_day : Z.iter 2932896 next_day (Day 1970 1 1 4) = Day 9999 12 31 5.
Proof. apply Some_inj. rewrite <- civil_day_1970 by lia. vm_cast_no_check (eq_refl (Some (Day 9999 12 31 5))). Qed.
Lemma utc_year n : 0 <= n < 253402300800 -> 1970 <= year (date (utc n)) <= 9999.
Proof.
  intros H. rewrite utc_closed by lia. cbn [date]. assert (B : 0 <= n / 86400 <= 2932896) by (split; [apply Z.div_pos; lia|]; apply Z.lt_succ_r; apply Z.div_lt_upper_bound; lia).
  split; [apply (year_iter _ (Day 1970 1 1 4)); lia|].
  pose proof (year_iter (2932896 - n / 86400) (Z.iter (n / 86400) next_day (Day 1970 1 1 4)) ltac:(lia)) as Y. rewrite <- iter_add_comm in Y by lia.
  replace (2932896 - n / 86400 + n / 86400) with 2932896 in Y by lia. rewrite last_day in Y. exact Y.
Qed.
Lemma utc_normal n : 0 <= n < 253402300800 -> normal (fields (utc n)).
Proof.
  intros H. pose proof (utc_year n H). destruct (utc_valid n ltac:(lia)) as ((V1 & V2 & V3) & V4 & V5 & V6). pose proof (days_in_month_range (year (date (utc n))) (month (date (utc n)))).
  unfold normal, fields. cbn [tm_sec tm_min tm_hour tm_mday tm_mon tm_year tm_wday]. lia.
Qed.

(** ** The program *)
Lemma same_date_ok g n : 0 <= n < 253402300800 -> normal (g n) -> exists x, same_date g n = Ok x /\ (x = true <-> g n = fields (utc n)).
Proof.
  intros H N. pose proof (utc_normal n H) as U. unfold same_date. rewrite epoch_to_utc_ok; [|lia|].
  2: { unfold INT_MAX. assert (n / 86400 < 2932897) by (apply Z.div_lt_upper_bound; lia). lia. }
  cbn [bind]. change (tm_of (utc n)) with (fields (utc n)). rewrite (asctime_ok _ U), (asctime_ok _ N). cbn [bind].
  destruct (strcmp_eq_ok (bytes (fields (utc n))) (bytes (g n)) [] [] (bytes_text _ U) (bytes_text _ N)) as (x & E & X). exists x. split; [exact E|].
  rewrite X. split; [intros Y; symmetry; apply bytes_inj; assumption|congruence].
Qed.
Lemma epoch_loop_ok g limit step : 0 < step -> limit <= 253402300800 -> forall fuel epoch, 0 <= epoch -> (Z.to_nat (limit - epoch) < fuel)%nat ->
  (forall k, 0 <= k -> epoch + k * step < limit -> normal (g (epoch + k * step))) ->
  exists x, epoch_loop g fuel epoch limit step = Ok x /\
    (x = true <-> forall k, 0 <= k -> epoch + k * step < limit -> g (epoch + k * step) = fields (utc (epoch + k * step))).
Proof.
  intros St L. induction fuel as [|fuel IH]; intros epoch E F N; cbn [epoch_loop].
  - lia.
  - destruct (Z.ltb_spec epoch limit) as [Lt|Ge].
    2: { exists true. split; [reflexivity|]. split; [|reflexivity]. intros _ k K X. assert (0 <= k * step) by (apply Z.mul_nonneg_nonneg; lia). lia. }
    pose proof (N 0 ltac:(lia) ltac:(lia)) as N0. replace (epoch + 0 * step) with epoch in N0 by lia.
    destruct (same_date_ok g epoch ltac:(lia) N0) as (x & -> & X). cbn [bind]. destruct x; cbn [negb].
    + destruct (IH (epoch + step)) as (y & Ey & Y); [lia|lia|intros k K KL; replace (epoch + step + k * step) with (epoch + (k + 1) * step) in * by lia; apply N; lia|].
      exists y. split; [exact Ey|]. rewrite Y. split.
      * intros A k K KL. destruct (Z.eq_dec k 0) as [->|Nk]; [replace (epoch + 0 * step) with epoch by lia; apply X; reflexivity|].
        replace (epoch + k * step) with (epoch + step + (k - 1) * step) in * by lia. apply A; lia.
      * intros A k K KL. replace (epoch + step + k * step) with (epoch + (k + 1) * step) in * by lia. apply A; lia.
    + exists false. split; [reflexivity|]. split; [discriminate|]. intros A. apply X. specialize (A 0 ltac:(lia) ltac:(lia)). replace (epoch + 0 * step) with epoch in A by lia. exact A.
Qed.
Lemma test_dates_ok g start limit step : 0 <= start -> 0 < step -> limit <= 253402300800 ->
  (forall k, 0 <= k -> start + k * step < limit -> normal (g (start + k * step))) ->
  exists x, test_dates g start limit step = Ok x /\
    (x = true <-> forall k, 0 <= k -> start + k * step < limit -> g (start + k * step) = fields (utc (start + k * step))).
Proof. intros A B C N. unfold test_dates. apply epoch_loop_ok; [exact B|exact C|exact A|lia|exact N]. Qed.
Lemma test_dates_right g start limit step : 0 <= start -> 0 < step -> limit <= 253402300800 -> (forall n, 0 <= n -> g n = fields (utc n)) ->
  test_dates g start limit step = Ok true.
Proof.
  intros A B C G. assert (P : forall k, 0 <= k -> 0 <= start + k * step) by (intros k K; assert (0 <= k * step) by (apply Z.mul_nonneg_nonneg; lia); lia).
  destruct (test_dates_ok g start limit step A B C) as (x & E & X).
  - intros k K KL. rewrite G by (apply P; exact K). apply utc_normal. pose proof (P k K). lia.
  - rewrite E. f_equal. apply X. intros k K _. apply G, P, K.
Qed.
