(** Proofs about src/date.c. *)
From Verif Require Import Base DateModel DateSpec DateCycle.
From Coq Require Import ZifyBool ZifyNat.
Ltac Zify.zify_post_hook ::= Z.div_mod_to_equations.

Lemma Some_inj {A} (x y : A) : Some x = Some y -> x = y.
Proof. congruence. Qed.

Lemma iter_succ {A} (f : A -> A) n x : 0 <= n -> Z.iter (Z.succ n) f x = f (Z.iter n f x).
Proof.
  intros Hn. destruct n as [|p|p]; [reflexivity| |lia].
  change (Z.succ (Z.pos p)) with (Z.pos p + 1). rewrite Z.add_1_r, <- Pos2Z.inj_succ.
  cbn [Z.iter]. apply Pos.iter_succ.
Qed.

Lemma civil_day_iter n : 0 <= n -> civil_day n = Some (Z.iter n next_day (Day 1600 3 1 3)).
Proof.
  intros Hn. pattern n. apply natlike_ind; [reflexivity| |exact Hn].
  intros x Hx IH. rewrite <- Z.add_1_r. rewrite (civil_day_next x _ Hx IH).
  rewrite Z.add_1_r, iter_succ by lia. reflexivity.
Qed.

Lemma iter_add_comm {A} (f : A -> A) n m x : 0 <= n -> 0 <= m ->
  Z.iter (n + m) f x = Z.iter n f (Z.iter m f x).
Proof.
  intros Hn Hm. pattern n. apply natlike_ind; [reflexivity| |exact Hn].
  intros y Hy IH. rewrite Z.add_succ_l, !iter_succ by lia. f_equal. exact IH.
Qed.

Lemma start_1970 : Z.iter 135080 next_day (Day 1600 3 1 3) = Day 1970 1 1 4.
Proof.
  apply Some_inj. rewrite <- civil_day_iter by lia. vm_cast_no_check (eq_refl (Some (Day 1970 1 1 4))).
Qed.

Lemma civil_day_1970 n : 0 <= n -> civil_day (n + 135080) = Some (Z.iter n next_day (Day 1970 1 1 4)).
Proof.
  intros Hn. rewrite civil_day_iter by lia. rewrite iter_add_comm by lia.
  rewrite start_1970. reflexivity.
Qed.

(** The clock: [n] seconds = [n / 86400] days and a time of day. *)
Lemma utc_closed n : 0 <= n ->
  utc n = Moment (Z.iter (n / 86400) next_day (Day 1970 1 1 4))
                 (n mod 86400 / 3600) (n mod 3600 / 60) (n mod 60).
Proof.
  intros Hn. unfold utc. pattern n. apply natlike_ind; [reflexivity| |exact Hn].
  clear n Hn. intros n Hn IH. rewrite iter_succ by lia. rewrite IH. clear IH.
  unfold tick. cbn [date hour minute second].
  destruct (n mod 60 <? 59) eqn:E1.
  { replace (Z.succ n / 86400) with (n / 86400) by lia. f_equal; lia. }
  destruct (n mod 3600 / 60 <? 59) eqn:E2.
  { replace (Z.succ n / 86400) with (n / 86400) by lia. f_equal; lia. }
  destruct (n mod 86400 / 3600 <? 23) eqn:E3.
  { replace (Z.succ n / 86400) with (n / 86400) by lia. f_equal; lia. }
  replace (Z.succ n / 86400) with (Z.succ (n / 86400)) by lia.
  rewrite iter_succ by lia. f_equal; lia.
Qed.

Lemma s32_small z : - 2 ^ 31 <= z < 2 ^ 31 -> s32 z = z.
Proof.
  intros H. unfold s32, sgn. change (2 ^ 32) with 4294967296. change (2 ^ (32 - 1)) with 2147483648.
  destruct (_ <? _) eqn:E; lia.
Qed.

(** struct tm of a moment. *)
Definition tm_of (m : moment) : tm :=
  Tm (second m) (minute m) (hour m) (mday (date m)) (month (date m) - 1) (year (date m) - 1900)
     (wday (date m)).

Lemma epoch_to_utc_ok epoch :
  0 <= epoch -> epoch / 86400 + 135080 <= INT_MAX -> epoch_to_utc epoch = Ok (tm_of (utc epoch)).
Proof.
  intros H0 Hmax. unfold INT_MAX in *.
  unfold epoch_to_utc. rewrite (Z.quot_div_nonneg epoch), (Z.rem_mod_nonneg epoch) by lia.
  rewrite s32_small by lia. cbv zeta.
  replace (epoch / 86400 + 135080 <=? INT_MAX) with true by (unfold INT_MAX; lia).
  assert (B : 0 <= epoch mod 86400 < 86400) by lia.
  rewrite (Z.quot_div_nonneg (epoch mod 86400) 60), (Z.rem_mod_nonneg (epoch mod 86400) 60) by lia.
  rewrite (Z.quot_div_nonneg (epoch mod 86400 / 60) 60), (Z.rem_mod_nonneg (epoch mod 86400 / 60) 60) by lia.
  rewrite (Z.rem_mod_nonneg (epoch / 86400 + 4) 7) by lia.
  rewrite utc_closed by assumption.
  pose proof (civil_day_1970 (epoch / 86400) ltac:(lia)) as Hc.
  unfold civil_day in Hc. destruct (civil (epoch / 86400 + 135080)) as [[[y m] d]| | |]; try discriminate.
  apply Some_inj in Hc. rewrite <- Hc. cbn [bind]. unfold tm_of. cbn [date second minute hour year month mday wday].
  f_equal. f_equal; lia.
Qed.

(** Before 1970. *)
Lemma rem_bound_neg a b : a <= 0 -> 0 < b -> - b < Z.rem a b <= 0.
Proof.
  intros Ha Hb. replace a with (- - a) by lia. rewrite Z.rem_opp_l by lia.
  pose proof (Z.rem_bound_pos (- a) b ltac:(lia) Hb). lia.
Qed.

Lemma negative_fields epoch t :
  epoch < 0 -> epoch mod 86400 <> 0 -> epoch_to_utc epoch = Ok t ->
  tm_sec t < 0 \/ tm_min t < 0 \/ tm_hour t < 0.
Proof.
  intros Hn Hm. unfold epoch_to_utc.
  set (s := Z.rem epoch 86400).
  assert (Hs : -86400 < s < 0).
  { assert (s <> 0). { unfold s. intros E. apply Hm. apply Z.rem_divide in E; [|lia]. apply Z.mod_divide; [lia|exact E]. }
    unfold s in *. pose proof (rem_bound_neg epoch 86400 ltac:(lia) ltac:(lia)). lia. }
  clearbody s. cbv zeta. destruct (_ <=? INT_MAX); [|discriminate].
  destruct (civil _) as [[[y m] d]| | |]; try discriminate. cbn [bind]. intros E. injection E as <-.
  cbn [tm_sec tm_min tm_hour].
  pose proof (Z.quot_rem' s 60) as Q1. pose proof (Z.quot_rem' (Z.quot s 60) 60) as Q2.
  pose proof (rem_bound_neg s 60 ltac:(lia) ltac:(lia)).
  assert (Z.quot s 60 <= 0) by (replace s with (- - s) by lia; rewrite Z.quot_opp_l by lia;
    pose proof (Z.quot_pos (- s) 60 ltac:(lia) ltac:(lia)); lia).
  destruct (Z.eq_dec (Z.quot s 60) 0) as [Ez|Ez]; [left; lia|].
  pose proof (rem_bound_neg (Z.quot s 60) 60 ltac:(lia) ltac:(lia)).
  lia.
Qed.

Lemma days_in_month_range y m : 28 <= days_in_month y m <= 31.
Proof. unfold days_in_month. destruct (m =? 2), (leap y), ((m =? 4) || (m =? 6) || (m =? 9) || (m =? 11)); lia. Qed.

Lemma next_day_valid d : valid d -> valid (next_day d).
Proof.
  unfold valid, next_day. intros [H1 [H2 H3]].
  destruct (mday d <? _) eqn:E1; [cbn; lia|].
  destruct (month d <? 12) eqn:E2; cbn [year month mday wday];
    (split; [lia|]; split; [|lia]).
  - pose proof (days_in_month_range (year d) (month d + 1)). lia.
  - cbn. lia.
Qed.

Lemma iter_valid n d : 0 <= n -> valid d -> valid (Z.iter n next_day d).
Proof.
  intros Hn Hd. pattern n. apply natlike_ind; [exact Hd| |exact Hn].
  intros x Hx IH. rewrite iter_succ by lia. apply next_day_valid, IH.
Qed.

(** The day [k] days before 1970-01-01 and the time of day are computed from
    the truncating quotient and remainder. *)
Lemma negative_exact epoch :
  - 135080 * 86400 <= epoch <= 0 ->
  exists t d, epoch_to_utc epoch = Ok t /\ valid d /\
    Z.iter (- Z.quot epoch 86400) next_day d = Day 1970 1 1 4 /\
    tm_year t = year d - 1900 /\ tm_mon t = month d - 1 /\ tm_mday t = mday d /\
    tm_wday t mod 7 = wday d /\
    tm_hour t * 3600 + tm_min t * 60 + tm_sec t = Z.rem epoch 86400.
Proof.
  intros He. unfold epoch_to_utc.
  set (k := - Z.quot epoch 86400).
  assert (E2 : Z.quot epoch 86400 = - k) by (unfold k; lia).
  assert (Hk : 0 <= k <= 135080).
  { unfold k. rewrite <- Z.quot_opp_l by lia. rewrite Z.quot_div_nonneg by lia. lia. }
  clearbody k. rewrite E2. set (s := Z.rem epoch 86400). clearbody s.
  assert (V : valid (Z.iter (135080 - k) next_day (Day 1600 3 1 3))).
  { apply iter_valid; [lia|]. unfold valid. cbn. lia. }
  assert (I70 : Z.iter k next_day (Z.iter (135080 - k) next_day (Day 1600 3 1 3)) = Day 1970 1 1 4).
  { rewrite <- iter_add_comm by lia. replace (k + (135080 - k)) with 135080 by lia. apply start_1970. }
  rewrite s32_small by lia. cbv zeta.
  replace (- k + 135080 <=? INT_MAX) with true by (unfold INT_MAX; lia).
  replace (- k + 135080) with (135080 - k) by lia.
  pose proof (civil_day_iter (135080 - k) ltac:(lia)) as Hc. unfold civil_day in Hc.
  destruct (civil (135080 - k)) as [[[y m] d]| | |]; try discriminate. apply Some_inj in Hc.
  cbn [bind]. eexists. exists (Z.iter (135080 - k) next_day (Day 1600 3 1 3)).
  split; [reflexivity|]. split; [exact V|]. split; [exact I70|].
  rewrite <- Hc. cbn [year month mday wday tm_year tm_mon tm_mday tm_wday tm_hour tm_min tm_sec].
  do 3 (split; [lia|]). split.
  - pose proof (Z.quot_rem' (- k + 4) 7). lia.
  - pose proof (Z.quot_rem' s 60). pose proof (Z.quot_rem' (Z.quot s 60) 60). lia.
Qed.

Lemma utc_valid n : 0 <= n ->
  valid (date (utc n)) /\ 0 <= hour (utc n) <= 23 /\ 0 <= minute (utc n) <= 59 /\ 0 <= second (utc n) <= 59.
Proof.
  intros Hn. rewrite utc_closed by assumption. cbn [date hour minute second].
  split; [|lia]. apply iter_valid; [lia|]. unfold valid. cbn. lia.
Qed.

(** The time fields before 1970 are those of the moment as long after it, with the
    opposite sign. *)
Lemma negative_mirror epoch t : epoch <= 0 -> epoch_to_utc epoch = Ok t ->
  tm_sec t = - second (utc (- epoch)) /\ tm_min t = - minute (utc (- epoch)) /\ tm_hour t = - hour (utc (- epoch)).
Proof.
  intros H E. rewrite utc_closed by lia. cbn [second minute hour]. unfold epoch_to_utc in E. cbv zeta in E.
  destruct (_ <=? INT_MAX) in E; [|discriminate].
  destruct (civil _) as [[[y m] d]| | |] in E; try discriminate. cbn [bind] in E.
  injection E as E. subst t. cbn [tm_sec tm_min tm_hour].
  set (n := - epoch) in *. replace epoch with (- n) by (subst n; lia). assert (Hn : 0 <= n) by (subst n; lia). clearbody n.
  assert (R1 : Z.rem (- n) 86400 = - (n mod 86400)) by (rewrite Z.rem_opp_l, Z.rem_mod_nonneg by lia; reflexivity).
  assert (R : forall a b, 0 <= a -> 0 < b -> Z.rem (- a) b = - (a mod b)) by (intros; rewrite Z.rem_opp_l, Z.rem_mod_nonneg by lia; reflexivity).
  assert (D : forall a b, 0 <= a -> 0 < b -> Z.quot (- a) b = - (a / b)) by (intros; rewrite Z.quot_opp_l, Z.quot_div_nonneg by lia; reflexivity).
  rewrite R1. pose proof (Z.mod_pos_bound n 86400 ltac:(lia)).
  pose proof (Z.div_pos (n mod 86400) 60 ltac:(lia) ltac:(lia)).
  rewrite !D by lia. rewrite !R by lia.
  assert (E : n = 86400 * (n / 86400) + n mod 86400) by (apply Z.div_mod; lia).
  set (m' := n mod 86400) in *. set (q := n / 86400) in *. clearbody m' q. subst n. clear R1 R D.
  replace (86400 * q + m') with (m' + 1440 * q * 60) at 1 by lia.
  replace (86400 * q + m') with (m' + 24 * q * 3600) by lia. rewrite !Z.mod_add by lia.
  rewrite (Z.div_div m' 60 60) by lia. split; [|split]; lia.
Qed.

(** When all fields are in their normal ranges. *)
Lemma negative_normal epoch t : - 135080 * 86400 <= epoch < 0 -> epoch_to_utc epoch = Ok t ->
  ((0 <= tm_sec t <= 59 /\ 0 <= tm_min t <= 59 /\ 0 <= tm_hour t <= 23 /\ 0 <= tm_wday t <= 6) <->
   epoch mod 86400 = 0 /\ (- 4 * 86400 <= epoch \/ (epoch / 86400 + 4) mod 7 = 0)).
Proof.
  intros H E. pose proof (negative_mirror epoch t ltac:(lia) E) as (Es & Em & Eh).
  pose proof (utc_valid (- epoch) ltac:(lia)) as (_ & Bh & Bm & Bs).
  rewrite utc_closed in * by lia. cbn [second minute hour] in *.
  assert (T : (0 <= tm_sec t <= 59 /\ 0 <= tm_min t <= 59 /\ 0 <= tm_hour t <= 23) <-> epoch mod 86400 = 0) by lia.
  assert (D : epoch mod 86400 = 0 -> tm_wday t = Z.rem (epoch / 86400 + 4) 7).
  { intros M. unfold epoch_to_utc in E. cbv zeta in E.
    assert (Q : Z.quot epoch 86400 = epoch / 86400).
    { assert (M' : epoch = epoch / 86400 * 86400) by lia. rewrite M' at 1. apply Z.quot_mul. lia. }
    rewrite Q, s32_small in E by lia.
    destruct (_ <=? INT_MAX) in E; [|discriminate].
    destruct (civil _) as [[[y m] d]| | |] in E; try discriminate. cbn [bind] in E.
    injection E as E. subst t. reflexivity. }
  assert (W : epoch mod 86400 = 0 -> (0 <= tm_wday t <= 6 <-> - 4 * 86400 <= epoch \/ (epoch / 86400 + 4) mod 7 = 0)).
  { intros M. rewrite (D M). set (k := epoch / 86400) in *. assert (epoch = k * 86400) by (subst k; lia).
    pose proof (Z.quot_rem' (k + 4) 7) as Q. destruct (Z_le_gt_dec 0 (k + 4)) as [P|P].
    - pose proof (Z.rem_bound_pos (k + 4) 7 P ltac:(lia)). split; intros; [left|]; lia.
    - pose proof (rem_bound_neg (k + 4) 7 ltac:(lia) ltac:(lia)). split; intros; lia. }
  tauto.
Qed.
