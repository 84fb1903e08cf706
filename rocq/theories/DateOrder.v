(** The order of dates: proofs. *)
From Verif Require Import Base DateModel DateSpec DateCycle DateProofs DateOrderSpec.
From Coq Require Import ZifyBool ZifyNat.

Lemma next_day_later d : valid d -> earlier_day d (next_day d).
Proof.
  intros (H1 & H2 & H3). unfold earlier_day, next_day. destruct (Z.ltb_spec (mday d) (days_in_month (year d) (month d))); [cbn; lia|].
  destruct (Z.ltb_spec (month d) 12); cbn; lia.
Qed.
Lemma earlier_day_trans a b c : earlier_day a b -> earlier_day b c -> earlier_day a c.
Proof. unfold earlier_day. lia. Qed.
Lemma iter_later n d : 0 < n -> valid d -> earlier_day d (Z.iter n next_day d).
Proof.
  intros H V. replace n with (Z.succ (n - 1)) by lia. assert (G : 0 <= n - 1) by lia. revert G. generalize (n - 1). clear H n. intros n H. pattern n.
  apply natlike_ind; [apply (next_day_later d V)| |exact H]. intros x Hx IH. rewrite iter_succ by lia.
  eapply earlier_day_trans; [exact IH|]. apply next_day_later. apply iter_valid; [lia|exact V].
Qed.

(** Division towards zero keeps the order of quotient and remainder. *)
Lemma quot_order a b d : 0 < d -> a < b -> Z.quot a d < Z.quot b d \/ (Z.quot a d = Z.quot b d /\ Z.rem a d < Z.rem b d).
Proof.
  intros D L. pose proof (Z.quot_le_mono a b d D ltac:(lia)) as M. destruct (Z.eq_dec (Z.quot a d) (Z.quot b d)) as [E|E]; [|left; lia].
  right. split; [exact E|]. pose proof (Z.quot_rem' a d) as A. pose proof (Z.quot_rem' b d) as B. rewrite E in A. lia.
Qed.
Definition day_of (epoch : Z) : day := Z.iter (Z.quot epoch 86400 + 135080) next_day (Day 1600 3 1 3).
Lemma epoch_fields n : 0 <= Z.quot n 86400 + 135080 <= INT_MAX -> exists w,
  epoch_to_utc n = Ok (Tm (Z.rem (Z.rem n 86400) 60) (Z.rem (Z.quot (Z.rem n 86400) 60) 60) (Z.quot (Z.quot (Z.rem n 86400) 60) 60)
    (mday (day_of n)) (month (day_of n) - 1) (year (day_of n) - 1900) w).
Proof.
  intros H. unfold INT_MAX in *. unfold epoch_to_utc, day_of. rewrite s32_small by lia. cbv zeta. unfold INT_MAX.
  match goal with |- context [if ?c then _ else _] => replace c with true by lia end.
  pose proof (civil_day_iter (Z.quot n 86400 + 135080) ltac:(lia)) as Hc. unfold civil_day in Hc.
  destruct (civil (Z.quot n 86400 + 135080)) as [[[y m] d]| | |]; try discriminate. apply Some_inj in Hc. rewrite <- Hc. cbn [bind year month mday].
  eexists. f_equal. f_equal; lia.
Qed.
Lemma day_order n m : 0 <= Z.quot n 86400 + 135080 -> Z.quot n 86400 < Z.quot m 86400 -> earlier_day (day_of n) (day_of m).
Proof.
  intros H L. unfold day_of. assert (V : valid (Day 1600 3 1 3)) by (unfold valid; cbn; lia).
  pose proof (iter_later (Z.quot m 86400 - Z.quot n 86400) _ ltac:(lia) (iter_valid _ _ H V)) as I. rewrite <- iter_add_comm in I by lia.
  replace (Z.quot m 86400 - Z.quot n 86400 + (Z.quot n 86400 + 135080)) with (Z.quot m 86400 + 135080) in I by lia. exact I.
Qed.

Lemma epoch_later n m a b : 0 <= Z.quot n 86400 + 135080 <= INT_MAX -> 0 <= Z.quot m 86400 + 135080 <= INT_MAX ->
  epoch_to_utc n = Ok a -> epoch_to_utc m = Ok b -> n < m -> earlier a b.
Proof.
  intros Hn Hm En Em L. destruct (epoch_fields n Hn) as (w & F), (epoch_fields m Hm) as (w' & F'). rewrite F in En. rewrite F' in Em. injection En as <-. injection Em as <-.
  unfold earlier. cbn [tm_sec tm_min tm_hour tm_mday tm_mon tm_year]. destruct (quot_order n m 86400 ltac:(lia) L) as [Q|(Q & R)].
  - left. pose proof (day_order n m (proj1 Hn) Q) as D. clear - D. unfold earlier_day in D. lia.
  - right. unfold day_of. rewrite Q. split; [reflexivity|]. split; [reflexivity|]. split; [reflexivity|].
    destruct (quot_order _ _ 60 ltac:(lia) R) as [Q1|(Q1 & R1)].
    + destruct (quot_order _ _ 60 ltac:(lia) Q1) as [Q2|Q2]; [left; exact Q2|right; split; [apply Q2|left; apply Q2]].
    + rewrite Q1. right. split; [reflexivity|]. right. split; [reflexivity|exact R1].
Qed.
Lemma epoch_order n m a b : 0 <= Z.quot n 86400 + 135080 <= INT_MAX -> 0 <= Z.quot m 86400 + 135080 <= INT_MAX ->
  epoch_to_utc n = Ok a -> epoch_to_utc m = Ok b -> (n < m <-> earlier a b).
Proof.
  intros Hn Hm En Em. split; [intros L; exact (epoch_later n m a b Hn Hm En Em L)|].
  intros E. destruct (Z.lt_trichotomy n m) as [L|[->|L]]; [exact L| |].
  - exfalso. rewrite En in Em. injection Em as <-. clear - E. unfold earlier in E. lia.
  - exfalso. pose proof (epoch_later m n b a Hm Hn Em En L) as F. clear - E F. unfold earlier in E, F. lia.
Qed.
Lemma epoch_range n : - 135080 * 86400 <= n < (INT_MAX - 135080 + 1) * 86400 -> 0 <= Z.quot n 86400 + 135080 <= INT_MAX.
Proof.
  unfold INT_MAX. intros H. pose proof (Z.quot_rem' n 86400) as Q. pose proof (Z.rem_bound_abs n 86400 ltac:(lia)) as R. lia.
Qed.
