(** Properties C08 and C09 of src/date.c. [utc n] (DateSpec.v) is the moment
    reached by [n] one-second ticks of a Gregorian calendar clock that starts
    on Thursday 1970-01-01 00:00:00. *)
From Verif Require Import Base DateModel DateSpec DateProofs.

(** C08. Every non-negative epoch up to the year 5 881 210: all the fields of
    struct tm. *)
Theorem C08_epoch_to_utc : forall epoch,
  0 <= epoch -> epoch / 86400 + 135080 <= INT_MAX ->
  epoch_to_utc epoch =
  Ok (Tm (second (utc epoch)) (minute (utc epoch)) (hour (utc epoch))
         (mday (date (utc epoch))) (month (date (utc epoch)) - 1) (year (date (utc epoch)) - 1900)
         (wday (date (utc epoch)))).
Proof. exact epoch_to_utc_ok. Qed.
Print Assumptions C08_epoch_to_utc.

(** Tuesday 2000-02-29. *)
Example C08_example : epoch_to_utc 951782400 = Ok (Tm 0 0 0 29 1 100 2) /\
  951782400 / 86400 + 135080 <= INT_MAX.
Proof. vm_compute. split; [reflexivity|discriminate]. Qed.

(** The clock of the specification only shows dates and times that exist. *)
Theorem C08_utc_valid : forall n, 0 <= n ->
  valid (date (utc n)) /\ 0 <= hour (utc n) <= 23 /\ 0 <= minute (utc n) <= 59 /\ 0 <= second (utc n) <= 59.
Proof. exact utc_valid. Qed.
Print Assumptions C08_utc_valid.

(** C09 is false of the code: one second before the epoch is reported as
    1970-01-01 00:00:-1 ... *)
Theorem C09_refuted : exists epoch t, epoch < 0 /\
  epoch_to_utc epoch = Ok t /\ tm_sec t = -1 /\ tm_mday t = 1 /\ tm_mon t = 0 /\ tm_year t = 70.
Proof. exists (-1). eexists. vm_compute. repeat split; reflexivity. Qed.
Print Assumptions C09_refuted.

(** ... and the same happens for every negative epoch that is not a midnight:
    a time field is negative. *)
Theorem C09_refuted_always : forall epoch t,
  epoch < 0 -> epoch mod 86400 <> 0 -> epoch_to_utc epoch = Ok t ->
  tm_sec t < 0 \/ tm_min t < 0 \/ tm_hour t < 0.
Proof. exact negative_fields. Qed.
Print Assumptions C09_refuted_always.

(** What does hold, back to 1600-03-01: the date fields are a calendar date,
    the one [- quot epoch 86400] days before 1970-01-01, the weekday is right
    modulo 7, and the (non-positive) time fields add up to the remainder. Only
    at midnight is the result normalised. Missing: normal ranges of the fields. *)
Theorem C09_epoch_to_utc_partial : forall epoch,
  - 135080 * 86400 <= epoch <= 0 ->
  exists t d, epoch_to_utc epoch = Ok t /\ valid d /\
    Z.iter (- Z.quot epoch 86400) next_day d = Day 1970 1 1 4 /\
    tm_year t = year d - 1900 /\ tm_mon t = month d - 1 /\ tm_mday t = mday d /\
    tm_wday t mod 7 = wday d /\
    tm_hour t * 3600 + tm_min t * 60 + tm_sec t = Z.rem epoch 86400.
Proof. exact negative_exact. Qed.
Print Assumptions C09_epoch_to_utc_partial.

(** The time fields before 1970 are those of the moment as long after it, with the
    opposite sign. *)
Theorem C09_mirror_partial : forall epoch t, epoch <= 0 -> epoch_to_utc epoch = Ok t ->
  tm_sec t = - second (utc (- epoch)) /\ tm_min t = - minute (utc (- epoch)) /\ tm_hour t = - hour (utc (- epoch)).
Proof. exact negative_mirror. Qed.
Print Assumptions C09_mirror_partial.

(** Exactly when all fields are in their normal ranges: at midnight, and then only if it
    is one of the last four before 1970 or that of a Sunday; otherwise the weekday is
    negative. *)
Theorem C09_normal_exact : forall epoch t, - 135080 * 86400 <= epoch < 0 -> epoch_to_utc epoch = Ok t ->
  ((0 <= tm_sec t <= 59 /\ 0 <= tm_min t <= 59 /\ 0 <= tm_hour t <= 23 /\ 0 <= tm_wday t <= 6) <->
   epoch mod 86400 = 0 /\ (- 4 * 86400 <= epoch \/ (epoch / 86400 + 4) mod 7 = 0)).
Proof. exact negative_normal. Qed.
Print Assumptions C09_normal_exact.

(** 1969-12-21 was a Sunday; the day before has weekday -1. *)
Example C09_normal_example : epoch_to_utc (-11 * 86400) = Ok (Tm 0 0 0 21 11 69 0) /\
  epoch_to_utc (-12 * 86400) = Ok (Tm 0 0 0 20 11 69 (-1)).
Proof. vm_compute. split; reflexivity. Qed.

Example C09_example : - 135080 * 86400 <= -90061 <= 0 /\
  epoch_to_utc (-90061) = Ok (Tm (-1) (-1) (-1) 31 11 69 3).
Proof. vm_compute. repeat split; discriminate. Qed.
