(** Property C132: test/date_test.c. *)
From Verif Require Import Base DateModel DateSpec TestDateModel TestDateSpec TestDate.

(** test/date_test.c compares epoch_to_utc with gmtime_r. It passes exactly if gmtime_r gives the calendar date for each of the
    moments that are compared, whatever their distance, up to the year 9999. *)
Theorem C132_date_test_exact : forall gmtime start limit step, 0 <= start -> 0 < step -> limit <= 253402300800 ->
  (forall k, 0 <= k -> start + k * step < limit -> normal (gmtime (start + k * step))) ->
  exists x, test_dates gmtime start limit step = Ok x /\
    (x = true <-> forall k, 0 <= k -> start + k * step < limit -> gmtime (start + k * step) = fields (utc (start + k * step))).
Proof. exact test_dates_ok. Qed.
Print Assumptions C132_date_test_exact.

(** With a right gmtime_r, it passes. *)
Theorem C132_date_test : forall gmtime, (forall n, 0 <= n -> gmtime n = fields (utc n)) -> test_epoch_to_utc gmtime = Ok true.
Proof. intros gmtime. unfold test_epoch_to_utc. apply test_dates_right; lia. Qed.
Print Assumptions C132_date_test.

(** Moments up to the year 10000, and the text of the last. *)
Theorem C132_date_years : forall n, 0 <= n < 253402300800 -> normal (fields (utc n)).
Proof. exact utc_normal. Qed.
Print Assumptions C132_date_years.
Example C132_date_example :
  (forall n, 0 <= n < 172800 -> normal (fields (utc n))) /\
  test_dates (fun n => fields (utc n)) 1 3000 700 = Ok true /\
  test_dates (fun n => fields (utc (if n =? 1401 then 1402 else n))) 1 3000 700 = Ok false /\
  asctime (Tm 59 59 23 31 11 8099 5) = Ok [70; 114; 105; 32; 68; 101; 99; 32; 51; 49; 32; 50; 51; 58; 53; 57; 58; 53; 57; 32; 57; 57; 57; 57; 10; 0] /\
  asctime (Tm 0 0 0 1 0 8100 6) = UB.
Proof. split; [intros n H; apply utc_normal; lia|]. vm_compute. repeat split. Qed.
