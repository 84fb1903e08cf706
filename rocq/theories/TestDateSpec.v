(** What gmtime_r should say, for test/date_test.c. *)
From Verif Require Import Base DateModel DateSpec.

(** The fields for a moment *)
Definition fields (m : moment) : tm :=
  Tm (second m) (minute m) (hour m) (mday (date m)) (month (date m) - 1) (year (date m) - 1900) (wday (date m)).
(** The normal ranges of the fields, for years of four digits *)
Definition normal (t : tm) : Prop :=
  0 <= tm_sec t <= 60 /\ 0 <= tm_min t <= 59 /\ 0 <= tm_hour t <= 23 /\ 1 <= tm_mday t <= 31 /\ 0 <= tm_mon t <= 11 /\
  0 <= tm_wday t <= 6 /\ 1000 <= tm_year t + 1900 <= 9999.
