(** The order of dates. *)
From Verif Require Import Base DateModel DateSpec.

Definition earlier_day (a b : day) : Prop :=
  year a < year b \/ (year a = year b /\ (month a < month b \/ (month a = month b /\ mday a < mday b))).
(** The year counts first, then the month, the day, the hour, the minute and the second. *)
Definition earlier (a b : tm) : Prop :=
  (tm_year a < tm_year b \/ (tm_year a = tm_year b /\ (tm_mon a < tm_mon b \/ (tm_mon a = tm_mon b /\ tm_mday a < tm_mday b)))) \/
  (tm_year a = tm_year b /\ tm_mon a = tm_mon b /\ tm_mday a = tm_mday b /\
   (tm_hour a < tm_hour b \/ (tm_hour a = tm_hour b /\ (tm_min a < tm_min b \/ (tm_min a = tm_min b /\ tm_sec a < tm_sec b))))).
