(** The Gregorian calendar and UTC clock as a counter. *)
From Verif Require Import Base.

(** A calendar day: year, month 1..12, day of month 1.., weekday 0 = Sunday. *)
Record day := Day { year : Z; month : Z; mday : Z; wday : Z }.

Definition leap (y : Z) : bool :=
  (y mod 4 =? 0) && (negb (y mod 100 =? 0) || (y mod 400 =? 0)).

Definition days_in_month (y m : Z) : Z :=
  if m =? 2 then if leap y then 29 else 28
  else if (m =? 4) || (m =? 6) || (m =? 9) || (m =? 11) then 30
  else 31.

Definition next_day (d : day) : day :=
  let w := (wday d + 1) mod 7 in
  if mday d <? days_in_month (year d) (month d) then Day (year d) (month d) (mday d + 1) w
  else if month d <? 12 then Day (year d) (month d + 1) 1 w
  else Day (year d + 1) 1 1 w.

(** A moment: day, hour, minute, second. *)
Record moment := Moment { date : day; hour : Z; minute : Z; second : Z }.

(** One second later (UTC without leap seconds, as POSIX time). *)
Definition tick (m : moment) : moment :=
  if second m <? 59 then Moment (date m) (hour m) (minute m) (second m + 1)
  else if minute m <? 59 then Moment (date m) (hour m) (minute m + 1) 0
  else if hour m <? 23 then Moment (date m) (hour m + 1) 0 0
  else Moment (next_day (date m)) 0 0 0.

(** 1970-01-01 00:00:00, a Thursday. *)
Definition epoch_start : moment := Moment (Day 1970 1 1 4) 0 0 0.

(** The moment [n] seconds later. *)
Definition utc (n : Z) : moment := Z.iter n tick epoch_start.

(** A date that exists in the calendar. *)
Definition valid (d : day) : Prop :=
  1 <= month d <= 12 /\ 1 <= mday d <= days_in_month (year d) (month d) /\ 0 <= wday d < 7.
