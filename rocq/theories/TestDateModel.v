(** Model of the program test/date_test.c. What is printed is left out. *)
From Verif Require Import Base CharstrModel DateModel.

(** asctime_r(3), C11 7.27.3: "%.3s %.3s%3d %.2d:%.2d:%.2d %d\n". Outside of the normal ranges of the fields, and of
    years of four digits, it is undefined. *)
Definition day_names : list (list Z) :=
  [[83; 117; 110]; [77; 111; 110]; [84; 117; 101]; [87; 101; 100]; [84; 104; 117]; [70; 114; 105]; [83; 97; 116]].
Definition month_names : list (list Z) :=
  [[74; 97; 110]; [70; 101; 98]; [77; 97; 114]; [65; 112; 114]; [77; 97; 121]; [74; 117; 110];
   [74; 117; 108]; [65; 117; 103]; [83; 101; 112]; [79; 99; 116]; [78; 111; 118]; [68; 101; 99]].
Definition digit (n : Z) : Z := 48 + n mod 10.
Definition asctime (t : tm) : res (list Z) :=
  let y := tm_year t + 1900 in
  if (0 <=? tm_sec t) && (tm_sec t <=? 60) && (0 <=? tm_min t) && (tm_min t <=? 59) && (0 <=? tm_hour t) && (tm_hour t <=? 23) &&
     (1 <=? tm_mday t) && (tm_mday t <=? 31) && (0 <=? tm_mon t) && (tm_mon t <=? 11) && (0 <=? tm_wday t) && (tm_wday t <=? 6) &&
     (1000 <=? y) && (y <=? 9999)
  then
    Ok (nth (Z.to_nat (tm_wday t)) day_names [] ++ [32] ++ nth (Z.to_nat (tm_mon t)) month_names [] ++
        [32; if tm_mday t <? 10 then 32 else digit (tm_mday t / 10); digit (tm_mday t); 32;
         digit (tm_hour t / 10); digit (tm_hour t); 58; digit (tm_min t / 10); digit (tm_min t); 58;
         digit (tm_sec t / 10); digit (tm_sec t); 32;
         digit (y / 1000); digit (y / 100); digit (y / 10); digit y; 10; 0])
  else UB.

Section Date.
(** [gmtime]: gmtime_r(3) *)
Context (gmtime : Z -> tm).

(** test/date_test.c:12-26 *)
Definition same_date (epoch : Z) : res bool :=
  a <- epoch_to_utc epoch ;;
  let b := gmtime epoch in
  date <- asctime a ;;
  gmtime_date <- asctime b ;;
  strcmp_eq date gmtime_date.
(** test/date_test.c:11-27. [limit] and [step] are 2145909600 and 17113 there. *)
Fixpoint epoch_loop (fuel : nat) (epoch limit step : Z) : res bool :=
  match fuel with
  | O => NoFuel
  | S fuel =>
      if epoch <? limit then
        same <- same_date epoch ;;
        if negb same then Ok false else epoch_loop fuel (epoch + step) limit step
      else Ok true
  end.
(** test/date_test.c:8-28 test_epoch_to_utc. The fuel is what the number of steps needs. *)
Definition test_dates (start limit step : Z) : res bool := epoch_loop (S (Z.to_nat (limit - start))) start limit step.
Definition test_epoch_to_utc : res bool := test_dates 1 2145909600 17113.
End Date.
