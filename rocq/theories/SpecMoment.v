(** Specification vocabulary for moments: days and seconds counted in the Gregorian calendar. *)
From Coq Require Import List NArith ZArith.
From Verif Require Import Base Chrono SpecTime.
Import ListNotations.
Open Scope Z_scope.

(** The date after a date: the next day of the month if there is one, else the first of the next
    month, else New Year's Day. *)
Definition next_date (y : Z) (m d : N) (y' : Z) (m' d' : N) : Prop :=
  (valid_date y m (d + 1) /\ y' = y /\ m' = m /\ d' = (d + 1)%N) \/
  (~ valid_date y m (d + 1) /\ (m < 12)%N /\ y' = y /\ m' = (m + 1)%N /\ d' = 1%N) \/
  (~ valid_date y m (d + 1) /\ m = 12%N /\ y' = y + 1 /\ m' = 1%N /\ d' = 1%N).

(** Days since 1 March of the year 0 (the year taken to begin in March). [c107_calendar] shows
    that it counts the days: it is 0 on that day and one more on the next date. *)
Definition day_number (y : Z) (m d : N) : Z :=
  let y' := if (m <=? 2)%N then y - 1 else y in
  let m' := if (m <=? 2)%N then Z.of_N m + 9 else Z.of_N m - 3 in
  365 * y' + y' / 4 - y' / 100 + y' / 400 + (153 * m' + 2) / 5 + Z.of_N d - 1.

Definition day_of (t : datetime) : Z := day_number (dt_year t) (dt_month t) (dt_day t).

Definition second_of_day (t : datetime) : Z :=
  3600 * Z.of_N (dt_hour t) + 60 * Z.of_N (dt_minute t) + Z.of_N (dt_second t).

(** Seconds since the beginning of that day, fractions dropped and without leap seconds (as UTC
    is counted by computers). *)
Definition moment (t : datetime) : Z := 86400 * day_of t + second_of_day t.

(** A date and time to the second. *)
Definition date_and_time (t : datetime) : Prop :=
  valid_date (dt_year t) (dt_month t) (dt_day t) /\ valid_time (dt_hour t) (dt_minute t) (dt_second t).
