(** Specification vocabulary for dates and times (proleptic Gregorian calendar). *)
From Coq Require Import List NArith ZArith.
From Verif Require Import Base Str Chrono.
Import ListNotations.
Open Scope N_scope.

Definition leap_year (y : Z) : Prop :=
  ((4 | y) /\ ~ (100 | y) \/ (400 | y))%Z.

(** [m] of year [y] has at least [d] days. *)
Definition valid_date (y : Z) (m d : N) : Prop :=
  1 <= m <= 12 /\ 1 <= d <= 31 /\
  (m = 4 \/ m = 6 \/ m = 9 \/ m = 11 -> d <= 30) /\
  (m = 2 -> d <= 28 \/ (d = 29 /\ leap_year y)).

Definition valid_time (h m s : N) : Prop := h < 24 /\ m < 60 /\ s < 60.

(** Years the date library can represent. *)
Definition year_in_range (y : Z) : Prop := (-262144 <= y <= 262143)%Z.

(** A clock reading: a valid date and time (nanoseconds up to 2*10^9 for leap seconds). *)
Definition clock (t : datetime) : Prop :=
  year_in_range (dt_year t) /\ valid_date (dt_year t) (dt_month t) (dt_day t) /\
  valid_time (dt_hour t) (dt_minute t) (dt_second t) /\ dt_nano t < 2000000000.
