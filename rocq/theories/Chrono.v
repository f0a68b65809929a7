(** The part of chrono 0.4.19 the crate uses. *)
From Coq Require Import NArith ZArith Bool.
From Verif Require Import Base Str.
Open Scope N_scope.

(** [DateTime<Utc>] (src/gnss/gga.rs:26) and [NaiveDateTime] (src/util.rs:93) as calendar fields.
    Simplification: always UTC, so the offset is left out. *)
Record datetime := mk_datetime {
  dt_year : Z; dt_month : N; dt_day : N;
  dt_hour : N; dt_minute : N; dt_second : N; dt_nano : N }.

(** Proleptic Gregorian leap years, for [from_ymd], src/util.rs:113. *)
Definition is_leap (y : Z) : bool :=
  (((y mod 4 =? 0) && negb (y mod 100 =? 0)) || (y mod 400 =? 0))%Z.

(** Month lengths, for [from_ymd], src/util.rs:113. *)
Definition days_in_month (y : Z) (m : N) : N :=
  match m with
  | 1 => 31 | 2 => if is_leap y then 29 else 28 | 3 => 31 | 4 => 30 | 5 => 31 | 6 => 30
  | 7 => 31 | 8 => 31 | 9 => 30 | 10 => 31 | 11 => 30 | 12 => 31
  | _ => 0
  end.

(** Validity check of [NaiveDate::from_ymd] (src/util.rs:113) and [Utc.ymd] (src/util.rs:141,157,
    src/ais/vdm_t4.rs:85): is the date representable? (MIN_YEAR = -262144,
    MAX_YEAR = 262143.) *)
Definition valid_ymd (y : Z) (m d : N) : bool :=
  ((-262144 <=? y) && (y <=? 262143))%Z && (1 <=? m) && (m <=? 12) && (1 <=? d)
  && (d <=? days_in_month y m).

(** Validity check of [and_hms], src/util.rs:113,141,158, src/ais/vdm_t4.rs:88. *)
Definition valid_hms (h m s : N) : bool := (h <? 24) && (m <? 60) && (s <? 60).

(** [Utc.ymd(y, m, d).and_hms(h, mi, s)] (src/util.rs:141,157-158, src/ais/vdm_t4.rs:85-90) and
    [NaiveDate::from_ymd(..).and_hms(..)] (src/util.rs:113-114): panics unless date and time are
    valid. *)
Definition ymd_and_hms {E} (y : Z) (m d h mi s : N) : outcome E datetime :=
  if valid_ymd y m d then
    if valid_hms h mi s then Ok (mk_datetime y m d h mi s 0) else Panic
  else Panic.

(** [now <= eta] on NaiveDateTime, src/util.rs:116: lexicographic order of the calendar fields. *)
Definition dt_leb (a b : datetime) : bool :=
  if (dt_year a =? dt_year b)%Z then
    if dt_month a =? dt_month b then
      if dt_day a =? dt_day b then
        if dt_hour a =? dt_hour b then
          if dt_minute a =? dt_minute b then
            if dt_second a =? dt_second b then dt_nano a <=? dt_nano b
            else dt_second a <? dt_second b
          else dt_minute a <? dt_minute b
        else dt_hour a <? dt_hour b
      else dt_day a <? dt_day b
    else dt_month a <? dt_month b
  else (dt_year a <? dt_year b)%Z.
