(** C107: time stamps and the moments that were meant. *)
From Coq Require Import List NArith ZArith Bool String Lia.
From Verif Require Import Base Str Chrono Types Parser SpecText SpecTime SpecFields SpecMoment PropFields.
Import ListNotations.
Open Scope N_scope.

(** ** The calendar *)

Lemma div_pred k y : (0 < k)%Z -> ((k | y) /\ y / k = (y - 1) / k + 1 \/ ~ (k | y) /\ y / k = (y - 1) / k)%Z.
Proof.
  intros Hk. pose proof (Z.div_mod y k ltac:(lia)) as E. pose proof (Z.mod_pos_bound y k Hk) as B.
  destruct (Z.eq_dec (y mod k) 0) as [Z0|Z0].
  - left. split; [apply Z.mod_divide; lia|].
    enough ((y - 1) / k = y / k - 1)%Z by lia. symmetry. apply (Z.div_unique _ _ _ (k - 1)); lia.
  - right. split; [intros D; apply Z.mod_divide in D; lia|].
    apply (Z.div_unique _ _ _ (y mod k - 1)); lia.
Qed.

Lemma leap_days y :
  ((leap_year y /\ y / 4 - y / 100 + y / 400 = (y - 1) / 4 - (y - 1) / 100 + (y - 1) / 400 + 1) \/
   (~ leap_year y /\ y / 4 - y / 100 + y / 400 = (y - 1) / 4 - (y - 1) / 100 + (y - 1) / 400))%Z.
Proof.
  unfold leap_year.
  assert (D1 : (100 | y)%Z -> (4 | y)%Z) by (intros [q ->]; exists (25 * q)%Z; lia).
  assert (D2 : (400 | y)%Z -> (100 | y)%Z) by (intros [q ->]; exists (4 * q)%Z; lia).
  destruct (div_pred 4 y) as [[A1 A2]|[A1 A2]], (div_pred 100 y) as [[B1 B2]|[B1 B2]],
    (div_pred 400 y) as [[C1 C2]|[C1 C2]]; try lia; try tauto;
    first [left; split; [tauto|lia]|right; split; [tauto|lia]|exfalso; tauto].
Qed.

Ltac months m :=
  let E := fresh in
  assert (E : m = 1 \/ m = 2 \/ m = 3 \/ m = 4 \/ m = 5 \/ m = 6 \/ m = 7 \/ m = 8 \/ m = 9 \/ m = 10 \/ m = 11 \/ m = 12) by lia;
  repeat (destruct E as [E|E]); subst m.

(** The count of days is 0 on 1 March of the year 0 and goes up by one from each date to the next. *)
Theorem c107_calendar :
  day_number 0 3 1 = 0%Z /\
  forall y m d y' m' d', valid_date y m d -> next_date y m d y' m' d' ->
    valid_date y' m' d' /\ day_number y' m' d' = (day_number y m d + 1)%Z.
Proof.
  split; [reflexivity|]. intros y m d y' m' d' V [(A & -> & -> & ->)|[(A & L & -> & -> & ->)|(A & -> & -> & -> & ->)]].
  - split; [exact A|]. unfold day_number. lia.
  - split; [unfold valid_date in *; lia|].
    pose proof (leap_days y) as Y. unfold valid_date in A, V. unfold day_number.
    assert (M : m <= 11) by lia.
    months m; try lia;
      repeat match goal with |- context [?a <=? 2] => let b := eval vm_compute in (a <=? 2) in change (a <=? 2) with b end; cbv iota.
    all: try (assert (d = 31) by lia; subst d; Z.div_mod_to_equations; lia).
    all: try (assert (d = 30) by lia; subst d; Z.div_mod_to_equations; lia).
    destruct Y as [[Y1 Y2]|[Y1 Y2]].
    + assert (d = 29) as -> by (assert (~ d <= 27) by (intros ?; apply A; repeat split; lia); destruct (N.eq_dec d 28) as [->|]; [exfalso; apply A; repeat split; try lia; intros _; right; split; [reflexivity|exact Y1]|lia]).
      change ((153 * (Z.of_N 2 + 9) + 2) / 5)%Z with 337%Z. change ((153 * (Z.of_N (2 + 1) - 3) + 2) / 5)%Z with 0%Z. lia.
    + assert (d = 28) as -> by (assert (~ d <= 27) by (intros ?; apply A; repeat split; lia); destruct V as (_ & _ & _ & V); destruct (V eq_refl) as [?|[_ ?]]; [lia|tauto]).
      change ((153 * (Z.of_N 2 + 9) + 2) / 5)%Z with 337%Z. change ((153 * (Z.of_N (2 + 1) - 3) + 2) / 5)%Z with 0%Z. lia.
  - split; [unfold valid_date in *; lia|]. unfold valid_date in A, V. assert (d = 31) as -> by lia.
    unfold day_number. change (12 <=? 2) with false. change (1 <=? 2) with true. cbv iota.
    replace (y + 1 - 1)%Z with y by lia.
    change ((153 * (Z.of_N 12 - 3) + 2) / 5)%Z with 275%Z. change ((153 * (Z.of_N 1 + 9) + 2) / 5)%Z with 306%Z. lia.
Qed.
Print Assumptions c107_calendar.

Example c107_calendar_example :
  day_number 1970 1 1 = 719468%Z /\ next_date 2100 2 28 2100 3 1 /\ next_date 2000 2 28 2000 2 29 /\
  day_number 2026 11 16 = 740241%Z.
Proof.
  split; [reflexivity|]. split; [|split; [|reflexivity]].
  - right. left. split; [|repeat split; lia]. unfold valid_date, leap_year. change (28 + 1) with 29.
    intros (_ & _ & _ & H). destruct (H eq_refl) as [?|[_ [[_ N]|N]]]; [lia| |].
    + apply N. now exists 21%Z.
    + destruct N as [q N]. lia.
  - left. split; [|repeat split; lia]. unfold valid_date, leap_year. change (28 + 1) with 29.
    split; [lia|]. split; [lia|]. split; [lia|]. intros _. right. split; [reflexivity|]. right. now exists 5%Z.
Qed.

Definition years (y : Z) : Z := (365 * y + y / 4 - y / 100 + y / 400)%Z.

Lemma years_lt a b : (a < b)%Z -> (years a + 365 <= years b)%Z.
Proof. intros H. unfold years. Z.div_mod_to_equations. lia. Qed.

Lemma in_year y m d : valid_date y m d -> (years (y - 1) + 306 <= day_number y m d <= years y + 305)%Z.
Proof.
  intros V. pose proof (years_lt (y - 1) y ltac:(lia)) as L. pose proof (leap_days y) as Y. unfold valid_date in V.
  unfold day_number. fold (years (y - 1)) (years y).
  assert (M : 1 <= m <= 12) by lia.
  months m;
    repeat match goal with |- context [?a <=? 2] => let b := eval vm_compute in (a <=? 2) in change (a <=? 2) with b end; cbv iota.
  all: fold (years (y - 1)) (years y).
  all: match goal with |- context [((153 * ?a + 2) / 5)%Z] => let q := eval vm_compute in ((153 * a + 2) / 5)%Z in
         change ((153 * a + 2) / 5)%Z with q end.
  all: unfold years in *.
  all: destruct Y as [[Y1 Y2]|[Y1 Y2]]; try lia.
Qed.

Lemma later_year y m d y' m' d' : valid_date y m d -> valid_date y' m' d' -> (y < y')%Z ->
  (day_number y m d < day_number y' m' d')%Z.
Proof.
  intros V V' H. pose proof (in_year _ _ _ V). pose proof (in_year _ _ _ V').
  destruct (Z.eq_dec (y' - 1) y) as [E|E].
  - rewrite E in *. lia.
  - pose proof (years_lt y (y' - 1) ltac:(lia)). lia.
Qed.

Lemma second_of_day_range t : valid_time (dt_hour t) (dt_minute t) (dt_second t) -> (0 <= second_of_day t < 86400)%Z.
Proof. unfold valid_time, second_of_day. lia. Qed.

(** ** Sentences with a time of day *)

(** [T] is the moment the sender means; the sentence carries its time of day. The time stamp
    differs from [T] by as many days as the receiver's date does. *)
Theorem c107_days_off ovf now s tt fff fields p r i o T :
  gnss_with s tt fff fields -> In fff [lit "GGA"; lit "GLL"] -> clock now -> (0 <= dt_year now)%Z ->
  fst (parse_sentence ovf now s p) = Ok r -> In (i, o) (times r) ->
  six_digits (fld fields i) (dt_hour T) (dt_minute T) (dt_second T) ->
  exists t, o = Some t /\ (moment t = moment T + 86400 * (day_of now - day_of T))%Z.
Proof.
  intros Hs Hf Hc Hy Hr Hi D. destruct (c55_time_of_day _ _ _ _ _ _ _ _ _ _ _ _ _ Hs Hf Hc Hy Hr Hi D) as [-> V].
  eexists. split; [reflexivity|]. unfold moment, day_of, second_of_day.
  cbn [dt_year dt_month dt_day dt_hour dt_minute dt_second]. lia.
Qed.
Print Assumptions c107_days_off.

(** So it is the moment meant exactly if the receiver's date is that of the sender. *)
Theorem c107_same_day_partial ovf now s tt fff fields p r i o T :
  gnss_with s tt fff fields -> In fff [lit "GGA"; lit "GLL"] -> clock now -> (0 <= dt_year now)%Z ->
  fst (parse_sentence ovf now s p) = Ok r -> In (i, o) (times r) ->
  six_digits (fld fields i) (dt_hour T) (dt_minute T) (dt_second T) ->
  exists t, o = Some t /\ (moment t = moment T <-> day_of now = day_of T).
Proof.
  intros Hs Hf Hc Hy Hr Hi D. destruct (c107_days_off _ _ _ _ _ _ _ _ _ _ _ Hs Hf Hc Hy Hr Hi D) as (t & E & M).
  exists t. split; [exact E|]. lia.
Qed.
Print Assumptions c107_same_day_partial.

(** Sent before midnight and received up to twelve hours later, after midnight: the time stamp is
    a day late, at least twelve hours in the receiver's future. *)
Theorem c107_midnight_refuted ovf now s tt fff fields p r i o T :
  gnss_with s tt fff fields -> In fff [lit "GGA"; lit "GLL"] -> clock now -> (0 <= dt_year now)%Z ->
  fst (parse_sentence ovf now s p) = Ok r -> In (i, o) (times r) ->
  six_digits (fld fields i) (dt_hour T) (dt_minute T) (dt_second T) ->
  next_date (dt_year T) (dt_month T) (dt_day T) (dt_year now) (dt_month now) (dt_day now) ->
  date_and_time T -> (moment now <= moment T + 43200)%Z ->
  exists t, o = Some t /\ (moment t = moment T + 86400)%Z /\ (moment now + 43200 <= moment t)%Z.
Proof.
  intros Hs Hf Hc Hy Hr Hi D N [V _] L.
  destruct (c107_days_off _ _ _ _ _ _ _ _ _ _ _ Hs Hf Hc Hy Hr Hi D) as (t & E & M).
  apply (proj2 c107_calendar _ _ _ _ _ _ V) in N as [_ N]. unfold day_of in M. rewrite N in M.
  exists t. split; [exact E|]. lia.
Qed.
Print Assumptions c107_midnight_refuted.

Definition ex_new_day : datetime := mk_datetime 2026 11 17 0 0 1 0.
Definition ex_last_second : datetime := mk_datetime 2026 11 16 23 59 59 0.

Example c107_midnight_example :
  clock ex_new_day /\ date_and_time ex_last_second /\
  next_date 2026 11 16 2026 11 17 /\ (moment ex_new_day = moment ex_last_second + 2)%Z /\
  exists fields d, gnss_with (lit "$GPGGA,235959.00,,,,,,,,,,,,,") (lit "GP") (lit "GGA") fields /\
    six_digits (fld fields 0) 23 59 59 /\
    fst (parse_sentence true ex_new_day (lit "$GPGGA,235959.00,,,,,,,,,,,,,") new_parser) = Ok (PsGga d) /\
    gga_timestamp d = Some (mk_datetime 2026 11 17 23 59 59 0).
Proof.
  split; [unfold clock, year_in_range, valid_date, valid_time; cbn; lia|].
  split; [unfold date_and_time, valid_date, valid_time; cbn; lia|].
  split; [left; unfold valid_date; cbn; lia|]. split; [reflexivity|].
  eexists. eexists. split; [gnss|]. split.
  - exists 50, 51, 53, 57, 53, 57, (lit ".00"). split; [reflexivity|]. split; [repeat constructor; discriminate|auto].
  - split; [vm_compute; reflexivity|]. reflexivity.
Qed.

(** ** Sentences with a date *)

(** RMC: the sentence carries date and time of day of [T], the year as two digits. *)
Theorem c107_centuries_off ovf now s tt fields p d T :
  gnss_with s tt (lit "RMC") fields -> (0 <= dt_year now)%Z ->
  fst (parse_sentence ovf now s p) = Ok (PsRmc d) ->
  six_digits (fld fields 8) (dt_day T) (dt_month T) (Z.to_N (dt_year T mod 100)) ->
  six_digits (fld fields 0) (dt_hour T) (dt_minute T) (dt_second T) ->
  exists t, rmc_timestamp d = Some t /\ date_and_time t /\
    dt_year t = (dt_year T + 100 * (dt_year now / 100 - dt_year T / 100))%Z /\
    dt_month t = dt_month T /\ dt_day t = dt_day T /\ second_of_day t = second_of_day T.
Proof.
  intros Hs Hy Hr D1 D2.
  destruct (c56_date_and_time _ _ _ _ _ _ _ _ _ _ _ _ _ Hs Hy Hr D1 D2) as (y & E & C & M & V1 & V2).
  eexists. split; [exact E|]. split; [split; assumption|].
  cbn [dt_year dt_month dt_day]. split; [|repeat split].
  rewrite Z2N.id in M by (apply Z.mod_pos_bound; lia). Z.div_mod_to_equations. lia.
Qed.
Print Assumptions c107_centuries_off.

Theorem c107_same_century_partial ovf now s tt fields p d T :
  gnss_with s tt (lit "RMC") fields -> (0 <= dt_year now)%Z ->
  fst (parse_sentence ovf now s p) = Ok (PsRmc d) ->
  six_digits (fld fields 8) (dt_day T) (dt_month T) (Z.to_N (dt_year T mod 100)) ->
  six_digits (fld fields 0) (dt_hour T) (dt_minute T) (dt_second T) ->
  date_and_time T ->
  exists t, rmc_timestamp d = Some t /\ (moment t = moment T <-> (dt_year now / 100 = dt_year T / 100)%Z).
Proof.
  intros Hs Hy Hr D1 D2 [V1 V2].
  destruct (c107_centuries_off _ _ _ _ _ _ _ _ Hs Hy Hr D1 D2) as (t & E & [W1 W2] & Y & M & D & S).
  exists t. split; [exact E|]. unfold moment. rewrite S. split.
  - intros Q. assert (Q' : day_of t = day_of T) by lia. clear Q. unfold day_of in Q'.
    destruct (Z.lt_trichotomy (dt_year t) (dt_year T)) as [L|[L|L]]; [|lia|].
    + pose proof (later_year _ _ _ _ _ _ W1 V1 L). lia.
    + pose proof (later_year _ _ _ _ _ _ V1 W1 L). lia.
  - intros Q. unfold day_of. rewrite M, D, Y, Q. f_equal. f_equal. f_equal. lia.
Qed.
Print Assumptions c107_same_century_partial.

(** Sent in the last year of a century and received in the first year of the next: the time stamp
    is a hundred years late, in the receiver's future. *)
Theorem c107_new_century_refuted ovf now s tt fields p d T :
  gnss_with s tt (lit "RMC") fields -> clock now -> (0 <= dt_year now)%Z ->
  fst (parse_sentence ovf now s p) = Ok (PsRmc d) ->
  six_digits (fld fields 8) (dt_day T) (dt_month T) (Z.to_N (dt_year T mod 100)) ->
  six_digits (fld fields 0) (dt_hour T) (dt_minute T) (dt_second T) ->
  (dt_year T mod 100 = 99)%Z -> dt_year now = (dt_year T + 1)%Z ->
  exists t, rmc_timestamp d = Some t /\ dt_year t = (dt_year T + 100)%Z /\ (moment now < moment t)%Z.
Proof.
  intros Hs (_ & C1 & C2 & _) Hy Hr D1 D2 N Q.
  destruct (c107_centuries_off _ _ _ _ _ _ _ _ Hs Hy Hr D1 D2) as (t & E & [W1 W2] & Y & M & D & S).
  exists t. split; [exact E|].
  assert (Y' : dt_year t = (dt_year T + 100)%Z) by (rewrite Y, Q; Z.div_mod_to_equations; lia).
  split; [exact Y'|]. pose proof (later_year _ _ _ _ _ _ C1 W1 ltac:(lia)) as L.
  pose proof (second_of_day_range _ C2). pose proof (second_of_day_range _ W2). unfold moment, day_of in *. lia.
Qed.
Print Assumptions c107_new_century_refuted.

Definition ex_new_century : datetime := mk_datetime 2100 1 1 0 0 1 0.
Definition ex_last_day : datetime := mk_datetime 2099 12 31 23 59 59 0.

Example c107_century_example :
  clock ex_new_century /\ date_and_time ex_last_day /\ (moment ex_new_century = moment ex_last_day + 2)%Z /\
  exists fields d, gnss_with (lit "$GPRMC,235959.00,A,,,,,,,311299,,,") (lit "GP") (lit "RMC") fields /\
    six_digits (fld fields 8) 31 12 99 /\ six_digits (fld fields 0) 23 59 59 /\
    fst (parse_sentence true ex_new_century (lit "$GPRMC,235959.00,A,,,,,,,311299,,,") new_parser) = Ok (PsRmc d) /\
    rmc_timestamp d = Some (mk_datetime 2199 12 31 23 59 59 0).
Proof.
  split; [unfold clock, year_in_range, valid_date, valid_time; cbn; lia|].
  split; [unfold date_and_time, valid_date, valid_time; cbn; lia|].
  split; [reflexivity|].
  eexists. eexists. split; [gnss|]. split; [|split].
  - exists 51, 49, 49, 50, 57, 57, []. split; [reflexivity|]. split; [repeat constructor; discriminate|auto].
  - exists 50, 51, 53, 57, 53, 57, (lit ".00"). split; [reflexivity|]. split; [repeat constructor; discriminate|auto].
  - split; [vm_compute; reflexivity|]. reflexivity.
Qed.
