(** C112: time stamps of different sentences are as far apart as the moments meant. *)
From Coq Require Import List NArith ZArith Bool String Lia.
From Verif Require Import Base Str Chrono Types Parser SpecText SpecResult SpecTime SpecFields SpecAis SpecMoment FrontFacts VdmFacts PropFields PropAis
  PropMoment.
Import ListNotations.
Open Scope N_scope.

(** ** Sentences with a time of day *)

(** Two GGA or GLL sentences, whichever parsers read them: the time between the stamps is the time
    between the moments meant exactly if the receiver's date is equally many days off for both
    (zero days for a live receiver within one day; any number for a recording of one day that is
    read on one other day). *)
Theorem c112_time_between_partial
    ovf1 now1 s1 tt1 fff1 fields1 p1 r1 i1 o1 T1 ovf2 now2 s2 tt2 fff2 fields2 p2 r2 i2 o2 T2 :
  gnss_with s1 tt1 fff1 fields1 -> In fff1 [lit "GGA"; lit "GLL"] -> clock now1 -> (0 <= dt_year now1)%Z ->
  fst (parse_sentence ovf1 now1 s1 p1) = Ok r1 -> In (i1, o1) (times r1) ->
  six_digits (fld fields1 i1) (dt_hour T1) (dt_minute T1) (dt_second T1) ->
  gnss_with s2 tt2 fff2 fields2 -> In fff2 [lit "GGA"; lit "GLL"] -> clock now2 -> (0 <= dt_year now2)%Z ->
  fst (parse_sentence ovf2 now2 s2 p2) = Ok r2 -> In (i2, o2) (times r2) ->
  six_digits (fld fields2 i2) (dt_hour T2) (dt_minute T2) (dt_second T2) ->
  exists t1 t2, o1 = Some t1 /\ o2 = Some t2 /\
    ((moment t2 - moment t1 = moment T2 - moment T1)%Z <-> (day_of now1 - day_of T1 = day_of now2 - day_of T2)%Z).
Proof.
  intros A1 A2 A3 A4 A5 A6 A7 B1 B2 B3 B4 B5 B6 B7.
  destruct (c107_days_off _ _ _ _ _ _ _ _ _ _ _ A1 A2 A3 A4 A5 A6 A7) as (t1 & E1 & M1).
  destruct (c107_days_off _ _ _ _ _ _ _ _ _ _ _ B1 B2 B3 B4 B5 B6 B7) as (t2 & E2 & M2).
  exists t1, t2. split; [exact E1|]. split; [exact E2|]. lia.
Qed.
Print Assumptions c112_time_between_partial.

(** Two moments less than a day apart with midnight between them, both sentences received after
    midnight: the later sentence gets the earlier stamp. *)
Theorem c112_midnight_refuted
    ovf1 now1 s1 tt1 fff1 fields1 p1 r1 i1 o1 T1 ovf2 now2 s2 tt2 fff2 fields2 p2 r2 i2 o2 T2 :
  gnss_with s1 tt1 fff1 fields1 -> In fff1 [lit "GGA"; lit "GLL"] -> clock now1 -> (0 <= dt_year now1)%Z ->
  fst (parse_sentence ovf1 now1 s1 p1) = Ok r1 -> In (i1, o1) (times r1) ->
  six_digits (fld fields1 i1) (dt_hour T1) (dt_minute T1) (dt_second T1) ->
  gnss_with s2 tt2 fff2 fields2 -> In fff2 [lit "GGA"; lit "GLL"] -> clock now2 -> (0 <= dt_year now2)%Z ->
  fst (parse_sentence ovf2 now2 s2 p2) = Ok r2 -> In (i2, o2) (times r2) ->
  six_digits (fld fields2 i2) (dt_hour T2) (dt_minute T2) (dt_second T2) ->
  date_and_time T1 -> next_date (dt_year T1) (dt_month T1) (dt_day T1) (dt_year T2) (dt_month T2) (dt_day T2) ->
  (moment T2 - moment T1 < 86400)%Z -> day_of now1 = day_of T2 -> day_of now2 = day_of T2 ->
  exists t1 t2, o1 = Some t1 /\ o2 = Some t2 /\ (moment T1 < moment T2)%Z /\ (moment t2 < moment t1)%Z.
Proof.
  intros A1 A2 A3 A4 A5 A6 A7 B1 B2 B3 B4 B5 B6 B7 [V1 V2] N L D1 D2.
  destruct (c107_days_off _ _ _ _ _ _ _ _ _ _ _ A1 A2 A3 A4 A5 A6 A7) as (t1 & E1 & M1).
  destruct (c107_days_off _ _ _ _ _ _ _ _ _ _ _ B1 B2 B3 B4 B5 B6 B7) as (t2 & E2 & M2).
  apply (proj2 c107_calendar _ _ _ _ _ _ V1) in N as [_ N].
  assert (N' : day_of T2 = (day_of T1 + 1)%Z) by exact N.
  destruct (c55_time_of_day _ _ _ _ _ _ _ _ _ _ _ _ _ B1 B2 B3 B4 B5 B6 B7) as [_ W].
  pose proof (second_of_day_range _ V2). pose proof (second_of_day_range _ W).
  exists t1, t2. split; [exact E1|]. split; [exact E2|]. unfold moment in *. lia.
Qed.
Print Assumptions c112_midnight_refuted.

(** Fractions of a second are dropped: sentences of one second have one stamp. *)
Theorem c112_fractions_refuted
    ovf1 now1 s1 tt1 fff1 fields1 p1 r1 i1 o1 ovf2 now2 s2 tt2 fff2 fields2 p2 r2 i2 o2 h m s :
  gnss_with s1 tt1 fff1 fields1 -> In fff1 [lit "GGA"; lit "GLL"] -> clock now1 -> (0 <= dt_year now1)%Z ->
  fst (parse_sentence ovf1 now1 s1 p1) = Ok r1 -> In (i1, o1) (times r1) -> six_digits (fld fields1 i1) h m s ->
  gnss_with s2 tt2 fff2 fields2 -> In fff2 [lit "GGA"; lit "GLL"] -> clock now2 -> (0 <= dt_year now2)%Z ->
  fst (parse_sentence ovf2 now2 s2 p2) = Ok r2 -> In (i2, o2) (times r2) -> six_digits (fld fields2 i2) h m s ->
  dt_year now1 = dt_year now2 -> dt_month now1 = dt_month now2 -> dt_day now1 = dt_day now2 ->
  exists t, o1 = Some t /\ o2 = Some t /\ dt_nano t = 0.
Proof.
  intros A1 A2 A3 A4 A5 A6 A7 B1 B2 B3 B4 B5 B6 B7 Y M D.
  destruct (c55_time_of_day _ _ _ _ _ _ _ _ _ _ _ _ _ A1 A2 A3 A4 A5 A6 A7) as [E1 _].
  destruct (c55_time_of_day _ _ _ _ _ _ _ _ _ _ _ _ _ B1 B2 B3 B4 B5 B6 B7) as [E2 _].
  rewrite Y, M, D in E1. exists (mk_datetime (dt_year now2) (dt_month now2) (dt_day now2) h m s 0).
  split; [exact E1|]. split; [exact E2|]. reflexivity.
Qed.
Print Assumptions c112_fractions_refuted.

(** ** Sentences with a date *)

Lemma next_month y m d : valid_date y m d -> m < 12 -> (day_number y m d < day_number y (m + 1) 1)%Z.
Proof.
  intros V L. pose proof (leap_days y) as Y. unfold valid_date in V. assert (M : 1 <= m <= 11) by lia.
  assert (X : (years y = years (y - 1) + 366 /\ leap_year y \/ years y = years (y - 1) + 365 /\ ~ leap_year y)%Z)
    by (unfold years; destruct Y as [[? ?]|[? ?]]; [left|right]; split; try assumption; lia).
  clear Y. unfold day_number.
  months m; try lia;
    repeat match goal with |- context [?a <=? 2] => let b := eval vm_compute in (a <=? 2) in change (a <=? 2) with b end; cbv iota;
    repeat match goal with |- context [((153 * ?a + 2) / 5)%Z] => let q := eval vm_compute in ((153 * a + 2) / 5)%Z in
         change ((153 * a + 2) / 5)%Z with q end;
    fold (years (y - 1)) (years y);
    generalize dependent (years y); generalize (years (y - 1)); intros a b X; try (clear X; lia).
  destruct V as (_ & _ & _ & V). destruct (V eq_refl) as [?|[-> K]]; [lia|]. destruct X as [[X _]|[_ X]]; [lia|tauto].
Qed.

Lemma first_days y m n : 1 <= m -> m + N.of_nat n <= 12 -> (day_number y m 1 <= day_number y (m + N.of_nat n) 1)%Z.
Proof.
  intros M. induction n as [|n IH]; intros L; [rewrite N.add_0_r; lia|].
  rewrite Nat2N.inj_succ in *.
  assert (V : valid_date y (m + N.of_nat n) 1) by (unfold valid_date; lia).
  pose proof (next_month y _ 1 V ltac:(lia)) as X.
  replace (m + N.succ (N.of_nat n)) with (m + N.of_nat n + 1) by lia.
  specialize (IH ltac:(lia)). lia.
Qed.

Lemma later_month y m d m' d' : valid_date y m d -> valid_date y m' d' -> m < m' -> (day_number y m d < day_number y m' d')%Z.
Proof.
  intros V V' L. assert (B : m' <= 12 /\ 1 <= m /\ 1 <= d') by (unfold valid_date in *; lia).
  pose proof (next_month y m d V ltac:(lia)) as X.
  pose proof (first_days y (m + 1) (N.to_nat (m' - (m + 1))) ltac:(lia) ltac:(lia)) as F.
  replace (m + 1 + N.of_nat (N.to_nat (m' - (m + 1)))) with m' in F by lia.
  assert (G : (day_number y m' 1 <= day_number y m' d')%Z) by (unfold day_number; lia). lia.
Qed.

Lemma same_year_order y m d m' d' : valid_date y m d -> valid_date y m' d' ->
  (day_number y m d < day_number y m' d')%Z <-> (m < m' \/ m = m' /\ d < d').
Proof.
  intros V V'. destruct (N.lt_trichotomy m m') as [L|[->|L]].
  - pose proof (later_month _ _ _ _ _ V V' L). lia.
  - unfold day_number. lia.
  - pose proof (later_month _ _ _ _ _ V' V L). lia.
Qed.

(** The order of moments is that of year, month, day and second of the day. *)
Lemma moment_order t t' : date_and_time t -> date_and_time t' ->
  (moment t < moment t')%Z <->
  (dt_year t < dt_year t' \/ dt_year t = dt_year t' /\
     (dt_month t < dt_month t' \/ dt_month t = dt_month t' /\
        (dt_day t < dt_day t' \/ dt_day t = dt_day t' /\ (second_of_day t < second_of_day t')%Z))%N)%Z.
Proof.
  intros [V W] [V' W']. pose proof (second_of_day_range _ W). pose proof (second_of_day_range _ W').
  unfold moment, day_of.
  destruct (Z.lt_trichotomy (dt_year t) (dt_year t')) as [L|[L|L]].
  - pose proof (later_year _ _ _ _ _ _ V V' L). lia.
  - rewrite L in *. pose proof (same_year_order _ _ _ _ _ V V') as O1. pose proof (same_year_order _ _ _ _ _ V' V) as O2.
    assert (dt_month t = dt_month t' -> dt_day t = dt_day t' -> day_number (dt_year t') (dt_month t) (dt_day t) = day_number (dt_year t') (dt_month t') (dt_day t'))
      by (intros -> ->; reflexivity).
    lia.
  - pose proof (later_year _ _ _ _ _ _ V' V L). lia.
Qed.

(** The date library's comparison is that of moments, then of nanoseconds. *)
Theorem c112_comparison a b : date_and_time a -> date_and_time b ->
  dt_leb a b = true <-> (moment a < moment b)%Z \/ moment a = moment b /\ dt_nano a <= dt_nano b.
Proof.
  intros A B. pose proof (moment_order _ _ A B) as O1. pose proof (moment_order _ _ B A) as O2.
  destruct A as [_ A], B as [_ B]. unfold valid_time in A, B. unfold second_of_day in O1, O2. unfold dt_leb.
  assert (E : dt_year a = dt_year b -> dt_month a = dt_month b -> dt_day a = dt_day b -> dt_hour a = dt_hour b ->
    dt_minute a = dt_minute b -> dt_second a = dt_second b -> moment a = moment b)
    by (unfold moment, day_of, second_of_day; intros -> -> -> -> -> ->; reflexivity).
  destruct (Z.eqb_spec (dt_year a) (dt_year b)); [|rewrite Z.ltb_lt; lia].
  destruct (N.eqb_spec (dt_month a) (dt_month b)); [|rewrite N.ltb_lt; lia].
  destruct (N.eqb_spec (dt_day a) (dt_day b)); [|rewrite N.ltb_lt; lia].
  destruct (N.eqb_spec (dt_hour a) (dt_hour b)); [|rewrite N.ltb_lt; lia].
  destruct (N.eqb_spec (dt_minute a) (dt_minute b)); [|rewrite N.ltb_lt; lia].
  destruct (N.eqb_spec (dt_second a) (dt_second b)); [|rewrite N.ltb_lt; lia].
  rewrite N.leb_le. lia.
Qed.
Print Assumptions c112_comparison.

Example c112_comparison_example :
  date_and_time ex_last_day /\ date_and_time ex_new_century /\ dt_leb ex_last_day ex_new_century = true /\
  dt_leb ex_new_century ex_last_day = false.
Proof. split; [|split; [|split; reflexivity]]; unfold date_and_time, valid_date, valid_time; cbn; lia. Qed.

(** Two RMC sentences whose moments are of one century, read in one century (not necessarily that
    one): the stamps are in the order of the moments. *)
Theorem c112_order_of_dates_partial
    ovf1 now1 s1 tt1 fields1 p1 d1 T1 ovf2 now2 s2 tt2 fields2 p2 d2 T2 :
  gnss_with s1 tt1 (lit "RMC") fields1 -> (0 <= dt_year now1)%Z ->
  fst (parse_sentence ovf1 now1 s1 p1) = Ok (PsRmc d1) ->
  six_digits (fld fields1 8) (dt_day T1) (dt_month T1) (Z.to_N (dt_year T1 mod 100)) ->
  six_digits (fld fields1 0) (dt_hour T1) (dt_minute T1) (dt_second T1) ->
  gnss_with s2 tt2 (lit "RMC") fields2 -> (0 <= dt_year now2)%Z ->
  fst (parse_sentence ovf2 now2 s2 p2) = Ok (PsRmc d2) ->
  six_digits (fld fields2 8) (dt_day T2) (dt_month T2) (Z.to_N (dt_year T2 mod 100)) ->
  six_digits (fld fields2 0) (dt_hour T2) (dt_minute T2) (dt_second T2) ->
  date_and_time T1 -> date_and_time T2 ->
  (dt_year T1 / 100 = dt_year T2 / 100)%Z -> (dt_year now1 / 100 = dt_year now2 / 100)%Z ->
  exists t1 t2, rmc_timestamp d1 = Some t1 /\ rmc_timestamp d2 = Some t2 /\
    ((moment t1 < moment t2)%Z <-> (moment T1 < moment T2)%Z) /\
    ((dt_year T1 / 100 = dt_year now1 / 100)%Z -> (moment t2 - moment t1 = moment T2 - moment T1)%Z).
Proof.
  intros A1 A2 A3 A4 A5 B1 B2 B3 B4 B5 V1 V2 C1 C2.
  destruct (c107_centuries_off _ _ _ _ _ _ _ _ A1 A2 A3 A4 A5) as (t1 & E1 & W1 & Y1 & M1 & D1 & S1).
  destruct (c107_centuries_off _ _ _ _ _ _ _ _ B1 B2 B3 B4 B5) as (t2 & E2 & W2 & Y2 & M2 & D2 & S2).
  exists t1, t2. split; [exact E1|]. split; [exact E2|]. split.
  - rewrite (moment_order _ _ W1 W2), (moment_order _ _ V1 V2). rewrite M1, M2, D1, D2, S1, S2, Y1, Y2. lia.
  - intros C. assert (X1 : dt_year t1 = dt_year T1) by lia. assert (X2 : dt_year t2 = dt_year T2) by lia.
    unfold moment, day_of. rewrite X1, X2, M1, M2, D1, D2, S1, S2. reflexivity.
Qed.
Print Assumptions c112_order_of_dates_partial.

(** A moment of the last year of a century and one of the next year, both read in the new century:
    the later sentence gets the earlier stamp. *)
Theorem c112_new_century_refuted
    ovf1 now1 s1 tt1 fields1 p1 d1 T1 ovf2 now2 s2 tt2 fields2 p2 d2 T2 :
  gnss_with s1 tt1 (lit "RMC") fields1 -> (0 <= dt_year now1)%Z ->
  fst (parse_sentence ovf1 now1 s1 p1) = Ok (PsRmc d1) ->
  six_digits (fld fields1 8) (dt_day T1) (dt_month T1) (Z.to_N (dt_year T1 mod 100)) ->
  six_digits (fld fields1 0) (dt_hour T1) (dt_minute T1) (dt_second T1) ->
  gnss_with s2 tt2 (lit "RMC") fields2 -> (0 <= dt_year now2)%Z ->
  fst (parse_sentence ovf2 now2 s2 p2) = Ok (PsRmc d2) ->
  six_digits (fld fields2 8) (dt_day T2) (dt_month T2) (Z.to_N (dt_year T2 mod 100)) ->
  six_digits (fld fields2 0) (dt_hour T2) (dt_minute T2) (dt_second T2) ->
  date_and_time T1 -> date_and_time T2 ->
  (dt_year T1 mod 100 = 99)%Z -> dt_year T2 = (dt_year T1 + 1)%Z ->
  (dt_year now1 / 100 = dt_year T2 / 100)%Z -> (dt_year now2 / 100 = dt_year T2 / 100)%Z ->
  exists t1 t2, rmc_timestamp d1 = Some t1 /\ rmc_timestamp d2 = Some t2 /\
    (moment T1 < moment T2)%Z /\ (moment t2 < moment t1)%Z.
Proof.
  intros A1 A2 A3 A4 A5 B1 B2 B3 B4 B5 V1 V2 C1 C2 C3 C4.
  destruct (c107_centuries_off _ _ _ _ _ _ _ _ A1 A2 A3 A4 A5) as (t1 & E1 & W1 & Y1 & M1 & D1 & S1).
  destruct (c107_centuries_off _ _ _ _ _ _ _ _ B1 B2 B3 B4 B5) as (t2 & E2 & W2 & Y2 & M2 & D2 & S2).
  exists t1, t2. split; [exact E1|]. split; [exact E2|].
  rewrite (moment_order _ _ V1 V2), (moment_order _ _ W2 W1). split; [left; lia|]. left.
  rewrite Y1, Y2, C3, C4, C2. Z.div_mod_to_equations. lia.
Qed.
Print Assumptions c112_new_century_refuted.

(** ** Base stations *)

(** The stamp of a base station report is the moment that was sent, whatever the receiver's clock:
    so any two stamps are exactly as far apart as the moments. *)
Theorem c112_base_station ovf now s p tt fff station repeat mmsi T acc lon lat epfd spare raim radio rest :
  one_fragment s tt fff (armor (layout_bits
    [U 6 4; U 2 repeat; U 30 mmsi; U 14 (Z.to_N (dt_year T)); U 4 (dt_month T); U 5 (dt_day T); U 5 (dt_hour T);
     U 6 (dt_minute T); U 6 (dt_second T); F acc;
     I 28 lon; I 27 lat; U 4 epfd; U 10 spare; F raim; U 19 radio] ++ rest)) ->
  names_station tt station ->
  fits 2 repeat -> fits 30 mmsi -> fits_signed 28 lon -> fits_signed 27 lat -> fits 4 epfd ->
  fits 10 spare -> fits 19 radio -> date_and_time T -> (0 <= dt_year T < 16384)%Z ->
  exists d t, fst (parse_sentence ovf now s p) = Ok (PsBaseStationReport d) /\ bsr_timestamp d = Some t /\
    moment t = moment T.
Proof.
  intros Hs Hn F1 F2 F3 F4 F5 F6 F7 [V W] Y.
  assert (Y' : Z.of_N (Z.to_N (dt_year T)) = dt_year T) by lia.
  assert (G : fits 14 (Z.to_N (dt_year T)) /\ fits 4 (dt_month T) /\ fits 5 (dt_day T) /\ fits 5 (dt_hour T) /\
    fits 6 (dt_minute T) /\ fits 6 (dt_second T)).
  { unfold fits. change (2 ^ 14) with 16384. change (2 ^ 4) with 16. change (2 ^ 5) with 32. change (2 ^ 6) with 64.
    unfold valid_date, valid_time in *. lia. }
  destruct G as (G1 & G2 & G3 & G4 & G5 & G6).
  assert (V' : valid_date (Z.of_N (Z.to_N (dt_year T))) (dt_month T) (dt_day T)) by (rewrite Y'; exact V).
  pose proof (c22_base_station ovf now s p tt fff station repeat mmsi (Z.to_N (dt_year T)) (dt_month T) (dt_day T)
    (dt_hour T) (dt_minute T) (dt_second T) acc lon lat epfd spare raim radio rest Hs Hn
    F1 F2 G1 G2 G3 G4 G5 G6 F3 F4 F5 F6 F7 V' W) as E.
  eexists. eexists. split; [rewrite E; cbn [fst]; exact eq_refl|]. cbn [bsr_timestamp]. split; [exact eq_refl|].
  unfold moment, day_of, second_of_day. cbn [dt_year dt_month dt_day dt_hour dt_minute dt_second]. rewrite Y'. exact eq_refl.
Qed.
Print Assumptions c112_base_station.

(** ** Examples *)

Ltac six a b c d e f rest := exists a, b, c, d, e, f, rest; split; [reflexivity|]; split; [repeat constructor; discriminate|auto].

(** One second before midnight, at midnight, and two receipts after midnight. *)
Definition ex_at_midnight : datetime := mk_datetime 2026 11 17 0 0 0 0.
Definition ex_two_seconds : datetime := mk_datetime 2026 11 17 0 0 2 0.

Example c112_midnight_example :
  exists t1 t2 d1 d2,
    fst (parse_sentence true ex_new_day (lit "$GPGGA,235959.00,,,,,,,,,,,,,") new_parser) = Ok (PsGga d1) /\
    fst (parse_sentence true ex_two_seconds (lit "$GPGGA,000000.00,,,,,,,,,,,,,") new_parser) = Ok (PsGga d2) /\
    gga_timestamp d1 = Some t1 /\ gga_timestamp d2 = Some t2 /\
    (moment ex_last_second < moment ex_at_midnight)%Z /\ (moment t2 < moment t1)%Z.
Proof.
  assert (C1 : clock ex_new_day) by (unfold clock, year_in_range, valid_date, valid_time; cbn; lia).
  assert (C2 : clock ex_two_seconds) by (unfold clock, year_in_range, valid_date, valid_time; cbn; lia).
  assert (R1 : exists d, fst (parse_sentence true ex_new_day (lit "$GPGGA,235959.00,,,,,,,,,,,,,") new_parser) = Ok (PsGga d))
    by (eexists; vm_compute; reflexivity).
  assert (R2 : exists d, fst (parse_sentence true ex_two_seconds (lit "$GPGGA,000000.00,,,,,,,,,,,,,") new_parser) = Ok (PsGga d))
    by (eexists; vm_compute; reflexivity).
  destruct R1 as (d1 & R1), R2 as (d2 & R2).
  assert (G1 : exists fields, gnss_with (lit "$GPGGA,235959.00,,,,,,,,,,,,,") (lit "GP") (lit "GGA") fields /\
    six_digits (fld fields 0) 23 59 59) by (eexists; split; [gnss|six 50 51 53 57 53 57 (lit ".00")]).
  assert (G2 : exists fields, gnss_with (lit "$GPGGA,000000.00,,,,,,,,,,,,,") (lit "GP") (lit "GGA") fields /\
    six_digits (fld fields 0) 0 0 0) by (eexists; split; [gnss|six 48 48 48 48 48 48 (lit ".00")]).
  destruct G1 as (f1 & G1 & S1), G2 as (f2 & G2 & S2).
  destruct (c112_midnight_refuted true ex_new_day _ _ _ f1 new_parser _ 0 (gga_timestamp d1) ex_last_second
    true ex_two_seconds _ _ _ f2 new_parser _ 0 (gga_timestamp d2) ex_at_midnight
    G1 (or_introl eq_refl) C1 ltac:(cbn; lia) R1 (or_introl eq_refl) S1
    G2 (or_introl eq_refl) C2 ltac:(cbn; lia) R2 (or_introl eq_refl) S2) as (t1 & t2 & E1 & E2 & L1 & L2).
  - unfold date_and_time, valid_date, valid_time; cbn; lia.
  - left. unfold valid_date; cbn; lia.
  - vm_compute. reflexivity.
  - reflexivity.
  - reflexivity.
  - exists t1, t2, d1, d2. split; [exact R1|]. split; [exact R2|]. split; [exact E1|]. split; [exact E2|]. split; [exact L1|exact L2].
Qed.

(** The same two receipts, of sentences sent after midnight: one second apart. *)
Example c112_time_between_example :
  exists t1 t2 d1 d2,
    fst (parse_sentence true ex_new_day (lit "$GPGGA,000000.00,,,,,,,,,,,,,") new_parser) = Ok (PsGga d1) /\
    fst (parse_sentence false ex_two_seconds (lit "$GPGLL,,,,,000001.00,A") new_parser) = Ok (PsGll d2) /\
    gga_timestamp d1 = Some t1 /\ gll_timestamp d2 = Some t2 /\
    (moment t2 - moment t1 = moment ex_new_day - moment ex_at_midnight)%Z.
Proof.
  assert (C1 : clock ex_new_day) by (unfold clock, year_in_range, valid_date, valid_time; cbn; lia).
  assert (C2 : clock ex_two_seconds) by (unfold clock, year_in_range, valid_date, valid_time; cbn; lia).
  assert (R1 : exists d, fst (parse_sentence true ex_new_day (lit "$GPGGA,000000.00,,,,,,,,,,,,,") new_parser) = Ok (PsGga d))
    by (eexists; vm_compute; reflexivity).
  assert (R2 : exists d, fst (parse_sentence false ex_two_seconds (lit "$GPGLL,,,,,000001.00,A") new_parser) = Ok (PsGll d))
    by (eexists; vm_compute; reflexivity).
  destruct R1 as (d1 & R1), R2 as (d2 & R2).
  assert (G1 : exists fields, gnss_with (lit "$GPGGA,000000.00,,,,,,,,,,,,,") (lit "GP") (lit "GGA") fields /\
    six_digits (fld fields 0) 0 0 0) by (eexists; split; [gnss|six 48 48 48 48 48 48 (lit ".00")]).
  assert (G2 : exists fields, gnss_with (lit "$GPGLL,,,,,000001.00,A") (lit "GP") (lit "GLL") fields /\
    six_digits (fld fields 4) 0 0 1) by (eexists; split; [gnss|six 48 48 48 48 48 49 (lit ".00")]).
  destruct G1 as (f1 & G1 & S1), G2 as (f2 & G2 & S2).
  destruct (c112_time_between_partial true ex_new_day _ _ _ f1 new_parser _ 0 (gga_timestamp d1) ex_at_midnight
    false ex_two_seconds _ _ _ f2 new_parser _ 4 (gll_timestamp d2) ex_new_day
    G1 (or_introl eq_refl) C1 ltac:(cbn; lia) R1 (or_introl eq_refl) S1
    G2 (or_intror (or_introl eq_refl)) C2 ltac:(cbn; lia) R2 (or_introl eq_refl) S2) as (t1 & t2 & E1 & E2 & M).
  exists t1, t2, d1, d2. split; [exact R1|]. split; [exact R2|]. split; [exact E1|]. split; [exact E2|]. apply M. reflexivity.
Qed.

(** Two sentences a quarter of a second apart. *)
Example c112_fractions_example :
  exists t d1 d2,
    fst (parse_sentence true ex_new_day (lit "$GPGGA,000000.50,,,,,,,,,,,,,") new_parser) = Ok (PsGga d1) /\
    fst (parse_sentence true ex_new_day (lit "$GPGGA,000000.75,,,,,,,,,,,,,") new_parser) = Ok (PsGga d2) /\
    gga_timestamp d1 = Some t /\ gga_timestamp d2 = Some t.
Proof.
  assert (C1 : clock ex_new_day) by (unfold clock, year_in_range, valid_date, valid_time; cbn; lia).
  assert (R1 : exists d, fst (parse_sentence true ex_new_day (lit "$GPGGA,000000.50,,,,,,,,,,,,,") new_parser) = Ok (PsGga d))
    by (eexists; vm_compute; reflexivity).
  assert (R2 : exists d, fst (parse_sentence true ex_new_day (lit "$GPGGA,000000.75,,,,,,,,,,,,,") new_parser) = Ok (PsGga d))
    by (eexists; vm_compute; reflexivity).
  destruct R1 as (d1 & R1), R2 as (d2 & R2).
  assert (G1 : exists fields, gnss_with (lit "$GPGGA,000000.50,,,,,,,,,,,,,") (lit "GP") (lit "GGA") fields /\
    six_digits (fld fields 0) 0 0 0) by (eexists; split; [gnss|six 48 48 48 48 48 48 (lit ".50")]).
  assert (G2 : exists fields, gnss_with (lit "$GPGGA,000000.75,,,,,,,,,,,,,") (lit "GP") (lit "GGA") fields /\
    six_digits (fld fields 0) 0 0 0) by (eexists; split; [gnss|six 48 48 48 48 48 48 (lit ".75")]).
  destruct G1 as (f1 & G1 & S1), G2 as (f2 & G2 & S2).
  destruct (c112_fractions_refuted true ex_new_day _ _ _ f1 new_parser _ 0 (gga_timestamp d1)
    true ex_new_day _ _ _ f2 new_parser _ 0 (gga_timestamp d2) 0 0 0
    G1 (or_introl eq_refl) C1 ltac:(cbn; lia) R1 (or_introl eq_refl) S1
    G2 (or_introl eq_refl) C1 ltac:(cbn; lia) R2 (or_introl eq_refl) S2 eq_refl eq_refl eq_refl) as (t & E1 & E2 & _).
  exists t, d1, d2. split; [exact R1|]. split; [exact R2|]. split; [exact E1|exact E2].
Qed.

(** RMC sentences around New Year 2100, read in 2100 and, the second pair, those of 2026 read in 2026. *)
Definition ex_first_second : datetime := mk_datetime 2100 1 1 0 0 0 0.

Example c112_dates_example :
  exists d1 d2 d3 d4 t1 t2 t3 t4,
    fst (parse_sentence true ex_new_century (lit "$GPRMC,235959.00,A,,,,,,,311299,,,") new_parser) = Ok (PsRmc d1) /\
    fst (parse_sentence true ex_new_century (lit "$GPRMC,000000.00,A,,,,,,,010100,,,") new_parser) = Ok (PsRmc d2) /\
    fst (parse_sentence true ex_new_day (lit "$GPRMC,235959.00,A,,,,,,,161126,,,") new_parser) = Ok (PsRmc d3) /\
    fst (parse_sentence true ex_new_day (lit "$GPRMC,000000.00,A,,,,,,,171126,,,") new_parser) = Ok (PsRmc d4) /\
    rmc_timestamp d1 = Some t1 /\ rmc_timestamp d2 = Some t2 /\ rmc_timestamp d3 = Some t3 /\ rmc_timestamp d4 = Some t4 /\
    (moment t2 < moment t1)%Z /\ (moment t4 - moment t3 = 1)%Z.
Proof.
  assert (K : forall now s f a b c h m i, (exists d, fst (parse_sentence true now (lit s) new_parser) = Ok (PsRmc d)) ->
    gnss_with (lit s) (lit "GP") (lit "RMC") f -> six_digits (fld f 8) a b c -> six_digits (fld f 0) h m i ->
    exists d f, fst (parse_sentence true now (lit s) new_parser) = Ok (PsRmc d) /\
      gnss_with (lit s) (lit "GP") (lit "RMC") f /\ six_digits (fld f 8) a b c /\ six_digits (fld f 0) h m i)
    by (intros now s f a b c h m i (d & H) G S1 S2; exists d, f; split; [exact H|]; split; [exact G|]; split; assumption).
  assert (K1 : exists d f, fst (parse_sentence true ex_new_century (lit "$GPRMC,235959.00,A,,,,,,,311299,,,") new_parser) = Ok (PsRmc d) /\
    gnss_with (lit "$GPRMC,235959.00,A,,,,,,,311299,,,") (lit "GP") (lit "RMC") f /\ six_digits (fld f 8) 31 12 99 /\ six_digits (fld f 0) 23 59 59).
  { eapply K; [eexists; vm_compute; reflexivity|gnss|six 51 49 49 50 57 57 (@nil N)|six 50 51 53 57 53 57 (lit ".00")]. }
  assert (K2 : exists d f, fst (parse_sentence true ex_new_century (lit "$GPRMC,000000.00,A,,,,,,,010100,,,") new_parser) = Ok (PsRmc d) /\
    gnss_with (lit "$GPRMC,000000.00,A,,,,,,,010100,,,") (lit "GP") (lit "RMC") f /\ six_digits (fld f 8) 1 1 0 /\ six_digits (fld f 0) 0 0 0).
  { eapply K; [eexists; vm_compute; reflexivity|gnss|six 48 49 48 49 48 48 (@nil N)|six 48 48 48 48 48 48 (lit ".00")]. }
  assert (K3 : exists d f, fst (parse_sentence true ex_new_day (lit "$GPRMC,235959.00,A,,,,,,,161126,,,") new_parser) = Ok (PsRmc d) /\
    gnss_with (lit "$GPRMC,235959.00,A,,,,,,,161126,,,") (lit "GP") (lit "RMC") f /\ six_digits (fld f 8) 16 11 26 /\ six_digits (fld f 0) 23 59 59).
  { eapply K; [eexists; vm_compute; reflexivity|gnss|six 49 54 49 49 50 54 (@nil N)|six 50 51 53 57 53 57 (lit ".00")]. }
  assert (K4 : exists d f, fst (parse_sentence true ex_new_day (lit "$GPRMC,000000.00,A,,,,,,,171126,,,") new_parser) = Ok (PsRmc d) /\
    gnss_with (lit "$GPRMC,000000.00,A,,,,,,,171126,,,") (lit "GP") (lit "RMC") f /\ six_digits (fld f 8) 17 11 26 /\ six_digits (fld f 0) 0 0 0).
  { eapply K; [eexists; vm_compute; reflexivity|gnss|six 49 55 49 49 50 54 (@nil N)|six 48 48 48 48 48 48 (lit ".00")]. }
  clear K.
  destruct K1 as (d1 & f1 & R1 & G1 & D1 & S1), K2 as (d2 & f2 & R2 & G2 & D2 & S2),
    K3 as (d3 & f3 & R3 & G3 & D3 & S3), K4 as (d4 & f4 & R4 & G4 & D4 & S4).
  destruct (c112_new_century_refuted true ex_new_century _ _ f1 new_parser d1 ex_last_day
    true ex_new_century _ _ f2 new_parser d2 ex_first_second G1 ltac:(cbn; lia) R1 D1 S1 G2 ltac:(cbn; lia) R2 D2 S2)
    as (t1 & t2 & E1 & E2 & _ & L);
    [unfold date_and_time, valid_date, valid_time; cbn; lia|unfold date_and_time, valid_date, valid_time; cbn; lia
    |reflexivity|reflexivity|reflexivity|reflexivity|].
  destruct (c112_order_of_dates_partial true ex_new_day _ _ f3 new_parser d3 ex_last_second
    true ex_new_day _ _ f4 new_parser d4 ex_at_midnight G3 ltac:(cbn; lia) R3 D3 S3 G4 ltac:(cbn; lia) R4 D4 S4)
    as (t3 & t4 & E3 & E4 & _ & M);
    [unfold date_and_time, valid_date, valid_time; cbn; lia|unfold date_and_time, valid_date, valid_time; cbn; lia
    |reflexivity|reflexivity|].
  exists d1, d2, d3, d4, t1, t2, t3, t4.
  split; [exact R1|]. split; [exact R2|]. split; [exact R3|]. split; [exact R4|].
  split; [exact E1|]. split; [exact E2|]. split; [exact E3|]. split; [exact E4|]. split; [exact L|].
  rewrite (M eq_refl). reflexivity.
Qed.

Example c112_base_station_example :
  exists d t, fst (parse_sentence true ex_new_day (lit "!AIVDM,1,1,,A,403OviQuMGCqWrRO9>E6fE700@GO,0*4D") new_parser) =
      Ok (PsBaseStationReport d) /\ bsr_timestamp d = Some t /\ moment t = moment (mk_datetime 2007 5 14 19 57 39 0).
Proof.
  apply (c112_base_station _ _ _ _ (lit "AI") (lit "VDM") StMobileStation
    0 3669702 (mk_datetime 2007 5 14 19 57 39 0) true (-45811417) 22130260 7 0 false 67039 []);
    try reflexivity; try (split; [intros X; discriminate X|reflexivity]).
  - apply (check_one_fragment _ _ _ (lit "A") _ [lit "0"]). apply check_vdm; [|reflexivity].
    vm_compute. auto.
  - left. cbn. tauto.
  - unfold date_and_time, valid_date, valid_time. cbn. lia.
Qed.
