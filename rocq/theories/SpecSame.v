(** What AIS messages of some types carry, for C81: the contents as records, their layout, and which
    contents a receiver may confuse. *)
From Coq Require Import List NArith ZArith Bool.
From Verif Require Import Base SpecAis SpecTime.
Import ListNotations.
Open Scope N_scope.

(** Position report of class A, ITU-R M.1371 messages 1, 2, 3. *)
Record class_a := {
  a_type : N; a_repeat : N; a_mmsi : N; a_status : N; a_turn : Z; a_speed : N; a_accurate : bool;
  a_lon : Z; a_lat : Z; a_course : N; a_heading : N; a_second : N; a_manoeuvre : N; a_spare : N;
  a_raim : bool; a_radio : N }.
Definition class_a_bits (m : class_a) : list bool := layout_bits
  [U 6 (a_type m); U 2 (a_repeat m); U 30 (a_mmsi m); U 4 (a_status m); I 8 (a_turn m); U 10 (a_speed m);
   F (a_accurate m); I 28 (a_lon m); I 27 (a_lat m); U 12 (a_course m); U 9 (a_heading m); U 6 (a_second m);
   U 2 (a_manoeuvre m); U 3 (a_spare m); F (a_raim m); U 19 (a_radio m)].
Definition class_a_fits (m : class_a) : Prop :=
  (a_type m = 1 \/ a_type m = 2 \/ a_type m = 3) /\ fits 2 (a_repeat m) /\ fits 30 (a_mmsi m) /\
  fits 4 (a_status m) /\ fits_signed 8 (a_turn m) /\ fits 10 (a_speed m) /\ fits_signed 28 (a_lon m) /\
  fits_signed 27 (a_lat m) /\ fits 12 (a_course m) /\ fits 9 (a_heading m) /\ fits 6 (a_second m) /\
  fits 2 (a_manoeuvre m) /\ fits 3 (a_spare m) /\ fits 19 (a_radio m).
(** The manoeuvre indicator: 1 not engaged, 2 engaged, 0 not available, 3 not used. *)
Definition manoeuvre_known (k : N) : Prop := k = 1 \/ k = 2.
(** The same but for message type, repeat indicator and spare bits; of the manoeuvre indicator only
    whether it is known. *)
Definition class_a_alike (m n : class_a) : Prop :=
  a_mmsi m = a_mmsi n /\ a_status m = a_status n /\ a_turn m = a_turn n /\ a_speed m = a_speed n /\
  a_accurate m = a_accurate n /\ a_lon m = a_lon n /\ a_lat m = a_lat n /\ a_course m = a_course n /\
  a_heading m = a_heading n /\ a_second m = a_second n /\
  (manoeuvre_known (a_manoeuvre m) <-> manoeuvre_known (a_manoeuvre n)) /\
  a_raim m = a_raim n /\ a_radio m = a_radio n.

(** Base station report, message 4. *)
Record base := {
  b_repeat : N; b_mmsi : N; b_year : N; b_month : N; b_day : N; b_hour : N; b_minute : N; b_second : N;
  b_accurate : bool; b_lon : Z; b_lat : Z; b_device : N; b_spare : N; b_raim : bool; b_radio : N }.
Definition base_bits (m : base) : list bool := layout_bits
  [U 6 4; U 2 (b_repeat m); U 30 (b_mmsi m); U 14 (b_year m); U 4 (b_month m); U 5 (b_day m); U 5 (b_hour m);
   U 6 (b_minute m); U 6 (b_second m); F (b_accurate m); I 28 (b_lon m); I 27 (b_lat m); U 4 (b_device m);
   U 10 (b_spare m); F (b_raim m); U 19 (b_radio m)].
Definition base_fits (m : base) : Prop :=
  fits 2 (b_repeat m) /\ fits 30 (b_mmsi m) /\ fits 14 (b_year m) /\ fits 4 (b_month m) /\ fits 5 (b_day m) /\
  fits 5 (b_hour m) /\ fits 6 (b_minute m) /\ fits 6 (b_second m) /\ fits_signed 28 (b_lon m) /\
  fits_signed 27 (b_lat m) /\ fits 4 (b_device m) /\ fits 10 (b_spare m) /\ fits 19 (b_radio m) /\
  valid_date (Z.of_N (b_year m)) (b_month m) (b_day m) /\ valid_time (b_hour m) (b_minute m) (b_second m).
(** The same position fixing device, or both of a kind without a name (9 to 15). *)
Definition device_alike (j k : N) : Prop := j = k \/ (9 <= j /\ 9 <= k).
(** The same but for repeat indicator and spare bits. *)
Definition base_alike (m n : base) : Prop :=
  b_mmsi m = b_mmsi n /\ b_year m = b_year n /\ b_month m = b_month n /\ b_day m = b_day n /\
  b_hour m = b_hour n /\ b_minute m = b_minute n /\ b_second m = b_second n /\ b_accurate m = b_accurate n /\
  b_lon m = b_lon n /\ b_lat m = b_lat n /\ device_alike (b_device m) (b_device n) /\ b_raim m = b_raim n /\
  b_radio m = b_radio n.

(** Search and rescue aircraft, message 9. *)
Record aircraft := {
  s_repeat : N; s_mmsi : N; s_altitude : N; s_speed : N; s_accurate : bool; s_lon : Z; s_lat : Z; s_course : N;
  s_second : N; s_regional : N; s_dte : bool; s_spare : N; s_assigned : bool; s_raim : bool; s_radio : N }.
Definition aircraft_bits (m : aircraft) : list bool := layout_bits
  [U 6 9; U 2 (s_repeat m); U 30 (s_mmsi m); U 12 (s_altitude m); U 10 (s_speed m); F (s_accurate m);
   I 28 (s_lon m); I 27 (s_lat m); U 12 (s_course m); U 6 (s_second m); U 8 (s_regional m); F (s_dte m);
   U 3 (s_spare m); F (s_assigned m); F (s_raim m); U 20 (s_radio m)].
Definition aircraft_fits (m : aircraft) : Prop :=
  fits 2 (s_repeat m) /\ fits 30 (s_mmsi m) /\ fits 12 (s_altitude m) /\ fits 10 (s_speed m) /\
  fits_signed 28 (s_lon m) /\ fits_signed 27 (s_lat m) /\ fits 12 (s_course m) /\ fits 6 (s_second m) /\
  fits 8 (s_regional m) /\ fits 3 (s_spare m) /\ fits 20 (s_radio m).
(** The same but for repeat indicator and spare bits. *)
Definition aircraft_alike (m n : aircraft) : Prop :=
  s_mmsi m = s_mmsi n /\ s_altitude m = s_altitude n /\ s_speed m = s_speed n /\ s_accurate m = s_accurate n /\
  s_lon m = s_lon n /\ s_lat m = s_lat n /\ s_course m = s_course n /\ s_second m = s_second n /\
  s_regional m = s_regional n /\ s_dte m = s_dte n /\ s_assigned m = s_assigned n /\ s_raim m = s_raim n /\
  s_radio m = s_radio n.

(** Position report of class B, message 18. *)
Record class_b := {
  c_repeat : N; c_mmsi : N; c_spare : N; c_speed : N; c_accurate : bool; c_lon : Z; c_lat : Z; c_course : N;
  c_heading : N; c_second : N; c_spare2 : N; c_unit : bool; c_display : bool; c_dsc : bool; c_band : bool;
  c_msg22 : bool; c_mode : bool; c_raim : bool; c_selector : bool; c_radio : N }.
Definition class_b_bits (m : class_b) : list bool := layout_bits
  [U 6 18; U 2 (c_repeat m); U 30 (c_mmsi m); U 8 (c_spare m); U 10 (c_speed m); F (c_accurate m);
   I 28 (c_lon m); I 27 (c_lat m); U 12 (c_course m); U 9 (c_heading m); U 6 (c_second m); U 2 (c_spare2 m);
   F (c_unit m); F (c_display m); F (c_dsc m); F (c_band m); F (c_msg22 m); F (c_mode m); F (c_raim m);
   F (c_selector m); U 19 (c_radio m)].
Definition class_b_fits (m : class_b) : Prop :=
  fits 2 (c_repeat m) /\ fits 30 (c_mmsi m) /\ fits 8 (c_spare m) /\ fits 10 (c_speed m) /\
  fits_signed 28 (c_lon m) /\ fits_signed 27 (c_lat m) /\ fits 12 (c_course m) /\ fits 9 (c_heading m) /\
  fits 6 (c_second m) /\ fits 2 (c_spare2 m) /\ fits 19 (c_radio m).
(** The same but for repeat indicator and spare bits, and for the flags the crate drops: assigned
    mode, RAIM and communication state selector. *)
Definition class_b_confused (m n : class_b) : Prop :=
  c_mmsi m = c_mmsi n /\ c_speed m = c_speed n /\ c_accurate m = c_accurate n /\ c_lon m = c_lon n /\
  c_lat m = c_lat n /\ c_course m = c_course n /\ c_heading m = c_heading n /\ c_second m = c_second n /\
  c_unit m = c_unit n /\ c_display m = c_display n /\ c_dsc m = c_dsc n /\ c_band m = c_band n /\
  c_msg22 m = c_msg22 n /\ c_radio m = c_radio n.

(** Long range report, message 27. *)
Record long_range := {
  l_repeat : N; l_mmsi : N; l_accurate : bool; l_raim : bool; l_status : N; l_lon : Z; l_lat : Z; l_speed : N;
  l_course : N; l_gnss : bool; l_spare : N }.
Definition long_range_bits (m : long_range) : list bool := layout_bits
  [U 6 27; U 2 (l_repeat m); U 30 (l_mmsi m); F (l_accurate m); F (l_raim m); U 4 (l_status m); I 18 (l_lon m);
   I 17 (l_lat m); U 6 (l_speed m); U 9 (l_course m); F (l_gnss m); U 1 (l_spare m)].
Definition long_range_fits (m : long_range) : Prop :=
  fits 2 (l_repeat m) /\ fits 30 (l_mmsi m) /\ fits 4 (l_status m) /\ fits_signed 18 (l_lon m) /\
  fits_signed 17 (l_lat m) /\ fits 6 (l_speed m) /\ fits 9 (l_course m) /\ fits 1 (l_spare m).
(** The same but for repeat indicator and spare bit, and for what the crate drops: speed, course and
    status of the position. *)
Definition long_range_confused (m n : long_range) : Prop :=
  l_mmsi m = l_mmsi n /\ l_status m = l_status n /\ l_accurate m = l_accurate n /\ l_raim m = l_raim n /\
  l_lon m = l_lon n /\ l_lat m = l_lat n.
