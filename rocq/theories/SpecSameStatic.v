(** Contents of static data and aid-to-navigation messages, for C81 (continued from SpecSame.v): the
    contents as records, their layout, and which contents give the same report. *)
From Coq Require Import List NArith ZArith Bool.
From Verif Require Import Base Str SpecAis SpecTime SpecSame.
Import ListNotations.
Open Scope N_scope.

(** Ship and cargo codes without a meaning of their own: 0 to 9, and 100 and above. *)
Definition ship_unknown (code : N) : Prop := code < 10 \/ 100 <= code.
(** Codes that a report does not tell apart: equal ones, the unknown ones, and, as tankers (8x) and others
    (9x) are taken for cargo ships (7x, see C53), codes from 70 to 99 with the same last digit. *)
Definition ship_confused (a b : N) : Prop :=
  a = b \/ (ship_unknown a /\ ship_unknown b) \/ (70 <= a <= 99 /\ 70 <= b <= 99 /\ a mod 10 = b mod 10).

(** Static and voyage data, message 5. *)
Record voyage_data := {
  v_repeat : N; v_mmsi : N; v_version : N; v_imo : N; v_call_sign : str; v_name : str; v_ship : N;
  v_bow : N; v_stern : N; v_port : N; v_starboard : N; v_device : N;
  v_month : N; v_day : N; v_hour : N; v_minute : N; v_draught : N; v_destination : str; v_dte : bool; v_spare : N }.
(** [bits] are the bits of message [m]; texts may be padded with spaces or ended by '@'. *)
Definition voyage_layout (m : voyage_data) (bits : list bool) : Prop :=
  exists call_sign name destination,
    text_field 7 (v_call_sign m) call_sign /\ text_field 20 (v_name m) name /\
    text_field 20 (v_destination m) destination /\
    bits = layout_bits
      [U 6 5; U 2 (v_repeat m); U 30 (v_mmsi m); U 2 (v_version m); U 30 (v_imo m); T 7 call_sign; T 20 name;
       U 8 (v_ship m); U 9 (v_bow m); U 9 (v_stern m); U 6 (v_port m); U 6 (v_starboard m); U 4 (v_device m);
       U 4 (v_month m); U 5 (v_day m); U 5 (v_hour m); U 6 (v_minute m); U 8 (v_draught m); T 20 destination;
       F (v_dte m); U 1 (v_spare m)].
Definition voyage_fits (m : voyage_data) : Prop :=
  fits 2 (v_repeat m) /\ fits 30 (v_mmsi m) /\ fits 2 (v_version m) /\ fits 30 (v_imo m) /\ fits 8 (v_ship m) /\
  fits 9 (v_bow m) /\ fits 9 (v_stern m) /\ fits 6 (v_port m) /\ fits 6 (v_starboard m) /\ fits 4 (v_device m) /\
  fits 4 (v_month m) /\ fits 5 (v_day m) /\ fits 5 (v_hour m) /\ fits 6 (v_minute m) /\ fits 8 (v_draught m) /\
  fits 1 (v_spare m).
(** Time of arrival and draught are given: a date of this year, a time of day, less than 24 metres. *)
Definition arrival_known (year : Z) (m : voyage_data) : Prop :=
  valid_date year (v_month m) (v_day m) /\ v_hour m < 24 /\ v_minute m < 60 /\ v_draught m < 240.
(** The same but for repeat indicator, spare bit, data terminal flag and confused ship types. *)
Definition voyage_confused (m n : voyage_data) : Prop :=
  v_mmsi m = v_mmsi n /\ v_version m = v_version n /\ v_imo m = v_imo n /\ v_call_sign m = v_call_sign n /\
  v_name m = v_name n /\ ship_confused (v_ship m) (v_ship n) /\ v_bow m = v_bow n /\ v_stern m = v_stern n /\
  v_port m = v_port n /\ v_starboard m = v_starboard n /\ device_alike (v_device m) (v_device n) /\
  v_month m = v_month n /\ v_day m = v_day n /\ v_hour m = v_hour n /\ v_minute m = v_minute n /\
  v_draught m = v_draught n /\ v_destination m = v_destination n.

(** Aid to navigation, message 21. The name continues after the layout. *)
Record aid := {
  n_repeat : N; n_mmsi : N; n_type : N; n_name : str; n_accurate : bool; n_lon : Z; n_lat : Z; n_bow : N;
  n_stern : N; n_port : N; n_starboard : N; n_device : N; n_second : N; n_off : bool; n_regional : N;
  n_raim : bool; n_virtual : bool; n_assigned : bool; n_spare : N; n_more : str }.
Definition aid_layout (m : aid) (bits : list bool) : Prop :=
  exists name more rest,
    text_field 20 (n_name m) name /\ text_field 14 (n_more m) more /\
    window rest 0 (6 * 14) = flat_map (be_bits 6) more /\
    bits = layout_bits
      [U 6 21; U 2 (n_repeat m); U 30 (n_mmsi m); U 5 (n_type m); T 20 name; F (n_accurate m); I 28 (n_lon m);
       I 27 (n_lat m); U 9 (n_bow m); U 9 (n_stern m); U 6 (n_port m); U 6 (n_starboard m); U 4 (n_device m);
       U 6 (n_second m); F (n_off m); U 8 (n_regional m); F (n_raim m); F (n_virtual m); F (n_assigned m);
       U 1 (n_spare m)] ++ rest.
Definition aid_fits (m : aid) : Prop :=
  fits 2 (n_repeat m) /\ fits 30 (n_mmsi m) /\ fits 5 (n_type m) /\ fits_signed 28 (n_lon m) /\
  fits_signed 27 (n_lat m) /\ fits 9 (n_bow m) /\ fits 9 (n_stern m) /\ fits 6 (n_port m) /\
  fits 6 (n_starboard m) /\ fits 4 (n_device m) /\ fits 6 (n_second m) /\ fits 8 (n_regional m) /\
  fits 1 (n_spare m).
(** The same name and its continuation, and the same but for repeat indicator, spare bit, the off-position
    indicator (not reported, see C28) and devices without a name (0 and 9 to 15). *)
Definition aid_confused (m n : aid) : Prop :=
  n_mmsi m = n_mmsi n /\ n_type m = n_type n /\ n_name m ++ n_more m = n_name n ++ n_more n /\
  n_accurate m = n_accurate n /\ n_lon m = n_lon n /\ n_lat m = n_lat n /\ n_bow m = n_bow n /\
  n_stern m = n_stern n /\ n_port m = n_port n /\ n_starboard m = n_starboard n /\
  (n_device m = n_device n \/ (n_device m = 0 \/ 9 <= n_device m) /\ (n_device n = 0 \/ 9 <= n_device n)) /\
  n_second m = n_second n /\ n_regional m = n_regional n /\ n_raim m = n_raim n /\ n_virtual m = n_virtual n /\
  n_assigned m = n_assigned n.

(** Static data of class B, both parts of message 24. *)
Record static_data := {
  k_mmsi : N; k_name : str; k_ship : N; k_vendor : str; k_model : N; k_serial : N; k_call_sign : str;
  k_bow : N; k_stern : N; k_port : N; k_starboard : N }.
(** The same but for confused ship types. *)
Definition static_confused (m n : static_data) : Prop :=
  k_mmsi m = k_mmsi n /\ k_name m = k_name n /\ ship_confused (k_ship m) (k_ship n) /\ k_vendor m = k_vendor n /\
  k_model m = k_model n /\ k_serial m = k_serial n /\ k_call_sign m = k_call_sign n /\ k_bow m = k_bow n /\
  k_stern m = k_stern n /\ k_port m = k_port n /\ k_starboard m = k_starboard n.
