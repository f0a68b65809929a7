(** Specification vocabulary for C93: transmissions in which every value is the one that stands for "not
    available" (ITU-R M.1371), and reports that say the same apart from the sender. *)
From Coq Require Import List NArith ZArith Bool String.
From Verif Require Import Base Str F64 Chrono Types SpecAis.
Import ListNotations.
Open Scope N_scope.

(** Position 91 degrees north, 181 degrees east; speed 1023, course 3600, heading 511, second 60. *)
Definition silent_class_a (t repeat mmsi : N) (acc : bool) (spare : N) (raim : bool) (radio : N) : list bool := layout_bits
  [U 6 t; U 2 repeat; U 30 mmsi; U 4 15; I 8 (-128); U 10 1023; F acc; I 28 108600000; I 27 54600000; U 12 3600;
   U 9 511; U 6 60; U 2 0; U 3 spare; F raim; U 19 radio].
Definition silent_class_b (repeat mmsi spare : N) (acc : bool) (spare2 : N) (unit display dsc band msg22 mode raim selector : bool)
    (radio : N) : list bool := layout_bits
  [U 6 18; U 2 repeat; U 30 mmsi; U 8 spare; U 10 1023; F acc; I 28 108600000; I 27 54600000; U 12 3600; U 9 511;
   U 6 60; U 2 spare2; F unit; F display; F dsc; F band; F msg22; F mode; F raim; F selector; U 19 radio].
(** Altitude 4095. *)
Definition silent_aircraft (repeat mmsi : N) (acc : bool) (regional : N) (dte : bool) (spare : N) (assigned raim : bool)
    (radio : N) : list bool := layout_bits
  [U 6 9; U 2 repeat; U 30 mmsi; U 12 4095; U 10 1023; F acc; I 28 108600000; I 27 54600000; U 12 3600; U 6 60;
   U 8 regional; F dte; U 3 spare; F assigned; F raim; U 20 radio].
(** A base station that knows the time but not its position. *)
Definition silent_base (repeat mmsi year month day hour minute second : N) (acc : bool) (spare : N) (raim : bool)
    (radio : N) : list bool := layout_bits
  [U 6 4; U 2 repeat; U 30 mmsi; U 14 year; U 4 month; U 5 day; U 5 hour; U 6 minute; U 6 second; F acc;
   I 28 108600000; I 27 54600000; U 4 0; U 10 spare; F raim; U 19 radio].
(** Aid of type 0 without name, position, dimensions and kind of receiver. *)
Definition silent_aid (repeat mmsi : N) (codes : list N) (acc off : bool) (regional : N) (raim virtual assigned : bool)
    (spare : N) : list bool := layout_bits
  [U 6 21; U 2 repeat; U 30 mmsi; U 5 0; T 20 codes; F acc; I 28 108600000; I 27 54600000; U 9 0; U 9 0;
   U 6 0; U 6 0; U 4 0; U 6 60; F off; U 8 regional; F raim; F virtual; F assigned; U 1 spare].
(** No IMO number, texts, ship type, dimensions, kind of receiver and draught; arrival month 0, day 0, hour 24,
    minute 60. *)
Definition silent_voyage (repeat mmsi version : N) (call_sign name destination : list N) (dte : bool) (spare : N)
    : list bool := layout_bits
  [U 6 5; U 2 repeat; U 30 mmsi; U 2 version; U 30 0; T 7 call_sign; T 20 name; U 8 0; U 9 0; U 9 0; U 6 0; U 6 0;
   U 4 0; U 4 0; U 5 0; U 5 24; U 6 60; U 8 0; T 20 destination; F dte; U 1 spare].
(** Position 91 and 181 degrees in tenths of minutes, speed 63, course 511. *)
Definition silent_long_range (repeat mmsi : N) (acc raim gnss : bool) (spare : N) : list bool := layout_bits
  [U 6 27; U 2 repeat; U 30 mmsi; F acc; F raim; U 4 15; I 18 108600; I 17 54600; U 6 63; U 9 511; F gnss; U 1 spare].

(** The same about the movement of the vessel (everything but the sender, the second of the report and the state of the
    equipment). *)
Definition same_movement (d e : VesselDynamicData) : Prop :=
  vdd_nav_status d = vdd_nav_status e /\
  vdd_rot d = vdd_rot e /\
  vdd_rot_direction d = vdd_rot_direction e /\
  vdd_sog_knots d = vdd_sog_knots e /\
  vdd_latitude d = vdd_latitude e /\
  vdd_longitude d = vdd_longitude e /\
  vdd_cog d = vdd_cog e /\
  vdd_heading_true d = vdd_heading_true e /\
  vdd_positioning_system_meta d = vdd_positioning_system_meta e /\
  vdd_current_gnss_position d = vdd_current_gnss_position e /\
  vdd_special_manoeuvre d = vdd_special_manoeuvre e.

(** The same about the flight of an aircraft. *)
Definition same_flight (d e : StandardSarAircraftPositionReport) : Prop :=
  sar_altitude d = sar_altitude e /\
  sar_sog_knots d = sar_sog_knots e /\
  sar_latitude d = sar_latitude e /\
  sar_longitude d = sar_longitude e /\
  sar_cog d = sar_cog e.

(** The same about the vessel. *)
Definition same_vessel (d e : VesselStaticData) : Prop :=
  vsd_imo_number d = vsd_imo_number e /\
  vsd_call_sign d = vsd_call_sign e /\
  vsd_name d = vsd_name e /\
  vsd_ship_type d = vsd_ship_type e /\
  vsd_cargo_type d = vsd_cargo_type e /\
  vsd_equipment_vendor_id d = vsd_equipment_vendor_id e /\
  vsd_equipment_model d = vsd_equipment_model e /\
  vsd_equipment_serial_number d = vsd_equipment_serial_number e /\
  vsd_dimension_to_bow d = vsd_dimension_to_bow e /\
  vsd_dimension_to_stern d = vsd_dimension_to_stern e /\
  vsd_dimension_to_port d = vsd_dimension_to_port e /\
  vsd_dimension_to_starboard d = vsd_dimension_to_starboard e /\
  vsd_position_fix_type d = vsd_position_fix_type e /\
  vsd_eta d = vsd_eta e /\
  vsd_draught10 d = vsd_draught10 e /\
  vsd_destination d = vsd_destination e /\
  vsd_mothership_mmsi d = vsd_mothership_mmsi e.

(** The same about the place of a base station. *)
Definition same_place (d e : BaseStationReport) : Prop :=
  bsr_latitude d = bsr_latitude e /\
  bsr_longitude d = bsr_longitude e /\
  bsr_position_fix_type d = bsr_position_fix_type e.
