(** What depends on the surroundings (clock, build profile) and what does not: vocabulary for
    C63 and C64. *)
From Coq Require Import List NArith ZArith Bool String.
From Verif Require Import Base Str F64 Chrono Types Parser SpecText SpecAis SpecState SpecFields.
Import ListNotations.
Open Scope N_scope.

(** A result without the times computed with the clock. *)
Definition timeless (r : ParsedSentence) : ParsedSentence :=
  match r with
  | PsGga d => PsGga {| gga_source := gga_source d; gga_timestamp := None; gga_latitude := gga_latitude d;
      gga_longitude := gga_longitude d; gga_quality := gga_quality d;
      gga_satellite_count := gga_satellite_count d; gga_hdop := gga_hdop d; gga_altitude := gga_altitude d;
      gga_geoid_separation := gga_geoid_separation d; gga_age_of_dgps := gga_age_of_dgps d;
      gga_ref_station_id := gga_ref_station_id d |}
  | PsRmc d => PsRmc {| rmc_source := rmc_source d; rmc_timestamp := None;
      rmc_status_active := rmc_status_active d; rmc_latitude := rmc_latitude d;
      rmc_longitude := rmc_longitude d; rmc_sog_knots := rmc_sog_knots d; rmc_bearing := rmc_bearing d;
      rmc_variation := rmc_variation d |}
  | PsGll d => PsGll {| gll_source := gll_source d; gll_latitude := gll_latitude d;
      gll_longitude := gll_longitude d; gll_timestamp := None; gll_data_valid := gll_data_valid d;
      gll_faa_mode := gll_faa_mode d |}
  | PsVesselStaticData d => PsVesselStaticData {| vsd_own_vessel := vsd_own_vessel d;
      vsd_ais_type := vsd_ais_type d; vsd_mmsi := vsd_mmsi d;
      vsd_ais_version_indicator := vsd_ais_version_indicator d; vsd_imo_number := vsd_imo_number d;
      vsd_call_sign := vsd_call_sign d; vsd_name := vsd_name d; vsd_ship_type := vsd_ship_type d;
      vsd_cargo_type := vsd_cargo_type d; vsd_equipment_vendor_id := vsd_equipment_vendor_id d;
      vsd_equipment_model := vsd_equipment_model d;
      vsd_equipment_serial_number := vsd_equipment_serial_number d;
      vsd_dimension_to_bow := vsd_dimension_to_bow d; vsd_dimension_to_stern := vsd_dimension_to_stern d;
      vsd_dimension_to_port := vsd_dimension_to_port d;
      vsd_dimension_to_starboard := vsd_dimension_to_starboard d;
      vsd_position_fix_type := vsd_position_fix_type d; vsd_eta := None; vsd_draught10 := vsd_draught10 d;
      vsd_destination := vsd_destination d; vsd_mothership_mmsi := vsd_mothership_mmsi d |}
  | _ => r
  end.

(** The kinds of results with a time computed with the clock. *)
Definition timed (r : ParsedSentence) : Prop :=
  match r with PsGga _ | PsRmc _ | PsGll _ | PsVesselStaticData _ => True | _ => False end.

(** Two outcomes of the same call at different times: the same but for these times, or a panic, the
    other one not being an ordinary result without such a time. *)
Inductive same_but_times : outcome ParseError ParsedSentence -> outcome ParseError ParsedSentence -> Prop :=
| same_ok r r' : timeless r = timeless r' -> same_but_times (Ok r) (Ok r')
| same_err e : same_but_times (Err e) (Err e)
| same_panic_left o : (forall r, o = Ok r -> timed r) -> same_but_times Panic o
| same_panic_right o : (forall r, o = Ok r -> timed r) -> same_but_times o Panic.
