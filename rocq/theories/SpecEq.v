(** Equality of reports: vocabulary for C76. *)
From Coq Require Import List NArith ZArith Bool Floats.SpecFloat.
From Verif Require Import Base Str F64 Chrono Types SpecReal.
Import ListNotations.

(** The double attributes of a report, in order. *)
Definition doubles (r : ParsedSentence) : list (option f64) :=
  match r with
  | PsVesselDynamicData d => [vdd_rot d; vdd_sog_knots d; vdd_latitude d; vdd_longitude d; vdd_cog d; vdd_heading_true d]
  | PsBaseStationReport d => [bsr_latitude d; bsr_longitude d]
  | PsStandardSarAircraftPositionReport d => [sar_latitude d; sar_longitude d; sar_cog d]
  | PsAidToNavigationReport d => [atn_latitude d; atn_longitude d]
  | PsGga d => [gga_latitude d; gga_longitude d; gga_hdop d; gga_altitude d; gga_geoid_separation d; gga_age_of_dgps d]
  | PsRmc d => [rmc_latitude d; rmc_longitude d; rmc_sog_knots d; rmc_bearing d; rmc_variation d]
  | PsGsa d => [gsa_pdop d; gsa_hdop d; gsa_vdop d]
  | PsVtg d => [vtg_cog_true d; vtg_cog_magnetic d; vtg_sog_knots d; vtg_sog_kph d]
  | PsGll d => [gll_latitude d; gll_longitude d]
  | _ => []
  end.

(** The report without its double attributes. *)
Definition without_doubles (r : ParsedSentence) : ParsedSentence :=
  match r with
  | PsVesselDynamicData d => PsVesselDynamicData {|
      vdd_own_vessel := vdd_own_vessel d;
      vdd_station := vdd_station d;
      vdd_ais_type := vdd_ais_type d;
      vdd_mmsi := vdd_mmsi d;
      vdd_nav_status := vdd_nav_status d;
      vdd_rot := None;
      vdd_rot_direction := vdd_rot_direction d;
      vdd_sog_knots := None;
      vdd_high_position_accuracy := vdd_high_position_accuracy d;
      vdd_latitude := None;
      vdd_longitude := None;
      vdd_cog := None;
      vdd_heading_true := None;
      vdd_timestamp_seconds := vdd_timestamp_seconds d;
      vdd_positioning_system_meta := vdd_positioning_system_meta d;
      vdd_current_gnss_position := vdd_current_gnss_position d;
      vdd_special_manoeuvre := vdd_special_manoeuvre d;
      vdd_raim_flag := vdd_raim_flag d;
      vdd_class_b_unit_flag := vdd_class_b_unit_flag d;
      vdd_class_b_display := vdd_class_b_display d;
      vdd_class_b_dsc := vdd_class_b_dsc d;
      vdd_class_b_band_flag := vdd_class_b_band_flag d;
      vdd_class_b_msg22_flag := vdd_class_b_msg22_flag d;
      vdd_class_b_mode_flag := vdd_class_b_mode_flag d;
      vdd_class_b_css_flag := vdd_class_b_css_flag d;
      vdd_radio_status := vdd_radio_status d |}
  | PsBaseStationReport d => PsBaseStationReport {|
      bsr_own_vessel := bsr_own_vessel d;
      bsr_station := bsr_station d;
      bsr_mmsi := bsr_mmsi d;
      bsr_timestamp := bsr_timestamp d;
      bsr_high_position_accuracy := bsr_high_position_accuracy d;
      bsr_latitude := None;
      bsr_longitude := None;
      bsr_position_fix_type := bsr_position_fix_type d;
      bsr_raim_flag := bsr_raim_flag d;
      bsr_radio_status := bsr_radio_status d |}
  | PsStandardSarAircraftPositionReport d => PsStandardSarAircraftPositionReport {|
      sar_own_vessel := sar_own_vessel d;
      sar_station := sar_station d;
      sar_mmsi := sar_mmsi d;
      sar_altitude := sar_altitude d;
      sar_sog_knots := sar_sog_knots d;
      sar_high_position_accuracy := sar_high_position_accuracy d;
      sar_latitude := None;
      sar_longitude := None;
      sar_cog := None;
      sar_timestamp_seconds := sar_timestamp_seconds d;
      sar_regional := sar_regional d;
      sar_dte := sar_dte d;
      sar_assigned := sar_assigned d;
      sar_raim_flag := sar_raim_flag d;
      sar_radio_status := sar_radio_status d |}
  | PsAidToNavigationReport d => PsAidToNavigationReport {|
      atn_own_vessel := atn_own_vessel d;
      atn_station := atn_station d;
      atn_mmsi := atn_mmsi d;
      atn_aid_type := atn_aid_type d;
      atn_name := atn_name d;
      atn_high_position_accuracy := atn_high_position_accuracy d;
      atn_latitude := None;
      atn_longitude := None;
      atn_dimension_to_bow := atn_dimension_to_bow d;
      atn_dimension_to_stern := atn_dimension_to_stern d;
      atn_dimension_to_port := atn_dimension_to_port d;
      atn_dimension_to_starboard := atn_dimension_to_starboard d;
      atn_position_fix_type := atn_position_fix_type d;
      atn_timestamp_seconds := atn_timestamp_seconds d;
      atn_off_position_indicator := atn_off_position_indicator d;
      atn_regional := atn_regional d;
      atn_raim_flag := atn_raim_flag d;
      atn_virtual_aid_flag := atn_virtual_aid_flag d;
      atn_assigned_mode_flag := atn_assigned_mode_flag d |}
  | PsGga d => PsGga {|
      gga_source := gga_source d;
      gga_timestamp := gga_timestamp d;
      gga_latitude := None;
      gga_longitude := None;
      gga_quality := gga_quality d;
      gga_satellite_count := gga_satellite_count d;
      gga_hdop := None;
      gga_altitude := None;
      gga_geoid_separation := None;
      gga_age_of_dgps := None;
      gga_ref_station_id := gga_ref_station_id d |}
  | PsRmc d => PsRmc {|
      rmc_source := rmc_source d;
      rmc_timestamp := rmc_timestamp d;
      rmc_status_active := rmc_status_active d;
      rmc_latitude := None;
      rmc_longitude := None;
      rmc_sog_knots := None;
      rmc_bearing := None;
      rmc_variation := None |}
  | PsGsa d => PsGsa {|
      gsa_source := gsa_source d;
      gsa_mode1_automatic := gsa_mode1_automatic d;
      gsa_mode2_3d := gsa_mode2_3d d;
      gsa_prn_numbers := gsa_prn_numbers d;
      gsa_pdop := None;
      gsa_hdop := None;
      gsa_vdop := None |}
  | PsVtg d => PsVtg {|
      vtg_source := vtg_source d;
      vtg_cog_true := None;
      vtg_cog_magnetic := None;
      vtg_sog_knots := None;
      vtg_sog_kph := None;
      vtg_faa_mode := vtg_faa_mode d |}
  | PsGll d => PsGll {|
      gll_source := gll_source d;
      gll_latitude := None;
      gll_longitude := None;
      gll_timestamp := gll_timestamp d;
      gll_data_valid := gll_data_valid d;
      gll_faa_mode := gll_faa_mode d |}
  | _ => r
  end.

(** Two doubles that are the same number: +0 and -0 are, NaN is not even the same as itself. *)
Inductive same_number : f64 -> f64 -> Prop :=
| same_zero a b : same_number (S754_zero a) (S754_zero b)
| same_infinity a : same_number (S754_infinity a) (S754_infinity a)
| same_finite a m k : same_number (S754_finite a m k) (S754_finite a m k).

(** Both missing, or both present and the same number. *)
Inductive same_attribute : option f64 -> option f64 -> Prop :=
| both_missing : same_attribute None None
| both_present x y : same_number x y -> same_attribute (Some x) (Some y).

(** The same report. *)
Definition same_report (r r' : ParsedSentence) : Prop :=
  without_doubles r = without_doubles r' /\ Forall2 same_attribute (doubles r) (doubles r').

(** Both missing, or both present and the same real number, or the same infinity. *)
Inductive same_value : option f64 -> option f64 -> Prop :=
| values_missing : same_value None None
| values_finite x y : finite x -> finite y -> real_of x = real_of y -> same_value (Some x) (Some y)
| values_infinite s : same_value (Some (S754_infinity s)) (Some (S754_infinity s)).
