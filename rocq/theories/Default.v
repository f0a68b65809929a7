(** The default values of the reports and of their enumerations ([Default] implementations, written or
    derived: false, 0, empty text, [None], and the default of each enumeration). *)
From Coq Require Import List NArith ZArith Bool String.
From Verif Require Import Base Str F64 Chrono Types.
Import ListNotations.
Open Scope N_scope.

(** src/ais/mod.rs:65-69 *)
Definition Station_default : Station := StOther.
(** src/ais/mod.rs:209-213 *)
Definition AisClass_default : AisClass := AisUnknown.
(** src/ais/mod.rs:282-286 *)
Definition NavigationStatus_default : NavigationStatus := NsNotDefined.
(** src/ais/mod.rs:468-472 *)
Definition ShipType_default : ShipType := ShNotAvailable.
(** src/ais/mod.rs:584-588 *)
Definition CargoType_default : CargoType := CaUndefined.
(** src/ais/vdm_t21.rs:235-239 *)
Definition NavAidType_default : NavAidType := NaNotSpecified.

(** src/ais/mod.rs:92 (derived) *)
Definition VesselDynamicData_default : VesselDynamicData := {|
  vdd_own_vessel := false;
  vdd_station := Station_default;
  vdd_ais_type := AisClass_default;
  vdd_mmsi := 0;
  vdd_nav_status := NavigationStatus_default;
  vdd_rot := None;
  vdd_rot_direction := None;
  vdd_sog_knots := None;
  vdd_high_position_accuracy := false;
  vdd_latitude := None;
  vdd_longitude := None;
  vdd_cog := None;
  vdd_heading_true := None;
  vdd_timestamp_seconds := 0;
  vdd_positioning_system_meta := None;
  vdd_current_gnss_position := None;
  vdd_special_manoeuvre := None;
  vdd_raim_flag := false;
  vdd_class_b_unit_flag := None;
  vdd_class_b_display := None;
  vdd_class_b_dsc := None;
  vdd_class_b_band_flag := None;
  vdd_class_b_msg22_flag := None;
  vdd_class_b_mode_flag := None;
  vdd_class_b_css_flag := None;
  vdd_radio_status := None |}.

(** src/ais/mod.rs:313 (derived) *)
Definition VesselStaticData_default : VesselStaticData := {|
  vsd_own_vessel := false;
  vsd_ais_type := AisClass_default;
  vsd_mmsi := 0;
  vsd_ais_version_indicator := 0;
  vsd_imo_number := None;
  vsd_call_sign := None;
  vsd_name := None;
  vsd_ship_type := ShipType_default;
  vsd_cargo_type := CargoType_default;
  vsd_equipment_vendor_id := None;
  vsd_equipment_model := None;
  vsd_equipment_serial_number := None;
  vsd_dimension_to_bow := None;
  vsd_dimension_to_stern := None;
  vsd_dimension_to_port := None;
  vsd_dimension_to_starboard := None;
  vsd_position_fix_type := None;
  vsd_eta := None;
  vsd_draught10 := None;
  vsd_destination := None;
  vsd_mothership_mmsi := None |}.

(** src/ais/vdm_t4.rs:22 (derived) *)
Definition BaseStationReport_default : BaseStationReport := {|
  bsr_own_vessel := false;
  bsr_station := Station_default;
  bsr_mmsi := 0;
  bsr_timestamp := None;
  bsr_high_position_accuracy := false;
  bsr_latitude := None;
  bsr_longitude := None;
  bsr_position_fix_type := None;
  bsr_raim_flag := false;
  bsr_radio_status := 0 |}.

(** src/ais/vdm_t6.rs:22 (derived) *)
Definition BinaryAddressedMessage_default : BinaryAddressedMessage := {|
  bam_own_vessel := false;
  bam_station := Station_default;
  bam_mmsi := 0;
  bam_sequence_number := 0;
  bam_destination_mmsi := 0;
  bam_retransmit_flag := false;
  bam_dac := 0;
  bam_fid := 0 |}.

(** src/ais/vdm_t9.rs:22 (derived) *)
Definition StandardSarAircraftPositionReport_default : StandardSarAircraftPositionReport := {|
  sar_own_vessel := false;
  sar_station := Station_default;
  sar_mmsi := 0;
  sar_altitude := None;
  sar_sog_knots := None;
  sar_high_position_accuracy := false;
  sar_latitude := None;
  sar_longitude := None;
  sar_cog := None;
  sar_timestamp_seconds := 0;
  sar_regional := 0;
  sar_dte := false;
  sar_assigned := false;
  sar_raim_flag := false;
  sar_radio_status := 0 |}.

(** src/ais/vdm_t10.rs:22 (derived) *)
Definition UtcDateInquiry_default : UtcDateInquiry := {|
  udi_own_vessel := false;
  udi_station := Station_default;
  udi_source_mmsi := 0;
  udi_destination_mmsi := 0 |}.

(** src/ais/vdm_t21.rs:22 (derived) *)
Definition AidToNavigationReport_default : AidToNavigationReport := {|
  atn_own_vessel := false;
  atn_station := Station_default;
  atn_mmsi := 0;
  atn_aid_type := NavAidType_default;
  atn_name := [];
  atn_high_position_accuracy := false;
  atn_latitude := None;
  atn_longitude := None;
  atn_dimension_to_bow := None;
  atn_dimension_to_stern := None;
  atn_dimension_to_port := None;
  atn_dimension_to_starboard := None;
  atn_position_fix_type := None;
  atn_timestamp_seconds := 0;
  atn_off_position_indicator := false;
  atn_regional := 0;
  atn_raim_flag := false;
  atn_virtual_aid_flag := false;
  atn_assigned_mode_flag := false |}.
