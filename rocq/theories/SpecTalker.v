(** Specification vocabulary for C91: sentences that differ in who sent them only. *)
From stdpp Require Import gmap.
From Coq Require Import List NArith ZArith Bool String.
From Verif Require Import Base Str F64 Chrono Types Parser SpecText SpecResult SpecAis SpecFields SpecState.
Import ListNotations.
Open Scope N_scope.

(** A report without the fields that say where it came from: [own_vessel], [station] and [source] are set
    to fixed values, every other field is kept. *)
Definition VesselDynamicData_unmarked (d : VesselDynamicData) : VesselDynamicData :=
  {| vdd_own_vessel := false; vdd_station := StOther; vdd_ais_type := vdd_ais_type d;
     vdd_mmsi := vdd_mmsi d; vdd_nav_status := vdd_nav_status d; vdd_rot := vdd_rot d;
     vdd_rot_direction := vdd_rot_direction d; vdd_sog_knots := vdd_sog_knots d;
     vdd_high_position_accuracy := vdd_high_position_accuracy d; vdd_latitude := vdd_latitude d;
     vdd_longitude := vdd_longitude d; vdd_cog := vdd_cog d; vdd_heading_true := vdd_heading_true d;
     vdd_timestamp_seconds := vdd_timestamp_seconds d;
     vdd_positioning_system_meta := vdd_positioning_system_meta d;
     vdd_current_gnss_position := vdd_current_gnss_position d;
     vdd_special_manoeuvre := vdd_special_manoeuvre d; vdd_raim_flag := vdd_raim_flag d;
     vdd_class_b_unit_flag := vdd_class_b_unit_flag d; vdd_class_b_display := vdd_class_b_display d;
     vdd_class_b_dsc := vdd_class_b_dsc d; vdd_class_b_band_flag := vdd_class_b_band_flag d;
     vdd_class_b_msg22_flag := vdd_class_b_msg22_flag d; vdd_class_b_mode_flag := vdd_class_b_mode_flag d;
     vdd_class_b_css_flag := vdd_class_b_css_flag d; vdd_radio_status := vdd_radio_status d |}.
Definition VesselStaticData_unmarked (d : VesselStaticData) : VesselStaticData :=
  {| vsd_own_vessel := false; vsd_ais_type := vsd_ais_type d; vsd_mmsi := vsd_mmsi d;
     vsd_ais_version_indicator := vsd_ais_version_indicator d; vsd_imo_number := vsd_imo_number d;
     vsd_call_sign := vsd_call_sign d; vsd_name := vsd_name d; vsd_ship_type := vsd_ship_type d;
     vsd_cargo_type := vsd_cargo_type d; vsd_equipment_vendor_id := vsd_equipment_vendor_id d;
     vsd_equipment_model := vsd_equipment_model d;
     vsd_equipment_serial_number := vsd_equipment_serial_number d;
     vsd_dimension_to_bow := vsd_dimension_to_bow d; vsd_dimension_to_stern := vsd_dimension_to_stern d;
     vsd_dimension_to_port := vsd_dimension_to_port d;
     vsd_dimension_to_starboard := vsd_dimension_to_starboard d;
     vsd_position_fix_type := vsd_position_fix_type d; vsd_eta := vsd_eta d;
     vsd_draught10 := vsd_draught10 d; vsd_destination := vsd_destination d;
     vsd_mothership_mmsi := vsd_mothership_mmsi d |}.
Definition BaseStationReport_unmarked (d : BaseStationReport) : BaseStationReport :=
  {| bsr_own_vessel := false; bsr_station := StOther; bsr_mmsi := bsr_mmsi d;
     bsr_timestamp := bsr_timestamp d; bsr_high_position_accuracy := bsr_high_position_accuracy d;
     bsr_latitude := bsr_latitude d; bsr_longitude := bsr_longitude d;
     bsr_position_fix_type := bsr_position_fix_type d; bsr_raim_flag := bsr_raim_flag d;
     bsr_radio_status := bsr_radio_status d |}.
Definition BinaryAddressedMessage_unmarked (d : BinaryAddressedMessage) : BinaryAddressedMessage :=
  {| bam_own_vessel := false; bam_station := StOther; bam_mmsi := bam_mmsi d;
     bam_sequence_number := bam_sequence_number d; bam_destination_mmsi := bam_destination_mmsi d;
     bam_retransmit_flag := bam_retransmit_flag d; bam_dac := bam_dac d; bam_fid := bam_fid d |}.
Definition StandardSarAircraftPositionReport_unmarked (d : StandardSarAircraftPositionReport) : StandardSarAircraftPositionReport :=
  {| sar_own_vessel := false; sar_station := StOther; sar_mmsi := sar_mmsi d;
     sar_altitude := sar_altitude d; sar_sog_knots := sar_sog_knots d;
     sar_high_position_accuracy := sar_high_position_accuracy d; sar_latitude := sar_latitude d;
     sar_longitude := sar_longitude d; sar_cog := sar_cog d;
     sar_timestamp_seconds := sar_timestamp_seconds d; sar_regional := sar_regional d; sar_dte := sar_dte d;
     sar_assigned := sar_assigned d; sar_raim_flag := sar_raim_flag d;
     sar_radio_status := sar_radio_status d |}.
Definition UtcDateInquiry_unmarked (d : UtcDateInquiry) : UtcDateInquiry :=
  {| udi_own_vessel := false; udi_station := StOther; udi_source_mmsi := udi_source_mmsi d;
     udi_destination_mmsi := udi_destination_mmsi d |}.
Definition AidToNavigationReport_unmarked (d : AidToNavigationReport) : AidToNavigationReport :=
  {| atn_own_vessel := false; atn_station := StOther; atn_mmsi := atn_mmsi d;
     atn_aid_type := atn_aid_type d; atn_name := atn_name d;
     atn_high_position_accuracy := atn_high_position_accuracy d; atn_latitude := atn_latitude d;
     atn_longitude := atn_longitude d; atn_dimension_to_bow := atn_dimension_to_bow d;
     atn_dimension_to_stern := atn_dimension_to_stern d; atn_dimension_to_port := atn_dimension_to_port d;
     atn_dimension_to_starboard := atn_dimension_to_starboard d;
     atn_position_fix_type := atn_position_fix_type d; atn_timestamp_seconds := atn_timestamp_seconds d;
     atn_off_position_indicator := atn_off_position_indicator d; atn_regional := atn_regional d;
     atn_raim_flag := atn_raim_flag d; atn_virtual_aid_flag := atn_virtual_aid_flag d;
     atn_assigned_mode_flag := atn_assigned_mode_flag d |}.
Definition GgaData_unmarked (d : GgaData) : GgaData :=
  {| gga_source := NavOther; gga_timestamp := gga_timestamp d; gga_latitude := gga_latitude d;
     gga_longitude := gga_longitude d; gga_quality := gga_quality d;
     gga_satellite_count := gga_satellite_count d; gga_hdop := gga_hdop d; gga_altitude := gga_altitude d;
     gga_geoid_separation := gga_geoid_separation d; gga_age_of_dgps := gga_age_of_dgps d;
     gga_ref_station_id := gga_ref_station_id d |}.
Definition RmcData_unmarked (d : RmcData) : RmcData :=
  {| rmc_source := NavOther; rmc_timestamp := rmc_timestamp d; rmc_status_active := rmc_status_active d;
     rmc_latitude := rmc_latitude d; rmc_longitude := rmc_longitude d; rmc_sog_knots := rmc_sog_knots d;
     rmc_bearing := rmc_bearing d; rmc_variation := rmc_variation d |}.
Definition GsaData_unmarked (d : GsaData) : GsaData :=
  {| gsa_source := NavOther; gsa_mode1_automatic := gsa_mode1_automatic d; gsa_mode2_3d := gsa_mode2_3d d;
     gsa_prn_numbers := gsa_prn_numbers d; gsa_pdop := gsa_pdop d; gsa_hdop := gsa_hdop d;
     gsa_vdop := gsa_vdop d |}.
Definition GsvData_unmarked (d : GsvData) : GsvData :=
  {| gsv_source := NavOther; gsv_prn_number := gsv_prn_number d; gsv_elevation := gsv_elevation d;
     gsv_azimuth := gsv_azimuth d; gsv_snr := gsv_snr d |}.
Definition VtgData_unmarked (d : VtgData) : VtgData :=
  {| vtg_source := NavOther; vtg_cog_true := vtg_cog_true d; vtg_cog_magnetic := vtg_cog_magnetic d;
     vtg_sog_knots := vtg_sog_knots d; vtg_sog_kph := vtg_sog_kph d; vtg_faa_mode := vtg_faa_mode d |}.
Definition GllData_unmarked (d : GllData) : GllData :=
  {| gll_source := NavOther; gll_latitude := gll_latitude d; gll_longitude := gll_longitude d;
     gll_timestamp := gll_timestamp d; gll_data_valid := gll_data_valid d; gll_faa_mode := gll_faa_mode d |}.
Definition unmarked (x : ParsedSentence) : ParsedSentence :=
  match x with
  | PsIncomplete => PsIncomplete
  | PsVesselDynamicData d => PsVesselDynamicData (VesselDynamicData_unmarked d)
  | PsVesselStaticData d => PsVesselStaticData (VesselStaticData_unmarked d)
  | PsBaseStationReport d => PsBaseStationReport (BaseStationReport_unmarked d)
  | PsBinaryAddressedMessage d => PsBinaryAddressedMessage (BinaryAddressedMessage_unmarked d)
  | PsStandardSarAircraftPositionReport d => PsStandardSarAircraftPositionReport (StandardSarAircraftPositionReport_unmarked d)
  | PsUtcDateInquiry d => PsUtcDateInquiry (UtcDateInquiry_unmarked d)
  | PsAidToNavigationReport d => PsAidToNavigationReport (AidToNavigationReport_unmarked d)
  | PsGga d => PsGga (GgaData_unmarked d)
  | PsRmc d => PsRmc (RmcData_unmarked d)
  | PsGsa d => PsGsa (GsaData_unmarked d)
  | PsGsv d => PsGsv (map GsvData_unmarked d)
  | PsVtg d => PsVtg (VtgData_unmarked d)
  | PsGll d => PsGll (GllData_unmarked d)
  end.

(** The error for an AIS message type without decoder, received in a sentence [fff]. *)
Definition no_decoder (fff t : str) : ParseError :=
  UnsupportedSentenceType (lit "Unsupported !" ++ fff ++ lit " message type: " ++ t).

(** Two results that are the same apart from where they came from. [f] renames the formatters. *)
Inductive same_apart (f : str -> str) : outcome ParseError ParsedSentence -> outcome ParseError ParsedSentence -> Prop :=
| apart_report x x' : unmarked x = unmarked x' -> same_apart f (Ok x) (Ok x')
| apart_error e : same_apart f (Err e) (Err e)
| apart_no_decoder fff t : same_apart f (Err (no_decoder fff t)) (Err (no_decoder (f fff) t))
| apart_panic : same_apart f Panic Panic.

(** [s'] is [s] sent by someone else: an AIS sentence with any other talker and the formatter [f] gives for
    its own, or a GNSS sentence with the talker [g] gives for its own. All fields are the same.
    Sentences that are neither stay. *)
Inductive resent (g f : str -> str) (s s' : str) : Prop :=
| resent_ais tt tt' fff fields : vdm_with s tt fff fields -> vdm_with s' tt' (f fff) fields -> resent g f s s'
| resent_gnss tt fff fields : In fff [lit "GGA"; lit "RMC"; lit "GSA"; lit "VTG"; lit "GLL"; lit "GSV"] ->
    gnss_with s tt fff fields -> gnss_with s' (g tt) fff fields -> resent g f s s'
| resent_same : s' = s -> (forall tt fff fields, ~ vdm_with s tt fff fields) ->
    (forall tt fields, ~ gsv_with s tt fields) -> resent g f s s'.

(** Call by call, at the same times. *)
Definition resent_all (g f : str -> str) (h h' : history) : Prop :=
  Forall2 (fun a b => fst a = fst b /\ resent g f (snd a) (snd b)) h h'.

Definition distinct_names (f : str -> str) : Prop := forall a b, f a = f b -> a = b.
