(** Public data types of the crate and the parser state. *)
From Coq Require Import List NArith ZArith Bool.
From stdpp Require Import gmap.
From Verif Require Import Base Str F64 Chrono.

(** src/gnss/mod.rs:42-68 *)
Inductive NavigationSystem :=
  NavCombination | NavGps | NavGlonass | NavGalileo | NavBeidou | NavNavic | NavQzss | NavOther.

(** src/gnss/mod.rs:87-104 *)
Inductive FaaMode := FaaAutonomous | FaaDifferential | FaaEstimated | FaaNotValid | FaaSimulator.

(** src/gnss/gga.rs:66-78 *)
Inductive GgaQualityIndicator :=
  QInvalid | QGpsFix | QDGpsFix | QPpsFix | QRealTimeKinematic | QRealTimeKinematicFloat
| QDeadReckoning | QManualInputMode | QSimulationMode.

(** src/gnss/gsa.rs:42-53 *)
Inductive GsaFixMode := FixNotAvailable | Fix2D | Fix3D.

(** src/gnss/gga.rs:19-54 *)
Record GgaData := {
  gga_source : NavigationSystem;
  gga_timestamp : option datetime;
  gga_latitude : option f64;
  gga_longitude : option f64;
  gga_quality : GgaQualityIndicator;
  gga_satellite_count : option N;
  gga_hdop : option f64;
  gga_altitude : option f64;
  gga_geoid_separation : option f64;
  gga_age_of_dgps : option f64;
  gga_ref_station_id : option N }.

(** src/gnss/rmc.rs:18-44 *)
Record RmcData := {
  rmc_source : NavigationSystem;
  rmc_timestamp : option datetime;
  rmc_status_active : option bool;
  rmc_latitude : option f64;
  rmc_longitude : option f64;
  rmc_sog_knots : option f64;
  rmc_bearing : option f64;
  rmc_variation : option f64 }.

(** src/gnss/gsa.rs:17-40 *)
Record GsaData := {
  gsa_source : NavigationSystem;
  gsa_mode1_automatic : option bool;
  gsa_mode2_3d : option GsaFixMode;
  gsa_prn_numbers : list N;
  gsa_pdop : option f64;
  gsa_hdop : option f64;
  gsa_vdop : option f64 }.

(** src/gnss/gsv.rs:18-35 *)
Record GsvData := {
  gsv_source : NavigationSystem;
  gsv_prn_number : N;
  gsv_elevation : option N;
  gsv_azimuth : option N;
  gsv_snr : option N }.

(** src/gnss/vtg.rs:18-38 *)
Record VtgData := {
  vtg_source : NavigationSystem;
  vtg_cog_true : option f64;
  vtg_cog_magnetic : option f64;
  vtg_sog_knots : option f64;
  vtg_sog_kph : option f64;
  vtg_faa_mode : option FaaMode }.

(** src/gnss/gll.rs:18-38 *)
Record GllData := {
  gll_source : NavigationSystem;
  gll_latitude : option f64;
  gll_longitude : option f64;
  gll_timestamp : option datetime;
  gll_data_valid : option bool;
  gll_faa_mode : option FaaMode }.

(** src/ais/mod.rs:51-63 *)
Inductive Station :=
  StBaseStation | StDependentAisBaseStation | StMobileStation | StAidToNavigationStation
| StAisReceivingStation | StLimitedBaseStation | StAisTransmittingStation | StRepeaterStation
| StOther.

(** src/ais/mod.rs:196-207 *)
Inductive AisClass := AisUnknown | AisClassA | AisClassB.

(** src/ais/mod.rs:237-257 *)
Inductive NavigationStatus :=
  NsUnderWayUsingEngine | NsAtAnchor | NsNotUnderCommand | NsRestrictedManoeuverability
| NsConstrainedByDraught | NsMoored | NsAground | NsEngagedInFishing | NsUnderWaySailing
| NsReserved9 | NsReserved10 | NsReserved11 | NsReserved12 | NsReserved13 | NsAisSartIsActive
| NsNotDefined.

(** src/ais/mod.rs:288-295 *)
Inductive PositioningSystemMeta := PsOperative | PsManualInputMode | PsDeadReckoningMode | PsInoperative.

(** src/ais/mod.rs:376-407 *)
Inductive ShipType :=
  ShNotAvailable | ShReserved1 | ShWingInGround | ShFishing | ShTowing | ShTowingLong
| ShDredgingOrUnderwaterOps | ShDivingOps | ShMilitaryOps | ShSailing | ShPleasureCraft
| ShReserved38 | ShReserved39 | ShHighSpeedCraft | ShPilot | ShSearchAndRescue | ShTug
| ShPortTender | ShAntiPollutionEquipment | ShLawEnforcement | ShSpareLocal56 | ShSpareLocal57
| ShMedicalTransport | ShNoncombatant | ShPassenger | ShCargo | ShTanker | ShOther.

(** src/ais/mod.rs:510-523 *)
Inductive CargoType :=
  CaUndefined | CaHazardousCategoryA | CaHazardousCategoryB | CaHazardousCategoryC
| CaHazardousCategoryD | CaReserved5 | CaReserved6 | CaReserved7 | CaReserved8 | CaReserved9.

(** src/ais/mod.rs:591-603 *)
Inductive PositionFixType :=
  PfUndefined | PfGPS | PfGLONASS | PfGPSGLONASS | PfLoranC | PfChayka
| PfIntegratedNavigationSystem | PfSurveyed | PfGalileo.

(** src/ais/vdm_t21.rs:95-193 *)
Inductive NavAidType :=
  NaNotSpecified | NaReferencePoint | NaRacon | NaFixedStructure | NaReserved4
| NaLightWithoutSectors | NaLightWithSectors | NaLeadingLightFront | NaLeadingLightRear
| NaBeaconCardinalNorth | NaBeaconCardinalEast | NaBeaconCardinalSouth | NaBeaconCardinalWest
| NaBeaconLateralPort | NaBeaconLateralStarboard | NaBeaconLateralPreferredChannelPort
| NaBeaconLateralPreferredChannelStarboard | NaBeaconIsolatedDanger | NaBeaconSafeWater
| NaBeaconSpecialMark | NaCardinalMarkNorth | NaCardinalMarkEast | NaCardinalMarkSouth
| NaCardinalMarkWest | NaPortHandMark | NaStarboardHandMark | NaPreferredChannelPort
| NaPreferredChannelStarboard | NaIsolatedDanger | NaSafeWater | NaSpecialMark | NaLightVessel.

(** src/ais/mod.rs:91-194 *)
Record VesselDynamicData := {
  vdd_own_vessel : bool;
  vdd_station : Station;
  vdd_ais_type : AisClass;
  vdd_mmsi : N;
  vdd_nav_status : NavigationStatus;
  vdd_rot : option f64;
  vdd_rot_direction : option Z;
  vdd_sog_knots : option f64;
  vdd_high_position_accuracy : bool;
  vdd_latitude : option f64;
  vdd_longitude : option f64;
  vdd_cog : option f64;
  vdd_heading_true : option f64;
  vdd_timestamp_seconds : N;
  vdd_positioning_system_meta : option PositioningSystemMeta;
  vdd_current_gnss_position : option bool;
  vdd_special_manoeuvre : option bool;
  vdd_raim_flag : bool;
  vdd_class_b_unit_flag : option bool;
  vdd_class_b_display : option bool;
  vdd_class_b_dsc : option bool;
  vdd_class_b_band_flag : option bool;
  vdd_class_b_msg22_flag : option bool;
  vdd_class_b_mode_flag : option bool;
  vdd_class_b_css_flag : option bool;
  vdd_radio_status : option N }.

(** src/ais/mod.rs:312-374 *)
Record VesselStaticData := {
  vsd_own_vessel : bool;
  vsd_ais_type : AisClass;
  vsd_mmsi : N;
  vsd_ais_version_indicator : N;
  vsd_imo_number : option N;
  vsd_call_sign : option str;
  vsd_name : option str;
  vsd_ship_type : ShipType;
  vsd_cargo_type : CargoType;
  vsd_equipment_vendor_id : option str;
  vsd_equipment_model : option N;
  vsd_equipment_serial_number : option N;
  vsd_dimension_to_bow : option N;
  vsd_dimension_to_stern : option N;
  vsd_dimension_to_port : option N;
  vsd_dimension_to_starboard : option N;
  vsd_position_fix_type : option PositionFixType;
  vsd_eta : option datetime;
  vsd_draught10 : option N;
  vsd_destination : option str;
  vsd_mothership_mmsi : option N }.

(** src/ais/vdm_t4.rs:21-57 *)
Record BaseStationReport := {
  bsr_own_vessel : bool;
  bsr_station : Station;
  bsr_mmsi : N;
  bsr_timestamp : option datetime;
  bsr_high_position_accuracy : bool;
  bsr_latitude : option f64;
  bsr_longitude : option f64;
  bsr_position_fix_type : option PositionFixType;
  bsr_raim_flag : bool;
  bsr_radio_status : N }.

(** src/ais/vdm_t6.rs:21-49 *)
Record BinaryAddressedMessage := {
  bam_own_vessel : bool;
  bam_station : Station;
  bam_mmsi : N;
  bam_sequence_number : N;
  bam_destination_mmsi : N;
  bam_retransmit_flag : bool;
  bam_dac : N;
  bam_fid : N }.

(** src/ais/vdm_t9.rs:21-72 *)
Record StandardSarAircraftPositionReport := {
  sar_own_vessel : bool;
  sar_station : Station;
  sar_mmsi : N;
  sar_altitude : option N;
  sar_sog_knots : option N;
  sar_high_position_accuracy : bool;
  sar_latitude : option f64;
  sar_longitude : option f64;
  sar_cog : option f64;
  sar_timestamp_seconds : N;
  sar_regional : N;
  sar_dte : bool;
  sar_assigned : bool;
  sar_raim_flag : bool;
  sar_radio_status : N }.

(** src/ais/vdm_t10.rs:21-36 *)
Record UtcDateInquiry := {
  udi_own_vessel : bool;
  udi_station : Station;
  udi_source_mmsi : N;
  udi_destination_mmsi : N }.

(** src/ais/vdm_t21.rs:21-82 *)
Record AidToNavigationReport := {
  atn_own_vessel : bool;
  atn_station : Station;
  atn_mmsi : N;
  atn_aid_type : NavAidType;
  atn_name : str;
  atn_high_position_accuracy : bool;
  atn_latitude : option f64;
  atn_longitude : option f64;
  atn_dimension_to_bow : option N;
  atn_dimension_to_stern : option N;
  atn_dimension_to_port : option N;
  atn_dimension_to_starboard : option N;
  atn_position_fix_type : option PositionFixType;
  atn_timestamp_seconds : N;
  atn_off_position_indicator : bool;
  atn_regional : N;
  atn_raim_flag : bool;
  atn_virtual_aid_flag : bool;
  atn_assigned_mode_flag : bool }.

(** src/lib.rs:45-96 *)
Inductive ParsedSentence :=
| PsIncomplete
| PsVesselDynamicData (d : VesselDynamicData)
| PsVesselStaticData (d : VesselStaticData)
| PsBaseStationReport (d : BaseStationReport)
| PsBinaryAddressedMessage (d : BinaryAddressedMessage)
| PsStandardSarAircraftPositionReport (d : StandardSarAircraftPositionReport)
| PsUtcDateInquiry (d : UtcDateInquiry)
| PsAidToNavigationReport (d : AidToNavigationReport)
| PsGga (d : GgaData)
| PsRmc (d : RmcData)
| PsGsa (d : GsaData)
| PsGsv (d : list GsvData)
| PsVtg (d : VtgData)
| PsGll (d : GllData).

(** src/error.rs:17-29. The text of [CorruptedSentence] is rendered from the calculated and the
    given checksum with Debug escaping; the model keeps these two strings instead of the text
    (simplification; [ErrorText.ParseError_to_string] renders the text). *)
Inductive ParseError :=
| UnsupportedSentenceType (msg : str)
| CorruptedSentence (calculated given : str)
| InvalidSentence (msg : str).

(** src/lib.rs:113-117: the parser, two hash maps. *)
Record NmeaParser := mk_parser {
  saved_fragments : gmap str str;
  saved_vsds : gmap N VesselStaticData }.

(** src/lib.rs:121-126 *)
Definition new_parser : NmeaParser := mk_parser ∅ ∅.

(** src/lib.rs:129-131 *)
Definition push_string (key value : str) (p : NmeaParser) : NmeaParser :=
  mk_parser (<[key := value]> (saved_fragments p)) (saved_vsds p).

(** src/lib.rs:134-136 *)
Definition pull_string (key : str) (p : NmeaParser) : option str * NmeaParser :=
  (saved_fragments p !! key, mk_parser (delete key (saved_fragments p)) (saved_vsds p)).

(** src/lib.rs:139-141 *)
Definition contains_key (key : str) (p : NmeaParser) : bool :=
  match saved_fragments p !! key with Some _ => true | None => false end.

(** src/lib.rs:144-146 *)
Definition strings_count (p : NmeaParser) : nat := size (saved_fragments p).

(** src/lib.rs:149-151 *)
Definition push_vsd (mmsi : N) (vsd : VesselStaticData) (p : NmeaParser) : NmeaParser :=
  mk_parser (saved_fragments p) (<[mmsi := vsd]> (saved_vsds p)).

(** src/lib.rs:154-156 *)
Definition pull_vsd (mmsi : N) (p : NmeaParser) : option VesselStaticData * NmeaParser :=
  (saved_vsds p !! mmsi, mk_parser (saved_fragments p) (delete mmsi (saved_vsds p))).

(** src/lib.rs:159-161 *)
Definition vsds_count (p : NmeaParser) : nat := size (saved_vsds p).
