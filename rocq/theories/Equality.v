(** Derived [PartialEq] of the public types. *)
From Coq Require Import List NArith ZArith Bool Floats.SpecFloat.
From Verif Require Import Base Str F64 Chrono Types.
Open Scope N_scope.

(** [==] of f64, for the derived equality of e.g. src/gnss/gga.rs:20: IEEE 754 comparison. *)
Definition f64_eqb (x y : f64) : bool := SFeqb x y.

(** Derived equality of [Option], used by src/gnss/gga.rs:20 for its attributes. *)
Definition option_eqb {A} (eqb : A -> A -> bool) (a b : option A) : bool :=
  match a, b with Some x, Some y => eqb x y | None, None => true | _, _ => false end.

(** Equality of [Vec], used by src/gnss/gsa.rs:18 and src/lib.rs:46. *)
Fixpoint list_eqb {A} (eqb : A -> A -> bool) (a b : list A) : bool :=
  match a, b with
  | nil, nil => true
  | x :: a', y :: b' => eqb x y && list_eqb eqb a' b'
  | _, _ => false
  end.

(** Equality of [DateTime<Utc>], used by src/gnss/gga.rs:20: the same instant. *)
Definition datetime_eqb (a b : datetime) : bool :=
  (dt_year a =? dt_year b)%Z && (dt_month a =? dt_month b) && (dt_day a =? dt_day b) && (dt_hour a =? dt_hour b)
  && (dt_minute a =? dt_minute b) && (dt_second a =? dt_second b) && (dt_nano a =? dt_nano b).

(** Derived equality of a fieldless enum compares discriminants, src/gnss/mod.rs:42-68. *)
Definition NavigationSystem_discriminant (a : NavigationSystem) : N :=
  match a with
  | NavCombination => 0
  | NavGps => 1
  | NavGlonass => 2
  | NavGalileo => 3
  | NavBeidou => 4
  | NavNavic => 5
  | NavQzss => 6
  | NavOther => 7
  end.
(** src/gnss/mod.rs:42-68 *)
Definition NavigationSystem_eqb (a b : NavigationSystem) : bool := NavigationSystem_discriminant a =? NavigationSystem_discriminant b.

(** Derived equality of a fieldless enum compares discriminants, src/gnss/mod.rs:87-104. *)
Definition FaaMode_discriminant (a : FaaMode) : N :=
  match a with
  | FaaAutonomous => 0
  | FaaDifferential => 1
  | FaaEstimated => 2
  | FaaNotValid => 3
  | FaaSimulator => 4
  end.
(** src/gnss/mod.rs:87-104 *)
Definition FaaMode_eqb (a b : FaaMode) : bool := FaaMode_discriminant a =? FaaMode_discriminant b.

(** Derived equality of a fieldless enum compares discriminants, src/gnss/gga.rs:66-78. *)
Definition GgaQualityIndicator_discriminant (a : GgaQualityIndicator) : N :=
  match a with
  | QInvalid => 0
  | QGpsFix => 1
  | QDGpsFix => 2
  | QPpsFix => 3
  | QRealTimeKinematic => 4
  | QRealTimeKinematicFloat => 5
  | QDeadReckoning => 6
  | QManualInputMode => 7
  | QSimulationMode => 8
  end.
(** src/gnss/gga.rs:66-78 *)
Definition GgaQualityIndicator_eqb (a b : GgaQualityIndicator) : bool := GgaQualityIndicator_discriminant a =? GgaQualityIndicator_discriminant b.

(** Derived equality of a fieldless enum compares discriminants, src/gnss/gsa.rs:42-53. *)
Definition GsaFixMode_discriminant (a : GsaFixMode) : N :=
  match a with
  | FixNotAvailable => 0
  | Fix2D => 1
  | Fix3D => 2
  end.
(** src/gnss/gsa.rs:42-53 *)
Definition GsaFixMode_eqb (a b : GsaFixMode) : bool := GsaFixMode_discriminant a =? GsaFixMode_discriminant b.

(** Derived equality of a fieldless enum compares discriminants, src/ais/mod.rs:51-63. *)
Definition Station_discriminant (a : Station) : N :=
  match a with
  | StBaseStation => 0
  | StDependentAisBaseStation => 1
  | StMobileStation => 2
  | StAidToNavigationStation => 3
  | StAisReceivingStation => 4
  | StLimitedBaseStation => 5
  | StAisTransmittingStation => 6
  | StRepeaterStation => 7
  | StOther => 8
  end.
(** src/ais/mod.rs:51-63 *)
Definition Station_eqb (a b : Station) : bool := Station_discriminant a =? Station_discriminant b.

(** Derived equality of a fieldless enum compares discriminants, src/ais/mod.rs:196-207. *)
Definition AisClass_discriminant (a : AisClass) : N :=
  match a with
  | AisUnknown => 0
  | AisClassA => 1
  | AisClassB => 2
  end.
(** src/ais/mod.rs:196-207 *)
Definition AisClass_eqb (a b : AisClass) : bool := AisClass_discriminant a =? AisClass_discriminant b.

(** Derived equality of a fieldless enum compares discriminants, src/ais/mod.rs:237-257. *)
Definition NavigationStatus_discriminant (a : NavigationStatus) : N :=
  match a with
  | NsUnderWayUsingEngine => 0
  | NsAtAnchor => 1
  | NsNotUnderCommand => 2
  | NsRestrictedManoeuverability => 3
  | NsConstrainedByDraught => 4
  | NsMoored => 5
  | NsAground => 6
  | NsEngagedInFishing => 7
  | NsUnderWaySailing => 8
  | NsReserved9 => 9
  | NsReserved10 => 10
  | NsReserved11 => 11
  | NsReserved12 => 12
  | NsReserved13 => 13
  | NsAisSartIsActive => 14
  | NsNotDefined => 15
  end.
(** src/ais/mod.rs:237-257 *)
Definition NavigationStatus_eqb (a b : NavigationStatus) : bool := NavigationStatus_discriminant a =? NavigationStatus_discriminant b.

(** Derived equality of a fieldless enum compares discriminants, src/ais/mod.rs:288-295. *)
Definition PositioningSystemMeta_discriminant (a : PositioningSystemMeta) : N :=
  match a with
  | PsOperative => 0
  | PsManualInputMode => 1
  | PsDeadReckoningMode => 2
  | PsInoperative => 3
  end.
(** src/ais/mod.rs:288-295 *)
Definition PositioningSystemMeta_eqb (a b : PositioningSystemMeta) : bool := PositioningSystemMeta_discriminant a =? PositioningSystemMeta_discriminant b.

(** Derived equality of a fieldless enum compares discriminants, src/ais/mod.rs:376-407. *)
Definition ShipType_discriminant (a : ShipType) : N :=
  match a with
  | ShNotAvailable => 0
  | ShReserved1 => 1
  | ShWingInGround => 2
  | ShFishing => 3
  | ShTowing => 4
  | ShTowingLong => 5
  | ShDredgingOrUnderwaterOps => 6
  | ShDivingOps => 7
  | ShMilitaryOps => 8
  | ShSailing => 9
  | ShPleasureCraft => 10
  | ShReserved38 => 11
  | ShReserved39 => 12
  | ShHighSpeedCraft => 13
  | ShPilot => 14
  | ShSearchAndRescue => 15
  | ShTug => 16
  | ShPortTender => 17
  | ShAntiPollutionEquipment => 18
  | ShLawEnforcement => 19
  | ShSpareLocal56 => 20
  | ShSpareLocal57 => 21
  | ShMedicalTransport => 22
  | ShNoncombatant => 23
  | ShPassenger => 24
  | ShCargo => 25
  | ShTanker => 26
  | ShOther => 27
  end.
(** src/ais/mod.rs:376-407 *)
Definition ShipType_eqb (a b : ShipType) : bool := ShipType_discriminant a =? ShipType_discriminant b.

(** Derived equality of a fieldless enum compares discriminants, src/ais/mod.rs:510-523. *)
Definition CargoType_discriminant (a : CargoType) : N :=
  match a with
  | CaUndefined => 0
  | CaHazardousCategoryA => 1
  | CaHazardousCategoryB => 2
  | CaHazardousCategoryC => 3
  | CaHazardousCategoryD => 4
  | CaReserved5 => 5
  | CaReserved6 => 6
  | CaReserved7 => 7
  | CaReserved8 => 8
  | CaReserved9 => 9
  end.
(** src/ais/mod.rs:510-523 *)
Definition CargoType_eqb (a b : CargoType) : bool := CargoType_discriminant a =? CargoType_discriminant b.

(** Derived equality of a fieldless enum compares discriminants, src/ais/mod.rs:591-603. *)
Definition PositionFixType_discriminant (a : PositionFixType) : N :=
  match a with
  | PfUndefined => 0
  | PfGPS => 1
  | PfGLONASS => 2
  | PfGPSGLONASS => 3
  | PfLoranC => 4
  | PfChayka => 5
  | PfIntegratedNavigationSystem => 6
  | PfSurveyed => 7
  | PfGalileo => 8
  end.
(** src/ais/mod.rs:591-603 *)
Definition PositionFixType_eqb (a b : PositionFixType) : bool := PositionFixType_discriminant a =? PositionFixType_discriminant b.

(** Derived equality of a fieldless enum compares discriminants, src/ais/vdm_t21.rs:95-193. *)
Definition NavAidType_discriminant (a : NavAidType) : N :=
  match a with
  | NaNotSpecified => 0
  | NaReferencePoint => 1
  | NaRacon => 2
  | NaFixedStructure => 3
  | NaReserved4 => 4
  | NaLightWithoutSectors => 5
  | NaLightWithSectors => 6
  | NaLeadingLightFront => 7
  | NaLeadingLightRear => 8
  | NaBeaconCardinalNorth => 9
  | NaBeaconCardinalEast => 10
  | NaBeaconCardinalSouth => 11
  | NaBeaconCardinalWest => 12
  | NaBeaconLateralPort => 13
  | NaBeaconLateralStarboard => 14
  | NaBeaconLateralPreferredChannelPort => 15
  | NaBeaconLateralPreferredChannelStarboard => 16
  | NaBeaconIsolatedDanger => 17
  | NaBeaconSafeWater => 18
  | NaBeaconSpecialMark => 19
  | NaCardinalMarkNorth => 20
  | NaCardinalMarkEast => 21
  | NaCardinalMarkSouth => 22
  | NaCardinalMarkWest => 23
  | NaPortHandMark => 24
  | NaStarboardHandMark => 25
  | NaPreferredChannelPort => 26
  | NaPreferredChannelStarboard => 27
  | NaIsolatedDanger => 28
  | NaSafeWater => 29
  | NaSpecialMark => 30
  | NaLightVessel => 31
  end.
(** src/ais/vdm_t21.rs:95-193 *)
Definition NavAidType_eqb (a b : NavAidType) : bool := NavAidType_discriminant a =? NavAidType_discriminant b.

(** Derived, src/gnss/gga.rs:19-54 *)
Definition GgaData_eqb (a b : GgaData) : bool :=
  NavigationSystem_eqb (gga_source a) (gga_source b)
  && option_eqb datetime_eqb (gga_timestamp a) (gga_timestamp b)
  && option_eqb f64_eqb (gga_latitude a) (gga_latitude b)
  && option_eqb f64_eqb (gga_longitude a) (gga_longitude b)
  && GgaQualityIndicator_eqb (gga_quality a) (gga_quality b)
  && option_eqb N.eqb (gga_satellite_count a) (gga_satellite_count b)
  && option_eqb f64_eqb (gga_hdop a) (gga_hdop b)
  && option_eqb f64_eqb (gga_altitude a) (gga_altitude b)
  && option_eqb f64_eqb (gga_geoid_separation a) (gga_geoid_separation b)
  && option_eqb f64_eqb (gga_age_of_dgps a) (gga_age_of_dgps b)
  && option_eqb N.eqb (gga_ref_station_id a) (gga_ref_station_id b).

(** Derived, src/gnss/rmc.rs:18-44 *)
Definition RmcData_eqb (a b : RmcData) : bool :=
  NavigationSystem_eqb (rmc_source a) (rmc_source b)
  && option_eqb datetime_eqb (rmc_timestamp a) (rmc_timestamp b)
  && option_eqb Bool.eqb (rmc_status_active a) (rmc_status_active b)
  && option_eqb f64_eqb (rmc_latitude a) (rmc_latitude b)
  && option_eqb f64_eqb (rmc_longitude a) (rmc_longitude b)
  && option_eqb f64_eqb (rmc_sog_knots a) (rmc_sog_knots b)
  && option_eqb f64_eqb (rmc_bearing a) (rmc_bearing b)
  && option_eqb f64_eqb (rmc_variation a) (rmc_variation b).

(** Derived, src/gnss/gsa.rs:17-40 *)
Definition GsaData_eqb (a b : GsaData) : bool :=
  NavigationSystem_eqb (gsa_source a) (gsa_source b)
  && option_eqb Bool.eqb (gsa_mode1_automatic a) (gsa_mode1_automatic b)
  && option_eqb GsaFixMode_eqb (gsa_mode2_3d a) (gsa_mode2_3d b)
  && list_eqb N.eqb (gsa_prn_numbers a) (gsa_prn_numbers b)
  && option_eqb f64_eqb (gsa_pdop a) (gsa_pdop b)
  && option_eqb f64_eqb (gsa_hdop a) (gsa_hdop b)
  && option_eqb f64_eqb (gsa_vdop a) (gsa_vdop b).

(** Derived, src/gnss/gsv.rs:18-35 *)
Definition GsvData_eqb (a b : GsvData) : bool :=
  NavigationSystem_eqb (gsv_source a) (gsv_source b)
  && N.eqb (gsv_prn_number a) (gsv_prn_number b)
  && option_eqb N.eqb (gsv_elevation a) (gsv_elevation b)
  && option_eqb N.eqb (gsv_azimuth a) (gsv_azimuth b)
  && option_eqb N.eqb (gsv_snr a) (gsv_snr b).

(** Derived, src/gnss/vtg.rs:18-38 *)
Definition VtgData_eqb (a b : VtgData) : bool :=
  NavigationSystem_eqb (vtg_source a) (vtg_source b)
  && option_eqb f64_eqb (vtg_cog_true a) (vtg_cog_true b)
  && option_eqb f64_eqb (vtg_cog_magnetic a) (vtg_cog_magnetic b)
  && option_eqb f64_eqb (vtg_sog_knots a) (vtg_sog_knots b)
  && option_eqb f64_eqb (vtg_sog_kph a) (vtg_sog_kph b)
  && option_eqb FaaMode_eqb (vtg_faa_mode a) (vtg_faa_mode b).

(** Derived, src/gnss/gll.rs:18-38 *)
Definition GllData_eqb (a b : GllData) : bool :=
  NavigationSystem_eqb (gll_source a) (gll_source b)
  && option_eqb f64_eqb (gll_latitude a) (gll_latitude b)
  && option_eqb f64_eqb (gll_longitude a) (gll_longitude b)
  && option_eqb datetime_eqb (gll_timestamp a) (gll_timestamp b)
  && option_eqb Bool.eqb (gll_data_valid a) (gll_data_valid b)
  && option_eqb FaaMode_eqb (gll_faa_mode a) (gll_faa_mode b).

(** Derived, src/ais/mod.rs:91-194 *)
Definition VesselDynamicData_eqb (a b : VesselDynamicData) : bool :=
  Bool.eqb (vdd_own_vessel a) (vdd_own_vessel b)
  && Station_eqb (vdd_station a) (vdd_station b)
  && AisClass_eqb (vdd_ais_type a) (vdd_ais_type b)
  && N.eqb (vdd_mmsi a) (vdd_mmsi b)
  && NavigationStatus_eqb (vdd_nav_status a) (vdd_nav_status b)
  && option_eqb f64_eqb (vdd_rot a) (vdd_rot b)
  && option_eqb Z.eqb (vdd_rot_direction a) (vdd_rot_direction b)
  && option_eqb f64_eqb (vdd_sog_knots a) (vdd_sog_knots b)
  && Bool.eqb (vdd_high_position_accuracy a) (vdd_high_position_accuracy b)
  && option_eqb f64_eqb (vdd_latitude a) (vdd_latitude b)
  && option_eqb f64_eqb (vdd_longitude a) (vdd_longitude b)
  && option_eqb f64_eqb (vdd_cog a) (vdd_cog b)
  && option_eqb f64_eqb (vdd_heading_true a) (vdd_heading_true b)
  && N.eqb (vdd_timestamp_seconds a) (vdd_timestamp_seconds b)
  && option_eqb PositioningSystemMeta_eqb (vdd_positioning_system_meta a) (vdd_positioning_system_meta b)
  && option_eqb Bool.eqb (vdd_current_gnss_position a) (vdd_current_gnss_position b)
  && option_eqb Bool.eqb (vdd_special_manoeuvre a) (vdd_special_manoeuvre b)
  && Bool.eqb (vdd_raim_flag a) (vdd_raim_flag b)
  && option_eqb Bool.eqb (vdd_class_b_unit_flag a) (vdd_class_b_unit_flag b)
  && option_eqb Bool.eqb (vdd_class_b_display a) (vdd_class_b_display b)
  && option_eqb Bool.eqb (vdd_class_b_dsc a) (vdd_class_b_dsc b)
  && option_eqb Bool.eqb (vdd_class_b_band_flag a) (vdd_class_b_band_flag b)
  && option_eqb Bool.eqb (vdd_class_b_msg22_flag a) (vdd_class_b_msg22_flag b)
  && option_eqb Bool.eqb (vdd_class_b_mode_flag a) (vdd_class_b_mode_flag b)
  && option_eqb Bool.eqb (vdd_class_b_css_flag a) (vdd_class_b_css_flag b)
  && option_eqb N.eqb (vdd_radio_status a) (vdd_radio_status b).

(** Derived, src/ais/mod.rs:312-374 *)
Definition VesselStaticData_eqb (a b : VesselStaticData) : bool :=
  Bool.eqb (vsd_own_vessel a) (vsd_own_vessel b)
  && AisClass_eqb (vsd_ais_type a) (vsd_ais_type b)
  && N.eqb (vsd_mmsi a) (vsd_mmsi b)
  && N.eqb (vsd_ais_version_indicator a) (vsd_ais_version_indicator b)
  && option_eqb N.eqb (vsd_imo_number a) (vsd_imo_number b)
  && option_eqb str_eqb (vsd_call_sign a) (vsd_call_sign b)
  && option_eqb str_eqb (vsd_name a) (vsd_name b)
  && ShipType_eqb (vsd_ship_type a) (vsd_ship_type b)
  && CargoType_eqb (vsd_cargo_type a) (vsd_cargo_type b)
  && option_eqb str_eqb (vsd_equipment_vendor_id a) (vsd_equipment_vendor_id b)
  && option_eqb N.eqb (vsd_equipment_model a) (vsd_equipment_model b)
  && option_eqb N.eqb (vsd_equipment_serial_number a) (vsd_equipment_serial_number b)
  && option_eqb N.eqb (vsd_dimension_to_bow a) (vsd_dimension_to_bow b)
  && option_eqb N.eqb (vsd_dimension_to_stern a) (vsd_dimension_to_stern b)
  && option_eqb N.eqb (vsd_dimension_to_port a) (vsd_dimension_to_port b)
  && option_eqb N.eqb (vsd_dimension_to_starboard a) (vsd_dimension_to_starboard b)
  && option_eqb PositionFixType_eqb (vsd_position_fix_type a) (vsd_position_fix_type b)
  && option_eqb datetime_eqb (vsd_eta a) (vsd_eta b)
  && option_eqb N.eqb (vsd_draught10 a) (vsd_draught10 b)
  && option_eqb str_eqb (vsd_destination a) (vsd_destination b)
  && option_eqb N.eqb (vsd_mothership_mmsi a) (vsd_mothership_mmsi b).

(** Derived, src/ais/vdm_t4.rs:21-57 *)
Definition BaseStationReport_eqb (a b : BaseStationReport) : bool :=
  Bool.eqb (bsr_own_vessel a) (bsr_own_vessel b)
  && Station_eqb (bsr_station a) (bsr_station b)
  && N.eqb (bsr_mmsi a) (bsr_mmsi b)
  && option_eqb datetime_eqb (bsr_timestamp a) (bsr_timestamp b)
  && Bool.eqb (bsr_high_position_accuracy a) (bsr_high_position_accuracy b)
  && option_eqb f64_eqb (bsr_latitude a) (bsr_latitude b)
  && option_eqb f64_eqb (bsr_longitude a) (bsr_longitude b)
  && option_eqb PositionFixType_eqb (bsr_position_fix_type a) (bsr_position_fix_type b)
  && Bool.eqb (bsr_raim_flag a) (bsr_raim_flag b)
  && N.eqb (bsr_radio_status a) (bsr_radio_status b).

(** Derived, src/ais/vdm_t6.rs:21-49 *)
Definition BinaryAddressedMessage_eqb (a b : BinaryAddressedMessage) : bool :=
  Bool.eqb (bam_own_vessel a) (bam_own_vessel b)
  && Station_eqb (bam_station a) (bam_station b)
  && N.eqb (bam_mmsi a) (bam_mmsi b)
  && N.eqb (bam_sequence_number a) (bam_sequence_number b)
  && N.eqb (bam_destination_mmsi a) (bam_destination_mmsi b)
  && Bool.eqb (bam_retransmit_flag a) (bam_retransmit_flag b)
  && N.eqb (bam_dac a) (bam_dac b)
  && N.eqb (bam_fid a) (bam_fid b).

(** Derived, src/ais/vdm_t9.rs:21-72 *)
Definition StandardSarAircraftPositionReport_eqb (a b : StandardSarAircraftPositionReport) : bool :=
  Bool.eqb (sar_own_vessel a) (sar_own_vessel b)
  && Station_eqb (sar_station a) (sar_station b)
  && N.eqb (sar_mmsi a) (sar_mmsi b)
  && option_eqb N.eqb (sar_altitude a) (sar_altitude b)
  && option_eqb N.eqb (sar_sog_knots a) (sar_sog_knots b)
  && Bool.eqb (sar_high_position_accuracy a) (sar_high_position_accuracy b)
  && option_eqb f64_eqb (sar_latitude a) (sar_latitude b)
  && option_eqb f64_eqb (sar_longitude a) (sar_longitude b)
  && option_eqb f64_eqb (sar_cog a) (sar_cog b)
  && N.eqb (sar_timestamp_seconds a) (sar_timestamp_seconds b)
  && N.eqb (sar_regional a) (sar_regional b)
  && Bool.eqb (sar_dte a) (sar_dte b)
  && Bool.eqb (sar_assigned a) (sar_assigned b)
  && Bool.eqb (sar_raim_flag a) (sar_raim_flag b)
  && N.eqb (sar_radio_status a) (sar_radio_status b).

(** Derived, src/ais/vdm_t10.rs:21-36 *)
Definition UtcDateInquiry_eqb (a b : UtcDateInquiry) : bool :=
  Bool.eqb (udi_own_vessel a) (udi_own_vessel b)
  && Station_eqb (udi_station a) (udi_station b)
  && N.eqb (udi_source_mmsi a) (udi_source_mmsi b)
  && N.eqb (udi_destination_mmsi a) (udi_destination_mmsi b).

(** Derived, src/ais/vdm_t21.rs:21-82 *)
Definition AidToNavigationReport_eqb (a b : AidToNavigationReport) : bool :=
  Bool.eqb (atn_own_vessel a) (atn_own_vessel b)
  && Station_eqb (atn_station a) (atn_station b)
  && N.eqb (atn_mmsi a) (atn_mmsi b)
  && NavAidType_eqb (atn_aid_type a) (atn_aid_type b)
  && str_eqb (atn_name a) (atn_name b)
  && Bool.eqb (atn_high_position_accuracy a) (atn_high_position_accuracy b)
  && option_eqb f64_eqb (atn_latitude a) (atn_latitude b)
  && option_eqb f64_eqb (atn_longitude a) (atn_longitude b)
  && option_eqb N.eqb (atn_dimension_to_bow a) (atn_dimension_to_bow b)
  && option_eqb N.eqb (atn_dimension_to_stern a) (atn_dimension_to_stern b)
  && option_eqb N.eqb (atn_dimension_to_port a) (atn_dimension_to_port b)
  && option_eqb N.eqb (atn_dimension_to_starboard a) (atn_dimension_to_starboard b)
  && option_eqb PositionFixType_eqb (atn_position_fix_type a) (atn_position_fix_type b)
  && N.eqb (atn_timestamp_seconds a) (atn_timestamp_seconds b)
  && Bool.eqb (atn_off_position_indicator a) (atn_off_position_indicator b)
  && N.eqb (atn_regional a) (atn_regional b)
  && Bool.eqb (atn_raim_flag a) (atn_raim_flag b)
  && Bool.eqb (atn_virtual_aid_flag a) (atn_virtual_aid_flag b)
  && Bool.eqb (atn_assigned_mode_flag a) (atn_assigned_mode_flag b).

(** Derived, src/lib.rs:46 *)
Definition ParsedSentence_eqb (a b : ParsedSentence) : bool :=
  match a, b with
  | PsIncomplete, PsIncomplete => true
  | PsVesselDynamicData d, PsVesselDynamicData d' => VesselDynamicData_eqb d d'
  | PsVesselStaticData d, PsVesselStaticData d' => VesselStaticData_eqb d d'
  | PsBaseStationReport d, PsBaseStationReport d' => BaseStationReport_eqb d d'
  | PsBinaryAddressedMessage d, PsBinaryAddressedMessage d' => BinaryAddressedMessage_eqb d d'
  | PsStandardSarAircraftPositionReport d, PsStandardSarAircraftPositionReport d' => StandardSarAircraftPositionReport_eqb d d'
  | PsUtcDateInquiry d, PsUtcDateInquiry d' => UtcDateInquiry_eqb d d'
  | PsAidToNavigationReport d, PsAidToNavigationReport d' => AidToNavigationReport_eqb d d'
  | PsGga d, PsGga d' => GgaData_eqb d d'
  | PsRmc d, PsRmc d' => RmcData_eqb d d'
  | PsGsa d, PsGsa d' => GsaData_eqb d d'
  | PsGsv d, PsGsv d' => list_eqb GsvData_eqb d d'
  | PsVtg d, PsVtg d' => VtgData_eqb d d'
  | PsGll d, PsGll d' => GllData_eqb d d'
  | _, _ => false
  end.
