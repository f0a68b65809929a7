(** Texts of enumerations ([Display], hence [to_string]) and the position accessors ([LatLon]).
    A formatter only receives the text written below; width and fill of a format
    specification are ignored by [write!] with a literal. *)
From Coq Require Import List NArith ZArith Bool String.
From Verif Require Import Base Str F64 Chrono Types AisMod Gnss.
Import ListNotations.
Open Scope N_scope.

(** src/gnss/mod.rs:70-84 *)
Definition NavigationSystem_display (v : NavigationSystem) : str :=
  match v with
  | NavCombination => lit "combination"
  | NavGps => lit "GPS"
  | NavGlonass => lit "GLONASS"
  | NavGalileo => lit "Galileo"
  | NavBeidou => lit "BeiDou"
  | NavNavic => lit "Navic"
  | NavQzss => lit "QZSS"
  | NavOther => lit "other"
  end.

(** src/gnss/gga.rs:97-113 *)
Definition GgaQualityIndicator_display (v : GgaQualityIndicator) : str :=
  match v with
  | QInvalid => lit "invalid"
  | QGpsFix => lit "GPS fix"
  | QDGpsFix => lit "DGPS fix"
  | QPpsFix => lit "PPS fix"
  | QRealTimeKinematic => lit "Real-Time Kinematic"
  | QRealTimeKinematicFloat => lit "Real-Time Kinematic (floating point)"
  | QDeadReckoning => lit "dead reckoning"
  | QManualInputMode => lit "manual input mode"
  | QSimulationMode => lit "simulation mode"
  end.

(** src/gnss/gsa.rs:55-64 *)
Definition GsaFixMode_display (v : GsaFixMode) : str :=
  match v with
  | FixNotAvailable => lit "no available"
  | Fix2D => lit "2D fix"
  | Fix3D => lit "3D fix"
  end.

(** src/ais/mod.rs:71-86 *)
Definition Station_display (v : Station) : str :=
  match v with
  | StBaseStation => lit "base station"
  | StDependentAisBaseStation => lit "dependent AIS base station"
  | StMobileStation => lit "mobile station"
  | StAidToNavigationStation => lit "aid to navigation station"
  | StAisReceivingStation => lit "ais receiving station"
  | StLimitedBaseStation => lit "limited base station"
  | StAisTransmittingStation => lit "AIS transmitting station"
  | StRepeaterStation => lit "repeater station"
  | StOther => lit "other"
  end.

(** src/ais/mod.rs:297-307 *)
Definition PositioningSystemMeta_display (v : PositioningSystemMeta) : str :=
  match v with
  | PsOperative => lit "operative"
  | PsManualInputMode => lit "manual input mode"
  | PsDeadReckoningMode => lit "dead reckoning mode"
  | PsInoperative => lit "inoperative"
  end.

(** src/ais/mod.rs:475-508 *)
Definition ShipType_display (v : ShipType) : str :=
  match v with
  | ShNotAvailable => lit "(not available)"
  | ShReserved1 => lit "(reserved)"
  | ShWingInGround => lit "wing in ground"
  | ShFishing => lit "fishing"
  | ShTowing => lit "towing"
  | ShTowingLong => lit "towing, long"
  | ShDredgingOrUnderwaterOps => lit "dredging or underwater ops"
  | ShDivingOps => lit "diving ops"
  | ShMilitaryOps => lit "military ops"
  | ShSailing => lit "sailing"
  | ShPleasureCraft => lit "pleasure craft"
  | ShReserved38 => lit "(reserved)"
  | ShReserved39 => lit "(reserved)"
  | ShHighSpeedCraft => lit "high-speed craft"
  | ShPilot => lit "pilot"
  | ShSearchAndRescue => lit "search and rescue"
  | ShTug => lit "tug"
  | ShPortTender => lit "port tender"
  | ShAntiPollutionEquipment => lit "anti-pollution equipment"
  | ShLawEnforcement => lit "law enforcement"
  | ShSpareLocal56 => lit "(local)"
  | ShSpareLocal57 => lit "(local)"
  | ShMedicalTransport => lit "medical transport"
  | ShNoncombatant => lit "noncombatant"
  | ShPassenger => lit "passenger"
  | ShCargo => lit "cargo"
  | ShTanker => lit "tanker"
  | ShOther => lit "other"
  end.

(** src/ais/mod.rs:567-582 *)
Definition CargoType_display (v : CargoType) : str :=
  match v with
  | CaUndefined => lit "undefined"
  | CaHazardousCategoryA => lit "hazardous category A"
  | CaHazardousCategoryB => lit "hazardous category B"
  | CaHazardousCategoryC => lit "hazardous category C"
  | CaHazardousCategoryD => lit "hazardous category D"
  | CaReserved5 => lit "(reserved)"
  | CaReserved6 => lit "(reserved)"
  | CaReserved7 => lit "(reserved)"
  | CaReserved8 => lit "(reserved)"
  | CaReserved9 => lit "(reserved)"
  end.

(** src/ais/mod.rs:625-640 *)
Definition PositionFixType_display (v : PositionFixType) : str :=
  match v with
  | PfUndefined => lit "undefined"
  | PfGPS => lit "GPS"
  | PfGLONASS => lit "GLONASS"
  | PfGPSGLONASS => lit "GPS/GLONASS"
  | PfLoranC => lit "Loran-C"
  | PfChayka => lit "Chayka"
  | PfIntegratedNavigationSystem => lit "integrated navigation system"
  | PfSurveyed => lit "surveyed"
  | PfGalileo => lit "Galileo"
  end.

(** src/ais/vdm_t21.rs:241-287 *)
Definition NavAidType_display (v : NavAidType) : str :=
  match v with
  | NaNotSpecified => lit "not specified"
  | NaReferencePoint => lit "reference point"
  | NaRacon => lit "RACON"
  | NaFixedStructure => lit "FixedStructure"
  | NaReserved4 => lit "(reserved)"
  | NaLightWithoutSectors => lit "light without sectors"
  | NaLightWithSectors => lit "light with sectors"
  | NaLeadingLightFront => lit "leading light front"
  | NaLeadingLightRear => lit "leading light rear"
  | NaBeaconCardinalNorth => lit "cardinal beacon, north"
  | NaBeaconCardinalEast => lit "cardinal beacon, east"
  | NaBeaconCardinalSouth => lit "cardinal beacon, south"
  | NaBeaconCardinalWest => lit "cardinal beacon, west"
  | NaBeaconLateralPort => lit "lateral beacon, port side"
  | NaBeaconLateralStarboard => lit "lateral beacon, starboard side"
  | NaBeaconLateralPreferredChannelPort => lit "lateral beacon, preferred channel, port side"
  | NaBeaconLateralPreferredChannelStarboard => lit "lateral beacon, preferred channel, starboard side"
  | NaBeaconIsolatedDanger => lit "isolated danger beacon"
  | NaBeaconSafeWater => lit "safe water"
  | NaBeaconSpecialMark => lit "special mark"
  | NaCardinalMarkNorth => lit "cardinal mark, north"
  | NaCardinalMarkEast => lit "cardinal mark, east"
  | NaCardinalMarkSouth => lit "cardinal mark, south"
  | NaCardinalMarkWest => lit "cardinal mark, west"
  | NaPortHandMark => lit "port hand mark"
  | NaStarboardHandMark => lit "starboard hand mark"
  | NaPreferredChannelPort => lit "preferred channel, port side"
  | NaPreferredChannelStarboard => lit "preferred channel, starboard side"
  | NaIsolatedDanger => lit "isolated danger"
  | NaSafeWater => lit "safe water"
  | NaSpecialMark => lit "special mark"
  | NaLightVessel => lit "light vessel"
  end.

(** The method [latitude] of trait [LatLon] (src/lib.rs:101-109) on the contents of a result; [None]
    on the outside if the type does not implement the trait. src/gnss/gll.rs:40-43,
    src/gnss/rmc.rs:46-49, src/gnss/gga.rs:56-59, src/ais/vdm_t4.rs:59-62, src/ais/vdm_t21.rs:84-87,
    src/ais/vdm_t9.rs:74-77, src/ais/mod.rs:226-229, src/ais/vdm_t6.rs:51-54. *)
Definition LatLon_latitude (r : ParsedSentence) : option (option f64) :=
  match r with
  | PsGll d => Some (gll_latitude d)
  | PsRmc d => Some (rmc_latitude d)
  | PsGga d => Some (gga_latitude d)
  | PsBaseStationReport d => Some (bsr_latitude d)
  | PsAidToNavigationReport d => Some (atn_latitude d)
  | PsStandardSarAircraftPositionReport d => Some (sar_latitude d)
  | PsVesselDynamicData d => Some (vdd_latitude d)
  | PsBinaryAddressedMessage _ => Some None
  | _ => None
  end.

(** The method [longitude]: src/gnss/gll.rs:45-47, src/gnss/rmc.rs:51-53, src/gnss/gga.rs:61-63,
    src/ais/vdm_t4.rs:64-66, src/ais/vdm_t21.rs:89-91, src/ais/vdm_t9.rs:79-81, src/ais/mod.rs:231-233,
    src/ais/vdm_t6.rs:56-58. *)
Definition LatLon_longitude (r : ParsedSentence) : option (option f64) :=
  match r with
  | PsGll d => Some (gll_longitude d)
  | PsRmc d => Some (rmc_longitude d)
  | PsGga d => Some (gga_longitude d)
  | PsBaseStationReport d => Some (bsr_longitude d)
  | PsAidToNavigationReport d => Some (atn_longitude d)
  | PsStandardSarAircraftPositionReport d => Some (sar_longitude d)
  | PsVesselDynamicData d => Some (vdd_longitude d)
  | PsBinaryAddressedMessage _ => Some None
  | _ => None
  end.
