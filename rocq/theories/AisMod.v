(** Enumerations of src/ais/mod.rs and src/ais/vdm_t21.rs: constructors from raw codes, and the
    country lookup. Log output ([warn!]) is left out here, see Log.v. *)
From Coq Require Import List NArith ZArith Bool String.
From Verif Require Import Base Str F64 Chrono Types.
Import ListNotations.
Open Scope N_scope.

(** src/ais/mod.rs:258-280 *)
Definition NavigationStatus_new (nav_status : N) : NavigationStatus :=
  match nav_status with
  | 0 => NsUnderWayUsingEngine
  | 1 => NsAtAnchor
  | 2 => NsNotUnderCommand
  | 3 => NsRestrictedManoeuverability
  | 4 => NsConstrainedByDraught
  | 5 => NsMoored
  | 6 => NsAground
  | 7 => NsEngagedInFishing
  | 8 => NsUnderWaySailing
  | 9 => NsReserved9
  | 10 => NsReserved10
  | 11 => NsReserved11
  | 12 => NsReserved12
  | 13 => NsReserved13
  | 14 => NsAisSartIsActive
  | 15 => NsNotDefined
  | _ => NsNotDefined
  end.

(** src/ais/mod.rs:409-466 *)
Definition ShipType_new (raw : N) : ShipType :=
  match raw with
  | 0 | 1 | 2 | 3 | 4 | 5 | 6 | 7 | 8 | 9 => ShNotAvailable
  | 10 | 11 | 12 | 13 | 14 | 15 | 16 | 17 | 18 | 19 => ShReserved1
  | 20 | 21 | 22 | 23 | 24 | 25 | 26 | 27 | 28 | 29 => ShWingInGround
  | 30 => ShFishing
  | 31 => ShTowing
  | 32 => ShTowingLong
  | 33 => ShDredgingOrUnderwaterOps
  | 34 => ShDivingOps
  | 35 => ShMilitaryOps
  | 36 => ShSailing
  | 37 => ShPleasureCraft
  | 38 => ShReserved38
  | 39 => ShReserved39
  | 40 | 41 | 42 | 43 | 44 | 45 | 46 | 47 | 48 | 49 => ShHighSpeedCraft
  | 50 => ShPilot
  | 51 => ShSearchAndRescue
  | 52 => ShTug
  | 53 => ShPortTender
  | 54 => ShAntiPollutionEquipment
  | 55 => ShLawEnforcement
  | 56 => ShSpareLocal56
  | 57 => ShSpareLocal57
  | 58 => ShMedicalTransport
  | 59 => ShNoncombatant
  | 60 | 61 | 62 | 63 | 64 | 65 | 66 | 67 | 68 | 69 => ShPassenger
  | 70 | 71 | 72 | 73 | 74 | 75 | 76 | 77 | 78 | 79 => ShCargo
  | 80 | 81 | 82 | 83 | 84 | 85 | 86 | 87 | 88 | 89 => ShCargo
  | 90 | 91 | 92 | 93 | 94 | 95 | 96 | 97 | 98 | 99 => ShCargo
  | _ => ShNotAvailable
  end.

(** src/ais/mod.rs:525-565 *)
Definition CargoType_new (raw : N) : CargoType :=
  match raw with
  | 10 | 20 | 40 | 60 | 70 | 80 | 90 => CaUndefined
  | 11 | 21 | 41 | 61 | 71 | 81 | 91 => CaHazardousCategoryA
  | 12 | 22 | 42 | 62 | 72 | 82 | 92 => CaHazardousCategoryB
  | 13 | 23 | 43 | 63 | 73 | 83 | 93 => CaHazardousCategoryC
  | 14 | 24 | 44 | 64 | 74 | 84 | 94 => CaHazardousCategoryD
  | 15 | 25 | 45 | 65 | 75 | 85 | 95 => CaReserved5
  | 16 | 26 | 46 | 66 | 76 | 86 | 96 => CaReserved6
  | 17 | 27 | 47 | 67 | 77 | 87 | 97 => CaReserved7
  | 18 | 28 | 48 | 68 | 78 | 88 | 98 => CaReserved8
  | 19 | 29 | 49 | 69 | 79 | 89 | 99 => CaReserved9
  | _ => CaUndefined
  end.

(** src/ais/mod.rs:605-623 *)
Definition PositionFixType_new (raw : N) : PositionFixType :=
  match raw with
  | 0 => PfUndefined
  | 1 => PfGPS
  | 2 => PfGLONASS
  | 3 => PfGPSGLONASS
  | 4 => PfLoranC
  | 5 => PfChayka
  | 6 => PfIntegratedNavigationSystem
  | 7 => PfSurveyed
  | 8 => PfGalileo
  | _ => PfUndefined
  end.

(** src/ais/vdm_t21.rs:195-233 *)
Definition NavAidType_new (raw : N) : outcome ParseError NavAidType :=
  match raw with
  | 0 => Ok NaNotSpecified
  | 1 => Ok NaReferencePoint
  | 2 => Ok NaRacon
  | 3 => Ok NaFixedStructure
  | 4 => Ok NaReserved4
  | 5 => Ok NaLightWithoutSectors
  | 6 => Ok NaLightWithSectors
  | 7 => Ok NaLeadingLightFront
  | 8 => Ok NaLeadingLightRear
  | 9 => Ok NaBeaconCardinalNorth
  | 10 => Ok NaBeaconCardinalEast
  | 11 => Ok NaBeaconCardinalSouth
  | 12 => Ok NaBeaconCardinalWest
  | 13 => Ok NaBeaconLateralPort
  | 14 => Ok NaBeaconLateralStarboard
  | 15 => Ok NaBeaconLateralPreferredChannelPort
  | 16 => Ok NaBeaconLateralPreferredChannelStarboard
  | 17 => Ok NaBeaconIsolatedDanger
  | 18 => Ok NaBeaconSafeWater
  | 19 => Ok NaBeaconSpecialMark
  | 20 => Ok NaCardinalMarkNorth
  | 21 => Ok NaCardinalMarkEast
  | 22 => Ok NaCardinalMarkSouth
  | 23 => Ok NaCardinalMarkWest
  | 24 => Ok NaPortHandMark
  | 25 => Ok NaStarboardHandMark
  | 26 => Ok NaPreferredChannelPort
  | 27 => Ok NaPreferredChannelStarboard
  | 28 => Ok NaIsolatedDanger
  | 29 => Ok NaSafeWater
  | 30 => Ok NaSpecialMark
  | 31 => Ok NaLightVessel
  | _ => Err (InvalidSentence (lit "Unrecognized Nav aid type code: " ++ dec raw))
  end.

(** src/ais/mod.rs:215-224 *)
Definition AisClass_display (c : AisClass) : str :=
  match c with
  | AisUnknown => lit "unknown"
  | AisClassA => lit "Class A"
  | AisClassB => lit "Class B"
  end.

(** src/ais/mod.rs:647-940, the arms of the match, in order. *)
Definition mid_table : list (N * string) :=
  [
   (201, "AL"); (202, "AD"); (203, "AT"); (204, "PT"); (205, "BE"); (206, "BY");
   (207, "BG"); (208, "VA"); (209, "CY"); (210, "CY"); (211, "DE"); (212, "CY");
   (213, "GE"); (214, "MD"); (215, "MT"); (216, "AM"); (218, "DE"); (219, "DK");
   (220, "DK"); (224, "ES"); (225, "ES"); (226, "FR"); (227, "FR"); (228, "FR");
   (229, "MT"); (230, "FI"); (231, "FO"); (232, "GB"); (233, "GB"); (234, "GB");
   (235, "GB"); (236, "GI"); (237, "GR"); (238, "HR"); (239, "GR"); (240, "GR");
   (241, "GR"); (242, "MA"); (243, "HU"); (244, "NL"); (245, "NL"); (246, "NL");
   (247, "IT"); (248, "MT"); (249, "MT"); (250, "IE"); (251, "IS"); (252, "LI");
   (253, "LU"); (254, "MC"); (255, "PT"); (256, "MT"); (257, "NO"); (258, "NO");
   (259, "NO"); (261, "PL"); (262, "ME"); (263, "PT"); (264, "RO"); (265, "SE");
   (266, "SE"); (267, "SK"); (268, "SM"); (269, "CH"); (270, "CZ"); (271, "TR");
   (272, "UA"); (273, "RU"); (274, "MK"); (275, "LV"); (276, "EE"); (277, "LT");
   (278, "SI"); (279, "RS"); (301, "AI"); (303, "US"); (304, "AG"); (305, "AG");
   (306, "BQ"); (307, "AW"); (308, "BS"); (309, "BS"); (310, "BM"); (311, "BS");
   (312, "BZ"); (314, "BB"); (316, "CA"); (319, "KY"); (321, "CR"); (323, "CU");
   (325, "DM"); (327, "DO"); (329, "GP"); (330, "GD"); (331, "GL"); (332, "GT");
   (334, "HN"); (336, "HT"); (338, "US"); (339, "JM"); (341, "KN"); (343, "LC");
   (345, "MX"); (347, "MQ"); (348, "MS"); (350, "NI"); (351, "PA"); (352, "PA");
   (353, "PA"); (354, "PA"); (355, "PA"); (356, "PA"); (357, "PA"); (358, "PR");
   (359, "SV"); (361, "PM"); (362, "TT"); (364, "TC"); (366, "US"); (367, "US");
   (368, "US"); (369, "US"); (370, "PA"); (371, "PA"); (372, "PA"); (373, "PA");
   (374, "PA"); (375, "VC"); (376, "VC"); (377, "VC"); (378, "VG"); (379, "VI");
   (401, "AF"); (403, "SA"); (405, "BD"); (408, "BH"); (410, "BT"); (412, "CN");
   (413, "CN"); (414, "CN"); (416, "TW"); (417, "LK"); (419, "IN"); (422, "IR");
   (423, "AZ"); (425, "IQ"); (428, "IL"); (431, "JP"); (432, "JP"); (434, "TM");
   (436, "KZ"); (437, "UZ"); (438, "JO"); (440, "KR"); (441, "KR"); (443, "PS");
   (445, "KR"); (447, "KW"); (450, "LB"); (451, "KG"); (453, "MO"); (455, "MV");
   (457, "MN"); (459, "NP"); (461, "OM"); (463, "PK"); (466, "QA"); (468, "SY");
   (470, "AE"); (471, "AE"); (472, "TJ"); (473, "YE"); (475, "YE"); (477, "HK");
   (478, "BA"); (501, "TF"); (503, "AU"); (506, "MM"); (508, "BN"); (510, "FM");
   (511, "PW"); (512, "NZ"); (514, "KH"); (515, "KH"); (516, "CX"); (518, "CK");
   (520, "FJ"); (523, "CC"); (525, "ID"); (529, "KI"); (531, "LA"); (533, "MY");
   (536, "MP"); (538, "MH"); (540, "NC"); (542, "NU"); (544, "NR"); (546, "PF");
   (548, "PH"); (550, "TL"); (553, "PG"); (555, "PN"); (557, "SB"); (559, "AS");
   (561, "WS"); (563, "SG"); (564, "SG"); (565, "SG"); (566, "SG"); (567, "TH");
   (570, "TO"); (572, "TV"); (574, "VN"); (576, "VU"); (577, "VU"); (578, "WF");
   (601, "ZA"); (603, "AO"); (605, "DZ"); (607, "TF"); (608, "SH"); (609, "BI");
   (610, "BJ"); (611, "BW"); (612, "CF"); (613, "CM"); (615, "CG"); (616, "KM");
   (617, "CV"); (618, "TF"); (619, "CI"); (620, "KM"); (621, "DJ"); (622, "EG");
   (624, "ET"); (625, "ER"); (626, "GA"); (627, "GH"); (629, "GM"); (630, "GW");
   (631, "GQ"); (632, "GN"); (633, "BF"); (634, "KE"); (635, "TF"); (636, "LR");
   (637, "LR"); (638, "SS"); (642, "LY"); (644, "LS"); (645, "MU"); (647, "MG");
   (649, "ML"); (650, "MZ"); (654, "MR"); (655, "MW"); (656, "NE"); (657, "NG");
   (659, "NA"); (660, "TF"); (661, "RW"); (662, "SD"); (663, "SN"); (664, "SC");
   (665, "SH"); (666, "SO"); (667, "SL"); (668, "ST"); (669, "SZ"); (670, "TD");
   (671, "TG"); (672, "TN"); (674, "TZ"); (675, "UG"); (676, "CG"); (677, "TZ");
   (678, "ZM"); (679, "ZW"); (701, "AR"); (710, "BR"); (720, "BO"); (725, "CL");
   (730, "CO"); (735, "EC"); (740, "FK"); (745, "GF"); (750, "GY"); (755, "PY");
   (760, "PE"); (765, "SR"); (770, "UY"); (775, "VE")]%string.

(** First arm of a match that fits; part of the model of src/ais/mod.rs:645. *)
Fixpoint assoc_mid (mid : N) (t : list (N * string)) : option string :=
  match t with
  | [] => None
  | (k, v) :: t' => if mid =? k then Some v else assoc_mid mid t'
  end.

(** src/ais/mod.rs:642-944, as a function of the MMSI. *)
Definition mid_country (mmsi : N) : option str := option_map lit (assoc_mid (mmsi / 1000000) mid_table).

(** src/ais/mod.rs:644-943 *)
Definition country (v : VesselStaticData) : option str := mid_country (vsd_mmsi v).
