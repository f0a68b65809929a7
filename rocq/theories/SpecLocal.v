(** C108: which bits of an AIS message a field of the report is about. *)
From Coq Require Import List NArith ZArith.
From Verif Require Import Base Str F64 Chrono Types SpecAis.
Import ListNotations.
Open Scope N_scope.

(** Two messages have the same bits in each of the places (first bit, number of bits); bits past the end count as zero. *)
Definition agree_in (a b : list bool) (places : list (nat * nat)) : Prop :=
  forall i n k, In (i, n) places -> (i <= k < i + n)%nat -> nth k a false = nth k b false.

(** A datum: its places in the message, and what it means that two reports have the same. *)
Definition datum : Type := list (nat * nat) * Prop.

(** The data of ITU-R M.1371 in reports of types 1, 2 and 3. Two fields are one datum if they tell about the same bits. *)
Definition data_1_2_3 (x y : VesselDynamicData) : list datum := [
  ([(8, 30)], vdd_mmsi x = vdd_mmsi y);
  ([(38, 4)], vdd_nav_status x = vdd_nav_status y);
  ([(42, 8)], vdd_rot x = vdd_rot y /\ vdd_rot_direction x = vdd_rot_direction y);
  ([(50, 10)], vdd_sog_knots x = vdd_sog_knots y);
  ([(60, 1)], vdd_high_position_accuracy x = vdd_high_position_accuracy y);
  ([(61, 28)], vdd_longitude x = vdd_longitude y);
  ([(89, 27)], vdd_latitude x = vdd_latitude y);
  ([(116, 12)], vdd_cog x = vdd_cog y);
  ([(128, 9)], vdd_heading_true x = vdd_heading_true y);
  ([(137, 6)], vdd_timestamp_seconds x = vdd_timestamp_seconds y /\
               vdd_positioning_system_meta x = vdd_positioning_system_meta y);
  ([(143, 2)], vdd_special_manoeuvre x = vdd_special_manoeuvre y);
  ([(148, 1)], vdd_raim_flag x = vdd_raim_flag y);
  ([(149, 19)], vdd_radio_status x = vdd_radio_status y);
  ([], vdd_ais_type x = vdd_ais_type y /\ vdd_current_gnss_position x = vdd_current_gnss_position y /\
       vdd_class_b_unit_flag x = vdd_class_b_unit_flag y /\ vdd_class_b_display x = vdd_class_b_display y /\
       vdd_class_b_dsc x = vdd_class_b_dsc y /\ vdd_class_b_band_flag x = vdd_class_b_band_flag y /\
       vdd_class_b_msg22_flag x = vdd_class_b_msg22_flag y /\ vdd_class_b_mode_flag x = vdd_class_b_mode_flag y /\
       vdd_class_b_css_flag x = vdd_class_b_css_flag y)]%nat.

Definition data_4 (x y : BaseStationReport) : list datum := [
  ([(8, 30)], bsr_mmsi x = bsr_mmsi y);
  ([(38, 40)], bsr_timestamp x = bsr_timestamp y);
  ([(78, 1)], bsr_high_position_accuracy x = bsr_high_position_accuracy y);
  ([(79, 28)], bsr_longitude x = bsr_longitude y);
  ([(107, 27)], bsr_latitude x = bsr_latitude y);
  ([(134, 4)], bsr_position_fix_type x = bsr_position_fix_type y);
  ([(148, 1)], bsr_raim_flag x = bsr_raim_flag y);
  ([(149, 19)], bsr_radio_status x = bsr_radio_status y)]%nat.

(** [eta_5] is the datum that does not keep to its bits. *)
Definition data_5 (x y : VesselStaticData) : list datum := [
  ([(8, 30)], vsd_mmsi x = vsd_mmsi y);
  ([(38, 2)], vsd_ais_version_indicator x = vsd_ais_version_indicator y);
  ([(40, 30)], vsd_imo_number x = vsd_imo_number y);
  ([(70, 42)], vsd_call_sign x = vsd_call_sign y);
  ([(112, 120)], vsd_name x = vsd_name y);
  ([(232, 8)], vsd_ship_type x = vsd_ship_type y /\ vsd_cargo_type x = vsd_cargo_type y);
  ([(240, 9)], vsd_dimension_to_bow x = vsd_dimension_to_bow y);
  ([(249, 9)], vsd_dimension_to_stern x = vsd_dimension_to_stern y);
  ([(258, 6)], vsd_dimension_to_port x = vsd_dimension_to_port y);
  ([(264, 6)], vsd_dimension_to_starboard x = vsd_dimension_to_starboard y);
  ([(270, 4)], vsd_position_fix_type x = vsd_position_fix_type y);
  ([(294, 8)], vsd_draught10 x = vsd_draught10 y);
  ([(302, 120)], vsd_destination x = vsd_destination y);
  ([], vsd_ais_type x = vsd_ais_type y /\ vsd_equipment_vendor_id x = vsd_equipment_vendor_id y /\
       vsd_equipment_model x = vsd_equipment_model y /\
       vsd_equipment_serial_number x = vsd_equipment_serial_number y /\
       vsd_mothership_mmsi x = vsd_mothership_mmsi y)]%nat.
Definition eta_5 (x y : VesselStaticData) : datum := ([(274, 20)], vsd_eta x = vsd_eta y)%nat.

Definition data_6 (x y : BinaryAddressedMessage) : list datum := [
  ([(8, 30)], bam_mmsi x = bam_mmsi y);
  ([(38, 2)], bam_sequence_number x = bam_sequence_number y);
  ([(40, 30)], bam_destination_mmsi x = bam_destination_mmsi y);
  ([(70, 1)], bam_retransmit_flag x = bam_retransmit_flag y);
  ([(72, 10)], bam_dac x = bam_dac y);
  ([(82, 6)], bam_fid x = bam_fid y)]%nat.

Definition data_9 (x y : StandardSarAircraftPositionReport) : list datum := [
  ([(8, 30)], sar_mmsi x = sar_mmsi y);
  ([(38, 12)], sar_altitude x = sar_altitude y);
  ([(50, 10)], sar_sog_knots x = sar_sog_knots y);
  ([(60, 1)], sar_high_position_accuracy x = sar_high_position_accuracy y);
  ([(61, 28)], sar_longitude x = sar_longitude y);
  ([(89, 27)], sar_latitude x = sar_latitude y);
  ([(116, 12)], sar_cog x = sar_cog y);
  ([(128, 6)], sar_timestamp_seconds x = sar_timestamp_seconds y);
  ([(134, 8)], sar_regional x = sar_regional y);
  ([(142, 1)], sar_dte x = sar_dte y);
  ([(146, 1)], sar_assigned x = sar_assigned y);
  ([(147, 1)], sar_raim_flag x = sar_raim_flag y);
  ([(148, 20)], sar_radio_status x = sar_radio_status y)]%nat.

Definition data_10 (x y : UtcDateInquiry) : list datum := [
  ([(8, 30)], udi_source_mmsi x = udi_source_mmsi y);
  ([(40, 30)], udi_destination_mmsi x = udi_destination_mmsi y)]%nat.

Definition data_18 (x y : VesselDynamicData) : list datum := [
  ([(8, 30)], vdd_mmsi x = vdd_mmsi y);
  ([(46, 10)], vdd_sog_knots x = vdd_sog_knots y);
  ([(56, 1)], vdd_high_position_accuracy x = vdd_high_position_accuracy y);
  ([(57, 28)], vdd_longitude x = vdd_longitude y);
  ([(85, 27)], vdd_latitude x = vdd_latitude y);
  ([(112, 12)], vdd_cog x = vdd_cog y);
  ([(124, 9)], vdd_heading_true x = vdd_heading_true y);
  ([(133, 6)], vdd_timestamp_seconds x = vdd_timestamp_seconds y /\
               vdd_positioning_system_meta x = vdd_positioning_system_meta y);
  ([(141, 1)], vdd_class_b_unit_flag x = vdd_class_b_unit_flag y);
  ([(148, 1)], vdd_class_b_css_flag x = vdd_class_b_css_flag y);
  ([(149, 19)], vdd_radio_status x = vdd_radio_status y);
  ([], vdd_ais_type x = vdd_ais_type y /\ vdd_nav_status x = vdd_nav_status y /\ vdd_rot x = vdd_rot y /\
       vdd_rot_direction x = vdd_rot_direction y /\ vdd_current_gnss_position x = vdd_current_gnss_position y /\
       vdd_special_manoeuvre x = vdd_special_manoeuvre y)]%nat.
(** The data of type 18 that are read elsewhere. *)
Definition flags_18 (x y : VesselDynamicData) : list datum := [
  ([(142, 1)], vdd_class_b_display x = vdd_class_b_display y);
  ([(143, 1)], vdd_class_b_dsc x = vdd_class_b_dsc y);
  ([(144, 1)], vdd_class_b_band_flag x = vdd_class_b_band_flag y);
  ([(145, 1)], vdd_class_b_msg22_flag x = vdd_class_b_msg22_flag y);
  ([(146, 1)], vdd_class_b_mode_flag x = vdd_class_b_mode_flag y);
  ([(147, 1)], vdd_raim_flag x = vdd_raim_flag y)]%nat.

Definition data_21 (x y : AidToNavigationReport) : list datum := [
  ([(8, 30)], atn_mmsi x = atn_mmsi y);
  ([(38, 5)], atn_aid_type x = atn_aid_type y);
  ([(43, 120); (272, 84)], atn_name x = atn_name y);
  ([(163, 1)], atn_high_position_accuracy x = atn_high_position_accuracy y);
  ([(164, 28)], atn_longitude x = atn_longitude y);
  ([(192, 27)], atn_latitude x = atn_latitude y);
  ([(219, 9)], atn_dimension_to_bow x = atn_dimension_to_bow y);
  ([(228, 9)], atn_dimension_to_stern x = atn_dimension_to_stern y);
  ([(237, 6)], atn_dimension_to_port x = atn_dimension_to_port y);
  ([(243, 6)], atn_dimension_to_starboard x = atn_dimension_to_starboard y);
  ([(249, 4)], atn_position_fix_type x = atn_position_fix_type y);
  ([(253, 6)], atn_timestamp_seconds x = atn_timestamp_seconds y);
  ([(260, 8)], atn_regional x = atn_regional y);
  ([(268, 1)], atn_raim_flag x = atn_raim_flag y);
  ([(269, 1)], atn_virtual_aid_flag x = atn_virtual_aid_flag y);
  ([(270, 1)], atn_assigned_mode_flag x = atn_assigned_mode_flag y)]%nat.
Definition off_position_21 (x y : AidToNavigationReport) : datum :=
  ([(259, 1)], atn_off_position_indicator x = atn_off_position_indicator y)%nat.

Definition data_27 (x y : VesselDynamicData) : list datum := [
  ([(8, 30)], vdd_mmsi x = vdd_mmsi y);
  ([(38, 1)], vdd_high_position_accuracy x = vdd_high_position_accuracy y);
  ([(39, 1)], vdd_raim_flag x = vdd_raim_flag y);
  ([(40, 4)], vdd_nav_status x = vdd_nav_status y);
  ([], vdd_ais_type x = vdd_ais_type y /\ vdd_rot x = vdd_rot y /\ vdd_rot_direction x = vdd_rot_direction y /\
       vdd_heading_true x = vdd_heading_true y /\ vdd_timestamp_seconds x = vdd_timestamp_seconds y /\
       vdd_positioning_system_meta x = vdd_positioning_system_meta y /\
       vdd_special_manoeuvre x = vdd_special_manoeuvre y /\
       vdd_class_b_unit_flag x = vdd_class_b_unit_flag y /\ vdd_class_b_display x = vdd_class_b_display y /\
       vdd_class_b_dsc x = vdd_class_b_dsc y /\ vdd_class_b_band_flag x = vdd_class_b_band_flag y /\
       vdd_class_b_msg22_flag x = vdd_class_b_msg22_flag y /\ vdd_class_b_mode_flag x = vdd_class_b_mode_flag y /\
       vdd_class_b_css_flag x = vdd_class_b_css_flag y /\ vdd_radio_status x = vdd_radio_status y)]%nat.
(** The data of type 27 that are read elsewhere. *)
Definition motion_27 (x y : VesselDynamicData) : list datum := [
  ([(44, 18)], vdd_longitude x = vdd_longitude y);
  ([(62, 17)], vdd_latitude x = vdd_latitude y);
  ([(79, 6)], vdd_sog_knots x = vdd_sog_knots y);
  ([(85, 9)], vdd_cog x = vdd_cog y);
  ([(94, 1)], vdd_current_gnss_position x = vdd_current_gnss_position y)]%nat.

(** The data of two reports of message type [k] that keep to their bits, and those that do not. *)
Definition data (k : N) (r r' : ParsedSentence) : list datum :=
  match r, r' with
  | PsVesselDynamicData x, PsVesselDynamicData y =>
      if k =? 18 then data_18 x y else if k =? 27 then data_27 x y else data_1_2_3 x y
  | PsBaseStationReport x, PsBaseStationReport y => data_4 x y
  | PsVesselStaticData x, PsVesselStaticData y => data_5 x y
  | PsBinaryAddressedMessage x, PsBinaryAddressedMessage y => data_6 x y
  | PsStandardSarAircraftPositionReport x, PsStandardSarAircraftPositionReport y => data_9 x y
  | PsUtcDateInquiry x, PsUtcDateInquiry y => data_10 x y
  | PsAidToNavigationReport x, PsAidToNavigationReport y => data_21 x y
  | _, _ => []
  end.

Definition displaced (k : N) (r r' : ParsedSentence) : list datum :=
  match r, r' with
  | PsVesselDynamicData x, PsVesselDynamicData y =>
      if k =? 18 then flags_18 x y else if k =? 27 then motion_27 x y else []
  | PsVesselStaticData x, PsVesselStaticData y => [eta_5 x y]
  | PsAidToNavigationReport x, PsAidToNavigationReport y => [off_position_21 x y]
  | _, _ => []
  end.

(** Both reports name the same station and agree whether they are about the own vessel. *)
Definition same_reception (r r' : ParsedSentence) : Prop :=
  match r, r' with
  | PsVesselDynamicData x, PsVesselDynamicData y => vdd_own_vessel x = vdd_own_vessel y /\ vdd_station x = vdd_station y
  | PsBaseStationReport x, PsBaseStationReport y => bsr_own_vessel x = bsr_own_vessel y /\ bsr_station x = bsr_station y
  | PsVesselStaticData x, PsVesselStaticData y => vsd_own_vessel x = vsd_own_vessel y
  | PsBinaryAddressedMessage x, PsBinaryAddressedMessage y => bam_own_vessel x = bam_own_vessel y /\ bam_station x = bam_station y
  | PsStandardSarAircraftPositionReport x, PsStandardSarAircraftPositionReport y =>
      sar_own_vessel x = sar_own_vessel y /\ sar_station x = sar_station y
  | PsUtcDateInquiry x, PsUtcDateInquiry y => udi_own_vessel x = udi_own_vessel y /\ udi_station x = udi_station y
  | PsAidToNavigationReport x, PsAidToNavigationReport y => atn_own_vessel x = atn_own_vessel y /\ atn_station x = atn_station y
  | _, _ => True
  end.

(** Bit [k] is the only one in which the messages differ. *)
Definition differ_at (k : nat) (a b : list bool) : Prop :=
  nth k a false <> nth k b false /\ forall i, i <> k -> nth i a false = nth i b false.
