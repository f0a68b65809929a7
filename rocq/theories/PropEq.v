(** C76: the derived equality of reports. *)
From stdpp Require Import gmap.
From Coq Require Import List NArith ZArith Bool String Lia Reals Lra Floats.SpecFloat.
From Flocq Require Import Core.
From Flocq Require BinarySingleNaN.
From Verif Require Import Base Str F64 Chrono Types Util AisMod Vdm Gnss Parser Equality
  SpecText SpecResult SpecAis SpecTime SpecState SpecReal SpecMeasure SpecFields SpecRange SpecEq
  StrFacts FrontFacts CallFacts ResultFacts BitFacts VdmFacts LayoutFacts StateFacts RunFacts FloatFacts DecimalFacts FieldFacts
  PropFront PropBits PropState PropStatic PropMeasure PropPanic PropHist PropRange.
Import ListNotations.
Open Scope N_scope.

(** [eqb] decides equality. *)
Definition decides {A} (eqb : A -> A -> bool) : Prop := forall a b, eqb a b = true <-> a = b.

Lemma decides_N : decides N.eqb. Proof. exact N.eqb_eq. Qed.
Lemma decides_Z : decides Z.eqb. Proof. exact Z.eqb_eq. Qed.
Lemma decides_bool : decides Bool.eqb. Proof. exact Bool.eqb_true_iff. Qed.
Lemma decides_str : decides str_eqb.
Proof. intros a b. destruct (str_eqb_spec a b) as [E|E]; split; congruence. Qed.

Lemma decides_option {A} (eqb : A -> A -> bool) : decides eqb -> decides (option_eqb eqb).
Proof. intros H [a|] [b|]; cbn; [rewrite (H a b)| | |]; split; congruence. Qed.

Lemma decides_list {A} (eqb : A -> A -> bool) : decides eqb -> decides (list_eqb eqb).
Proof.
  intros H a. induction a as [|x a IH]; intros [|y b]; cbn; try (split; congruence).
  rewrite andb_true_iff, (H x y), (IH b). split; [intros [-> ->]; reflexivity|intros E; split; congruence].
Qed.

Lemma decides_datetime : decides datetime_eqb.
Proof.
  intros [] []. unfold datetime_eqb. cbn. rewrite !andb_true_iff, Z.eqb_eq, !N.eqb_eq. split.
  - intros H. decompose [and] H. subst. reflexivity.
  - intros E. injection E. intros. subst. repeat split.
Qed.

Lemma f64_eqb_iff x y : f64_eqb x y = true <-> same_number x y.
Proof.
  split.
  - unfold f64_eqb, SFeqb. destruct x as [a|a| |a m k], y as [b|b| |b n j]; cbn; try discriminate; try (destruct a; discriminate); try (destruct b; discriminate).
    + intros _. constructor.
    + destruct a, b; try discriminate; constructor.
    + destruct a, b; try discriminate; destruct (Z.compare_spec k j); try discriminate;
        destruct (Pos.compare_cont_spec m n Eq) || destruct (Pcompare m n Eq) eqn:E; try discriminate; subst;
        try (apply Pos.compare_eq in E; subst); intros _; constructor.
  - intros []; [reflexivity| |].
    + destruct a; reflexivity.
    + unfold f64_eqb, SFeqb, SFcompare. destruct a; rewrite Z.compare_refl;
      change (Pos.compare_cont Eq m m) with (Pos.compare m m); rewrite Pos.compare_refl; reflexivity.
Qed.

Lemma f64_attribute x y : option_eqb f64_eqb x y = true <-> same_attribute x y.
Proof.
  destruct x, y; cbn; [rewrite f64_eqb_iff| | |]; split; try discriminate; try (intros H; inversion H; subst; assumption); constructor; assumption.
Qed.

Lemma decides_NavigationSystem : decides NavigationSystem_eqb.
Proof.
  intros a b. unfold NavigationSystem_eqb. rewrite N.eqb_eq. split; [|intros ->; reflexivity].
  destruct a, b; (reflexivity || discriminate).
Qed.
Lemma decides_FaaMode : decides FaaMode_eqb.
Proof.
  intros a b. unfold FaaMode_eqb. rewrite N.eqb_eq. split; [|intros ->; reflexivity].
  destruct a, b; (reflexivity || discriminate).
Qed.
Lemma decides_GgaQualityIndicator : decides GgaQualityIndicator_eqb.
Proof.
  intros a b. unfold GgaQualityIndicator_eqb. rewrite N.eqb_eq. split; [|intros ->; reflexivity].
  destruct a, b; (reflexivity || discriminate).
Qed.
Lemma decides_GsaFixMode : decides GsaFixMode_eqb.
Proof.
  intros a b. unfold GsaFixMode_eqb. rewrite N.eqb_eq. split; [|intros ->; reflexivity].
  destruct a, b; (reflexivity || discriminate).
Qed.
Lemma decides_Station : decides Station_eqb.
Proof.
  intros a b. unfold Station_eqb. rewrite N.eqb_eq. split; [|intros ->; reflexivity].
  destruct a, b; (reflexivity || discriminate).
Qed.
Lemma decides_AisClass : decides AisClass_eqb.
Proof.
  intros a b. unfold AisClass_eqb. rewrite N.eqb_eq. split; [|intros ->; reflexivity].
  destruct a, b; (reflexivity || discriminate).
Qed.
Lemma decides_NavigationStatus : decides NavigationStatus_eqb.
Proof.
  intros a b. unfold NavigationStatus_eqb. rewrite N.eqb_eq. split; [|intros ->; reflexivity].
  destruct a, b; (reflexivity || discriminate).
Qed.
Lemma decides_PositioningSystemMeta : decides PositioningSystemMeta_eqb.
Proof.
  intros a b. unfold PositioningSystemMeta_eqb. rewrite N.eqb_eq. split; [|intros ->; reflexivity].
  destruct a, b; (reflexivity || discriminate).
Qed.
Lemma decides_ShipType : decides ShipType_eqb.
Proof.
  intros a b. unfold ShipType_eqb. rewrite N.eqb_eq. split; [|intros ->; reflexivity].
  destruct a, b; (reflexivity || discriminate).
Qed.
Lemma decides_CargoType : decides CargoType_eqb.
Proof.
  intros a b. unfold CargoType_eqb. rewrite N.eqb_eq. split; [|intros ->; reflexivity].
  destruct a, b; (reflexivity || discriminate).
Qed.
Lemma decides_PositionFixType : decides PositionFixType_eqb.
Proof.
  intros a b. unfold PositionFixType_eqb. rewrite N.eqb_eq. split; [|intros ->; reflexivity].
  destruct a, b; (reflexivity || discriminate).
Qed.
Lemma decides_NavAidType : decides NavAidType_eqb.
Proof.
  intros a b. unfold NavAidType_eqb. rewrite N.eqb_eq. split; [|intros ->; reflexivity].
  destruct a, b; (reflexivity || discriminate).
Qed.

Lemma GgaData_same a b : GgaData_eqb a b = true <-> same_report (PsGga a) (PsGga b).
Proof.
  unfold GgaData_eqb, same_report. cbn [doubles without_doubles]. rewrite !andb_true_iff.
  rewrite (decides_NavigationSystem (gga_source a) (gga_source b)), ((decides_option _ decides_datetime) (gga_timestamp a) (gga_timestamp b)), (f64_attribute (gga_latitude a) (gga_latitude b)), (f64_attribute (gga_longitude a) (gga_longitude b)), (decides_GgaQualityIndicator (gga_quality a) (gga_quality b)), ((decides_option _ decides_N) (gga_satellite_count a) (gga_satellite_count b)), (f64_attribute (gga_hdop a) (gga_hdop b)), (f64_attribute (gga_altitude a) (gga_altitude b)), (f64_attribute (gga_geoid_separation a) (gga_geoid_separation b)), (f64_attribute (gga_age_of_dgps a) (gga_age_of_dgps b)), ((decides_option _ decides_N) (gga_ref_station_id a) (gga_ref_station_id b)).
  split.
  - intros H. decompose [and] H. clear H. split.
    + f_equal. destruct a, b. cbn in *. subst. reflexivity.
    + repeat (apply List.Forall2_cons; [assumption|]). apply List.Forall2_nil.
  - intros [E F]. apply (f_equal (fun r => match r with PsGga d => Some d | _ => None end)) in E. cbv beta iota in E.
    repeat match goal with H : Forall2 _ (_ :: _) _ |- _ => inversion H; subst; clear H end.
    destruct a, b. cbn in *. injection E. intros. subst. repeat split; assumption.
Qed.

Lemma RmcData_same a b : RmcData_eqb a b = true <-> same_report (PsRmc a) (PsRmc b).
Proof.
  unfold RmcData_eqb, same_report. cbn [doubles without_doubles]. rewrite !andb_true_iff.
  rewrite (decides_NavigationSystem (rmc_source a) (rmc_source b)), ((decides_option _ decides_datetime) (rmc_timestamp a) (rmc_timestamp b)), ((decides_option _ decides_bool) (rmc_status_active a) (rmc_status_active b)), (f64_attribute (rmc_latitude a) (rmc_latitude b)), (f64_attribute (rmc_longitude a) (rmc_longitude b)), (f64_attribute (rmc_sog_knots a) (rmc_sog_knots b)), (f64_attribute (rmc_bearing a) (rmc_bearing b)), (f64_attribute (rmc_variation a) (rmc_variation b)).
  split.
  - intros H. decompose [and] H. clear H. split.
    + f_equal. destruct a, b. cbn in *. subst. reflexivity.
    + repeat (apply List.Forall2_cons; [assumption|]). apply List.Forall2_nil.
  - intros [E F]. apply (f_equal (fun r => match r with PsRmc d => Some d | _ => None end)) in E. cbv beta iota in E.
    repeat match goal with H : Forall2 _ (_ :: _) _ |- _ => inversion H; subst; clear H end.
    destruct a, b. cbn in *. injection E. intros. subst. repeat split; assumption.
Qed.

Lemma GsaData_same a b : GsaData_eqb a b = true <-> same_report (PsGsa a) (PsGsa b).
Proof.
  unfold GsaData_eqb, same_report. cbn [doubles without_doubles]. rewrite !andb_true_iff.
  rewrite (decides_NavigationSystem (gsa_source a) (gsa_source b)), ((decides_option _ decides_bool) (gsa_mode1_automatic a) (gsa_mode1_automatic b)), ((decides_option _ decides_GsaFixMode) (gsa_mode2_3d a) (gsa_mode2_3d b)), ((decides_list _ decides_N) (gsa_prn_numbers a) (gsa_prn_numbers b)), (f64_attribute (gsa_pdop a) (gsa_pdop b)), (f64_attribute (gsa_hdop a) (gsa_hdop b)), (f64_attribute (gsa_vdop a) (gsa_vdop b)).
  split.
  - intros H. decompose [and] H. clear H. split.
    + f_equal. destruct a, b. cbn in *. subst. reflexivity.
    + repeat (apply List.Forall2_cons; [assumption|]). apply List.Forall2_nil.
  - intros [E F]. apply (f_equal (fun r => match r with PsGsa d => Some d | _ => None end)) in E. cbv beta iota in E.
    repeat match goal with H : Forall2 _ (_ :: _) _ |- _ => inversion H; subst; clear H end.
    destruct a, b. cbn in *. injection E. intros. subst. repeat split; assumption.
Qed.

Lemma decides_GsvData : decides GsvData_eqb.
Proof.
  intros a b. unfold GsvData_eqb. rewrite !andb_true_iff.
  rewrite (decides_NavigationSystem (gsv_source a) (gsv_source b)), (decides_N (gsv_prn_number a) (gsv_prn_number b)), ((decides_option _ decides_N) (gsv_elevation a) (gsv_elevation b)), ((decides_option _ decides_N) (gsv_azimuth a) (gsv_azimuth b)), ((decides_option _ decides_N) (gsv_snr a) (gsv_snr b)).
  split.
  - destruct a, b. cbn. intros H. decompose [and] H. subst. reflexivity.
  - intros ->. repeat split.
Qed.

Lemma VtgData_same a b : VtgData_eqb a b = true <-> same_report (PsVtg a) (PsVtg b).
Proof.
  unfold VtgData_eqb, same_report. cbn [doubles without_doubles]. rewrite !andb_true_iff.
  rewrite (decides_NavigationSystem (vtg_source a) (vtg_source b)), (f64_attribute (vtg_cog_true a) (vtg_cog_true b)), (f64_attribute (vtg_cog_magnetic a) (vtg_cog_magnetic b)), (f64_attribute (vtg_sog_knots a) (vtg_sog_knots b)), (f64_attribute (vtg_sog_kph a) (vtg_sog_kph b)), ((decides_option _ decides_FaaMode) (vtg_faa_mode a) (vtg_faa_mode b)).
  split.
  - intros H. decompose [and] H. clear H. split.
    + f_equal. destruct a, b. cbn in *. subst. reflexivity.
    + repeat (apply List.Forall2_cons; [assumption|]). apply List.Forall2_nil.
  - intros [E F]. apply (f_equal (fun r => match r with PsVtg d => Some d | _ => None end)) in E. cbv beta iota in E.
    repeat match goal with H : Forall2 _ (_ :: _) _ |- _ => inversion H; subst; clear H end.
    destruct a, b. cbn in *. injection E. intros. subst. repeat split; assumption.
Qed.

Lemma GllData_same a b : GllData_eqb a b = true <-> same_report (PsGll a) (PsGll b).
Proof.
  unfold GllData_eqb, same_report. cbn [doubles without_doubles]. rewrite !andb_true_iff.
  rewrite (decides_NavigationSystem (gll_source a) (gll_source b)), (f64_attribute (gll_latitude a) (gll_latitude b)), (f64_attribute (gll_longitude a) (gll_longitude b)), ((decides_option _ decides_datetime) (gll_timestamp a) (gll_timestamp b)), ((decides_option _ decides_bool) (gll_data_valid a) (gll_data_valid b)), ((decides_option _ decides_FaaMode) (gll_faa_mode a) (gll_faa_mode b)).
  split.
  - intros H. decompose [and] H. clear H. split.
    + f_equal. destruct a, b. cbn in *. subst. reflexivity.
    + repeat (apply List.Forall2_cons; [assumption|]). apply List.Forall2_nil.
  - intros [E F]. apply (f_equal (fun r => match r with PsGll d => Some d | _ => None end)) in E. cbv beta iota in E.
    repeat match goal with H : Forall2 _ (_ :: _) _ |- _ => inversion H; subst; clear H end.
    destruct a, b. cbn in *. injection E. intros. subst. repeat split; assumption.
Qed.

Lemma VesselDynamicData_same a b : VesselDynamicData_eqb a b = true <-> same_report (PsVesselDynamicData a) (PsVesselDynamicData b).
Proof.
  unfold VesselDynamicData_eqb, same_report. cbn [doubles without_doubles]. rewrite !andb_true_iff.
  rewrite (decides_bool (vdd_own_vessel a) (vdd_own_vessel b)), (decides_Station (vdd_station a) (vdd_station b)), (decides_AisClass (vdd_ais_type a) (vdd_ais_type b)), (decides_N (vdd_mmsi a) (vdd_mmsi b)), (decides_NavigationStatus (vdd_nav_status a) (vdd_nav_status b)), (f64_attribute (vdd_rot a) (vdd_rot b)), ((decides_option _ decides_Z) (vdd_rot_direction a) (vdd_rot_direction b)), (f64_attribute (vdd_sog_knots a) (vdd_sog_knots b)), (decides_bool (vdd_high_position_accuracy a) (vdd_high_position_accuracy b)), (f64_attribute (vdd_latitude a) (vdd_latitude b)), (f64_attribute (vdd_longitude a) (vdd_longitude b)), (f64_attribute (vdd_cog a) (vdd_cog b)), (f64_attribute (vdd_heading_true a) (vdd_heading_true b)), (decides_N (vdd_timestamp_seconds a) (vdd_timestamp_seconds b)), ((decides_option _ decides_PositioningSystemMeta) (vdd_positioning_system_meta a) (vdd_positioning_system_meta b)), ((decides_option _ decides_bool) (vdd_current_gnss_position a) (vdd_current_gnss_position b)), ((decides_option _ decides_bool) (vdd_special_manoeuvre a) (vdd_special_manoeuvre b)), (decides_bool (vdd_raim_flag a) (vdd_raim_flag b)), ((decides_option _ decides_bool) (vdd_class_b_unit_flag a) (vdd_class_b_unit_flag b)), ((decides_option _ decides_bool) (vdd_class_b_display a) (vdd_class_b_display b)), ((decides_option _ decides_bool) (vdd_class_b_dsc a) (vdd_class_b_dsc b)), ((decides_option _ decides_bool) (vdd_class_b_band_flag a) (vdd_class_b_band_flag b)), ((decides_option _ decides_bool) (vdd_class_b_msg22_flag a) (vdd_class_b_msg22_flag b)), ((decides_option _ decides_bool) (vdd_class_b_mode_flag a) (vdd_class_b_mode_flag b)), ((decides_option _ decides_bool) (vdd_class_b_css_flag a) (vdd_class_b_css_flag b)), ((decides_option _ decides_N) (vdd_radio_status a) (vdd_radio_status b)).
  split.
  - intros H. decompose [and] H. clear H. split.
    + f_equal. destruct a, b. cbn in *. subst. reflexivity.
    + repeat (apply List.Forall2_cons; [assumption|]). apply List.Forall2_nil.
  - intros [E F]. apply (f_equal (fun r => match r with PsVesselDynamicData d => Some d | _ => None end)) in E. cbv beta iota in E.
    repeat match goal with H : Forall2 _ (_ :: _) _ |- _ => inversion H; subst; clear H end.
    destruct a, b. cbn in *. injection E. intros. subst. repeat split; assumption.
Qed.

Lemma decides_VesselStaticData : decides VesselStaticData_eqb.
Proof.
  intros a b. unfold VesselStaticData_eqb. rewrite !andb_true_iff.
  rewrite (decides_bool (vsd_own_vessel a) (vsd_own_vessel b)), (decides_AisClass (vsd_ais_type a) (vsd_ais_type b)), (decides_N (vsd_mmsi a) (vsd_mmsi b)), (decides_N (vsd_ais_version_indicator a) (vsd_ais_version_indicator b)), ((decides_option _ decides_N) (vsd_imo_number a) (vsd_imo_number b)), ((decides_option _ decides_str) (vsd_call_sign a) (vsd_call_sign b)), ((decides_option _ decides_str) (vsd_name a) (vsd_name b)), (decides_ShipType (vsd_ship_type a) (vsd_ship_type b)), (decides_CargoType (vsd_cargo_type a) (vsd_cargo_type b)), ((decides_option _ decides_str) (vsd_equipment_vendor_id a) (vsd_equipment_vendor_id b)), ((decides_option _ decides_N) (vsd_equipment_model a) (vsd_equipment_model b)), ((decides_option _ decides_N) (vsd_equipment_serial_number a) (vsd_equipment_serial_number b)), ((decides_option _ decides_N) (vsd_dimension_to_bow a) (vsd_dimension_to_bow b)), ((decides_option _ decides_N) (vsd_dimension_to_stern a) (vsd_dimension_to_stern b)), ((decides_option _ decides_N) (vsd_dimension_to_port a) (vsd_dimension_to_port b)), ((decides_option _ decides_N) (vsd_dimension_to_starboard a) (vsd_dimension_to_starboard b)), ((decides_option _ decides_PositionFixType) (vsd_position_fix_type a) (vsd_position_fix_type b)), ((decides_option _ decides_datetime) (vsd_eta a) (vsd_eta b)), ((decides_option _ decides_N) (vsd_draught10 a) (vsd_draught10 b)), ((decides_option _ decides_str) (vsd_destination a) (vsd_destination b)), ((decides_option _ decides_N) (vsd_mothership_mmsi a) (vsd_mothership_mmsi b)).
  split.
  - destruct a, b. cbn. intros H. decompose [and] H. subst. reflexivity.
  - intros ->. repeat split.
Qed.

Lemma BaseStationReport_same a b : BaseStationReport_eqb a b = true <-> same_report (PsBaseStationReport a) (PsBaseStationReport b).
Proof.
  unfold BaseStationReport_eqb, same_report. cbn [doubles without_doubles]. rewrite !andb_true_iff.
  rewrite (decides_bool (bsr_own_vessel a) (bsr_own_vessel b)), (decides_Station (bsr_station a) (bsr_station b)), (decides_N (bsr_mmsi a) (bsr_mmsi b)), ((decides_option _ decides_datetime) (bsr_timestamp a) (bsr_timestamp b)), (decides_bool (bsr_high_position_accuracy a) (bsr_high_position_accuracy b)), (f64_attribute (bsr_latitude a) (bsr_latitude b)), (f64_attribute (bsr_longitude a) (bsr_longitude b)), ((decides_option _ decides_PositionFixType) (bsr_position_fix_type a) (bsr_position_fix_type b)), (decides_bool (bsr_raim_flag a) (bsr_raim_flag b)), (decides_N (bsr_radio_status a) (bsr_radio_status b)).
  split.
  - intros H. decompose [and] H. clear H. split.
    + f_equal. destruct a, b. cbn in *. subst. reflexivity.
    + repeat (apply List.Forall2_cons; [assumption|]). apply List.Forall2_nil.
  - intros [E F]. apply (f_equal (fun r => match r with PsBaseStationReport d => Some d | _ => None end)) in E. cbv beta iota in E.
    repeat match goal with H : Forall2 _ (_ :: _) _ |- _ => inversion H; subst; clear H end.
    destruct a, b. cbn in *. injection E. intros. subst. repeat split; assumption.
Qed.

Lemma decides_BinaryAddressedMessage : decides BinaryAddressedMessage_eqb.
Proof.
  intros a b. unfold BinaryAddressedMessage_eqb. rewrite !andb_true_iff.
  rewrite (decides_bool (bam_own_vessel a) (bam_own_vessel b)), (decides_Station (bam_station a) (bam_station b)), (decides_N (bam_mmsi a) (bam_mmsi b)), (decides_N (bam_sequence_number a) (bam_sequence_number b)), (decides_N (bam_destination_mmsi a) (bam_destination_mmsi b)), (decides_bool (bam_retransmit_flag a) (bam_retransmit_flag b)), (decides_N (bam_dac a) (bam_dac b)), (decides_N (bam_fid a) (bam_fid b)).
  split.
  - destruct a, b. cbn. intros H. decompose [and] H. subst. reflexivity.
  - intros ->. repeat split.
Qed.

Lemma StandardSarAircraftPositionReport_same a b : StandardSarAircraftPositionReport_eqb a b = true <-> same_report (PsStandardSarAircraftPositionReport a) (PsStandardSarAircraftPositionReport b).
Proof.
  unfold StandardSarAircraftPositionReport_eqb, same_report. cbn [doubles without_doubles]. rewrite !andb_true_iff.
  rewrite (decides_bool (sar_own_vessel a) (sar_own_vessel b)), (decides_Station (sar_station a) (sar_station b)), (decides_N (sar_mmsi a) (sar_mmsi b)), ((decides_option _ decides_N) (sar_altitude a) (sar_altitude b)), ((decides_option _ decides_N) (sar_sog_knots a) (sar_sog_knots b)), (decides_bool (sar_high_position_accuracy a) (sar_high_position_accuracy b)), (f64_attribute (sar_latitude a) (sar_latitude b)), (f64_attribute (sar_longitude a) (sar_longitude b)), (f64_attribute (sar_cog a) (sar_cog b)), (decides_N (sar_timestamp_seconds a) (sar_timestamp_seconds b)), (decides_N (sar_regional a) (sar_regional b)), (decides_bool (sar_dte a) (sar_dte b)), (decides_bool (sar_assigned a) (sar_assigned b)), (decides_bool (sar_raim_flag a) (sar_raim_flag b)), (decides_N (sar_radio_status a) (sar_radio_status b)).
  split.
  - intros H. decompose [and] H. clear H. split.
    + f_equal. destruct a, b. cbn in *. subst. reflexivity.
    + repeat (apply List.Forall2_cons; [assumption|]). apply List.Forall2_nil.
  - intros [E F]. apply (f_equal (fun r => match r with PsStandardSarAircraftPositionReport d => Some d | _ => None end)) in E. cbv beta iota in E.
    repeat match goal with H : Forall2 _ (_ :: _) _ |- _ => inversion H; subst; clear H end.
    destruct a, b. cbn in *. injection E. intros. subst. repeat split; assumption.
Qed.

Lemma decides_UtcDateInquiry : decides UtcDateInquiry_eqb.
Proof.
  intros a b. unfold UtcDateInquiry_eqb. rewrite !andb_true_iff.
  rewrite (decides_bool (udi_own_vessel a) (udi_own_vessel b)), (decides_Station (udi_station a) (udi_station b)), (decides_N (udi_source_mmsi a) (udi_source_mmsi b)), (decides_N (udi_destination_mmsi a) (udi_destination_mmsi b)).
  split.
  - destruct a, b. cbn. intros H. decompose [and] H. subst. reflexivity.
  - intros ->. repeat split.
Qed.

Lemma AidToNavigationReport_same a b : AidToNavigationReport_eqb a b = true <-> same_report (PsAidToNavigationReport a) (PsAidToNavigationReport b).
Proof.
  unfold AidToNavigationReport_eqb, same_report. cbn [doubles without_doubles]. rewrite !andb_true_iff.
  rewrite (decides_bool (atn_own_vessel a) (atn_own_vessel b)), (decides_Station (atn_station a) (atn_station b)), (decides_N (atn_mmsi a) (atn_mmsi b)), (decides_NavAidType (atn_aid_type a) (atn_aid_type b)), (decides_str (atn_name a) (atn_name b)), (decides_bool (atn_high_position_accuracy a) (atn_high_position_accuracy b)), (f64_attribute (atn_latitude a) (atn_latitude b)), (f64_attribute (atn_longitude a) (atn_longitude b)), ((decides_option _ decides_N) (atn_dimension_to_bow a) (atn_dimension_to_bow b)), ((decides_option _ decides_N) (atn_dimension_to_stern a) (atn_dimension_to_stern b)), ((decides_option _ decides_N) (atn_dimension_to_port a) (atn_dimension_to_port b)), ((decides_option _ decides_N) (atn_dimension_to_starboard a) (atn_dimension_to_starboard b)), ((decides_option _ decides_PositionFixType) (atn_position_fix_type a) (atn_position_fix_type b)), (decides_N (atn_timestamp_seconds a) (atn_timestamp_seconds b)), (decides_bool (atn_off_position_indicator a) (atn_off_position_indicator b)), (decides_N (atn_regional a) (atn_regional b)), (decides_bool (atn_raim_flag a) (atn_raim_flag b)), (decides_bool (atn_virtual_aid_flag a) (atn_virtual_aid_flag b)), (decides_bool (atn_assigned_mode_flag a) (atn_assigned_mode_flag b)).
  split.
  - intros H. decompose [and] H. clear H. split.
    + f_equal. destruct a, b. cbn in *. subst. reflexivity.
    + repeat (apply List.Forall2_cons; [assumption|]). apply List.Forall2_nil.
  - intros [E F]. apply (f_equal (fun r => match r with PsAidToNavigationReport d => Some d | _ => None end)) in E. cbv beta iota in E.
    repeat match goal with H : Forall2 _ (_ :: _) _ |- _ => inversion H; subst; clear H end.
    destruct a, b. cbn in *. injection E. intros. subst. repeat split; assumption.
Qed.

(** ** C76 *)

(** Two reports are equal exactly if all attributes agree, doubles as numbers. *)
Theorem c76_equal_iff r r' : ParsedSentence_eqb r r' = true <-> same_report r r'.
Proof.
  destruct r, r'; try (cbn; split; [discriminate|intros [E _]; discriminate E]); try (cbn [ParsedSentence_eqb]).
  - split; [split; [reflexivity|constructor]|reflexivity].
  - apply VesselDynamicData_same.
  - rewrite (decides_VesselStaticData d d0). unfold same_report. cbn. split; [intros ->; split; [reflexivity|constructor]|intros [E _]; congruence].
  - apply BaseStationReport_same.
  - rewrite (decides_BinaryAddressedMessage d d0). unfold same_report. cbn. split; [intros ->; split; [reflexivity|constructor]|intros [E _]; congruence].
  - apply StandardSarAircraftPositionReport_same.
  - rewrite (decides_UtcDateInquiry d d0). unfold same_report. cbn. split; [intros ->; split; [reflexivity|constructor]|intros [E _]; congruence].
  - apply AidToNavigationReport_same.
  - apply GgaData_same.
  - apply RmcData_same.
  - apply GsaData_same.
  - rewrite (decides_list _ decides_GsvData d d0). unfold same_report. cbn. split; [intros ->; split; [reflexivity|constructor]|intros [E _]; congruence].
  - apply VtgData_same.
  - apply GllData_same.
Qed.
Print Assumptions c76_equal_iff.

(** Symmetric and transitive. *)
Lemma same_number_sym x y : same_number x y -> same_number y x.
Proof. intros []; constructor. Qed.
Lemma same_number_trans x y z : same_number x y -> same_number y z -> same_number x z.
Proof. intros []; intros H; inversion H; subst; constructor. Qed.

Theorem c76_symmetric r r' : ParsedSentence_eqb r r' = ParsedSentence_eqb r' r.
Proof.
  assert (S : forall a b, same_report a b -> same_report b a).
  { intros a b [E F]. split; [now symmetry|]. clear E. induction F as [|x y l l' H F IH]; constructor; [|exact IH].
    destruct H; constructor. now apply same_number_sym. }
  apply eq_true_iff_eq. rewrite !c76_equal_iff. split; apply S.
Qed.
Print Assumptions c76_symmetric.

Theorem c76_transitive r1 r2 r3 :
  ParsedSentence_eqb r1 r2 = true -> ParsedSentence_eqb r2 r3 = true -> ParsedSentence_eqb r1 r3 = true.
Proof.
  rewrite !c76_equal_iff. intros [E F] [E' F']. split; [congruence|]. clear E E'. revert F'. generalize (doubles r3).
  induction F as [|x y l l' H F IH]; intros k F'; inversion F' as [|? z ? k' H' F'']; subst; constructor; [|now apply IH].
  destruct H; inversion H'; subst; constructor. eapply same_number_trans; eassumption.
Qed.
Print Assumptions c76_transitive.

(** A report is equal to itself (and so to its clone) exactly if no attribute is NaN. *)
Theorem c76_self r : ParsedSentence_eqb r r = true <-> ~ In (Some S754_nan) (doubles r).
Proof.
  rewrite c76_equal_iff. unfold same_report. split.
  - intros [_ F] I. induction (doubles r) as [|x l IH]; [destruct I|]. inversion F; subst.
    destruct I as [-> |I]; [|now apply IH]. match goal with H : same_attribute _ _ |- _ => inversion H as [|? ? H']; inversion H' end.
  - intros H. split; [reflexivity|]. induction (doubles r) as [|x l IH]; constructor.
    + destruct x as [[]|]; repeat constructor. exfalso. apply H. now left.
    + apply IH. intros I. apply H. now right.
Qed.
Print Assumptions c76_self.

(** ** Doubles in reports *)

Definition all_doubles (P : f64 -> Prop) (r : ParsedSentence) : Prop := forall x, In (Some x) (doubles r) -> P x.
Definition good (x : f64) : Prop := finite x /\ proper x.

Lemma all_doubles_intro (P : f64 -> Prop) r :
  Forall (fun o : option f64 => forall x, o = Some x -> P x) (doubles r) -> all_doubles P r.
Proof. intros H x I. rewrite Forall_forall in H. exact (H _ I _ eq_refl). Qed.

Lemma good_Z z : (Z.abs z <= 2 ^ 53)%Z -> good (f64_of_Z z).
Proof. intros H. destruct (f64_of_Z_exact z H) as (_ & F & P & _). now split. Qed.

Lemma good_div z d : (Z.abs z <= 2 ^ 40)%Z -> (1 <= d <= 2 ^ 40)%Z -> good (f64_div (f64_of_Z z) (f64_of_Z d)).
Proof.
  intros H D. destruct (f64_of_Z_exact z ltac:(lia)) as (Er & Fr & Pr & Nr).
  destruct (f64_of_Z_exact d ltac:(lia)) as (E6 & F6 & P6 & N6).
  destruct (f64_div_rounds (f64_of_Z z) (f64_of_Z d) Fr F6) as (P & R & _).
  { rewrite E6. apply not_0_IZR. lia. }
  rewrite Er, E6 in R. destruct R as (R1 & R2 & R3); [|now split].
  apply (rnd_in_range 53); [lia|]. rewrite <- (IZR_Zpower radix2 53) by lia.
  change (Zpower radix2 53) with (2 ^ 53)%Z. assert (H' := H). apply IZR_le in H'. rewrite abs_IZR in H'.
  assert (D1 : (1 <= IZR d)%R) by (apply IZR_le; lia). unfold Rdiv. rewrite Rabs_mult, Rabs_inv.
  rewrite (Rabs_pos_eq (IZR d)) by lra. apply Rle_trans with (Rabs (IZR z) * 1)%R.
  - apply Rmult_le_compat_l; [apply Rabs_pos|]. rewrite <- Rinv_1. apply Rinv_le_contravar; lra.
  - rewrite Rmult_1_r. eapply Rle_trans; [exact H'|]. apply IZR_le. lia.
Qed.

Lemma as_i32_abs z : (Z.abs (as_i32 z) <= 2 ^ 40)%Z.
Proof. unfold as_i32. pose proof (Z.mod_pos_bound z 4294967296 ltac:(lia)). cbv zeta. destruct (_ <? _)%Z; lia. Qed.

Lemma good_coord bv i n na d x : (1 <= d <= 2 ^ 40)%Z -> coord bv i n na d = Some x -> good x.
Proof.
  intros Hd H. unfold coord in H. destruct (negb _); [|discriminate]. injection H as <-.
  apply good_div; [apply as_i32_abs|exact Hd].
Qed.

Lemma good_tenths raw : raw < 2 ^ 40 -> good (f64_mul (f64_of_Z (Z.of_N raw)) f64_0_1).
Proof.
  intros H. destruct (f64_of_Z_exact (Z.of_N raw)) as (Er & Fr & Pr & Nr); [lia|].
  destruct tenth_value as (Ft & Pt & Nt & Et). fold f64_0_1 in *. set (c := real_of f64_0_1) in *.
  destruct (f64_mul_rounds _ _ Fr Ft Pr Pt) as (P & R & _). fold c in R. rewrite Er in R.
  destruct R as (R1 & R2 & R3); [|now split].
  apply (rnd_in_range 53); [lia|]. rewrite <- (IZR_Zpower radix2 53) by lia.
  change (Zpower radix2 53) with (2 ^ 53)%Z. set (q := IZR (Z.of_N raw)) in *.
  assert (Hq : (0 <= q <= 1099511627776)%R) by (unfold q; split; apply IZR_le; lia).
  change (bpow radix2 (-56)) with (/ 72057594037927936)%R in Et. apply Rabs_le_inv in Et.
  assert (0 <= c <= 1)%R by lra. rewrite Rabs_pos_eq by nra. apply Rle_trans with (q * 1)%R; [nra|].
  rewrite Rmult_1_r. eapply Rle_trans; [apply Hq|]. apply IZR_le. lia.
Qed.

Lemma good_turn raw x : rot_value raw = Some x -> good x.
Proof.
  intros H. assert (R : (-126 <= raw <= 126)%Z).
  { unfold rot_value in H. destruct (Z.leb_spec (-126) raw), (Z.ltb_spec raw 0), (Z.leb_spec 0 raw), (Z.leb_spec raw 126); try discriminate H; lia. }
  assert (C : forallb (fun n => match rot_value (Z.of_nat n - 126) with
     | Some x => valid_binary 53 1024 x && match x with S754_zero _ | S754_finite _ _ _ => true | _ => false end
     | None => true end) (seq 0 253) = true) by (vm_compute; reflexivity).
  rewrite forallb_forall in C. specialize (C (Z.to_nat (raw + 126))). rewrite in_seq in C. specialize (C ltac:(lia)).
  replace (Z.of_nat (Z.to_nat (raw + 126)) - 126)%Z with raw in C by lia. rewrite H in C. apply andb_true_iff in C as [C1 C2].
  split; [|now apply proper_valid]. destruct x; (exact Logic.I || discriminate).
Qed.

Local Opaque pick_string pick_u64 pick_i64 f64_mul f64_div f64_of_Z.

Lemma pick_small bv i n m : (n <= 64)%nat -> 2 ^ N.of_nat n <= m -> pick_u64 bv i n < m.
Proof. intros H L. eapply N.lt_le_trans; [now apply pick_lt|exact L]. Qed.

Ltac good_field :=
  let x := fresh "x" in let H := fresh "H" in
  intros x H;
  lazymatch type of H with
  | None = Some _ => discriminate H
  | rot_value _ = Some _ => exact (good_turn _ _ H)
  | latitude_at _ _ = Some _ => eapply good_coord; [|exact H]; lia
  | longitude_at _ _ = Some _ => eapply good_coord; [|exact H]; lia
  | coord _ _ _ _ _ = Some _ => eapply good_coord; [|exact H]; lia
  | sog_at _ _ = Some _ => unfold sog_at in H; destruct (_ <? _); [|discriminate H]; injection H as <-; apply good_tenths;
      apply pick_small; (lia || discriminate)
  | cog_at _ _ = Some _ => unfold cog_at in H; destruct (negb _); [|discriminate H]; injection H as <-; apply good_tenths;
      apply pick_small; (lia || discriminate)
  | heading_at _ _ = Some _ => unfold heading_at in H; destruct (negb _); [|discriminate H]; injection H as <-; apply good_Z;
      match goal with |- context [pick_u64 ?b ?i ?n] => pose proof (pick_small b i n (2 ^ 53)%N ltac:(lia) ltac:(discriminate)) end; lia
  end.

Ltac good_fields := apply all_doubles_intro;
  cbn [doubles vdd_rot vdd_sog_knots vdd_latitude vdd_longitude vdd_cog vdd_heading_true bsr_latitude bsr_longitude
       sar_latitude sar_longitude sar_cog atn_latitude atn_longitude];
  repeat (apply List.Forall_cons; [good_field|]); apply List.Forall_nil.

(** Every double in an AIS report is finite. *)
Lemma ais_good ovf now s p r :
  reachable ovf p -> fst (parse_sentence ovf now s p) = Ok r -> ais_result r <> None -> all_doubles good r.
Proof.
  intros Hr H. revert Hr H. apply (reports_have (fun r => ais_result r <> None -> all_doubles good r) ovf); clear.
  - intros _ x [].
  - intros r E E'. congruence.
  - intros bits own st r H _. injection H as <-. good_fields.
  - intros bits own st r H _. unfold handle_t4 in H. inv_binds H. injection H as <-. good_fields.
  - intros now bits own st r H _. unfold handle_t5 in H. inv_binds H. injection H as <-. intros x [].
  - intros bits own st r H _. injection H as <-. intros x [].
  - intros bits own st r H _. injection H as <-. good_fields.
  - intros bits own st r H _. injection H as <-. intros x [].
  - intros bits own st r H _. injection H as <-. good_fields.
  - intros bits own st r H _. unfold handle_t21 in H. inv_binds H. injection H as <-. good_fields.
  - intros bits own st r H _. injection H as <-. apply all_doubles_intro. cbn [doubles vdd_rot vdd_sog_knots vdd_latitude vdd_longitude vdd_cog
      vdd_heading_true].
    apply List.Forall_cons; [good_field|]. apply List.Forall_cons.
    { intros x H. destruct (negb _); [|discriminate H]. injection H as <-. apply good_Z.
      pose proof (pick_small bits 62 6 (2 ^ 53)%N ltac:(lia) ltac:(discriminate)). lia. }
    apply List.Forall_cons; [good_field|]. apply List.Forall_cons; [good_field|]. apply List.Forall_cons.
    { intros x H. destruct (negb _); [|discriminate H]. injection H as <-. apply good_tenths. apply pick_small; (lia || discriminate). }
    apply List.Forall_cons; [good_field|]. apply List.Forall_nil.
  - intros bits own b v H _. intros x [].
  - intros v w d Hv Hw H _. intros x [].
Qed.

(** A report decoded from AIS is always equal to itself. *)
Theorem c76_ais_self ovf now s p r :
  reachable ovf p -> fst (parse_sentence ovf now s p) = Ok r -> ais_result r <> None -> ParsedSentence_eqb r r = true.
Proof.
  intros Hr H A. apply c76_self. intros I. now destruct (ais_good _ _ _ _ _ Hr H A _ I) as [[] _].
Qed.
Print Assumptions c76_ais_self.

Lemma proper_dec neg n e : proper (f64_of_dec neg n e).
Proof.
  destruct (Rlt_or_le (decimal_size n e) double_overflow) as [L|L].
  - now destruct (f64_of_dec_nearest neg n e L) as [(_ & P & _) _].
  - rewrite f64_of_dec_infinite by exact L. exact Logic.I.
Qed.

Lemma proper_parse s x : parse_f64 s = Some x -> proper x.
Proof.
  unfold parse_f64. destruct (match s with [] => _ | _ :: _ => _ end) as [neg body]. cbv zeta.
  destruct (_ || _); [intros E; injection E as <-; exact Logic.I|].
  destruct (str_eqb _ _); [intros E; injection E as <-; exact Logic.I|].
  unfold parse_decimal. destruct (span_digits body) as [ip r1]. destruct (match r1 with [] => _ | _ :: _ => _ end) as [fp r2].
  destruct (ip ++ fp); [discriminate|]. destruct (parse_exponent r2); [|discriminate].
  intros E. injection E as <-. apply proper_dec.
Qed.

Local Transparent f64_div f64_of_Z.
Lemma proper_div x y : proper (f64_div x y).
Proof.
  destruct x as [a|a| |a m k], y as [b|b| |b n j]; try exact Logic.I. unfold f64_div.
  now destruct (div_rounds a m k b n j) as (P & _).
Qed.
Local Opaque f64_div f64_of_Z.

Lemma proper_add x y : proper x -> proper y -> proper (f64_add x y).
Proof.
  intros Px Py. apply proper_valid in Px, Py. rewrite (f64_add_B x y Px Py). apply proper_valid. apply BinarySingleNaN.valid_binary_B2SF.
Qed.

Lemma proper_number split n o : @number f64 parse_f64 split n = Ok o -> forall x, o = Some x -> proper x.
Proof.
  unfold number, pick_number_field. destruct (negb _).
  - destruct (parse_f64 (field split n)) as [y|] eqn:E; [|discriminate]. intros H x Hx. cbn in H. injection H as <-.
    injection Hx as <-. eapply proper_parse; exact E.
  - intros H x Hx. cbn in H. congruence.
Qed.

Lemma proper_lenient split n x : @number_lenient f64 parse_f64 split n = Some x -> proper x.
Proof.
  unfold number_lenient, pick_number_field. destruct (negb _); [|discriminate].
  destruct (parse_f64 (field split n)) as [y|] eqn:E; [|discriminate]. intros H. injection H as <-. eapply proper_parse; exact E.
Qed.

Lemma proper_angle n neg what s h o : map_err InvalidSentence (parse_angle n neg what s h) = Ok o -> forall x, o = Some x -> proper x.
Proof.
  unfold parse_angle. destruct (negb _); [|intros H x Hx; cbn in H; congruence].
  destruct (match_degrees n s) as [[g1 g2]|]; [|discriminate]. cbv zeta. intros H x Hx. cbn in H. injection H as <-. injection Hx as <-.
  assert (P : proper (f64_add (unwrap_or (parse_f64 g1) (f64_of_Z 0)) (f64_div (unwrap_or (parse_f64 g2) (f64_of_Z 0)) (f64_of_Z 60)))).
  { apply proper_add; [|apply proper_div]. destruct (parse_f64 g1) eqn:E; [eapply proper_parse; exact E|]. exact Logic.I. }
  destruct (str_eqb h neg); [|exact P]. now apply f64_neg_proper.
Qed.

Lemma proper_variation split o : rmc_variation_field split = Ok o -> forall x, o = Some x -> proper x.
Proof.
  unfold rmc_variation_field. intros H x Hx. inv_binds H. match goal with E : number parse_f64 _ _ = Ok ?v |- _ => pose proof (proper_number _ _ _ E) as P; destruct v as [y|] end;
    [|congruence].
  specialize (P y eq_refl). destruct (str_eqb _ _); [injection H as <-; injection Hx as <-; exact P|].
  destruct (str_eqb _ _); [|discriminate]. injection H as <-. injection Hx as <-. now apply f64_neg_proper.
Qed.

Ltac proper_field :=
  intros x Hx; first
  [ discriminate Hx
  | eapply proper_lenient; exact Hx
  | match goal with E : number parse_f64 _ _ = Ok ?o |- _ => exact (proper_number _ _ _ E _ Hx) end
  | match goal with E : rmc_variation_field _ = Ok ?o |- _ => exact (proper_variation _ _ E _ Hx) end
  | match goal with E : map_err InvalidSentence _ = Ok ?o |- _ => exact (proper_angle _ _ _ _ _ _ E _ Hx) end ].

Ltac proper_fields := apply all_doubles_intro;
  cbn [doubles gga_latitude gga_longitude gga_hdop gga_altitude gga_geoid_separation gga_age_of_dgps rmc_latitude rmc_longitude rmc_sog_knots
    rmc_bearing rmc_variation gsa_pdop gsa_hdop gsa_vdop vtg_cog_true vtg_cog_magnetic vtg_sog_knots vtg_sog_kph gll_latitude gll_longitude];
  repeat (apply List.Forall_cons; [proper_field|]); apply List.Forall_nil.

Local Opaque parse_f64 parse_u8 parse_u16.

Lemma plain_gnss_proper now body nav fff r : plain_gnss now body nav fff (Ok r) -> all_doubles proper r.
Proof.
  intros H. remember (Ok r) as o eqn:E. destruct H.
  - unfold handle_gga in E. cbv zeta in E. inv_binds E. injection E as <-. proper_fields.
  - unfold handle_rmc in E. cbv zeta in E. inv_binds E. injection E as <-. proper_fields.
  - unfold handle_gsa in E. cbv zeta in E. inv_binds E. injection E as <-. proper_fields.
  - unfold handle_vtg in E. cbv zeta in E. injection E as <-. proper_fields.
  - unfold handle_gll in E. cbv zeta in E. inv_binds E. injection E as <-. proper_fields.
Qed.

(** The doubles in a report have the form of IEEE 754 binary64. *)
Lemma reports_proper ovf now s p r : reachable ovf p -> fst (parse_sentence ovf now s p) = Ok r -> all_doubles proper r.
Proof.
  intros Hr H. destruct (ais_result r) as [a|] eqn:A.
  - intros x I. exact (proj2 (ais_good _ _ _ _ _ Hr H ltac:(congruence) x I)).
  - pose proof (parse_call ovf now s p) as C. destruct C as [ | | |body given tt fff rest o Hb Hc Hbody Ht Hl Hp|body given tt rest Hb Hc Hbody Ht Hl|body given tt fff rest Hb Hc Hbody Ht Hl Hf| ];
      cbn [fst] in H; try discriminate H.
    + subst o. eapply plain_gnss_proper; exact Hp.
    + unfold handle_gsv in H. cbv zeta in H. destruct (number _ _ _); try discriminate H. destruct (number _ _ _); try discriminate H.
      destruct (gsv_range _ _); [|discriminate H]. destruct (_ =? _); [destruct (gsv_collect _ _ _ _ _)|]; injection H as <-; intros x [].
    + pose proof (handle_vdm_result ovf now (lit "!" ++ fff) body (Some (station_of_talker tt)) p) as R. cbn [fst] in H.
      destruct (R _ H) as [R'|R']; [subst r; intros x []|]. exfalso. destruct R' as (sts & R' & _). congruence.
Qed.

(** Reports of the parser are equal exactly if all attributes agree, doubles as real numbers (or equal
    infinities). *)
Theorem c76_equal_values ovf now1 now2 s1 s2 p1 p2 r1 r2 :
  reachable ovf p1 -> fst (parse_sentence ovf now1 s1 p1) = Ok r1 ->
  reachable ovf p2 -> fst (parse_sentence ovf now2 s2 p2) = Ok r2 ->
  ParsedSentence_eqb r1 r2 = true <->
  without_doubles r1 = without_doubles r2 /\ Forall2 same_value (doubles r1) (doubles r2).
Proof.
  intros R1 H1 R2 H2. pose proof (reports_proper _ _ _ _ _ R1 H1) as P1. pose proof (reports_proper _ _ _ _ _ R2 H2) as P2.
  rewrite c76_equal_iff. unfold same_report. unfold all_doubles in P1, P2. clear - P1 P2.
  assert (G : Forall2 same_attribute (doubles r1) (doubles r2) <-> Forall2 same_value (doubles r1) (doubles r2)); [|tauto].
  revert P1 P2. generalize (doubles r1), (doubles r2). intros l l' P1 P2. split.
  - intros F. induction F as [|a b l l' H F IH]; constructor.
    + destruct H as [|x y H]; [constructor|]. destruct H; [apply values_finite; try exact Logic.I; reflexivity|apply values_infinite|].
      apply values_finite; try exact Logic.I; reflexivity.
    + apply IH; intros x I; [apply P1|apply P2]; now right.
  - intros F. induction F as [|a b l l' H F IH]; constructor.
    + destruct H as [|x y Fx Fy E|s]; [constructor| |do 2 constructor]. constructor.
      assert (Px : proper x) by (apply P1; now left). assert (Py : proper y) by (apply P2; now left).
      destruct (Req_dec (real_of x) 0) as [Z|Z].
      * assert (X : forall z, finite z -> real_of z = 0%R -> exists b, z = S754_zero b).
        { intros [b| | |b m k] Fz Ez; try destruct Fz; [now exists b|]. exfalso. cbn [real_of] in Ez.
          pose proof (powerRZ_lt 2 k ltac:(lra)). assert (0 < IZR (Zpos m))%R by (apply IZR_lt; lia).
          destruct b; nra. }
        destruct (X x Fx Z) as [b ->]. destruct (X y Fy ltac:(congruence)) as [b' ->]. constructor.
      * assert (x = y) as <-.
        { apply real_of_inj; auto. clear - Fx Fy E Z. destruct x as [| | |a m k], y as [| | |b n j]; try destruct Fx; try destruct Fy; cbn [real_of negative] in *; try lra.
          pose proof (powerRZ_lt 2 k ltac:(lra)). assert (0 < IZR (Zpos m))%R by (apply IZR_lt; lia).
          pose proof (powerRZ_lt 2 j ltac:(lra)). assert (0 < IZR (Zpos n))%R by (apply IZR_lt; lia).
          pose proof (Rmult_lt_0_compat _ _ H0 H). pose proof (Rmult_lt_0_compat _ _ H2 H1).
          destruct a, b; try reflexivity; lra. }
        destruct x; try destruct Fx; [now destruct Z|constructor].
    + apply IH; intros x I; [apply P1|apply P2]; now right.
Qed.
Print Assumptions c76_equal_values.

(** Not every report is equal to itself: NaN can be written in a GNSS sentence. *)
Theorem c76_self_refuted :
  exists d, fst (parse_sentence true ex_now (lit "$GPVTG,nan,T,,M,,N,,K") new_parser) = Ok (PsVtg d) /\
    vtg_cog_true d = Some S754_nan /\ ParsedSentence_eqb (PsVtg d) (PsVtg d) = false.
Proof. eexists. split; [vm_compute; reflexivity|]. split; reflexivity. Qed.
Print Assumptions c76_self_refuted.

(** Numbers written differently give equal reports, +0 and -0 too; another speed does not. *)
Example c76_example :
  exists d1 d2 d3,
    fst (parse_sentence true ex_now (lit "$GPVTG,0,T,360,M,5.5,N,1e1,K,A") new_parser) = Ok (PsVtg d1) /\
    fst (parse_sentence true ex_now (lit "$GPVTG,-0.0,T,0360.0,M,55e-1,N,10.,K,A") new_parser) = Ok (PsVtg d2) /\
    fst (parse_sentence true ex_now (lit "$GPVTG,0,T,360,M,5.4,N,1e1,K,A") new_parser) = Ok (PsVtg d3) /\
    ParsedSentence_eqb (PsVtg d1) (PsVtg d2) = true /\ ParsedSentence_eqb (PsVtg d1) (PsVtg d3) = false /\
    vtg_cog_true d1 <> vtg_cog_true d2.
Proof.
  do 3 eexists. split; [vm_compute; reflexivity|]. split; [vm_compute; reflexivity|]. split; [vm_compute; reflexivity|].
  split; [vm_compute; reflexivity|]. split; [vm_compute; reflexivity|]. intros H. discriminate H.
Qed.

Example c76_ais_example :
  exists d, fst (parse_sentence true ex_now ex_turn new_parser) = Ok (PsVesselDynamicData d) /\ reachable true new_parser /\
    ais_result (PsVesselDynamicData d) <> None /\ ParsedSentence_eqb (PsVesselDynamicData d) (PsVesselDynamicData d) = true.
Proof.
  eexists. split; [vm_compute; reflexivity|]. split; [now exists []|]. split; [discriminate|vm_compute; reflexivity].
Qed.
