(** C93: transmissions without data. *)
From stdpp Require Import gmap.
From Coq Require Import List NArith ZArith Bool String Lia.
From Verif Require Import Base Str F64 Chrono Types Util AisMod Vdm Gnss Parser Default
  SpecText SpecResult SpecAis SpecTime SpecState SpecDefault SpecMerge SpecComplete StrFacts FrontFacts CallFacts ResultFacts BitFacts VdmFacts
  LayoutFacts StateFacts RunFacts PropFront PropAis PropState PropStatic PropTables PropComplete.
Import ListNotations.
Open Scope N_scope.
Local Opaque pick_string pick_u64 pick_i64 pick_eta parse_f64.

Ltac sized := first [assumption | unfold fits; lia | unfold fits_signed; lia].

(** Position reports of class A and B and of aircraft: the report says what the default report says. *)
Theorem c93_class_a ovf now s p tt fff t repeat mmsi acc spare raim radio rest :
  one_fragment s tt fff (armor (silent_class_a t repeat mmsi acc spare raim radio ++ rest)) -> t = 1 \/ t = 2 \/ t = 3 ->
  fits 2 repeat -> fits 30 mmsi -> fits 3 spare -> fits 19 radio ->
  exists d, parse_sentence ovf now s p = (Ok (PsVesselDynamicData d), p) /\ same_movement d VesselDynamicData_default.
Proof.
  unfold silent_class_a. intros Hs Ht. intros. eexists. split.
  - eapply (c21_class_a_position ovf now s p tt fff (station_of_talker tt)); try exact Hs; try exact Ht; try sized.
    apply names_station_station.
  - repeat split; reflexivity.
Qed.
Print Assumptions c93_class_a.

Theorem c93_class_b ovf now s p tt fff repeat mmsi spare acc spare2 unit display dsc band msg22 mode raim selector radio rest :
  one_fragment s tt fff (armor (silent_class_b repeat mmsi spare acc spare2 unit display dsc band msg22 mode raim selector radio ++ rest)) ->
  fits 2 repeat -> fits 30 mmsi -> fits 8 spare -> fits 2 spare2 -> fits 19 radio ->
  exists d, parse_sentence ovf now s p = (Ok (PsVesselDynamicData d), p) /\ same_movement d VesselDynamicData_default.
Proof.
  unfold silent_class_b. intros Hs. intros. eexists. split.
  - eapply (c27_class_b_position_partial ovf now s p tt fff (station_of_talker tt)); try exact Hs; try sized.
    apply names_station_station.
  - repeat split; reflexivity.
Qed.
Print Assumptions c93_class_b.

Theorem c93_aircraft ovf now s p tt fff repeat mmsi acc regional dte spare assigned raim radio rest :
  one_fragment s tt fff (armor (silent_aircraft repeat mmsi acc regional dte spare assigned raim radio ++ rest)) ->
  fits 2 repeat -> fits 30 mmsi -> fits 8 regional -> fits 3 spare -> fits 20 radio ->
  exists d, parse_sentence ovf now s p = (Ok (PsStandardSarAircraftPositionReport d), p) /\
    same_flight d StandardSarAircraftPositionReport_default.
Proof.
  unfold silent_aircraft. intros Hs. intros. eexists. split.
  - eapply (c25_sar_aircraft ovf now s p tt fff (station_of_talker tt)); try exact Hs; try sized.
    apply names_station_station.
  - repeat split; reflexivity.
Qed.
Print Assumptions c93_aircraft.

Theorem c93_base_station ovf now s p tt fff repeat mmsi year month day hour minute second acc spare raim radio rest :
  one_fragment s tt fff (armor (silent_base repeat mmsi year month day hour minute second acc spare raim radio ++ rest)) ->
  fits 2 repeat -> fits 30 mmsi -> fits 14 year -> fits 4 month -> fits 5 day -> fits 5 hour -> fits 6 minute -> fits 6 second ->
  fits 10 spare -> fits 19 radio -> valid_date (Z.of_N year) month day -> valid_time hour minute second ->
  exists d, parse_sentence ovf now s p = (Ok (PsBaseStationReport d), p) /\ same_place d BaseStationReport_default.
Proof.
  unfold silent_base. intros Hs. intros. eexists. split.
  - eapply (c22_base_station ovf now s p tt fff (station_of_talker tt)); try exact Hs; try sized.
    apply names_station_station.
  - repeat split; reflexivity.
Qed.
Print Assumptions c93_base_station.

(** Part A of a class B static report without a name: what is kept is the default but for the vessel. *)
Theorem c93_part_a ovf now s p fff mmsi : part_a s fff mmsi [] -> stored p (Vessel mmsi) = None ->
  exists d, stored (snd (parse_sentence ovf now s p)) (Vessel mmsi) = Some (inr d) /\ vsd_mmsi d = mmsi /\
    same_vessel d VesselStaticData_default.
Proof.
  intros H Hn. exists (part_a_data (str_eqb fff (lit "VDO")) mmsi []). split; [|repeat split; reflexivity].
  rewrite (part_a_step ovf now s p fff mmsi [] H). cbn [stored] in *. apply fmap_None in Hn.
  unfold t24_store, pull_vsd. cbn [part_a_data vsd_mmsi]. rewrite Hn. cbn [snd push_vsd saved_vsds].
  unfold push_vsd. cbn [saved_vsds]. now rewrite lookup_insert.
Qed.
Print Assumptions c93_part_a.

(** A voyage report without data has no IMO number, texts, types and kind of receiver. *)
Theorem c93_voyage_partial ovf now s p tt fff repeat mmsi version cs nm ds dte spare rest :
  one_fragment s tt fff (armor (silent_voyage repeat mmsi version cs nm ds dte spare ++ rest)) ->
  text_field 7 [] cs -> text_field 20 [] nm -> text_field 20 [] ds ->
  fits 2 repeat -> fits 30 mmsi -> fits 2 version -> fits 1 spare -> clock now ->
  exists d, parse_sentence ovf now s p = (Ok (PsVesselStaticData d), p) /\
    same_vessel d {|
      vsd_own_vessel := false; vsd_ais_type := AisClass_default; vsd_mmsi := 0; vsd_ais_version_indicator := 0;
      vsd_imo_number := vsd_imo_number VesselStaticData_default;
      vsd_call_sign := vsd_call_sign VesselStaticData_default;
      vsd_name := vsd_name VesselStaticData_default;
      vsd_ship_type := vsd_ship_type VesselStaticData_default;
      vsd_cargo_type := vsd_cargo_type VesselStaticData_default;
      vsd_equipment_vendor_id := vsd_equipment_vendor_id VesselStaticData_default;
      vsd_equipment_model := vsd_equipment_model VesselStaticData_default;
      vsd_equipment_serial_number := vsd_equipment_serial_number VesselStaticData_default;
      vsd_dimension_to_bow := Some 0;
      vsd_dimension_to_stern := Some 0;
      vsd_dimension_to_port := Some 0;
      vsd_dimension_to_starboard := Some 0;
      vsd_position_fix_type := vsd_position_fix_type VesselStaticData_default;
      vsd_eta := Some (mk_datetime (dt_year now) (dt_month now) (dt_day now) 23 59 59 0);
      vsd_draught10 := Some 0;
      vsd_destination := vsd_destination VesselStaticData_default;
      vsd_mothership_mmsi := vsd_mothership_mmsi VesselStaticData_default |}.
Proof.
  intros Hs Hc Hn Hd. intros F1 F2 F3 F4 (Y & D & _ & _). eexists. split.
  - eapply (c23_voyage_one_sentence_partial ovf now s p tt fff repeat mmsi version 0 [] cs [] nm 0 0 0 0 0 0 0 0 24 60 0 [] ds);
      try exact Hs; try sized.
    eapply eta_some; try reflexivity; try assumption; [intros (_ & _ & _ & _ & X); discriminate X|left; repeat split|unfold valid_time; lia].
  - repeat split; reflexivity.
Qed.
Print Assumptions c93_voyage_partial.

(** But it claims dimensions of 0 m, a draught of 0 m and an arrival today. *)
Theorem c93_voyage_refuted ovf now s p tt fff repeat mmsi version cs nm ds dte spare rest :
  one_fragment s tt fff (armor (silent_voyage repeat mmsi version cs nm ds dte spare ++ rest)) ->
  text_field 7 [] cs -> text_field 20 [] nm -> text_field 20 [] ds ->
  fits 2 repeat -> fits 30 mmsi -> fits 2 version -> fits 1 spare -> clock now ->
  exists d, parse_sentence ovf now s p = (Ok (PsVesselStaticData d), p) /\
    vsd_dimension_to_bow d <> None /\ vsd_draught10 d <> None /\ vsd_eta d <> None.
Proof.
  intros. destruct (c93_voyage_partial ovf now s p tt fff repeat mmsi version cs nm ds dte spare rest) as (d & E & S); try assumption.
  exists d. split; [exact E|]. destruct S as (_ & _ & _ & _ & _ & _ & _ & _ & S1 & _ & _ & _ & _ & S2 & S3 & _).
  rewrite S1, S2, S3. cbn. repeat split; discriminate.
Qed.
Print Assumptions c93_voyage_refuted.

(** An aid to navigation without data has no type, name and position. *)
Theorem c93_aid_partial ovf now s p tt fff repeat mmsi codes acc off regional raim virtual assigned spare rest :
  one_fragment s tt fff (armor (silent_aid repeat mmsi codes acc off regional raim virtual assigned spare ++ rest)) ->
  text_field 20 [] codes -> window rest 0 84 = List.repeat false 84 ->
  fits 2 repeat -> fits 30 mmsi -> fits 8 regional -> fits 1 spare ->
  exists d, parse_sentence ovf now s p = (Ok (PsAidToNavigationReport d), p) /\
    atn_aid_type d = atn_aid_type AidToNavigationReport_default /\
    atn_name d = atn_name AidToNavigationReport_default /\
    atn_latitude d = atn_latitude AidToNavigationReport_default /\
    atn_longitude d = atn_longitude AidToNavigationReport_default /\
    atn_dimension_to_bow d = Some 0 /\ atn_dimension_to_stern d = Some 0 /\ atn_dimension_to_port d = Some 0 /\
    atn_dimension_to_starboard d = Some 0 /\ atn_position_fix_type d = Some PfUndefined.
Proof.
  intros Hs Hn Hw. intros. eexists. split.
  - eapply (c28_aid_to_navigation_partial ovf now s p tt fff (station_of_talker tt) repeat mmsi 0 [] codes acc 108600000 54600000
      0 0 0 0 0 60 off regional raim virtual assigned spare [] (List.repeat 0 14)); try exact Hs; try sized.
    + apply names_station_station.
    + exact (check_text_field 14 [] 0 (List.repeat 0 14) eq_refl).
  - repeat split; reflexivity.
Qed.
Print Assumptions c93_aid_partial.

(** But it claims dimensions of 0 m and a fix of undefined kind, where the default has none. *)
Theorem c93_aid_refuted ovf now s p tt fff repeat mmsi codes acc off regional raim virtual assigned spare rest :
  one_fragment s tt fff (armor (silent_aid repeat mmsi codes acc off regional raim virtual assigned spare ++ rest)) ->
  text_field 20 [] codes -> window rest 0 84 = List.repeat false 84 ->
  fits 2 repeat -> fits 30 mmsi -> fits 8 regional -> fits 1 spare ->
  exists d, parse_sentence ovf now s p = (Ok (PsAidToNavigationReport d), p) /\
    atn_dimension_to_bow d <> atn_dimension_to_bow AidToNavigationReport_default /\
    atn_position_fix_type d <> atn_position_fix_type AidToNavigationReport_default.
Proof.
  intros. destruct (c93_aid_partial ovf now s p tt fff repeat mmsi codes acc off regional raim virtual assigned spare rest)
    as (d & E & _ & _ & _ & _ & S1 & _ & _ & _ & S2); try assumption.
  exists d. split; [exact E|]. rewrite S1, S2. split; discriminate.
Qed.
Print Assumptions c93_aid_refuted.

(** A long range report without data is reported as a position: 91 degrees of latitude are taken for the longitude,
    181 degrees of longitude for the latitude. *)
Theorem c93_long_range_refuted ovf now s p tt fff repeat mmsi acc raim gnss spare rest :
  one_fragment s tt fff (armor (silent_long_range repeat mmsi acc raim gnss spare ++ rest)) ->
  fits 2 repeat -> fits 30 mmsi -> fits 1 spare ->
  exists d, parse_sentence ovf now s p = (Ok (PsVesselDynamicData d), p) /\
    vdd_latitude d = Some (f64_of_Z 181) /\ vdd_longitude d = Some (f64_of_Z 91) /\ vdd_sog_knots d = Some (f64_of_Z 26) /\
    vdd_cog d <> None.
Proof.
  unfold silent_long_range. intros Hs. intros. eexists. split.
  - eapply (c31_long_range_partial ovf now s p tt fff (station_of_talker tt)); try exact Hs; try sized.
    apply names_station_station.
  - split; [vm_compute; reflexivity|]. split; [vm_compute; reflexivity|]. split; [vm_compute; reflexivity|]. vm_compute. discriminate.
Qed.
Print Assumptions c93_long_range_refuted.

(** A class B static report without data. *)
Theorem c93_part_b_refuted ovf now1 now2 h s1 s2 fff1 fff2 p mmsi :
  part_a s1 fff1 mmsi [] -> part_b s2 fff2 mmsi 0 [] 0 0 [] 0 0 0 0 ->
  stored p (Vessel mmsi) = None -> touches_only ovf (fun e => e <> Vessel mmsi) h p ->
  exists d, results ovf ((now1, s1) :: h ++ [(now2, s2)]) p = Ok PsIncomplete :: results ovf h p ++ [Ok (PsVesselStaticData d)] /\
    vsd_name d = None /\ vsd_call_sign d = None /\ vsd_ship_type d = ShipType_default /\ vsd_cargo_type d = CargoType_default /\
    vsd_equipment_vendor_id d = Some [] /\ vsd_dimension_to_bow d = Some 0 /\ vsd_mothership_mmsi d = Some 0.
Proof.
  intros H1 H2 Hp Hh. eexists. split.
  - unfold results at 1. rewrite (c29_part_a_then_b ovf now1 now2 h s1 s2 fff1 fff2 p mmsi [] 0 [] 0 0 [] 0 0 0 0 H1 H2 Hp Hh).
    cbn [fst]. reflexivity.
  - repeat split; reflexivity.
Qed.
Print Assumptions c93_part_b_refuted.

(** The defaults of the enumerations are what an unlisted talker, status 15, type 0 of a ship, of its cargo and of an aid
    stand for. *)
Theorem c93_enumerations :
  (forall tt station, names_station tt station -> ~ In tt (map fst ais_talkers) -> station = Station_default) /\
  nth 15 navigation_statuses NsUnderWayUsingEngine = NavigationStatus_default /\
  reported_ship_type 0 = ShipType_default /\ cargo_type 0 = CargoType_default /\
  nth 0 nav_aid_types NaLightVessel = NavAidType_default.
Proof.
  split; [|repeat split; reflexivity]. intros tt station [H|[_ ->]] N; [|reflexivity].
  exfalso. apply N. now apply (in_map fst) in H.
Qed.
Print Assumptions c93_enumerations.

(** The default of the class is none of those that reports have: it says that the class is not known. *)
Theorem c93_class ovf now s p r :
  reachable ovf p -> clock now -> (0 <= dt_year now)%Z -> fst (parse_sentence ovf now s p) = Ok r ->
  AisClass_display AisClass_default = lit "unknown" /\
  (forall d, r = PsVesselDynamicData d -> vdd_ais_type d <> AisClass_default) /\
  (forall d, r = PsVesselStaticData d -> vsd_ais_type d <> AisClass_default).
Proof.
  intros Hp Hc Hy H. apply (c100_answer ovf now s p _ Hp Hc Hy) in H.
  assert (D : forall d : VesselDynamicData, report_about ovf now s p (PsVesselDynamicData d) -> vdd_ais_type d <> AisClass_default).
  { intros d X. inversion X; subst.
    - match goal with R : SpecFields.gnss_report _ _ _ _ _ |- _ => inversion R end.
    - match goal with R : ais_report _ _ _ _ _ |- _ => inversion R; subst end; discriminate. }
  assert (V : forall d : VesselStaticData, report_about ovf now s p (PsVesselStaticData d) -> vsd_ais_type d <> AisClass_default).
  { intros d X. inversion X; subst.
    - match goal with R : SpecFields.gnss_report _ _ _ _ _ |- _ => inversion R end.
    - match goal with R : ais_report _ _ _ _ _ |- _ => inversion R; subst end; discriminate.
    - match goal with R : merged _ _ _ |- _ => destruct R as (_ & _ & -> & _) end. discriminate. }
  split; [reflexivity|]. split; intros d ->; [now apply D|now apply V].
Qed.
Print Assumptions c93_class.

Example c93_class_example :
  (forall ovf, reachable ovf new_parser) /\ clock ex_now /\ (0 <= dt_year ex_now)%Z /\
  exists d, fst (parse_sentence true ex_now (lit "!AIVDM,1,1,,A,15RTgt0PAso;90TKcjM8h6g208CQ,0*4A") new_parser)
    = Ok (PsVesselDynamicData d) /\ vdd_ais_type d = AisClassA.
Proof.
  split; [intros; now exists []|]. split; [vm_compute; repeat split; intuition discriminate|].
  split; [now vm_compute|]. eexists. split; [vm_compute; reflexivity|reflexivity].
Qed.

(** The remaining values of the defaults are those of a transmission in which every other bit is 0, by an unlisted
    talker and not of the own vessel: search and rescue aircraft (data terminal bit set, as it is reported inverted),
    binary message and inquiry give the whole default. *)
Theorem c93_whole_defaults ovf now s p tt station :
  names_station tt station -> ~ In tt (map fst ais_talkers) ->
  (forall rest, one_fragment s tt (lit "VDM") (armor (layout_bits
    [U 6 9; U 2 0; U 30 0; U 12 4095; U 10 1023; F false; I 28 108600000; I 27 54600000; U 12 3600; U 6 0;
     U 8 0; F true; U 3 0; F false; F false; U 20 0] ++ rest)) ->
   parse_sentence ovf now s p = (Ok (PsStandardSarAircraftPositionReport StandardSarAircraftPositionReport_default), p)) /\
  (forall rest, one_fragment s tt (lit "VDM") (armor (layout_bits
    [U 6 6; U 2 0; U 30 0; U 2 0; U 30 0; F false; U 1 0; U 10 0; U 6 0] ++ rest)) ->
   parse_sentence ovf now s p = (Ok (PsBinaryAddressedMessage BinaryAddressedMessage_default), p)) /\
  (forall rest, one_fragment s tt (lit "VDM") (armor (layout_bits [U 6 10; U 2 0; U 30 0; U 2 0; U 30 0] ++ rest)) ->
   parse_sentence ovf now s p = (Ok (PsUtcDateInquiry UtcDateInquiry_default), p)).
Proof.
  intros N L. assert (station = StOther) as -> by (destruct N as [H|[_ H]]; [now apply (in_map fst) in H|exact H]).
  repeat split; intros rest Hs.
  - now apply (c25_sar_aircraft ovf now s p tt (lit "VDM") StOther 0 0 4095 1023 false 108600000 54600000 3600 0 0 true 0 false false 0 rest Hs N).
  - now apply (c24_binary_addressed ovf now s p tt (lit "VDM") StOther 0 0 0 0 false 0 0 0 rest Hs N).
  - now apply (c26_utc_inquiry ovf now s p tt (lit "VDM") StOther 0 0 0 0 rest Hs N).
Qed.
Print Assumptions c93_whole_defaults.

(** The same for the values of the other reports that the theorems above leave out. *)
Theorem c93_remaining_defaults ovf now s p tt station d :
  names_station tt station -> ~ In tt (map fst ais_talkers) ->
  (forall t rest, t = 1 \/ t = 2 \/ t = 3 -> one_fragment s tt (lit "VDM") (armor (layout_bits
    [U 6 t; U 2 0; U 30 0; U 4 15; I 8 (-128); U 10 1023; F false; I 28 108600000; I 27 54600000; U 12 3600;
     U 9 511; U 6 0; U 2 0; U 3 0; F false; U 19 0] ++ rest)) ->
   fst (parse_sentence ovf now s p) = Ok (PsVesselDynamicData d) ->
   d = {|
     vdd_own_vessel := vdd_own_vessel VesselDynamicData_default;
     vdd_station := vdd_station VesselDynamicData_default;
     vdd_ais_type := AisClassA;
     vdd_mmsi := vdd_mmsi VesselDynamicData_default;
     vdd_nav_status := vdd_nav_status VesselDynamicData_default;
     vdd_rot := vdd_rot VesselDynamicData_default;
     vdd_rot_direction := vdd_rot_direction VesselDynamicData_default;
     vdd_sog_knots := vdd_sog_knots VesselDynamicData_default;
     vdd_high_position_accuracy := vdd_high_position_accuracy VesselDynamicData_default;
     vdd_latitude := vdd_latitude VesselDynamicData_default;
     vdd_longitude := vdd_longitude VesselDynamicData_default;
     vdd_cog := vdd_cog VesselDynamicData_default;
     vdd_heading_true := vdd_heading_true VesselDynamicData_default;
     vdd_timestamp_seconds := vdd_timestamp_seconds VesselDynamicData_default;
     vdd_positioning_system_meta := Some PsOperative;
     vdd_current_gnss_position := vdd_current_gnss_position VesselDynamicData_default;
     vdd_special_manoeuvre := vdd_special_manoeuvre VesselDynamicData_default;
     vdd_raim_flag := vdd_raim_flag VesselDynamicData_default;
     vdd_class_b_unit_flag := vdd_class_b_unit_flag VesselDynamicData_default;
     vdd_class_b_display := vdd_class_b_display VesselDynamicData_default;
     vdd_class_b_dsc := vdd_class_b_dsc VesselDynamicData_default;
     vdd_class_b_band_flag := vdd_class_b_band_flag VesselDynamicData_default;
     vdd_class_b_msg22_flag := vdd_class_b_msg22_flag VesselDynamicData_default;
     vdd_class_b_mode_flag := vdd_class_b_mode_flag VesselDynamicData_default;
     vdd_class_b_css_flag := vdd_class_b_css_flag VesselDynamicData_default;
     vdd_radio_status := Some 0 |}) /\
  (forall year month day hour minute second rest b, one_fragment s tt (lit "VDM") (armor (layout_bits
    [U 6 4; U 2 0; U 30 0; U 14 year; U 4 month; U 5 day; U 5 hour; U 6 minute; U 6 second; F false;
     I 28 108600000; I 27 54600000; U 4 0; U 10 0; F false; U 19 0] ++ rest)) ->
   fits 14 year -> fits 4 month -> fits 5 day -> fits 5 hour -> fits 6 minute -> fits 6 second ->
   valid_date (Z.of_N year) month day -> valid_time hour minute second ->
   fst (parse_sentence ovf now s p) = Ok (PsBaseStationReport b) ->
   b = {|
     bsr_own_vessel := bsr_own_vessel BaseStationReport_default;
     bsr_station := bsr_station BaseStationReport_default;
     bsr_mmsi := bsr_mmsi BaseStationReport_default;
     bsr_timestamp := Some (mk_datetime (Z.of_N year) month day hour minute second 0);
     bsr_high_position_accuracy := bsr_high_position_accuracy BaseStationReport_default;
     bsr_latitude := bsr_latitude BaseStationReport_default;
     bsr_longitude := bsr_longitude BaseStationReport_default;
     bsr_position_fix_type := bsr_position_fix_type BaseStationReport_default;
     bsr_raim_flag := bsr_raim_flag BaseStationReport_default;
     bsr_radio_status := bsr_radio_status BaseStationReport_default |}) /\
  (forall rest a, one_fragment s tt (lit "VDM") (armor (layout_bits
    [U 6 21; U 2 0; U 30 0; U 5 0; T 20 (List.repeat 0 20); F false; I 28 108600000; I 27 54600000; U 9 0; U 9 0;
     U 6 0; U 6 0; U 4 0; U 6 0; F false; U 8 0; F false; F false; F false; U 1 0] ++ rest)) ->
   window rest 0 84 = List.repeat false 84 ->
   fst (parse_sentence ovf now s p) = Ok (PsAidToNavigationReport a) ->
   a = {|
     atn_own_vessel := atn_own_vessel AidToNavigationReport_default;
     atn_station := atn_station AidToNavigationReport_default;
     atn_mmsi := atn_mmsi AidToNavigationReport_default;
     atn_aid_type := atn_aid_type AidToNavigationReport_default;
     atn_name := atn_name AidToNavigationReport_default;
     atn_high_position_accuracy := atn_high_position_accuracy AidToNavigationReport_default;
     atn_latitude := atn_latitude AidToNavigationReport_default;
     atn_longitude := atn_longitude AidToNavigationReport_default;
     atn_dimension_to_bow := Some 0;
     atn_dimension_to_stern := Some 0;
     atn_dimension_to_port := Some 0;
     atn_dimension_to_starboard := Some 0;
     atn_position_fix_type := Some PfUndefined;
     atn_timestamp_seconds := atn_timestamp_seconds AidToNavigationReport_default;
     atn_off_position_indicator := atn_off_position_indicator AidToNavigationReport_default;
     atn_regional := atn_regional AidToNavigationReport_default;
     atn_raim_flag := atn_raim_flag AidToNavigationReport_default;
     atn_virtual_aid_flag := atn_virtual_aid_flag AidToNavigationReport_default;
     atn_assigned_mode_flag := atn_assigned_mode_flag AidToNavigationReport_default |}) /\
  (forall m, part_a s (lit "VDM") 0 [] -> stored p (Vessel 0) = None ->
   stored (snd (parse_sentence ovf now s p)) (Vessel 0) = Some (inr m) ->
   vsd_own_vessel m = vsd_own_vessel VesselStaticData_default /\ vsd_mmsi m = vsd_mmsi VesselStaticData_default /\
   vsd_ais_version_indicator m = vsd_ais_version_indicator VesselStaticData_default).
Proof.
  intros N L. assert (station = StOther) as -> by (destruct N as [H|[_ H]]; [now apply (in_map fst) in H|exact H]).
  split; [|split; [|split]].
  - intros t rest Ht Hs E.
    rewrite (c21_class_a_position ovf now s p tt (lit "VDM") StOther t 0 0 15 (-128) 1023 false 108600000 54600000 3600 511 0 0 0 false 0 rest Hs N Ht) in E by sized.
    cbn [fst] in E. injection E as <-. reflexivity.
  - intros year month day hour minute second rest b Hs F1 F2 F3 F4 F5 F6 V1 V2 E.
    rewrite (c22_base_station ovf now s p tt (lit "VDM") StOther 0 0 year month day hour minute second false 108600000 54600000 0 0 false 0 rest Hs N) in E by sized.
    cbn [fst] in E. injection E as <-. reflexivity.
  - intros rest a Hs Hw E.
    rewrite (c28_aid_to_navigation_partial ovf now s p tt (lit "VDM") StOther 0 0 0 [] (List.repeat 0 20) false 108600000 54600000
      0 0 0 0 0 0 false 0 false false false 0 [] (List.repeat 0 14) rest Hs N
      (check_text_field 20 [] 0 (List.repeat 0 20) eq_refl) Hw (check_text_field 14 [] 0 (List.repeat 0 14) eq_refl)) in E by sized.
    cbn [fst] in E. injection E as <-. reflexivity.
  - intros m Ha Hn E. rewrite (part_a_step ovf now s p (lit "VDM") 0 [] Ha) in E. cbn [stored] in *. apply fmap_None in Hn.
    unfold t24_store, pull_vsd in E. cbn [part_a_data vsd_mmsi] in E. rewrite Hn in E. cbn [snd push_vsd saved_vsds] in E.
    unfold push_vsd in E. cbn [saved_vsds] in E. rewrite lookup_insert in E. cbn in E. injection E as <-. repeat split; reflexivity.
Qed.
Print Assumptions c93_remaining_defaults.

Definition ex_silent : list bool := silent_class_a 1 0 351759000 false 0 false 0.
Example c93_example : exists s,
  one_fragment s (lit "AI") (lit "VDM") (armor (ex_silent ++ [])) /\ List.length s = 47%nat /\
  (forall w, exists s', one_fragment s' (lit "AI") (lit "VDM")
    (armor (silent_voyage 0 351759000 0 (List.repeat 0 7) (List.repeat 0 20) (List.repeat 0 20) false w ++ []))) /\
  text_field 7 [] (List.repeat 0 7) /\ text_field 20 [] (List.repeat 0 20) /\
  window (List.repeat false 0) 0 84 = List.repeat false 84.
Proof.
  eexists. split; [apply (encode_sentence_one_fragment _ _ (lit "A"));
    [reflexivity|now apply plain_lit_dec|now left|now apply plain_lit_dec]|].
  split; [vm_compute; reflexivity|].
  split; [|split; [exact (check_text_field 7 [] 0 (List.repeat 0 7) eq_refl)
    |split; [exact (check_text_field 20 [] 0 (List.repeat 0 20) eq_refl)|reflexivity]]].
  intros w. eexists. apply (encode_sentence_one_fragment _ _ (lit "A"));
    [reflexivity|now apply plain_lit_dec|now left|now apply plain_lit_dec].
Qed.

Example c93_parts_example : exists s1 s2,
  part_a s1 (lit "VDM") 351759000 [] /\ part_b s2 (lit "VDM") 351759000 0 [] 0 0 [] 0 0 0 0.
Proof.
  do 2 eexists. split.
  - exists (lit "AI"), 0, (List.repeat 0 20), []. split; [reflexivity|]. split; [reflexivity|].
    split; [exact (check_text_field 20 [] 0 (List.repeat 0 20) eq_refl)|]. split; [now left; left|].
    apply (encode_sentence_one_fragment _ _ (lit "A")); [reflexivity|now apply plain_lit_dec|now left|now apply plain_lit_dec].
  - exists (lit "AI"), 0, (List.repeat 0 3), (List.repeat 0 7), [].
    split; [reflexivity|]. split; [reflexivity|]. split; [reflexivity|].
    split; [exact (check_text_field 3 [] 0 (List.repeat 0 3) eq_refl)|].
    split; [reflexivity|]. split; [reflexivity|].
    split; [exact (check_text_field 7 [] 0 (List.repeat 0 7) eq_refl)|].
    do 4 (split; [reflexivity|]).
    apply (encode_sentence_one_fragment _ _ (lit "A")); [reflexivity|now apply plain_lit_dec|now left|now apply plain_lit_dec].
Qed.

Example c93_whole_example :
  names_station (lit "XX") StOther /\ ~ In (lit "XX") (map fst ais_talkers) /\
  (exists s, one_fragment s (lit "XX") (lit "VDM") (armor (layout_bits [U 6 10; U 2 0; U 30 0; U 2 0; U 30 0] ++ [])) /\
    firstn 26 s = lit "!XXVDM,1,1,,A,:00000000000") /\
  (exists s, one_fragment s (lit "XX") (lit "VDM") (armor (layout_bits
    [U 6 21; U 2 0; U 30 0; U 5 0; T 20 (List.repeat 0 20); F false; I 28 108600000; I 27 54600000; U 9 0; U 9 0;
     U 6 0; U 6 0; U 4 0; U 6 0; F false; U 8 0; F false; F false; F false; U 1 0] ++ []))).
Proof.
  assert (N : ~ In (lit "XX") (map fst ais_talkers)) by (vm_compute; intuition discriminate).
  split; [right; split; [exact N|reflexivity]|]. split; [exact N|]. split.
  - eexists. split; [apply (encode_sentence_one_fragment _ _ (lit "A"));
      [reflexivity|now apply plain_lit_dec|now left|now apply plain_lit_dec]|]. vm_compute. reflexivity.
  - eexists. apply (encode_sentence_one_fragment _ _ (lit "A"));
      [reflexivity|now apply plain_lit_dec|now left|now apply plain_lit_dec].
Qed.
