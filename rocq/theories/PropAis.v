(** C21, C22, C24-C28, C31: every field of the AIS message layouts, for all field values. *)
From Coq Require Import List NArith ZArith Bool String Lia.
From Verif Require Import Base Str F64 Chrono Types Util AisMod Vdm Gnss Parser
  SpecText SpecResult SpecAis SpecTime StrFacts FrontFacts CallFacts ResultFacts BitFacts VdmFacts
  LayoutFacts PropFront.
Import ListNotations.
Open Scope N_scope.

Lemma message_bits ovf now s p tt fff bits station :
  one_fragment s tt fff (armor bits) -> names_station tt station ->
  parse_sentence ovf now s p =
  dispatch_message now (lit "!" ++ fff) bits station (str_eqb fff (lit "VDO")) p.
Proof.
  intros Hs Ht. rewrite (one_fragment_bits _ _ _ _ _ _ _ Hs).
  now rewrite (names_station_unique _ _ _ Ht (names_station_station tt)).
Qed.

(** ** C21 *)

Theorem c21_class_a_position ovf now s p tt fff station
    t repeat mmsi status rot sog acc lon lat cog heading sec manoeuvre spare raim radio rest :
  one_fragment s tt fff (armor (layout_bits
    [U 6 t; U 2 repeat; U 30 mmsi; U 4 status; I 8 rot; U 10 sog; F acc; I 28 lon; I 27 lat; U 12 cog;
     U 9 heading; U 6 sec; U 2 manoeuvre; U 3 spare; F raim; U 19 radio] ++ rest)) ->
  names_station tt station -> t = 1 \/ t = 2 \/ t = 3 ->
  fits 2 repeat -> fits 30 mmsi -> fits 4 status -> fits_signed 8 rot -> fits 10 sog ->
  fits_signed 28 lon -> fits_signed 27 lat -> fits 12 cog -> fits 9 heading -> fits 6 sec ->
  fits 2 manoeuvre -> fits 3 spare -> fits 19 radio ->
  parse_sentence ovf now s p =
  (Ok (PsVesselDynamicData {|
    vdd_own_vessel := str_eqb fff (lit "VDO");
    vdd_station := station;
    vdd_ais_type := AisClassA;
    vdd_mmsi := mmsi;
    vdd_nav_status := nth (N.to_nat status) navigation_statuses NsNotDefined;
    vdd_rot := reported_turn rot;
    vdd_rot_direction := turn_direction rot;
    vdd_sog_knots := tenths 1023 sog;
    vdd_high_position_accuracy := acc;
    vdd_latitude := lat_degrees lat;
    vdd_longitude := lon_degrees lon;
    vdd_cog := tenths 3600 cog;
    vdd_heading_true := whole 511 heading;
    vdd_timestamp_seconds := sec;
    vdd_positioning_system_meta := positioning_state sec;
    vdd_current_gnss_position := None;
    vdd_special_manoeuvre := reported_manoeuvre manoeuvre;
    vdd_raim_flag := raim;
    vdd_class_b_unit_flag := None;
    vdd_class_b_display := None;
    vdd_class_b_dsc := None;
    vdd_class_b_band_flag := None;
    vdd_class_b_msg22_flag := None;
    vdd_class_b_mode_flag := None;
    vdd_class_b_css_flag := None;
    vdd_radio_status := Some radio |}), p).
Proof.
  intros Hs Hst Ht. intros. rewrite (message_bits _ _ _ _ _ _ _ _ Hs Hst).
  assert (fits 6 t) by (destruct Ht as [-> |[-> | ->]]; reflexivity).
  read_layout. unfold dispatch_message. rewrite R.
  destruct Ht as [-> |[-> | ->]]; unfold handle_t1t2t3; field_values;
    rewrite nav_status_value, meta_value, manoeuvre_value, turn_value, direction_value by assumption;
    reflexivity.
Qed.
Print Assumptions c21_class_a_position.

(** The crate's own test sentence. *)
Example c21_example :
  exists d, parse_sentence true ex_now (lit "!AIVDM,1,1,,A,15RTgt0PAso;90TKcjM8h6g208CQ,0*4A") new_parser
            = (Ok (PsVesselDynamicData d), new_parser) /\
    vdd_mmsi d = 371798000 /\ vdd_timestamp_seconds d = 33 /\ vdd_heading_true d = Some (f64_of_Z 215).
Proof.
  eexists. split.
  - apply (c21_class_a_position _ _ _ _ (lit "AI") (lit "VDM") StMobileStation
      1 0 371798000 0 (-127) 123 true (-74037230) 29028980 2240 215 33 0 0 false 34017 []);
      try reflexivity; try (split; [intros X; discriminate X|reflexivity]); [|left; cbn; tauto|now left].
    apply (check_one_fragment _ _ _ (lit "A") _ [lit "0"]). apply check_vdm; [|reflexivity].
    vm_compute. auto.
  - repeat split.
Qed.

(** ** C22 *)

Theorem c22_base_station ovf now s p tt fff station
    repeat mmsi year month day hour minute second acc lon lat epfd spare raim radio rest :
  one_fragment s tt fff (armor (layout_bits
    [U 6 4; U 2 repeat; U 30 mmsi; U 14 year; U 4 month; U 5 day; U 5 hour; U 6 minute; U 6 second; F acc;
     I 28 lon; I 27 lat; U 4 epfd; U 10 spare; F raim; U 19 radio] ++ rest)) ->
  names_station tt station ->
  fits 2 repeat -> fits 30 mmsi -> fits 14 year -> fits 4 month -> fits 5 day -> fits 5 hour ->
  fits 6 minute -> fits 6 second -> fits_signed 28 lon -> fits_signed 27 lat -> fits 4 epfd ->
  fits 10 spare -> fits 19 radio ->
  valid_date (Z.of_N year) month day -> valid_time hour minute second ->
  parse_sentence ovf now s p =
  (Ok (PsBaseStationReport {|
    bsr_own_vessel := str_eqb fff (lit "VDO");
    bsr_station := station;
    bsr_mmsi := mmsi;
    bsr_timestamp := Some (mk_datetime (Z.of_N year) month day hour minute second 0);
    bsr_high_position_accuracy := acc;
    bsr_latitude := lat_degrees lat;
    bsr_longitude := lon_degrees lon;
    bsr_position_fix_type := fix_report epfd;
    bsr_raim_flag := raim;
    bsr_radio_status := radio |}), p).
Proof.
  intros Hs Hst. intros. rewrite (message_bits _ _ _ _ _ _ _ _ Hs Hst).
  read_layout. unfold dispatch_message. rewrite R. unfold handle_t4. field_values.
  rewrite (ymd_and_hms_ok (Z.of_N year)); [reflexivity| |assumption|assumption].
  unfold year_in_range, fits in *. change (2 ^ 14) with 16384 in *. lia.
Qed.
Print Assumptions c22_base_station.

Example c22_example :
  exists d, parse_sentence true ex_now (lit "!AIVDM,1,1,,A,403OviQuMGCqWrRO9>E6fE700@GO,0*4D") new_parser
            = (Ok (PsBaseStationReport d), new_parser) /\
    bsr_mmsi d = 3669702 /\ bsr_timestamp d = Some (mk_datetime 2007 5 14 19 57 39 0) /\
    bsr_position_fix_type d = Some PfSurveyed.
Proof.
  eexists. split.
  - apply (c22_base_station _ _ _ _ (lit "AI") (lit "VDM") StMobileStation
      0 3669702 2007 5 14 19 57 39 true (-45811417) 22130260 7 0 false 67039 []);
      try reflexivity; try (split; [intros X; discriminate X|reflexivity]).
    + apply (check_one_fragment _ _ _ (lit "A") _ [lit "0"]). apply check_vdm; [|reflexivity].
      vm_compute. auto.
    + left. cbn. tauto.
    + unfold valid_date. lia.
    + unfold valid_time. lia.
  - repeat split.
Qed.

(** ** C24 *)

Theorem c24_binary_addressed ovf now s p tt fff station
    repeat mmsi seqno destination retransmit spare dac fid data :
  one_fragment s tt fff (armor (layout_bits
    [U 6 6; U 2 repeat; U 30 mmsi; U 2 seqno; U 30 destination; F retransmit; U 1 spare; U 10 dac; U 6 fid]
    ++ data)) ->
  names_station tt station ->
  fits 2 repeat -> fits 30 mmsi -> fits 2 seqno -> fits 30 destination -> fits 1 spare -> fits 10 dac ->
  fits 6 fid ->
  parse_sentence ovf now s p =
  (Ok (PsBinaryAddressedMessage {|
    bam_own_vessel := str_eqb fff (lit "VDO");
    bam_station := station;
    bam_mmsi := mmsi;
    bam_sequence_number := seqno;
    bam_destination_mmsi := destination;
    bam_retransmit_flag := retransmit;
    bam_dac := dac;
    bam_fid := fid |}), p).
Proof.
  intros Hs Hst. intros. rewrite (message_bits _ _ _ _ _ _ _ _ Hs Hst).
  read_layout. unfold dispatch_message. rewrite R. unfold handle_t6. field_values. reflexivity.
Qed.
Print Assumptions c24_binary_addressed.

Example c24_example :
  exists d, parse_sentence true ex_now (lit "!AIVDM,1,1,,B,6B?n;be:cbapalgc;i6?Ow4,2*4A") new_parser
            = (Ok (PsBinaryAddressedMessage d), new_parser) /\
    bam_mmsi d = 150834090 /\ bam_destination_mmsi d = 313240222 /\ bam_dac d = 669 /\ bam_fid d = 11.
Proof.
  eexists. split.
  - apply (c24_binary_addressed _ _ _ _ (lit "AI") (lit "VDM") StMobileStation
      1 150834090 3 313240222 false 0 669 11
      (be_bits 32 0xEB2F118F ++ be_bits 18 0x1FFC4)); try reflexivity.
    + apply (check_one_fragment _ _ _ (lit "B") _ [lit "2"]). apply check_vdm; [|reflexivity].
      vm_compute. auto.
    + left. cbn. tauto.
  - repeat split.
Qed.

(** ** C25 *)

Theorem c25_sar_aircraft ovf now s p tt fff station
    repeat mmsi altitude sog acc lon lat cog sec regional dte spare assigned raim radio rest :
  one_fragment s tt fff (armor (layout_bits
    [U 6 9; U 2 repeat; U 30 mmsi; U 12 altitude; U 10 sog; F acc; I 28 lon; I 27 lat; U 12 cog; U 6 sec;
     U 8 regional; F dte; U 3 spare; F assigned; F raim; U 20 radio] ++ rest)) ->
  names_station tt station ->
  fits 2 repeat -> fits 30 mmsi -> fits 12 altitude -> fits 10 sog -> fits_signed 28 lon ->
  fits_signed 27 lat -> fits 12 cog -> fits 6 sec -> fits 8 regional -> fits 3 spare -> fits 20 radio ->
  parse_sentence ovf now s p =
  (Ok (PsStandardSarAircraftPositionReport {|
    sar_own_vessel := str_eqb fff (lit "VDO");
    sar_station := station;
    sar_mmsi := mmsi;
    sar_altitude := available 4095 altitude;
    sar_sog_knots := available 1023 sog;
    sar_high_position_accuracy := acc;
    sar_latitude := lat_degrees lat;
    sar_longitude := lon_degrees lon;
    sar_cog := tenths 3600 cog;
    sar_timestamp_seconds := sec;
    sar_regional := regional;
    sar_dte := negb dte;
    sar_assigned := assigned;
    sar_raim_flag := raim;
    sar_radio_status := radio |}), p).
Proof.
  intros Hs Hst. intros. rewrite (message_bits _ _ _ _ _ _ _ _ Hs Hst).
  read_layout. unfold dispatch_message. rewrite R. unfold handle_t9. cbv zeta. field_values.
  unfold available. destruct (altitude =? 4095), (sog =? 1023); reflexivity.
Qed.
Print Assumptions c25_sar_aircraft.

Example c25_example :
  exists d, parse_sentence true ex_now (lit "!AIVDM,1,1,,B,91b55wi;hbOS@OdQAC062Ch2089h,0*30") new_parser
            = (Ok (PsStandardSarAircraftPositionReport d), new_parser) /\
    sar_mmsi d = 111232511 /\ sar_altitude d = Some 303 /\ sar_sog_knots d = Some 42.
Proof.
  eexists. split.
  - apply (c25_sar_aircraft _ _ _ _ (lit "AI") (lit "VDM") StMobileStation
      0 111232511 303 42 false (-3767306) 34886400 1545 15 0 true 0 false false 33392 []);
      try reflexivity; try (split; [intros X; discriminate X|reflexivity]).
    + apply (check_one_fragment _ _ _ (lit "B") _ [lit "0"]). apply check_vdm; [|reflexivity].
      vm_compute. auto.
    + left. cbn. tauto.
  - repeat split.
Qed.

(** ** C26 *)

Theorem c26_utc_inquiry ovf now s p tt fff station repeat mmsi spare destination rest :
  one_fragment s tt fff (armor (layout_bits
    [U 6 10; U 2 repeat; U 30 mmsi; U 2 spare; U 30 destination] ++ rest)) ->
  names_station tt station -> fits 2 repeat -> fits 30 mmsi -> fits 2 spare -> fits 30 destination ->
  parse_sentence ovf now s p =
  (Ok (PsUtcDateInquiry {|
    udi_own_vessel := str_eqb fff (lit "VDO");
    udi_station := station;
    udi_source_mmsi := mmsi;
    udi_destination_mmsi := destination |}), p).
Proof.
  intros Hs Hst. intros. rewrite (message_bits _ _ _ _ _ _ _ _ Hs Hst).
  read_layout. unfold dispatch_message. rewrite R. unfold handle_t10. field_values. reflexivity.
Qed.
Print Assumptions c26_utc_inquiry.

Example c26_example :
  exists d, parse_sentence true ex_now (lit "!AIVDM,1,1,,B,:5MlU41GMK6@,0*6C") new_parser
            = (Ok (PsUtcDateInquiry d), new_parser) /\
    udi_source_mmsi d = 366814480 /\ udi_destination_mmsi d = 366832740.
Proof.
  eexists. split.
  - apply (c26_utc_inquiry _ _ _ _ (lit "AI") (lit "VDM") StMobileStation 0 366814480 0 366832740
             [false; false]); try reflexivity.
    + apply (check_one_fragment _ _ _ (lit "B") _ [lit "0"]). apply check_vdm; [|reflexivity].
      vm_compute. auto.
    + left. cbn. tauto.
  - repeat split.
Qed.

(** ** C27 *)

(** Everything but the flags is decoded as laid out. The flags are read one position too early (the
    unit flag is reported as display flag, the display flag as DSC flag and so on), the RAIM flag is
    the unit flag, and the unit and communication state selector flags are not reported. *)
Theorem c27_class_b_position_partial ovf now s p tt fff station
    repeat mmsi spare sog acc lon lat cog heading sec spare2 unit display dsc band msg22 mode raim selector
    radio rest :
  one_fragment s tt fff (armor (layout_bits
    [U 6 18; U 2 repeat; U 30 mmsi; U 8 spare; U 10 sog; F acc; I 28 lon; I 27 lat; U 12 cog; U 9 heading;
     U 6 sec; U 2 spare2; F unit; F display; F dsc; F band; F msg22; F mode; F raim; F selector; U 19 radio]
    ++ rest)) ->
  names_station tt station ->
  fits 2 repeat -> fits 30 mmsi -> fits 8 spare -> fits 10 sog -> fits_signed 28 lon ->
  fits_signed 27 lat -> fits 12 cog -> fits 9 heading -> fits 6 sec -> fits 2 spare2 -> fits 19 radio ->
  parse_sentence ovf now s p =
  (Ok (PsVesselDynamicData {|
    vdd_own_vessel := str_eqb fff (lit "VDO");
    vdd_station := station;
    vdd_ais_type := AisClassB;
    vdd_mmsi := mmsi;
    vdd_nav_status := NsNotDefined;
    vdd_rot := None;
    vdd_rot_direction := None;
    vdd_sog_knots := tenths 1023 sog;
    vdd_high_position_accuracy := acc;
    vdd_latitude := lat_degrees lat;
    vdd_longitude := lon_degrees lon;
    vdd_cog := tenths 3600 cog;
    vdd_heading_true := whole 511 heading;
    vdd_timestamp_seconds := sec;
    vdd_positioning_system_meta := None;
    vdd_current_gnss_position := None;
    vdd_special_manoeuvre := None;
    vdd_raim_flag := unit;
    vdd_class_b_unit_flag := None;
    vdd_class_b_display := Some unit;
    vdd_class_b_dsc := Some display;
    vdd_class_b_band_flag := Some dsc;
    vdd_class_b_msg22_flag := Some band;
    vdd_class_b_mode_flag := Some msg22;
    vdd_class_b_css_flag := None;
    vdd_radio_status := Some radio |}), p).
Proof.
  intros Hs Hst. intros. rewrite (message_bits _ _ _ _ _ _ _ _ Hs Hst).
  read_layout. unfold dispatch_message. rewrite R. unfold handle_t18. field_values. reflexivity.
Qed.
Print Assumptions c27_class_b_position_partial.

(** A report with RAIM in use, display and message 22 flags unset: RAIM, display and message 22 flags
    come out wrong. *)
Theorem c27_class_b_flags_refuted :
  exists s, one_fragment s (lit "AI") (lit "VDM") (armor (layout_bits
    [U 6 18; U 2 0; U 30 338087471; U 8 0; U 10 1; F false; I 28 (-44443279); I 27 24410724; U 12 796;
     U 9 511; U 6 49; U 2 0; F true; F false; F false; F true; F false; F true; F true; F true;
     U 19 393222])) /\
  exists d, parse_sentence true ex_now s new_parser = (Ok (PsVesselDynamicData d), new_parser) /\
    vdd_class_b_display d = Some true /\ vdd_class_b_msg22_flag d = Some true /\
    vdd_class_b_mode_flag d = Some false /\
  exists s', one_fragment s' (lit "AI") (lit "VDM") (armor (layout_bits
    [U 6 18; U 2 0; U 30 338087471; U 8 0; U 10 1; F false; I 28 (-44443279); I 27 24410724; U 12 796;
     U 9 511; U 6 49; U 2 0; F false; F false; F false; F true; F false; F true; F true; F true;
     U 19 393222])) /\
  exists d', parse_sentence true ex_now s' new_parser = (Ok (PsVesselDynamicData d'), new_parser) /\
    vdd_raim_flag d' = false.
Proof.
  eexists. split; [apply (encode_sentence_one_fragment _ _ (lit "A"));
                   [reflexivity|now apply plain_lit_dec|now left|now apply plain_lit_dec]|].
  eexists. split; [vm_compute; reflexivity|]. do 3 (split; [reflexivity|]).
  eexists. split; [apply (encode_sentence_one_fragment _ _ (lit "A"));
                   [reflexivity|now apply plain_lit_dec|now left|now apply plain_lit_dec]|].
  eexists. split; vm_compute; reflexivity.
Qed.
Print Assumptions c27_class_b_flags_refuted.

Example c27_example :
  exists d, parse_sentence true ex_now (lit "!AIVDM,1,1,,A,B52K>;h00Fc>jpUlNV@ikwpUoP06,0*4C") new_parser
            = (Ok (PsVesselDynamicData d), new_parser) /\
    vdd_mmsi d = 338087471 /\ vdd_class_b_dsc d = Some false.
Proof.
  eexists. split.
  - apply (c27_class_b_position_partial _ _ _ _ (lit "AI") (lit "VDM") StMobileStation
      0 338087471 0 1 false (-44443279) 24410724 796 511 49 0 true false true true true false true true
      393222 []);
      try reflexivity; try (split; [intros X; discriminate X|reflexivity]).
    + apply (check_one_fragment _ _ _ (lit "A") _ [lit "0"]). apply check_vdm; [|reflexivity].
      vm_compute. auto.
    + left. cbn. tauto.
  - repeat split.
Qed.

(** ** C28 *)

(** The name is the 20 character field and the extension field, each without trailing spaces. The
    off-position indicator is the top bit of the dimension to starboard. *)
Theorem c28_aid_to_navigation_partial ovf now s p tt fff station
    repeat mmsi aid name codes acc lon lat bow stern port starboard epfd sec off regional raim virtual
    assigned spare ext ext_codes rest :
  one_fragment s tt fff (armor (layout_bits
    [U 6 21; U 2 repeat; U 30 mmsi; U 5 aid; T 20 codes; F acc; I 28 lon; I 27 lat; U 9 bow; U 9 stern;
     U 6 port; U 6 starboard; U 4 epfd; U 6 sec; F off; U 8 regional; F raim; F virtual; F assigned;
     U 1 spare] ++ rest)) ->
  names_station tt station -> text_field 20 name codes ->
  window rest 0 (6 * 14) = flat_map (be_bits 6) ext_codes -> text_field 14 ext ext_codes ->
  fits 2 repeat -> fits 30 mmsi -> fits 5 aid -> fits_signed 28 lon -> fits_signed 27 lat -> fits 9 bow ->
  fits 9 stern -> fits 6 port -> fits 6 starboard -> fits 4 epfd -> fits 6 sec -> fits 8 regional ->
  fits 1 spare ->
  parse_sentence ovf now s p =
  (Ok (PsAidToNavigationReport {|
    atn_own_vessel := str_eqb fff (lit "VDO");
    atn_station := station;
    atn_mmsi := mmsi;
    atn_aid_type := nth (N.to_nat aid) nav_aid_types NaNotSpecified;
    atn_name := name ++ ext;
    atn_high_position_accuracy := acc;
    atn_latitude := lat_degrees lat;
    atn_longitude := lon_degrees lon;
    atn_dimension_to_bow := Some bow;
    atn_dimension_to_stern := Some stern;
    atn_dimension_to_port := Some port;
    atn_dimension_to_starboard := Some starboard;
    atn_position_fix_type := Some (fix_type epfd);
    atn_timestamp_seconds := sec;
    atn_off_position_indicator := 32 <=? starboard;
    atn_regional := regional;
    atn_raim_flag := raim;
    atn_virtual_aid_flag := virtual;
    atn_assigned_mode_flag := assigned |}), p).
Proof.
  intros Hs Hst Hname Hrest Hext. intros. rewrite (message_bits _ _ _ _ _ _ _ _ Hs Hst).
  read_layout. unfold dispatch_message. rewrite R. unfold handle_t21.
  rewrite (lay_rest _ 14 ext ext_codes 272 rest Hs0 eq_refl Hrest Hext).
  assert (Ro : pick_flag (layout_bits
    [U 6 21; U 2 repeat; U 30 mmsi; U 5 aid; T 20 codes; F acc; I 28 lon; I 27 lat; U 9 bow; U 9 stern;
     U 6 port; U 6 starboard; U 4 epfd; U 6 sec; F off; U 8 regional; F raim; F virtual; F assigned;
     U 1 spare] ++ rest) 243 = (32 <=? starboard)).
  { unfold pick_flag. rewrite (pick_prefix _ 243 1 5 starboard) by (assumption || lia).
    change (2 ^ N.of_nat 5) with 32. destruct (N.leb_spec 32 starboard) as [Hle|Hlt].
    - apply negb_true_iff, N.eqb_neq. intros E. apply N.div_small_iff in E; lia.
    - apply negb_false_iff, N.eqb_eq. now apply N.div_small. }
  rewrite Ro. clear Ro. field_values. rewrite aid_value, fix_value by assumption. reflexivity.
Qed.
Print Assumptions c28_aid_to_navigation_partial.

(** An aid that is off position is reported on position. *)
Theorem c28_off_position_refuted :
  exists s codes, text_field 20 (lit "BUOY") codes /\
  one_fragment s (lit "AI") (lit "VDM") (armor (layout_bits
    [U 6 21; U 2 0; U 30 123456789; U 5 20; T 20 codes; F false; I 28 (-73619155); I 27 28752371; U 9 5;
     U 9 5; U 6 5; U 6 5; U 4 1; U 6 50; F true; U 8 165; F false; F false; F false; U 1 0])) /\
  exists d, parse_sentence true ex_now s new_parser = (Ok (PsAidToNavigationReport d), new_parser) /\
    atn_off_position_indicator d = false.
Proof.
  exists (encode_sentence (lit "AI") (lit "VDM") (lit "A") (layout_bits
    [U 6 21; U 2 0; U 30 123456789; U 5 20; T 20 (map six_code (lit "BUOY") ++ repeat 0 16); F false;
     I 28 (-73619155); I 27 28752371; U 9 5;
     U 9 5; U 6 5; U 6 5; U 4 1; U 6 50; F true; U 8 165; F false; F false; F false; U 1 0])),
    (map six_code (lit "BUOY") ++ repeat 0 16). split.
  - split; [reflexivity|]. split; [repeat constructor|].
    split; [repeat constructor; intros X; discriminate X|].
    split; [cbn; intros H; repeat (destruct H as [H|H]; [discriminate|]); exact H|].
    split; [intros t Ht; apply (f_equal (@rev N)) in Ht; rewrite rev_app_distr in Ht; discriminate Ht|].
    exists 0%nat, (repeat 0 16). split; [reflexivity|]. right. now exists (repeat 0 15).
  - split; [apply (encode_sentence_one_fragment _ _ (lit "A"));
                   [reflexivity|now apply plain_lit_dec|now left|now apply plain_lit_dec]|].
    eexists. split; vm_compute; reflexivity.
Qed.
Print Assumptions c28_off_position_refuted.

(** A name whose 20th character is a space loses that space. *)
Theorem c28_name_refuted :
  exists s, one_fragment s (lit "AI") (lit "VDM") (armor (layout_bits
    [U 6 21; U 2 0; U 30 123456789; U 5 20; T 20 (map six_code (lit "EAST OF THE OLD OAK ")); F false;
     I 28 (-73619155); I 27 28752371; U 9 5; U 9 5; U 6 5; U 6 5; U 4 1; U 6 50; F false; U 8 165; F false;
     F false; F false; U 1 0] ++ flat_map (be_bits 6) (map six_code (lit "TREE") ++ [0]))) /\
  exists d, parse_sentence true ex_now s new_parser = (Ok (PsAidToNavigationReport d), new_parser) /\
    atn_name d = lit "EAST OF THE OLD OAKTREE".
Proof.
  eexists. split; [apply (encode_sentence_one_fragment _ _ (lit "A"));
                   [reflexivity|now apply plain_lit_dec|now left|now apply plain_lit_dec]|].
  eexists. split; vm_compute; reflexivity.
Qed.
Print Assumptions c28_name_refuted.

(** The crate's own test message (there sent in two fragments). *)
Example c28_example :
  let codes := map six_code (lit "CHINA ROSE MURPHY EX") in
  let ext := map six_code (lit "PRESS ALERT") ++ [0; 0; 0] in
  let s := lit "!AIVDM,1,1,,B,E1mg=5J1T4W0h97aRh6ba84<h2d;W:Te=eLvH50```q:D44QDlp0C1DU00,2" in
  text_field 20 (lit "CHINA ROSE MURPHY EX") codes /\ text_field 14 (lit "PRESS ALERT") ext /\
  exists d, parse_sentence true ex_now s new_parser = (Ok (PsAidToNavigationReport d), new_parser) /\
    atn_name d = lit "CHINA ROSE MURPHY EXPRESS ALERT".
Proof.
  cbv zeta.
  assert (H1 : text_field 20 (lit "CHINA ROSE MURPHY EX") (map six_code (lit "CHINA ROSE MURPHY EX"))).
  { split; [reflexivity|]. split; [repeat constructor|].
    split; [repeat constructor; intros X; discriminate X|].
    split; [cbn; intros H; repeat (destruct H as [H|H]; [discriminate|]); exact H|].
    split; [intros t Ht; apply (f_equal (@rev N)) in Ht; rewrite rev_app_distr in Ht; discriminate Ht|].
    exists 0%nat, []. split; [reflexivity|now left]. }
  assert (H2 : text_field 14 (lit "PRESS ALERT") (map six_code (lit "PRESS ALERT") ++ [0; 0; 0])).
  { split; [reflexivity|]. split; [repeat constructor|].
    split; [repeat constructor; intros X; discriminate X|].
    split; [cbn; intros H; repeat (destruct H as [H|H]; [discriminate|]); exact H|].
    split; [intros t Ht; apply (f_equal (@rev N)) in Ht; rewrite rev_app_distr in Ht; discriminate Ht|].
    exists 0%nat, [0; 0; 0]. split; [reflexivity|]. right. now exists [0; 0]. }
  split; [exact H1|]. split; [exact H2|]. eexists. split.
  - apply (c28_aid_to_navigation_partial _ _ _ _ (lit "AI") (lit "VDM") StMobileStation
      0 123456789 20 (lit "CHINA ROSE MURPHY EX") (map six_code (lit "CHINA ROSE MURPHY EX")) false (-73619155) 28752371 5 5 5 5 1 50 false 165
      false false false 0 (lit "PRESS ALERT") (map six_code (lit "PRESS ALERT") ++ [0; 0; 0])
      (flat_map (be_bits 6) (map six_code (lit "PRESS ALERT")) ++ repeat false 10)); try exact H1; try exact H2;
      try reflexivity; try (split; [intros X; discriminate X|reflexivity]).
    + apply (check_one_fragment _ _ _ (lit "B") _ [lit "2"]). apply check_vdm; [|reflexivity].
      vm_compute. auto.
    + left. cbn. tauto.
  - reflexivity.
Qed.

(** ** C31 *)

(** What a long range report really contains: latitude holds the transmitted longitude, longitude the
    transmitted latitude, and speed, course and GNSS status are read from the bits of the latitude. *)
Theorem c31_long_range_partial ovf now s p tt fff station
    repeat mmsi acc raim status lon lat sog cog gnss spare rest :
  one_fragment s tt fff (armor (layout_bits
    [U 6 27; U 2 repeat; U 30 mmsi; F acc; F raim; U 4 status; I 18 lon; I 17 lat; U 6 sog; U 9 cog; F gnss;
     U 1 spare] ++ rest)) ->
  names_station tt station ->
  fits 2 repeat -> fits 30 mmsi -> fits 4 status -> fits_signed 18 lon -> fits_signed 17 lat ->
  fits 6 sog -> fits 9 cog -> fits 1 spare ->
  parse_sentence ovf now s p =
  (Ok (PsVesselDynamicData {|
    vdd_own_vessel := str_eqb fff (lit "VDO");
    vdd_station := station;
    vdd_ais_type := AisClassA;
    vdd_mmsi := mmsi;
    vdd_nav_status := nth (N.to_nat status) navigation_statuses NsNotDefined;
    vdd_rot := None;
    vdd_rot_direction := None;
    vdd_sog_knots := whole 63 (twos 17 lat / 2 ^ 11);
    vdd_high_position_accuracy := acc;
    vdd_latitude := if (lon =? 181000)%Z then None else Some (f64_div (f64_of_Z lon) (f64_of_Z 600));
    vdd_longitude := if (lat =? 181000)%Z then None else Some (f64_div (f64_of_Z lat) (f64_of_Z 600));
    vdd_cog := tenths 91000 (twos 17 lat);
    vdd_heading_true := None;
    vdd_timestamp_seconds := 0;
    vdd_positioning_system_meta := None;
    vdd_current_gnss_position := Some (twos 17 lat / 2 ^ 16 =? 0);
    vdd_special_manoeuvre := None;
    vdd_raim_flag := raim;
    vdd_class_b_unit_flag := None;
    vdd_class_b_display := None;
    vdd_class_b_dsc := None;
    vdd_class_b_band_flag := None;
    vdd_class_b_msg22_flag := None;
    vdd_class_b_mode_flag := None;
    vdd_class_b_css_flag := None;
    vdd_radio_status := None |}), p).
Proof.
  intros Hs Hst. intros. rewrite (message_bits _ _ _ _ _ _ _ _ Hs Hst).
  read_layout. unfold dispatch_message. rewrite R. unfold handle_t27. cbv zeta.
  match goal with Hs : well_sized ?L |- _ =>
    assert (Rl : pick_u64 (layout_bits L ++ rest) 62 17 = twos 17 lat)
      by (apply (lay_iu L 7 17 lat 62 rest Hs); [reflexivity|reflexivity|lia])
  end.
  rewrite (pick_prefix _ 62 6 11 (twos 17 lat) Rl), (pick_prefix _ 62 1 16 (twos 17 lat) Rl), Rl by lia.
  match goal with Ra : pick_i64 ?B 44 18 = _, Rb : pick_i64 ?B 62 17 = _ |- _ =>
    rewrite (coord_value _ _ _ _ _ _ Ra) by (eapply small_i32; [eassumption|lia]);
    rewrite (coord_value _ _ _ _ _ _ Rb) by (eapply small_i32; [eassumption|lia])
  end.
  field_values. rewrite nav_status_value by assumption. unfold whole, tenths.
  change (N.of_nat 11) with 11. change (N.of_nat 16) with 16.
  destruct (twos 17 lat / 2 ^ 11 =? 63), (twos 17 lat =? 91000); reflexivity.
Qed.
Print Assumptions c31_long_range_partial.

(** Position 4 deg 50.4' N 137 deg 1.4' E, 57 knots, course 167, current GNSS position: everything
    is reported wrong (latitude above 137 degrees). *)
Theorem c31_long_range_refuted :
  exists s, one_fragment s (lit "AI") (lit "VDM") (armor (layout_bits
    [U 6 27; U 2 1; U 30 206914217; F false; F false; U 4 2; I 18 82214; I 17 2904; U 6 57; U 9 167; F false;
     U 1 0])) /\
  exists d, parse_sentence true ex_now s new_parser = (Ok (PsVesselDynamicData d), new_parser) /\
    vdd_latitude d = Some (f64_div (f64_of_Z 82214) (f64_of_Z 600)) /\
    vdd_longitude d = Some (f64_div (f64_of_Z 2904) (f64_of_Z 600)) /\
    vdd_sog_knots d = Some (f64_of_Z 1) /\ vdd_cog d <> Some (f64_of_Z 167).
Proof.
  eexists. split; [apply (encode_sentence_one_fragment _ _ (lit "A"));
                   [reflexivity|now apply plain_lit_dec|now left|now apply plain_lit_dec]|].
  eexists. split; [vm_compute; reflexivity|]. repeat split. vm_compute. discriminate.
Qed.
Print Assumptions c31_long_range_refuted.

Example c31_example :
  exists d, parse_sentence true ex_now (lit "!AIVDM,1,1,,B,KC5E2b@U19PFdLbMuc5=ROv62<7m,0*16") new_parser
            = (Ok (PsVesselDynamicData d), new_parser) /\
    vdd_mmsi d = 206914217 /\ vdd_nav_status d = NsNotUnderCommand.
Proof.
  eexists. split.
  - apply (c31_long_range_partial _ _ _ _ (lit "AI") (lit "VDM") StMobileStation
      1 206914217 false false 2 82214 2904 57 167 false 1
      (be_bits 24 0xF6B14D ++ be_bits 24 0x89FF86 ++ be_bits 24 0x08C1F5));
      try reflexivity; try (split; [intros X; discriminate X|reflexivity]).
    + apply (check_one_fragment _ _ _ (lit "B") _ [lit "0"]). apply check_vdm; [|reflexivity].
      vm_compute. auto.
    + left. cbn. tauto.
  - repeat split.
Qed.
