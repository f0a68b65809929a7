(** C100: the answer to every call and what the parser keeps after it. *)
From stdpp Require Import gmap.
From Coq Require Import List NArith ZArith Bool String.
From Verif Require Import Base Str F64 Chrono Types SpecText SpecResult SpecTime SpecAis SpecState SpecFields SpecGnss
  SpecMerge SpecPanic SpecError SpecWait.
Import ListNotations.
Open Scope N_scope.

(** ** AIS messages of any bits; bits past the end count as zero *)

(** The signed number in bits [i], ..., [i+n-1]; the flag in bit [i]; the text of [n] characters from bit [i] on. *)
Definition signed_at (bits : list bool) (i n : nat) : Z := signed_value (window bits i n).
Definition flag_at (bits : list bool) (i : nat) : bool := nth i bits false.
Definition text_at (bits : list bool) (i n : nat) (text : str) : Prop :=
  text_field n text (map (fun k => bits_at bits (i + 6 * k) 6) (seq 0 n)).

(** Coordinates of long range reports: 1/10 minutes. *)
Definition coarse_degrees (raw : Z) : option f64 :=
  if (raw =? 181000)%Z then None else Some (f64_div (f64_of_Z raw) (f64_of_Z 600)).

(** The report about the message [bits], received at [now] by the station [st] ([own]: about the own vessel). For
    the positions that differ from ITU-R M.1371 see C23, C27, C28 and C31. *)
Inductive ais_report (now : datetime) (bits : list bool) (st : Station) (own : bool) : ParsedSentence -> Prop :=
| report_1_2_3 : In (bits_at bits 0 6) [1; 2; 3] ->
    ais_report now bits st own (PsVesselDynamicData {|
      vdd_own_vessel := own;
      vdd_station := st;
      vdd_ais_type := AisClassA;
      vdd_mmsi := bits_at bits 8 30;
      vdd_nav_status := nth (N.to_nat (bits_at bits 38 4)) navigation_statuses NsNotDefined;
      vdd_rot := reported_turn (signed_at bits 42 8);
      vdd_rot_direction := turn_direction (signed_at bits 42 8);
      vdd_sog_knots := tenths 1023 (bits_at bits 50 10);
      vdd_high_position_accuracy := flag_at bits 60;
      vdd_latitude := lat_degrees (signed_at bits 89 27);
      vdd_longitude := lon_degrees (signed_at bits 61 28);
      vdd_cog := tenths 3600 (bits_at bits 116 12);
      vdd_heading_true := whole 511 (bits_at bits 128 9);
      vdd_timestamp_seconds := bits_at bits 137 6;
      vdd_positioning_system_meta := positioning_state (bits_at bits 137 6);
      vdd_current_gnss_position := None;
      vdd_special_manoeuvre := reported_manoeuvre (bits_at bits 143 2);
      vdd_raim_flag := flag_at bits 148;
      vdd_class_b_unit_flag := None;
      vdd_class_b_display := None;
      vdd_class_b_dsc := None;
      vdd_class_b_band_flag := None;
      vdd_class_b_msg22_flag := None;
      vdd_class_b_mode_flag := None;
      vdd_class_b_css_flag := None;
      vdd_radio_status := Some (bits_at bits 149 19) |})
| report_4 : bits_at bits 0 6 = 4 ->
    valid_date (Z.of_N (bits_at bits 38 14)) (bits_at bits 52 4) (bits_at bits 56 5) ->
    valid_time (bits_at bits 61 5) (bits_at bits 66 6) (bits_at bits 72 6) ->
    ais_report now bits st own (PsBaseStationReport {|
      bsr_own_vessel := own;
      bsr_station := st;
      bsr_mmsi := bits_at bits 8 30;
      bsr_timestamp := Some (mk_datetime (Z.of_N (bits_at bits 38 14)) (bits_at bits 52 4) (bits_at bits 56 5)
                               (bits_at bits 61 5) (bits_at bits 66 6) (bits_at bits 72 6) 0);
      bsr_high_position_accuracy := flag_at bits 78;
      bsr_latitude := lat_degrees (signed_at bits 107 27);
      bsr_longitude := lon_degrees (signed_at bits 79 28);
      bsr_position_fix_type := fix_report (bits_at bits 134 4);
      bsr_raim_flag := flag_at bits 148;
      bsr_radio_status := bits_at bits 149 19 |})
| report_5 call_sign name eta destination : bits_at bits 0 6 = 5 ->
    text_at bits 70 7 call_sign -> text_at bits 112 20 name -> text_at bits 302 20 destination ->
    eta_report now (bits_at bits 274 4) (bits_at bits 278 5) (bits_at bits 283 5) (bits_at bits 288 6)
      (bits_at bits 294 6) eta ->
    ais_report now bits st own (PsVesselStaticData {|
      vsd_own_vessel := own;
      vsd_ais_type := AisClassB;
      vsd_mmsi := bits_at bits 8 30;
      vsd_ais_version_indicator := bits_at bits 38 2;
      vsd_imo_number := available 0 (bits_at bits 40 30);
      vsd_call_sign := text_value call_sign;
      vsd_name := text_value name;
      vsd_ship_type := reported_ship_type (bits_at bits 232 8);
      vsd_cargo_type := cargo_type (bits_at bits 232 8);
      vsd_equipment_vendor_id := None;
      vsd_equipment_model := None;
      vsd_equipment_serial_number := None;
      vsd_dimension_to_bow := Some (bits_at bits 240 9);
      vsd_dimension_to_stern := Some (bits_at bits 249 9);
      vsd_dimension_to_port := Some (bits_at bits 258 6);
      vsd_dimension_to_starboard := Some (bits_at bits 264 6);
      vsd_position_fix_type := fix_report (bits_at bits 270 4);
      vsd_eta := eta;
      vsd_draught10 := Some (bits_at bits 294 8);
      vsd_destination := text_value destination;
      vsd_mothership_mmsi := None |})
| report_6 : bits_at bits 0 6 = 6 ->
    ais_report now bits st own (PsBinaryAddressedMessage {|
      bam_own_vessel := own;
      bam_station := st;
      bam_mmsi := bits_at bits 8 30;
      bam_sequence_number := bits_at bits 38 2;
      bam_destination_mmsi := bits_at bits 40 30;
      bam_retransmit_flag := flag_at bits 70;
      bam_dac := bits_at bits 72 10;
      bam_fid := bits_at bits 82 6 |})
| report_9 : bits_at bits 0 6 = 9 ->
    ais_report now bits st own (PsStandardSarAircraftPositionReport {|
      sar_own_vessel := own;
      sar_station := st;
      sar_mmsi := bits_at bits 8 30;
      sar_altitude := available 4095 (bits_at bits 38 12);
      sar_sog_knots := available 1023 (bits_at bits 50 10);
      sar_high_position_accuracy := flag_at bits 60;
      sar_latitude := lat_degrees (signed_at bits 89 27);
      sar_longitude := lon_degrees (signed_at bits 61 28);
      sar_cog := tenths 3600 (bits_at bits 116 12);
      sar_timestamp_seconds := bits_at bits 128 6;
      sar_regional := bits_at bits 134 8;
      sar_dte := negb (flag_at bits 142);
      sar_assigned := flag_at bits 146;
      sar_raim_flag := flag_at bits 147;
      sar_radio_status := bits_at bits 148 20 |})
| report_10 : bits_at bits 0 6 = 10 ->
    ais_report now bits st own (PsUtcDateInquiry {|
      udi_own_vessel := own;
      udi_station := st;
      udi_source_mmsi := bits_at bits 8 30;
      udi_destination_mmsi := bits_at bits 40 30 |})
| report_18 : bits_at bits 0 6 = 18 ->
    ais_report now bits st own (PsVesselDynamicData {|
      vdd_own_vessel := own;
      vdd_station := st;
      vdd_ais_type := AisClassB;
      vdd_mmsi := bits_at bits 8 30;
      vdd_nav_status := NsNotDefined;
      vdd_rot := None;
      vdd_rot_direction := None;
      vdd_sog_knots := tenths 1023 (bits_at bits 46 10);
      vdd_high_position_accuracy := flag_at bits 56;
      vdd_latitude := lat_degrees (signed_at bits 85 27);
      vdd_longitude := lon_degrees (signed_at bits 57 28);
      vdd_cog := tenths 3600 (bits_at bits 112 12);
      vdd_heading_true := whole 511 (bits_at bits 124 9);
      vdd_timestamp_seconds := bits_at bits 133 6;
      vdd_positioning_system_meta := None;
      vdd_current_gnss_position := None;
      vdd_special_manoeuvre := None;
      vdd_raim_flag := flag_at bits 141;
      vdd_class_b_unit_flag := None;
      vdd_class_b_display := Some (flag_at bits 141);
      vdd_class_b_dsc := Some (flag_at bits 142);
      vdd_class_b_band_flag := Some (flag_at bits 143);
      vdd_class_b_msg22_flag := Some (flag_at bits 144);
      vdd_class_b_mode_flag := Some (flag_at bits 145);
      vdd_class_b_css_flag := None;
      vdd_radio_status := Some (bits_at bits 149 19) |})
| report_21 name extension : bits_at bits 0 6 = 21 ->
    text_at bits 43 20 name -> text_at bits 272 14 extension ->
    ais_report now bits st own (PsAidToNavigationReport {|
      atn_own_vessel := own;
      atn_station := st;
      atn_mmsi := bits_at bits 8 30;
      atn_aid_type := nth (N.to_nat (bits_at bits 38 5)) nav_aid_types NaNotSpecified;
      atn_name := name ++ extension;
      atn_high_position_accuracy := flag_at bits 163;
      atn_latitude := lat_degrees (signed_at bits 192 27);
      atn_longitude := lon_degrees (signed_at bits 164 28);
      atn_dimension_to_bow := Some (bits_at bits 219 9);
      atn_dimension_to_stern := Some (bits_at bits 228 9);
      atn_dimension_to_port := Some (bits_at bits 237 6);
      atn_dimension_to_starboard := Some (bits_at bits 243 6);
      atn_position_fix_type := Some (fix_type (bits_at bits 249 4));
      atn_timestamp_seconds := bits_at bits 253 6;
      atn_off_position_indicator := flag_at bits 243;
      atn_regional := bits_at bits 260 8;
      atn_raim_flag := flag_at bits 268;
      atn_virtual_aid_flag := flag_at bits 269;
      atn_assigned_mode_flag := flag_at bits 270 |})
| report_27 : bits_at bits 0 6 = 27 ->
    ais_report now bits st own (PsVesselDynamicData {|
      vdd_own_vessel := own;
      vdd_station := st;
      vdd_ais_type := AisClassA;
      vdd_mmsi := bits_at bits 8 30;
      vdd_nav_status := nth (N.to_nat (bits_at bits 40 4)) navigation_statuses NsNotDefined;
      vdd_rot := None;
      vdd_rot_direction := None;
      vdd_sog_knots := whole 63 (bits_at bits 62 6);
      vdd_high_position_accuracy := flag_at bits 38;
      vdd_latitude := coarse_degrees (signed_at bits 44 18);
      vdd_longitude := coarse_degrees (signed_at bits 62 17);
      vdd_cog := tenths 91000 (bits_at bits 62 17);
      vdd_heading_true := None;
      vdd_timestamp_seconds := 0;
      vdd_positioning_system_meta := None;
      vdd_current_gnss_position := Some (negb (flag_at bits 62));
      vdd_special_manoeuvre := None;
      vdd_raim_flag := flag_at bits 39;
      vdd_class_b_unit_flag := None;
      vdd_class_b_display := None;
      vdd_class_b_dsc := None;
      vdd_class_b_band_flag := None;
      vdd_class_b_msg22_flag := None;
      vdd_class_b_mode_flag := None;
      vdd_class_b_css_flag := None;
      vdd_radio_status := None |}).

(** What the message [bits] says as a part of a static report (type 24): part A the name, part B the rest. *)
Inductive part_says (bits : list bool) (own : bool) : VesselStaticData -> Prop :=
| says_a name : bits_at bits 0 6 = 24 -> bits_at bits 38 2 = 0 -> text_at bits 40 120 name ->
    part_says bits own {|
      vsd_own_vessel := own;
      vsd_ais_type := AisClassB;
      vsd_mmsi := bits_at bits 8 30;
      vsd_ais_version_indicator := 0;
      vsd_imo_number := None;
      vsd_call_sign := None;
      vsd_name := text_value name;
      vsd_ship_type := ShNotAvailable;
      vsd_cargo_type := CaUndefined;
      vsd_equipment_vendor_id := None;
      vsd_equipment_model := None;
      vsd_equipment_serial_number := None;
      vsd_dimension_to_bow := None;
      vsd_dimension_to_stern := None;
      vsd_dimension_to_port := None;
      vsd_dimension_to_starboard := None;
      vsd_position_fix_type := None;
      vsd_eta := None;
      vsd_draught10 := None;
      vsd_destination := None;
      vsd_mothership_mmsi := None |}
| says_b vendor call_sign : bits_at bits 0 6 = 24 -> bits_at bits 38 2 = 1 ->
    text_at bits 48 3 vendor -> text_at bits 90 7 call_sign ->
    part_says bits own {|
      vsd_own_vessel := own;
      vsd_ais_type := AisClassB;
      vsd_mmsi := bits_at bits 8 30;
      vsd_ais_version_indicator := 0;
      vsd_imo_number := None;
      vsd_call_sign := text_value call_sign;
      vsd_name := None;
      vsd_ship_type := reported_ship_type (bits_at bits 40 8);
      vsd_cargo_type := cargo_type (bits_at bits 40 8);
      vsd_equipment_vendor_id := Some vendor;
      vsd_equipment_model := Some (bits_at bits 66 4);
      vsd_equipment_serial_number := Some (bits_at bits 70 20);
      vsd_dimension_to_bow := Some (bits_at bits 132 9);
      vsd_dimension_to_stern := Some (bits_at bits 141 9);
      vsd_dimension_to_port := Some (bits_at bits 150 6);
      vsd_dimension_to_starboard := Some (bits_at bits 156 6);
      vsd_position_fix_type := None;
      vsd_eta := None;
      vsd_draught10 := None;
      vsd_destination := None;
      vsd_mothership_mmsi := Some (bits_at bits 132 30) |}.

(** ** Calls *)

(** [r] reports what the sentence [s] says, together with what the parser has kept. *)
Inductive report_about (ovf : bool) (now : datetime) (s : str) (p : NmeaParser) : ParsedSentence -> Prop :=
| about_fields tt fff nav fields r : gnss_with s tt fff fields -> names_system tt nav ->
    gnss_report now nav fields fff r -> report_about ovf now s p r
| about_satellites tt c n fields nav all sats :
    gsv_message s tt c n fields -> c < 2 ^ 32 - 1 -> names_system tt nav -> all n = fields ->
    (forall k, 1 <= k <= c -> k <> n -> Forall plain (all k) /\ all k <> [] /\
       stored p (Text (gsv_key tt c k)) = Some (inl (join ((lit "$" ++ tt ++ lit "GSV") :: all k)))) ->
    (forall k, 1 <= k <= c -> satellites nav (all k) (sats k)) ->
    report_about ovf now s p (PsGsv (flat_map sats (numbers_to c)))
| about_message tt fff payload st r : completes s tt fff p payload -> readable ovf payload -> names_station tt st ->
    ais_report now (payload_bits payload) st (str_eqb fff (lit "VDO")) r -> report_about ovf now s p r
| about_parts tt fff payload v w d : completes s tt fff p payload -> readable ovf payload ->
    part_says (payload_bits payload) (str_eqb fff (lit "VDO")) v ->
    stored p (Vessel (vsd_mmsi v)) = Some (inr w) -> merged v w d ->
    report_about ovf now s p (PsVesselStaticData d).

(** The answer to a call. *)
Definition answer (ovf : bool) (now : datetime) (s : str) (p : NmeaParser) (o : outcome ParseError ParsedSentence) : Prop :=
  match o with
  | Panic => panics ovf now s p
  | Err e => error_of ovf now s p e
  | Ok PsIncomplete => unfinished ovf s p
  | Ok r => report_about ovf now s p r
  end.

(** All messages of the group but [n] are there. *)
Definition completes_group (p : NmeaParser) (tt : str) (c n : N) : Prop :=
  c < 2 ^ 32 - 1 /\ forall k, 1 <= k <= c -> k <> n -> stored p (Text (gsv_key tt c k)) <> None.

(** The entry [e] is changed: from now on it holds [x], or nothing. *)
Inductive changes (ovf : bool) (s : str) (p : NmeaParser) : entry -> option (str + VesselStaticData) -> Prop :=
| keeps_half tt fff mid channel n x : fragment s tt fff mid channel n x ->
    stored p (Text (fragment_key fff mid channel (3 - n))) = None ->
    changes ovf s p (Text (fragment_key fff mid channel n)) (Some (inl x))
| uses_half tt fff mid channel n x : fragment s tt fff mid channel n x ->
    stored p (Text (fragment_key fff mid channel (3 - n))) <> None ->
    changes ovf s p (Text (fragment_key fff mid channel (3 - n))) None
| keeps_message tt c n fields : gsv_message s tt c n fields -> ~ (completes_group p tt c n /\ 1 <= n <= c) ->
    changes ovf s p (Text (gsv_key tt c n)) (Some (inl (join ((lit "$" ++ tt ++ lit "GSV") :: fields))))
| uses_message tt c n fields k : gsv_message s tt c n fields -> completes_group p tt c n -> 1 <= k <= c ->
    changes ovf s p (Text (gsv_key tt c k)) None
| keeps_part tt fff payload v : completes s tt fff p payload -> readable ovf payload ->
    part_says (payload_bits payload) (str_eqb fff (lit "VDO")) v -> stored p (Vessel (vsd_mmsi v)) = None ->
    changes ovf s p (Vessel (vsd_mmsi v)) (Some (inr v))
| uses_part tt fff payload v : completes s tt fff p payload -> readable ovf payload ->
    part_says (payload_bits payload) (str_eqb fff (lit "VDO")) v -> stored p (Vessel (vsd_mmsi v)) <> None ->
    changes ovf s p (Vessel (vsd_mmsi v)) None.

(** A whole call: the answer is [o], and from then on the parser is [q]. *)
Definition answers (ovf : bool) (now : datetime) (s : str) (p : NmeaParser) (o : outcome ParseError ParsedSentence)
    (q : NmeaParser) : Prop :=
  answer ovf now s p o /\
  forall e, changes ovf s p e (stored q e) \/ (forall x, ~ changes ovf s p e x) /\ stored q e = stored p e.

(** All calls of a history. *)
Inductive session (ovf : bool) : history -> NmeaParser -> list (outcome ParseError ParsedSentence) -> NmeaParser -> Prop :=
| session_ends p : session ovf [] p [] p
| session_goes_on now s h p o q os r : answers ovf now s p o q -> session ovf h q os r ->
    session ovf ((now, s) :: h) p (o :: os) r.
