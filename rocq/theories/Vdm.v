(** AIS message handlers, src/ais/vdm_t*.rs. *)
From Coq Require Import List NArith ZArith Bool String.
From Verif Require Import Base Str F64 Chrono Types Util AisMod.
Import ListNotations.
Open Scope N_scope.

(** The one-bit test [pick_u64(&bv, i, 1) != 0], e.g. src/ais/vdm_t1t2t3.rs:70. *)
Definition pick_flag (bv : bitvec) (i : nat) : bool := negb (pick_u64 bv i 1 =? 0).

(** [match raw.as_str() { "" => None, _ => Some(raw) }], e.g. src/ais/vdm_t5.rs:32. *)
Definition non_empty (s : str) : option str := match s with [] => None | _ => Some s end.

(** The double nearest 0.1, as written in src/ais/vdm_t1t2t3.rs:65. *)
Definition f64_0_1 : f64 := f64_of_dec false 1 (-1).
(** The literal 4.733 of src/ais/vdm_t1t2t3.rs:41. *)
Definition f64_4_733 : f64 := f64_of_dec false 4733 (-3).

(** Latitude and longitude blocks, e.g. src/ais/vdm_t1t2t3.rs:71-86: [sentinel] is 0x3412140 or
    0x6791AC0 and [scale] 600000.0 (600.0 and 181000 in src/ais/vdm_t27.rs:55-70). *)
Definition coord (bv : bitvec) (index len : nat) (sentinel scale : Z) : option f64 :=
  let raw := as_i32 (pick_i64 bv index len) in
  if negb (raw =? sentinel)%Z then Some (f64_div (f64_of_Z raw) (f64_of_Z scale)) else None.

(** src/ais/vdm_t1t2t3.rs:71-78 and the same block in t4, t9, t18, t21 *)
Definition latitude_at (bv : bitvec) (index : nat) : option f64 := coord bv index 27 0x3412140 600000.
(** src/ais/vdm_t1t2t3.rs:79-86 and the same block in t4, t9, t18, t21 *)
Definition longitude_at (bv : bitvec) (index : nat) : option f64 := coord bv index 28 0x6791AC0 600000.

(** src/ais/vdm_t1t2t3.rs:62-69, src/ais/vdm_t18.rs:34-41 *)
Definition sog_at (bv : bitvec) (index : nat) : option f64 :=
  let raw := pick_u64 bv index 10 in
  if raw <? 1023 then Some (f64_mul (f64_of_Z (Z.of_N raw)) f64_0_1) else None.

(** src/ais/vdm_t1t2t3.rs:87-94, src/ais/vdm_t9.rs:134-141, src/ais/vdm_t18.rs:59-66 *)
Definition cog_at (bv : bitvec) (index : nat) : option f64 :=
  let raw := pick_u64 bv index 12 in
  if negb (raw =? 0xE10) then Some (f64_mul (f64_of_Z (Z.of_N raw)) f64_0_1) else None.

(** src/ais/vdm_t1t2t3.rs:95-102, src/ais/vdm_t18.rs:67-74 *)
Definition heading_at (bv : bitvec) (index : nat) : option f64 :=
  let raw := pick_u64 bv index 9 in
  if negb (raw =? 511) then Some (f64_of_Z (Z.of_N raw)) else None.

(** src/ais/vdm_t1t2t3.rs:38-47. [powi(2)] is taken as one rounded multiplication [x * x]. *)
Definition rot_value (raw : Z) : option f64 :=
  let base (r : Z) :=
    f64_div (f64_div (f64_mul (f64_of_Z r) (f64_of_Z 708)) (f64_of_Z 126)) f64_4_733 in
  let square x := f64_mul x x in
  if ((-126 <=? raw) && (raw <? 0))%Z then Some (f64_neg (square (base (- raw)%Z)))
  else if ((0 <=? raw) && (raw <=? 126))%Z then Some (square (base raw))
  else None.

(** src/ais/vdm_t1t2t3.rs:48-61 *)
Definition rot_direction_value (raw : Z) : option Z :=
  (if raw =? -128 then None
   else if raw <=? -2 then Some (-1)
   else if raw <? 2 then Some 0
   else if raw <? 128 then Some 1
   else None)%Z.

(** src/ais/vdm_t1t2t3.rs:104-114 *)
Definition positioning_meta (sec_raw : N) : option PositioningSystemMeta :=
  match sec_raw with
  | 60 => None
  | 61 => Some PsManualInputMode
  | 62 => Some PsDeadReckoningMode
  | 63 => Some PsInoperative
  | _ => Some PsOperative
  end.

(** src/ais/vdm_t1t2t3.rs:118-129 *)
Definition special_manoeuvre_value (raw : N) : option bool :=
  match raw with
  | 0 => None
  | 1 => Some true
  | 2 => Some true
  | _ => None
  end.

(** src/ais/vdm_t1t2t3.rs:21-142 *)
Definition handle_t1t2t3 (bv : bitvec) (station : Station) (own_vessel : bool)
    : outcome ParseError ParsedSentence :=
  Ok (PsVesselDynamicData {|
    vdd_own_vessel := own_vessel;
    vdd_station := station;
    vdd_ais_type := AisClassA;
    vdd_mmsi := as_u32 (pick_u64 bv 8 30);
    vdd_nav_status := NavigationStatus_new (as_u8 (pick_u64 bv 38 4));
    vdd_rot := rot_value (pick_i64 bv 42 8);
    vdd_rot_direction := rot_direction_value (pick_i64 bv 42 8);
    vdd_sog_knots := sog_at bv 50;
    vdd_high_position_accuracy := pick_flag bv 60;
    vdd_latitude := latitude_at bv 89;
    vdd_longitude := longitude_at bv 61;
    vdd_cog := cog_at bv 116;
    vdd_heading_true := heading_at bv 128;
    vdd_timestamp_seconds := as_u8 (pick_u64 bv 137 6);
    vdd_positioning_system_meta := positioning_meta (as_u16 (pick_u64 bv 137 6));
    vdd_current_gnss_position := None;
    vdd_special_manoeuvre := special_manoeuvre_value (pick_u64 bv 143 2);
    vdd_raim_flag := pick_flag bv 148;
    vdd_class_b_unit_flag := None;
    vdd_class_b_display := None;
    vdd_class_b_dsc := None;
    vdd_class_b_band_flag := None;
    vdd_class_b_msg22_flag := None;
    vdd_class_b_mode_flag := None;
    vdd_class_b_css_flag := None;
    vdd_radio_status := Some (as_u32 (pick_u64 bv 149 19)) |}).

(** [match raw { 0 => None, _ => Some(PositionFixType::new(raw)) }], src/ais/vdm_t4.rs:111-117,
    src/ais/vdm_t5.rs:65-71 *)
Definition position_fix_at (bv : bitvec) (index : nat) : option PositionFixType :=
  let raw := as_u8 (pick_u64 bv index 4) in
  if raw =? 0 then None else Some (PositionFixType_new raw).

(** src/ais/vdm_t4.rs:73-125 *)
Definition handle_t4 (bv : bitvec) (station : Station) (own_vessel : bool)
    : outcome ParseError ParsedSentence :=
  let! ts := ymd_and_hms (as_i32 (Z.of_N (pick_u64 bv 38 14))) (as_u32 (pick_u64 bv 52 4))
               (as_u32 (pick_u64 bv 56 5)) (as_u32 (pick_u64 bv 61 5))
               (as_u32 (pick_u64 bv 66 6)) (as_u32 (pick_u64 bv 72 6)) in
  Ok (PsBaseStationReport {|
    bsr_own_vessel := own_vessel;
    bsr_station := station;
    bsr_mmsi := as_u32 (pick_u64 bv 8 30);
    bsr_timestamp := Some ts;
    bsr_high_position_accuracy := pick_flag bv 78;
    bsr_latitude := latitude_at bv 107;
    bsr_longitude := longitude_at bv 79;
    bsr_position_fix_type := position_fix_at bv 134;
    bsr_raim_flag := pick_flag bv 148;
    bsr_radio_status := as_u32 (pick_u64 bv 149 19) |}).

(** src/ais/vdm_t5.rs:20-82 *)
Definition handle_t5 (now : datetime) (bv : bitvec) (station : Station) (own_vessel : bool)
    : outcome ParseError ParsedSentence :=
  let imo := as_u32 (pick_u64 bv 40 30) in
  let! call_sign := pick_string bv 70 7 in
  let! name := pick_string bv 112 20 in
  let! eta := pick_eta bv 274 now in
  let! destination := pick_string bv 302 20 in
  Ok (PsVesselStaticData {|
    vsd_own_vessel := own_vessel;
    vsd_ais_type := AisClassB;
    vsd_mmsi := as_u32 (pick_u64 bv 8 30);
    vsd_ais_version_indicator := as_u8 (pick_u64 bv 38 2);
    vsd_imo_number := if imo =? 0 then None else Some imo;
    vsd_call_sign := non_empty call_sign;
    vsd_name := non_empty name;
    vsd_ship_type := ShipType_new (as_u8 (pick_u64 bv 232 8));
    vsd_cargo_type := CargoType_new (as_u8 (pick_u64 bv 232 8));
    vsd_equipment_vendor_id := None;
    vsd_equipment_model := None;
    vsd_equipment_serial_number := None;
    vsd_dimension_to_bow := Some (as_u16 (pick_u64 bv 240 9));
    vsd_dimension_to_stern := Some (as_u16 (pick_u64 bv 249 9));
    vsd_dimension_to_port := Some (as_u16 (pick_u64 bv 258 6));
    vsd_dimension_to_starboard := Some (as_u16 (pick_u64 bv 264 6));
    vsd_position_fix_type := position_fix_at bv 270;
    vsd_eta := eta;
    vsd_draught10 := Some (as_u8 (pick_u64 bv 294 8));
    vsd_destination := non_empty destination;
    vsd_mothership_mmsi := None |}).

(** src/ais/vdm_t6.rs:66-95 *)
Definition handle_t6 (bv : bitvec) (station : Station) (own_vessel : bool)
    : outcome ParseError ParsedSentence :=
  Ok (PsBinaryAddressedMessage {|
    bam_own_vessel := own_vessel;
    bam_station := station;
    bam_mmsi := as_u32 (pick_u64 bv 8 30);
    bam_sequence_number := as_u8 (pick_u64 bv 38 2);
    bam_destination_mmsi := as_u32 (pick_u64 bv 40 30);
    bam_retransmit_flag := pick_flag bv 70;
    bam_dac := as_u16 (pick_u64 bv 72 10);
    bam_fid := as_u8 (pick_u64 bv 82 6) |}).

(** src/ais/vdm_t9.rs:88-159 *)
Definition handle_t9 (bv : bitvec) (station : Station) (own_vessel : bool)
    : outcome ParseError ParsedSentence :=
  let altitude := as_u16 (pick_u64 bv 38 12) in
  let sog := as_u16 (pick_u64 bv 50 10) in
  Ok (PsStandardSarAircraftPositionReport {|
    sar_own_vessel := own_vessel;
    sar_station := station;
    sar_mmsi := as_u32 (pick_u64 bv 8 30);
    sar_altitude := if negb (altitude =? 4095) then Some altitude else None;
    sar_sog_knots := if negb (sog =? 1023) then Some sog else None;
    sar_high_position_accuracy := pick_flag bv 60;
    sar_latitude := latitude_at bv 89;
    sar_longitude := longitude_at bv 61;
    sar_cog := cog_at bv 116;
    sar_timestamp_seconds := as_u8 (pick_u64 bv 128 6);
    sar_regional := as_u8 (pick_u64 bv 134 8);
    sar_dte := pick_u64 bv 142 1 =? 0;
    sar_assigned := pick_flag bv 146;
    sar_raim_flag := pick_flag bv 147;
    sar_radio_status := as_u32 (pick_u64 bv 148 20) |}).

(** src/ais/vdm_t10.rs:42-57 *)
Definition handle_t10 (bv : bitvec) (station : Station) (own_vessel : bool)
    : outcome ParseError ParsedSentence :=
  Ok (PsUtcDateInquiry {|
    udi_own_vessel := own_vessel;
    udi_station := station;
    udi_source_mmsi := as_u32 (pick_u64 bv 8 30);
    udi_destination_mmsi := as_u32 (pick_u64 bv 40 30) |}).

(** src/ais/vdm_t18.rs:20-97 *)
Definition handle_t18 (bv : bitvec) (station : Station) (own_vessel : bool)
    : outcome ParseError ParsedSentence :=
  Ok (PsVesselDynamicData {|
    vdd_own_vessel := own_vessel;
    vdd_station := station;
    vdd_ais_type := AisClassB;
    vdd_mmsi := as_u32 (pick_u64 bv 8 30);
    vdd_nav_status := NsNotDefined;
    vdd_rot := None;
    vdd_rot_direction := None;
    vdd_sog_knots := sog_at bv 46;
    vdd_high_position_accuracy := pick_flag bv 56;
    vdd_latitude := latitude_at bv 85;
    vdd_longitude := longitude_at bv 57;
    vdd_cog := cog_at bv 112;
    vdd_heading_true := heading_at bv 124;
    vdd_timestamp_seconds := as_u8 (pick_u64 bv 133 6);
    vdd_positioning_system_meta := None;
    vdd_current_gnss_position := None;
    vdd_special_manoeuvre := None;
    vdd_raim_flag := pick_flag bv 141;
    vdd_class_b_unit_flag := None;
    vdd_class_b_display := Some (pick_flag bv 141);
    vdd_class_b_dsc := Some (pick_flag bv 142);
    vdd_class_b_band_flag := Some (pick_flag bv 143);
    vdd_class_b_msg22_flag := Some (pick_flag bv 144);
    vdd_class_b_mode_flag := Some (pick_flag bv 145);
    vdd_class_b_css_flag := None;
    vdd_radio_status := Some (as_u32 (pick_u64 bv 149 19)) |}).

(** src/ais/vdm_t19.rs:20-23 *)
Definition handle_t19 (bv : bitvec) (station : Station) (own_vessel : bool)
    : outcome ParseError ParsedSentence :=
  Err (UnsupportedSentenceType (lit "Unsupported AIVDM message type: 19")).

(** src/ais/vdm_t21.rs:293-365 *)
Definition handle_t21 (bv : bitvec) (station : Station) (own_vessel : bool)
    : outcome ParseError ParsedSentence :=
  let! s := pick_string bv 43 20 in
  let! ext := pick_string bv 272 14 in
  Ok (PsAidToNavigationReport {|
    atn_own_vessel := own_vessel;
    atn_station := station;
    atn_mmsi := as_u32 (pick_u64 bv 8 30);
    atn_aid_type := unwrap_or (ok_value (NavAidType_new (as_u8 (pick_u64 bv 38 5)))) NaNotSpecified;
    atn_name := s ++ ext;
    atn_high_position_accuracy := pick_flag bv 163;
    atn_latitude := latitude_at bv 192;
    atn_longitude := longitude_at bv 164;
    atn_dimension_to_bow := Some (as_u16 (pick_u64 bv 219 9));
    atn_dimension_to_stern := Some (as_u16 (pick_u64 bv 228 9));
    atn_dimension_to_port := Some (as_u16 (pick_u64 bv 237 6));
    atn_dimension_to_starboard := Some (as_u16 (pick_u64 bv 243 6));
    atn_position_fix_type := Some (PositionFixType_new (as_u8 (pick_u64 bv 249 4)));
    atn_timestamp_seconds := as_u8 (pick_u64 bv 253 6);
    atn_off_position_indicator := pick_flag bv 243;
    atn_regional := as_u8 (pick_u64 bv 260 8);
    atn_raim_flag := pick_flag bv 268;
    atn_virtual_aid_flag := pick_flag bv 269;
    atn_assigned_mode_flag := pick_flag bv 270 |}).

(** src/ais/vdm_t24.rs:197-213, both functions *)
Definition choose_some {A} (a b : option A) : option A :=
  match a with Some _ => a | None => b end.

(** Derived equality, src/ais/mod.rs:197 *)
Definition ais_class_eqb (a b : AisClass) : bool :=
  match a, b with
  | AisUnknown, AisUnknown | AisClassA, AisClassA | AisClassB, AisClassB => true
  | _, _ => false
  end.

(** Derived equality of [Option<u32>], src/ais/vdm_t24.rs:149 *)
Definition opt_N_eqb (a b : option N) : bool :=
  match a, b with
  | Some x, Some y => x =? y
  | None, None => true
  | _, _ => false
  end.

(** src/ais/vdm_t24.rs:144-194 *)
Definition merge (a b : VesselStaticData) : outcome str VesselStaticData :=
  if negb (ais_class_eqb (vsd_ais_type a) (vsd_ais_type b)) then
    Err (lit "Mismatching AIS types: " ++ AisClass_display (vsd_ais_type a) ++ lit " != "
         ++ AisClass_display (vsd_ais_type b))
  else if negb (vsd_mmsi a =? vsd_mmsi b) then
    Err (lit "Mismatching MMSI numbers: " ++ dec (vsd_mmsi a) ++ lit " != " ++ dec (vsd_mmsi b))
  else if negb (opt_N_eqb (vsd_imo_number a) (vsd_imo_number b)) then
    Err (lit "Mismatching MMSI numbers: " ++ dec (vsd_mmsi a) ++ lit " != " ++ dec (vsd_mmsi b))
  else if negb (vsd_ais_version_indicator a =? vsd_ais_version_indicator b) then
    Err (lit "Mismatching AIS version indicators: " ++ dec (vsd_ais_version_indicator a)
         ++ lit " != " ++ dec (vsd_ais_version_indicator b))
  else
    Ok {|
      vsd_own_vessel := vsd_own_vessel a;
      vsd_ais_type := vsd_ais_type a;
      vsd_mmsi := vsd_mmsi a;
      vsd_ais_version_indicator := vsd_ais_version_indicator a;
      vsd_imo_number := choose_some (vsd_imo_number a) (vsd_imo_number b);
      vsd_call_sign := choose_some (vsd_call_sign a) (vsd_call_sign b);
      vsd_name := choose_some (vsd_name a) (vsd_name b);
      vsd_ship_type :=
        match vsd_ship_type a with ShNotAvailable => vsd_ship_type b | t => t end;
      vsd_cargo_type :=
        match vsd_cargo_type a with CaUndefined => vsd_cargo_type b | t => t end;
      vsd_equipment_vendor_id :=
        choose_some (vsd_equipment_vendor_id a) (vsd_equipment_vendor_id b);
      vsd_equipment_model := choose_some (vsd_equipment_model a) (vsd_equipment_model b);
      vsd_equipment_serial_number :=
        choose_some (vsd_equipment_serial_number a) (vsd_equipment_serial_number b);
      vsd_dimension_to_bow := choose_some (vsd_dimension_to_bow a) (vsd_dimension_to_bow b);
      vsd_dimension_to_stern := choose_some (vsd_dimension_to_stern a) (vsd_dimension_to_stern b);
      vsd_dimension_to_port := choose_some (vsd_dimension_to_port a) (vsd_dimension_to_port b);
      vsd_dimension_to_starboard :=
        choose_some (vsd_dimension_to_starboard a) (vsd_dimension_to_starboard b);
      vsd_position_fix_type := choose_some (vsd_position_fix_type a) (vsd_position_fix_type b);
      vsd_eta := choose_some (vsd_eta a) (vsd_eta b);
      vsd_draught10 := choose_some (vsd_draught10 a) (vsd_draught10 b);
      vsd_destination := choose_some (vsd_destination a) (vsd_destination b);
      vsd_mothership_mmsi := choose_some (vsd_mothership_mmsi a) (vsd_mothership_mmsi b) |}.

(** src/ais/vdm_t24.rs:34-130: the fields of one part; [part_b] false means part A. *)
Definition t24_fields (bv : bitvec) (own_vessel part_b : bool) : outcome ParseError VesselStaticData :=
  let! call_sign := (if part_b then pick_string bv 90 7 else Ok []) in
  let! name := (if part_b then Ok [] else pick_string bv 40 120) in
  let! vendor := (if part_b then pick_string bv 48 3 else Ok []) in
  let b_only {A} (a : A) := if part_b then Some a else None in
  Ok {|
    vsd_own_vessel := own_vessel;
    vsd_ais_type := AisClassB;
    vsd_mmsi := as_u32 (pick_u64 bv 8 30);
    vsd_ais_version_indicator := 0;
    vsd_imo_number := None;
    vsd_call_sign := if part_b then non_empty call_sign else None;
    vsd_name := if part_b then None else non_empty name;
    vsd_ship_type := if part_b then ShipType_new (as_u8 (pick_u64 bv 40 8)) else ShNotAvailable;
    vsd_cargo_type := if part_b then CargoType_new (as_u8 (pick_u64 bv 40 8)) else CaUndefined;
    vsd_equipment_vendor_id := b_only vendor;
    vsd_equipment_model := b_only (as_u8 (pick_u64 bv 66 4));
    vsd_equipment_serial_number := b_only (as_u32 (pick_u64 bv 70 20));
    vsd_dimension_to_bow := b_only (as_u16 (pick_u64 bv 132 9));
    vsd_dimension_to_stern := b_only (as_u16 (pick_u64 bv 141 9));
    vsd_dimension_to_port := b_only (as_u16 (pick_u64 bv 150 6));
    vsd_dimension_to_starboard := b_only (as_u16 (pick_u64 bv 156 6));
    vsd_position_fix_type := None;
    vsd_eta := None;
    vsd_draught10 := None;
    vsd_destination := None;
    vsd_mothership_mmsi := b_only (as_u32 (pick_u64 bv 132 30)) |}.

(** src/ais/vdm_t24.rs:132-138. The [String] error of [merge] becomes [InvalidSentence],
    src/error.rs:31-35. *)
Definition t24_store (vsd : VesselStaticData) (p : NmeaParser)
    : outcome ParseError ParsedSentence * NmeaParser :=
  match pull_vsd (vsd_mmsi vsd) p with
  | (Some vsd2, p') =>
    (let! m := map_err InvalidSentence (merge vsd vsd2) in Ok (PsVesselStaticData m), p')
  | (None, p') => (Ok PsIncomplete, push_vsd (vsd_mmsi vsd) vsd p')
  end.

(** src/ais/vdm_t24.rs:20-139 *)
Definition handle_t24 (bv : bitvec) (station : Station) (p : NmeaParser) (own_vessel : bool)
    : outcome ParseError ParsedSentence * NmeaParser :=
  let part := pick_u64 bv 38 2 in
  if (part =? 0) || (part =? 1) then
    match t24_fields bv own_vessel (part =? 1) with
    | Ok vsd => t24_store vsd p
    | Err e => (Err e, p)
    | Panic => (Panic, p)
    end
  else
    (Err (InvalidSentence (lit "AIVDM type 24 part number has unexpected value: " ++ dec part)), p).

(** src/ais/vdm_t27.rs:21-94 *)
Definition handle_t27 (bv : bitvec) (station : Station) (own_vessel : bool)
    : outcome ParseError ParsedSentence :=
  let sog_raw := pick_u64 bv 62 6 in
  let cog_raw := pick_u64 bv 62 17 in
  Ok (PsVesselDynamicData {|
    vdd_own_vessel := own_vessel;
    vdd_station := station;
    vdd_ais_type := AisClassA;
    vdd_mmsi := as_u32 (pick_u64 bv 8 30);
    vdd_nav_status := NavigationStatus_new (as_u8 (pick_u64 bv 40 4));
    vdd_rot := None;
    vdd_rot_direction := None;
    vdd_sog_knots := if negb (sog_raw =? 63) then Some (f64_of_Z (Z.of_N sog_raw)) else None;
    vdd_high_position_accuracy := pick_flag bv 38;
    vdd_latitude := coord bv 44 18 181000 600;
    vdd_longitude := coord bv 62 17 181000 600;
    vdd_cog :=
      if negb (cog_raw =? 91000) then Some (f64_mul (f64_of_Z (Z.of_N cog_raw)) f64_0_1) else None;
    vdd_heading_true := None;
    vdd_timestamp_seconds := 0;
    vdd_positioning_system_meta := None;
    vdd_current_gnss_position := Some (pick_u64 bv 62 1 =? 0);
    vdd_special_manoeuvre := None;
    vdd_raim_flag := pick_flag bv 39;
    vdd_class_b_unit_flag := None;
    vdd_class_b_display := None;
    vdd_class_b_dsc := None;
    vdd_class_b_band_flag := None;
    vdd_class_b_msg22_flag := None;
    vdd_class_b_mode_flag := None;
    vdd_class_b_css_flag := None;
    vdd_radio_status := None |}).
