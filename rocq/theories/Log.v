(** The lines the crate writes to its log ([log] crate macros [debug!] and [warn!]), in order, up to
    the return or panic of a call. Simplification: only level and text; whether a logger shows the line
    is up to the application. The macros occur at src/lib.rs:174,411,414,417, src/ais/mod.rs:461,560,618
    and src/ais/vdm_t1t2t3.rs:125 and nowhere else. *)
From Coq Require Import List NArith ZArith Bool String.
From Verif Require Import Base Str F64 Chrono Types Util AisMod Vdm Parser.
Import ListNotations.
Open Scope N_scope.

(** Level and text of a line. *)
Inductive LogLine := LogDebug (text : str) | LogWarn (text : str).

(** Lines written by what comes after [m] (evaluated first); none if [m] does not return a value. *)
Definition after {E A} (m : outcome E A) (l : list LogLine) : list LogLine :=
  match m with Ok _ => l | _ => [] end.

(** src/ais/mod.rs:460-463: the last arm of [ShipType::new], reached from 100 on (lines 412-459). *)
Definition ShipType_new_log (raw : N) : list LogLine :=
  if raw <=? 99 then [] else [LogWarn (lit "Unexpected ship and cargo type: " ++ dec raw)].

(** src/ais/mod.rs:559-562: the last arm of [CargoType::new]; the codes of the other arms are listed in
    lines 528-558. *)
Definition CargoType_new_log (raw : N) : list LogLine :=
  if existsb (N.eqb raw)
       [10; 20; 40; 60; 70; 80; 90; 11; 21; 41; 61; 71; 81; 91; 12; 22; 42; 62; 72; 82; 92;
        13; 23; 43; 63; 73; 83; 93; 14; 24; 44; 64; 74; 84; 94; 15; 25; 45; 65; 75; 85; 95;
        16; 26; 46; 66; 76; 86; 96; 17; 27; 47; 67; 77; 87; 97; 18; 28; 48; 68; 78; 88; 98;
        19; 29; 49; 69; 79; 89; 99]
  then [] else [LogWarn (lit "Unexpected ship and cargo type: " ++ dec raw)].

(** src/ais/mod.rs:617-620: the last arm of [PositionFixType::new], reached from 9 on. *)
Definition PositionFixType_new_log (raw : N) : list LogLine :=
  if raw <=? 8 then [] else [LogWarn (lit "Unrecognized position fix type: " ++ dec raw)].

(** src/ais/vdm_t4.rs:111-117, src/ais/vdm_t5.rs:65-71 *)
Definition position_fix_log (bv : bitvec) (index : nat) : list LogLine :=
  let raw := as_u8 (pick_u64 bv index 4) in
  if raw =? 0 then [] else PositionFixType_new_log raw.

(** src/ais/vdm_t1t2t3.rs:118-129 *)
Definition handle_t1t2t3_log (bv : bitvec) : list LogLine :=
  match pick_u64 bv 143 2 with
  | 0 | 1 | 2 => []
  | raw => [LogWarn (lit "Unrecognized Maneuver Indicator value: " ++ dec raw)]
  end.

(** src/ais/vdm_t4.rs:73-125. The time stamp (lines 84-91) comes before the position fix type. *)
Definition handle_t4_log (bv : bitvec) : list LogLine :=
  after (@ymd_and_hms ParseError (as_i32 (Z.of_N (pick_u64 bv 38 14))) (as_u32 (pick_u64 bv 52 4))
           (as_u32 (pick_u64 bv 56 5)) (as_u32 (pick_u64 bv 61 5))
           (as_u32 (pick_u64 bv 66 6)) (as_u32 (pick_u64 bv 72 6)))
    (position_fix_log bv 134).

(** src/ais/vdm_t5.rs:20-82. Call sign and name come before the ship type, the ETA after the position
    fix type. *)
Definition handle_t5_log (bv : bitvec) : list LogLine :=
  after (@pick_string ParseError bv 70 7) (after (@pick_string ParseError bv 112 20)
    (ShipType_new_log (as_u8 (pick_u64 bv 232 8)) ++ CargoType_new_log (as_u8 (pick_u64 bv 232 8)) ++
     position_fix_log bv 270)).

(** src/ais/vdm_t21.rs:293-365. The name comes before the position fix type, which is built also for
    code 0 (line 344). *)
Definition handle_t21_log (bv : bitvec) : list LogLine :=
  after (@pick_string ParseError bv 43 20) (after (@pick_string ParseError bv 272 14)
    (PositionFixType_new_log (as_u8 (pick_u64 bv 249 4)))).

(** src/ais/vdm_t24.rs:20-139. Only part B has a ship type; the call sign comes before it. *)
Definition handle_t24_log (bv : bitvec) : list LogLine :=
  if pick_u64 bv 38 2 =? 1 then
    after (@pick_string ParseError bv 90 7)
      (ShipType_new_log (as_u8 (pick_u64 bv 40 8)) ++ CargoType_new_log (as_u8 (pick_u64 bv 40 8)))
  else [].

(** src/lib.rs:420-582. The handlers of the other message types write nothing. *)
Definition dispatch_message_log (bv : bitvec) : list LogLine :=
  match pick_u64 bv 0 6 with
  | 1 | 2 | 3 => handle_t1t2t3_log bv
  | 4 => handle_t4_log bv
  | 5 => handle_t5_log bv
  | 21 => handle_t21_log bv
  | 24 => handle_t24_log bv
  | _ => []
  end.

(** src/lib.rs:384-418: the warnings about sentences that are not assembled. *)
Definition vdm_payload_log (sentence_type : str) (f : vdm_fields) : list LogLine :=
  if vf_count f =? 1 then []
  else if vf_count f =? 2 then
    match vf_id f with
    | Some _ =>
      if vf_number f =? 1 then []
      else if vf_number f =? 2 then []
      else [LogWarn (lit "Unexpected NMEA fragment number: " ++ dec (vf_number f) ++ lit "/" ++ dec (vf_count f))]
    | None => [LogWarn (lit "NMEA message_id missing from " ++ sentence_type ++ lit " than supported 2")]
    end
  else [LogWarn (lit "NMEA sentence fragment count greater (" ++ dec (vf_count f) ++ lit ") than supported 2")].

(** src/lib.rs:337-586 *)
Definition handle_vdm_log (ovf : bool) (sentence_type sentence : str) (p : NmeaParser) : list LogLine :=
  match vdm_scan 0 vdm_start (split_on 44 sentence) with
  | Ok f =>
    vdm_payload_log sentence_type f ++
    match fst (vdm_payload sentence_type f p) with
    | None => []
    | Some payload =>
      match parse_payload ovf payload with
      | Ok bv => dispatch_message_log bv
      | _ => []
      end
    end
  | _ => []
  end.

(** src/lib.rs:188-591. GNSS handlers and the other arms of the dispatch (lines 246-333, 588-591) write
    nothing. *)
Definition parse_body_log (ovf : bool) (body : str) (p : NmeaParser) : list LogLine :=
  match before_first 44 body with
  | None => []
  | Some t0 =>
    match recognize (lit "$") nav_of_talker t0 with
    | None => []
    | Some (_, t1) =>
      match recognize (lit "!") station_of_talker t1 with
      | None => []
      | Some (_, t2) =>
        if str_eqb t2 (lit "!VDM") || str_eqb t2 (lit "!VDO") then handle_vdm_log ovf t2 body p else []
      end
    end
  end.

(** src/lib.rs:166-592. The line about the missing checksum (line 174) comes first. *)
Definition parse_sentence_log (ovf : bool) (sentence : str) (p : NmeaParser) : list LogLine :=
  (if existsb (N.eqb 42) sentence then []
   else [LogDebug (lit "No checksum found for sentence: " ++ sentence)]) ++
  let '(body, given) := split_checksum sentence in
  if negb (str_eqb (hex2 (checksum body)) given) && negb (str_eqb given []) then []
  else parse_body_log ovf body p.
