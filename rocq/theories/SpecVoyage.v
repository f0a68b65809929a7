(** Specification vocabulary for C114: reports that need two sentences. *)
From Coq Require Import List NArith ZArith Bool String.
From Verif Require Import Base Str F64 Chrono Types SpecText SpecFields SpecResult SpecTime SpecState SpecSender SpecAis SpecTransponder Parser.
Import ListNotations.
Open Scope N_scope.

(** ** What is meant *)

(** Distances in metres from the antenna to the ends and sides of the ship. *)
Record hull := mk_hull { hu_bow : N; hu_stern : N; hu_port : N; hu_starboard : N }.
Definition hull_sound (h : hull) : Prop := hu_bow h < 512 /\ hu_stern h < 512 /\ hu_port h < 64 /\ hu_starboard h < 64.

(** The reports of SpecTransponder; what a ship of class A says about itself and its voyage; what one of class
    B says about itself. [cut] characters of the payload go into the first sentence, [mid] is the message
    identification; [a_first] says which part is sent first. [ship] is the code of type and cargo. *)
Inductive ship_news :=
| Position (n : radio_news)
| Voyage (cut : nat) (mid mmsi version : N) (imo : option N) (call_sign name : str) (ship : N) (h : hull)
    (device : option PositionFixType) (month day hour minute draught : N) (destination : str) (dte : bool)
| ClassBStatic (a_first : bool) (mmsi : N) (name : str) (ship : N) (vendor : str) (model serial : N) (call_sign : str) (h : hull).

(** The arrival is a moment of the year in which the report is received, and the draught is at most 24.3 m
    (see C54 for others). *)
Definition news_sound (received : datetime) (n : ship_news) : Prop :=
  match n with
  | Position n => sendable n
  | Voyage cut mid mmsi version imo call_sign name ship h device month day hour minute draught destination dte =>
    mid < 10 /\ mmsi < 2 ^ 30 /\ version < 4 /\ every (fun i => 0 < i < 2 ^ 30) imo /\ spellable 7 call_sign /\ spellable 20 name /\
    ship < 256 /\ hull_sound h /\ device <> Some PfUndefined /\ year_in_range (dt_year received) /\
    valid_date (dt_year received) month day /\ valid_time hour minute 0 /\ draught <= 243 /\ spellable 20 destination
  | ClassBStatic _ mmsi name ship vendor model serial call_sign h =>
    mmsi < 2 ^ 30 /\ spellable 20 name /\ ship < 256 /\ spellable 3 vendor /\ model < 16 /\ serial < 2 ^ 20 /\
    spellable 7 call_sign /\ hull_sound h
  end.

(** ** The sentences *)

Definition hull_layout (h : hull) : layout := [U 9 (hu_bow h); U 9 (hu_stern h); U 6 (hu_port h); U 6 (hu_starboard h)].

(** Half [k] of a message. *)
Definition half_sentence (tt fff channel : str) (mid k : N) (payload : str) : str :=
  let body := join [lit "!" ++ tt ++ fff; lit "2"; dec k; dec mid; channel; payload; if k =? 1 then lit "0" else lit "2"] in
  body ++ lit "*" ++ nmea_checksum body.

(** The sentences of a report. *)
Definition sentences_of (tt fff channel : str) (n : ship_news) : list str :=
  match n with
  | Position n => [encode_sentence tt fff channel (layout_bits (news_layout n))]
  | Voyage cut mid mmsi version imo call_sign name ship h device month day hour minute draught destination dte =>
    let payload := armor (layout_bits (
      [U 6 5; U 2 0; U 30 mmsi; U 2 version; U 30 (coded 0 imo); T 7 (spelled 7 call_sign); T 20 (spelled 20 name); U 8 ship] ++
      hull_layout h ++
      [U 4 (device_code device); U 4 month; U 5 day; U 5 hour; U 6 minute; U 8 draught; T 20 (spelled 20 destination); F dte; U 1 0])) in
    [half_sentence tt fff channel mid 1 (firstn cut payload); half_sentence tt fff channel mid 2 (skipn cut payload)]
  | ClassBStatic a_first mmsi name ship vendor model serial call_sign h =>
    let a := encode_sentence tt fff channel (layout_bits [U 6 24; U 2 0; U 30 mmsi; U 2 0; T 20 (spelled 20 name)]) in
    let b := encode_sentence tt fff channel (layout_bits (
      [U 6 24; U 2 0; U 30 mmsi; U 2 1; U 8 ship; T 3 (spelled 3 vendor); U 4 model; U 20 serial; T 7 (spelled 7 call_sign)] ++
      hull_layout h)) in
    if a_first then [a; b] else [b; a]
  end.

(** ** What must come back *)

Definition hull_back (h : hull) (d : VesselStaticData) : Prop :=
  vsd_dimension_to_bow d = Some (hu_bow h) /\ vsd_dimension_to_stern d = Some (hu_stern h) /\
  vsd_dimension_to_port d = Some (hu_port h) /\ vsd_dimension_to_starboard d = Some (hu_starboard h).

(** The type of ship; C53 says what becomes of the codes 80 to 99. *)
Definition kind_back (ship : N) (d : VesselStaticData) : Prop :=
  (ship < 80 \/ 99 < ship -> vsd_ship_type d = documented_ship_type ship) /\ vsd_cargo_type d = cargo_type ship.

(** What the last sentence gives. The class of a voyage report is left out (C23), and so is the second of the
    arrival (C54). *)
Definition news_back (received : datetime) (own : bool) (station : Station) (n : ship_news) (r : ParsedSentence) : Prop :=
  match n with
  | Position n => received_back own station n r
  | Voyage cut mid mmsi version imo call_sign name ship h device month day hour minute draught destination dte =>
    exists d, r = PsVesselStaticData d /\ vsd_own_vessel d = own /\ vsd_mmsi d = mmsi /\ vsd_ais_version_indicator d = version /\
    vsd_imo_number d = imo /\ vsd_call_sign d = text_value call_sign /\ vsd_name d = text_value name /\ kind_back ship d /\
    hull_back h d /\ vsd_position_fix_type d = device /\
    (exists second, vsd_eta d = Some (mk_datetime (dt_year received) month day hour minute second 0)) /\
    vsd_draught10 d = Some draught /\ vsd_destination d = text_value destination
  | ClassBStatic _ mmsi name ship vendor model serial call_sign h =>
    exists d, r = PsVesselStaticData d /\ vsd_own_vessel d = own /\ vsd_ais_type d = AisClassB /\ vsd_mmsi d = mmsi /\
    vsd_name d = text_value name /\ kind_back ship d /\ vsd_equipment_vendor_id d = Some vendor /\
    vsd_equipment_model d = Some model /\ vsd_equipment_serial_number d = Some serial /\
    vsd_call_sign d = text_value call_sign /\ hull_back h d
  end.

(** ** A log *)

(** A report; [ht_at] is the time at which its last sentence is received, and [ht_before] that of the one
    before, if there are two. *)
Record ship_entry := mk_ship_entry {
  ht_before : datetime; ht_at : datetime; ht_talker : str; ht_station : Station; ht_own : bool; ht_channel : str; ht_news : ship_news }.

Definition ship_entry_sound (e : ship_entry) : Prop :=
  utf8_bytes (ht_talker e) = 2%nat /\ plain (ht_talker e) /\ names_station (ht_talker e) (ht_station e) /\ plain (ht_channel e) /\
  news_sound (ht_at e) (ht_news e).
Definition ship_calls (e : ship_entry) : history :=
  match sentences_of (ht_talker e) (if ht_own e then lit "VDO" else lit "VDM") (ht_channel e) (ht_news e) with
  | [s] => [(ht_at e, s)]
  | s1 :: s2 :: _ => [(ht_before e, s1); (ht_at e, s2)]
  | [] => []
  end.
(** The first of two sentences is answered 'incomplete', the last one with the report. *)
Definition ship_back (e : ship_entry) (answers : list (outcome ParseError ParsedSentence)) : Prop :=
  exists r, news_back (ht_at e) (ht_own e) (ht_station e) (ht_news e) r /\
    answers = match ht_news e with Position _ => [Ok r] | _ => [Ok PsIncomplete; Ok r] end.

(** No half of a message and no part of a report of class B is kept. *)
Definition no_parts (p : NmeaParser) : Prop :=
  (forall fff mid channel, not_waiting p fff mid channel) /\ (forall mmsi, stored p (Vessel mmsi) = None).

(** Reports that may be sent at the same time: of two voyage reports the channels or message identifications
    differ, of two static reports of class B the ships. *)
Definition apart (e f : ship_entry) : Prop :=
  match ht_news e, ht_news f with
  | Voyage _ mid _ _ _ _ _ _ _ _ _ _ _ _ _ _ _, Voyage _ mid' _ _ _ _ _ _ _ _ _ _ _ _ _ _ _ =>
    ht_own e <> ht_own f \/ mid <> mid' \/ ht_channel e <> ht_channel f
  | ClassBStatic _ mmsi _ _ _ _ _ _ _, ClassBStatic _ mmsi' _ _ _ _ _ _ _ => mmsi <> mmsi'
  | _, _ => True
  end.

(** A sentence with a checksum that is not its own. *)
Definition damaged (s : str) : Prop := exists body given, has_body s body given /\ ~ checksum_ok body given.

(** An undamaged sentence of another instrument, with a formatter that the crate does not read. *)
Definition foreign (s : str) : Prop :=
  exists tt fff fields, gnss_with s tt fff fields /\ utf8_bytes fff = 3%nat /\ ~ In fff gnss_formatters.

(** What is answered to sentences of no use: that they are damaged, or not supported. *)
Definition refused (s : str) (o : outcome ParseError ParsedSentence) : Prop :=
  damaged s /\ (exists calculated given, o = Err (CorruptedSentence calculated given)) \/
  foreign s /\ (exists text, o = Err (UnsupportedSentenceType text)).
