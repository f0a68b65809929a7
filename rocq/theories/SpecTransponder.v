(** Specification vocabulary for C114: what a transponder means, the bits it sends for it, and what it means
    to get this back. *)
From Coq Require Import List NArith ZArith Bool String Reals.
From Verif Require Import Base Str F64 Chrono Types SpecText SpecResult SpecTime SpecReal SpecSender SpecState SpecGnss SpecJournal SpecAis Parser.
Import ListNotations.
Open Scope N_scope.

(** ** What is meant *)

(** Where the second of the position comes from. *)
Inductive fix_second := AtSecond (n : N) | NoSecond | ByHand | DeadReckoning | NoPositioning.

(** A place: coordinates in ten-thousandths of a minute, [None] if not known; and whether they are accurate. *)
Record spot := mk_spot { sp_longitude : option Z; sp_latitude : option Z; sp_accurate : bool }.
Definition on_earth (x : spot) : Prop :=
  every (fun z => (Z.abs z <= 180 * 600000)%Z) (sp_longitude x) /\ every (fun z => (Z.abs z <= 90 * 600000)%Z) (sp_latitude x).

(** Motion: speed and course in tenths, heading in degrees. (ITU-R M.1371: 102.2 knots stand for all higher
    speeds.) *)
Record motion := mk_motion { mo_speed : option N; mo_course : option N; mo_heading : option N; mo_second : fix_second }.
Definition second_sound (s : fix_second) : Prop := match s with AtSecond n => n < 60 | _ => True end.
Definition motion_sound (x : motion) : Prop :=
  every (fun n => n <= 1022) (mo_speed x) /\ every (fun n => n < 3600) (mo_course x) /\ every (fun n => n < 360) (mo_heading x) /\
  second_sound (mo_second x).

(** Reports of the positions of vessels of class A and B, base stations, rescue aircraft and aids to navigation;
    a question for the time; and the head of a message to somebody. [kind] of an aid is its code; that it is
    off position is sent, too (see C28). For class B the
    bits between the second and the radio status; C27 says what becomes of them. The rate of turn is given by
    its indicator, -126 to 126. *)
Inductive radio_news :=
| ClassA (kind mmsi : N) (status : NavigationStatus) (turn : option Z) (x : spot) (m : motion) (raim : bool) (radio : N)
| ClassB (mmsi : N) (x : spot) (m : motion) (unit display dsc band msg22 assigned raim selector : bool) (radio : N)
| BaseStation (mmsi year month day hour minute second : N) (x : spot) (device : option PositionFixType) (raim : bool) (radio : N)
| Aircraft (mmsi : N) (altitude speed : option N) (x : spot) (course : option N) (second : fix_second)
    (dte assigned raim : bool) (radio : N)
| Aid (mmsi kind : N) (name : str) (x : spot) (bow stern port starboard : N) (device : PositionFixType) (second : fix_second)
    (off : bool) (regional : N) (raim virtual assigned : bool)
| Inquiry (mmsi destination : N)
| Addressed (mmsi number destination : N) (retransmitted : bool) (area id : N) (data : list bool).

(** A name of at most [n] characters of those that can be sent, and which does not end in a space. The empty
    one stands for 'not known'. *)
Definition spellable (n : nat) (t : str) : Prop :=
  (List.length t <= n)%nat /\ Forall encodable t /\ ~ In 64 t /\ (forall u, t <> u ++ [32]).

Definition sendable (n : radio_news) : Prop :=
  match n with
  | ClassA kind mmsi status turn x m raim radio =>
    (kind = 1 \/ kind = 2 \/ kind = 3) /\ mmsi < 2 ^ 30 /\ every (fun k => (Z.abs k <= 126)%Z) turn /\ on_earth x /\ motion_sound m /\
    radio < 2 ^ 19
  | ClassB mmsi x m _ _ _ _ _ _ _ _ radio => mmsi < 2 ^ 30 /\ on_earth x /\ motion_sound m /\ radio < 2 ^ 19
  | BaseStation mmsi year month day hour minute second x device raim radio =>
    mmsi < 2 ^ 30 /\ year < 10000 /\ valid_date (Z.of_N year) month day /\ valid_time hour minute second /\ on_earth x /\
    device <> Some PfUndefined /\ radio < 2 ^ 19
  | Aircraft mmsi altitude speed x course second _ _ _ radio =>
    mmsi < 2 ^ 30 /\ every (fun n => n <= 4094) altitude /\ every (fun n => n <= 1022) speed /\ on_earth x /\
    every (fun n => n < 3600) course /\ second_sound second /\ radio < 2 ^ 20
  | Aid mmsi kind name x bow stern port starboard device second _ regional _ _ _ =>
    mmsi < 2 ^ 30 /\ kind < 32 /\ spellable 20 name /\ on_earth x /\ bow < 512 /\ stern < 512 /\ port < 64 /\ starboard < 64 /\
    device <> PfUndefined /\ second_sound second /\ regional < 256
  | Inquiry mmsi destination => mmsi < 2 ^ 30 /\ destination < 2 ^ 30
  | Addressed mmsi number destination _ area id _ =>
    mmsi < 2 ^ 30 /\ number < 4 /\ destination < 2 ^ 30 /\ area < 1024 /\ id < 64
  end.

(** ** The bits (ITU-R M.1371) *)

(** A value, or the code for 'not available'. *)
Definition coded {A} (na : A) (o : option A) : A := match o with Some v => v | None => na end.

Definition second_code (s : fix_second) : N :=
  match s with AtSecond n => n | NoSecond => 60 | ByHand => 61 | DeadReckoning => 62 | NoPositioning => 63 end.

Definition status_code (s : NavigationStatus) : N :=
  match s with
  | NsUnderWayUsingEngine => 0 | NsAtAnchor => 1 | NsNotUnderCommand => 2 | NsRestrictedManoeuverability => 3
  | NsConstrainedByDraught => 4 | NsMoored => 5 | NsAground => 6 | NsEngagedInFishing => 7 | NsUnderWaySailing => 8
  | NsReserved9 => 9 | NsReserved10 => 10 | NsReserved11 => 11 | NsReserved12 => 12 | NsReserved13 => 13
  | NsAisSartIsActive => 14 | NsNotDefined => 15
  end.

Definition device_code (d : option PositionFixType) : N :=
  match d with
  | None | Some PfUndefined => 0
  | Some PfGPS => 1 | Some PfGLONASS => 2 | Some PfGPSGLONASS => 3 | Some PfLoranC => 4 | Some PfChayka => 5
  | Some PfIntegratedNavigationSystem => 6 | Some PfSurveyed => 7 | Some PfGalileo => 8
  end.

(** Accuracy, longitude and latitude. *)
Definition spot_layout (x : spot) : layout :=
  [F (sp_accurate x); I 28 (coded (181 * 600000)%Z (sp_longitude x)); I 27 (coded (91 * 600000)%Z (sp_latitude x))].

(** A text is filled up with '@', whose code is 0. *)
Definition spelled (n : nat) (t : str) : list N := map six_code t ++ repeat 0 (n - List.length t).

Definition news_layout (n : radio_news) : layout :=
  match n with
  | ClassA kind mmsi status turn x m raim radio =>
    [U 6 kind; U 2 0; U 30 mmsi; U 4 (status_code status); I 8 (coded (-128)%Z turn); U 10 (coded 1023 (mo_speed m))] ++
    spot_layout x ++
    [U 12 (coded 3600 (mo_course m)); U 9 (coded 511 (mo_heading m)); U 6 (second_code (mo_second m)); U 2 0; U 3 0; F raim; U 19 radio]
  | ClassB mmsi x m unit display dsc band msg22 assigned raim selector radio =>
    [U 6 18; U 2 0; U 30 mmsi; U 8 0; U 10 (coded 1023 (mo_speed m))] ++ spot_layout x ++
    [U 12 (coded 3600 (mo_course m)); U 9 (coded 511 (mo_heading m)); U 6 (second_code (mo_second m)); U 2 0;
     F unit; F display; F dsc; F band; F msg22; F assigned; F raim; F selector; U 19 radio]
  | BaseStation mmsi year month day hour minute second x device raim radio =>
    [U 6 4; U 2 0; U 30 mmsi; U 14 year; U 4 month; U 5 day; U 5 hour; U 6 minute; U 6 second] ++ spot_layout x ++
    [U 4 (device_code device); U 10 0; F raim; U 19 radio]
  | Aircraft mmsi altitude speed x course second dte assigned raim radio =>
    [U 6 9; U 2 0; U 30 mmsi; U 12 (coded 4095 altitude); U 10 (coded 1023 speed)] ++ spot_layout x ++
    [U 12 (coded 3600 course); U 6 (second_code second); U 8 0; F dte; U 3 0; F assigned; F raim; U 20 radio]
  | Aid mmsi kind name x bow stern port starboard device second off regional raim virtual assigned =>
    [U 6 21; U 2 0; U 30 mmsi; U 5 kind; T 20 (spelled 20 name)] ++ spot_layout x ++
    [U 9 bow; U 9 stern; U 6 port; U 6 starboard; U 4 (device_code (Some device)); U 6 (second_code second); F off; U 8 regional;
     F raim; F virtual; F assigned; U 1 0]
  | Inquiry mmsi destination => [U 6 10; U 2 0; U 30 mmsi; U 2 0; U 30 destination; U 2 0]
  | Addressed mmsi number destination retransmitted area id data =>
    [U 6 6; U 2 0; U 30 mmsi; U 2 number; U 30 destination; F retransmitted; U 1 0; U 10 area; U 6 id; (List.length data, data)]
  end.

(** ** What must come back *)

Definition spot_back (x : spot) (lat lon : option f64) (accurate : bool) : Prop :=
  both (gives 600000) (sp_latitude x) lat /\ both (gives 600000) (sp_longitude x) lon /\ accurate = sp_accurate x.

Definition motion_back (m : motion) (d : VesselDynamicData) : Prop :=
  both (fun n => gives 10 (Z.of_N n)) (mo_speed m) (vdd_sog_knots d) /\
  both (fun n => gives 10 (Z.of_N n)) (mo_course m) (vdd_cog d) /\
  both (fun n => gives 1 (Z.of_N n)) (mo_heading m) (vdd_heading_true d) /\
  match mo_second m with AtSecond n => vdd_timestamp_seconds d = n | _ => 60 <= vdd_timestamp_seconds d end.

(** Documentation of the field: whether the positioning system works, and how. *)
Definition system_of (s : fix_second) : option PositioningSystemMeta :=
  match s with
  | AtSecond _ => Some PsOperative | NoSecond => None | ByHand => Some PsManualInputMode
  | DeadReckoning => Some PsDeadReckoningMode | NoPositioning => Some PsInoperative
  end.

(** To starboard (1), to port (-1), or neither, for which there is a tolerance of one step. *)
Definition side_of_turn (k : Z) : Z := if (1 <? k)%Z then 1%Z else if (k <? -1)%Z then (-1)%Z else 0%Z.

Definition received_back (own : bool) (station : Station) (n : radio_news) (r : ParsedSentence) : Prop :=
  match n with
  | ClassA kind mmsi status turn x m raim radio => exists d, r = PsVesselDynamicData d /\
    vdd_own_vessel d = own /\ vdd_station d = station /\ vdd_ais_type d = AisClassA /\ vdd_mmsi d = mmsi /\
    vdd_nav_status d = status /\ vdd_rot_direction d = option_map side_of_turn turn /\ (vdd_rot d = None <-> turn = None) /\
    spot_back x (vdd_latitude d) (vdd_longitude d) (vdd_high_position_accuracy d) /\ motion_back m d /\
    vdd_positioning_system_meta d = system_of (mo_second m) /\ vdd_raim_flag d = raim /\ vdd_radio_status d = Some radio
  | ClassB mmsi x m unit display dsc band msg22 assigned raim selector radio => exists d, r = PsVesselDynamicData d /\
    vdd_own_vessel d = own /\ vdd_station d = station /\ vdd_ais_type d = AisClassB /\ vdd_mmsi d = mmsi /\
    spot_back x (vdd_latitude d) (vdd_longitude d) (vdd_high_position_accuracy d) /\ motion_back m d /\
    vdd_radio_status d = Some radio
  | BaseStation mmsi year month day hour minute second x device raim radio => exists d, r = PsBaseStationReport d /\
    bsr_own_vessel d = own /\ bsr_station d = station /\ bsr_mmsi d = mmsi /\
    bsr_timestamp d = Some (mk_datetime (Z.of_N year) month day hour minute second 0) /\
    spot_back x (bsr_latitude d) (bsr_longitude d) (bsr_high_position_accuracy d) /\
    bsr_position_fix_type d = device /\ bsr_raim_flag d = raim /\ bsr_radio_status d = radio
  | Aircraft mmsi altitude speed x course second dte assigned raim radio =>
    exists d, r = PsStandardSarAircraftPositionReport d /\
    sar_own_vessel d = own /\ sar_station d = station /\ sar_mmsi d = mmsi /\
    sar_altitude d = altitude /\ sar_sog_knots d = speed /\
    spot_back x (sar_latitude d) (sar_longitude d) (sar_high_position_accuracy d) /\
    both (fun n => gives 10 (Z.of_N n)) course (sar_cog d) /\ sar_timestamp_seconds d = second_code second /\
    sar_dte d = negb dte /\ sar_assigned d = assigned /\ sar_raim_flag d = raim /\ sar_radio_status d = radio
  | Aid mmsi kind name x bow stern port starboard device second off regional raim virtual assigned =>
    exists d, r = PsAidToNavigationReport d /\
    atn_own_vessel d = own /\ atn_station d = station /\ atn_mmsi d = mmsi /\
    atn_aid_type d = nth (N.to_nat kind) nav_aid_types NaNotSpecified /\ atn_name d = name /\
    spot_back x (atn_latitude d) (atn_longitude d) (atn_high_position_accuracy d) /\
    atn_dimension_to_bow d = Some bow /\ atn_dimension_to_stern d = Some stern /\
    atn_dimension_to_port d = Some port /\ atn_dimension_to_starboard d = Some starboard /\
    atn_position_fix_type d = Some device /\ atn_timestamp_seconds d = second_code second /\ atn_regional d = regional /\
    atn_raim_flag d = raim /\ atn_virtual_aid_flag d = virtual /\ atn_assigned_mode_flag d = assigned
  | Inquiry mmsi destination => exists d, r = PsUtcDateInquiry d /\
    udi_own_vessel d = own /\ udi_station d = station /\ udi_source_mmsi d = mmsi /\ udi_destination_mmsi d = destination
  | Addressed mmsi number destination retransmitted area id data => exists d, r = PsBinaryAddressedMessage d /\
    bam_own_vessel d = own /\ bam_station d = station /\ bam_mmsi d = mmsi /\ bam_sequence_number d = number /\
    bam_destination_mmsi d = destination /\ bam_retransmit_flag d = retransmitted /\ bam_dac d = area /\ bam_fid d = id
  end.

(** ** A log of such reports *)

(** A report with its sentence: time of reception, talker and its station, own vessel or another, channel. *)
Record radio_entry := mk_radio_entry {
  re_at : datetime; re_talker : str; re_station : Station; re_own : bool; re_channel : str; re_news : radio_news }.

Definition entry_sound (e : radio_entry) : Prop :=
  utf8_bytes (re_talker e) = 2%nat /\ plain (re_talker e) /\ names_station (re_talker e) (re_station e) /\ plain (re_channel e) /\
  sendable (re_news e).
Definition entry_call (e : radio_entry) : datetime * str :=
  (re_at e, encode_sentence (re_talker e) (if re_own e then lit "VDO" else lit "VDM") (re_channel e) (layout_bits (news_layout (re_news e)))).
Definition entry_back (e : radio_entry) (o : outcome ParseError ParsedSentence) : Prop :=
  exists r, o = Ok r /\ received_back (re_own e) (re_station e) (re_news e) r.
