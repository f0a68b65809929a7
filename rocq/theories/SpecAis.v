(** Specification vocabulary for AIS payloads: bits, armoring, six-bit text, layouts, code tables. *)
From Coq Require Import List NArith ZArith Bool String.
From Verif Require Import Base Str F64 Chrono Types SpecText SpecTime.
Import ListNotations.
Open Scope N_scope.

(** ** Numbers as bits *)

(** [v] as [w] bits, most significant first. *)
Fixpoint be_bits (w : nat) (v : N) : list bool :=
  match w with
  | O => []
  | S w' => N.testbit v (N.of_nat w') :: be_bits w' v
  end.

(** The number written by a list of bits, most significant first. *)
Definition be_value (l : list bool) : N := fold_left (fun v b => 2 * v + N.b2n b) l 0.

(** Two's complement representation of [z] in [w] bits. *)
Definition twos (w : nat) (z : Z) : N := Z.to_N (z mod 2 ^ Z.of_nat w)%Z.

(** The number written by a list of bits in two's complement. *)
Definition signed_value (l : list bool) : Z :=
  match l with
  | true :: _ => (Z.of_N (be_value l) - 2 ^ Z.of_nat (List.length l))%Z
  | _ => Z.of_N (be_value l)
  end.

(** [n] bits from position [i] on; positions past the end read as zero. *)
Definition window (bv : list bool) (i n : nat) : list bool := map (fun k => nth k bv false) (seq i n).

(** ** Armoring (ITU-R M.1371 / IEC 61162): one printable character for six bits *)

Definition armor_alphabet : str :=
  lit "0123456789:;<=>?@ABCDEFGHIJKLMNOPQRSTUVW`abcdefghijklmnopqrstuvw".

Definition armor_char (bits : list bool) : N := nth (N.to_nat (be_value bits)) armor_alphabet 0.

(** Armored text of a bit sequence, zero bits added up to a multiple of six. *)
Fixpoint armor (bits : list bool) : str :=
  match bits with
  | [] => []
  | b0 :: b1 :: b2 :: b3 :: b4 :: b5 :: rest => armor_char [b0; b1; b2; b3; b4; b5] :: armor rest
  | few => [armor_char (firstn 6 (few ++ repeat false 6))]
  end.

(** A text that is armored data. *)
Definition armored (s : str) : Prop := Forall (fun c => In c armor_alphabet) s.

(** ** Six-bit text *)

(** Characters that have a six-bit code: space to '?' and '@' to '_'. *)
Definition encodable (c : N) : Prop := 32 <= c <= 95.

(** Six-bit code: '@' and the letters are 0..31, the others are as in ASCII. *)
Definition six_code (c : N) : N := if c <? 64 then c else c - 64.

(** [codes] is a field of [n] characters that carries [text]: the text, then any number of spaces,
    then the end of the field or '@' followed by anything. *)
Definition text_field (n : nat) (text : str) (codes : list N) : Prop :=
  List.length codes = n /\ Forall (fun k => k < 64) codes /\
  Forall encodable text /\ ~ In 64 text /\ (forall t, text <> t ++ [32]) /\
  exists spaces junk, codes = map six_code text ++ repeat 32 spaces ++ junk /\
    (junk = [] \/ exists j, junk = 0 :: j).

(** ** Layouts: fields with their widths in bits *)

Definition layout := list (nat * list bool).
(** Unsigned number, signed number, flag, text. *)
Definition U (w : nat) (v : N) : nat * list bool := (w, be_bits w v).
Definition I (w : nat) (z : Z) : nat * list bool := (w, be_bits w (twos w z)).
Definition F (b : bool) : nat * list bool := (1%nat, [b]).
Definition T (n : nat) (codes : list N) : nat * list bool :=
  ((6 * n)%nat, flat_map (be_bits 6) codes).

Definition layout_bits (l : layout) : list bool := flat_map snd l.

(** Ranges of the values of a field. *)
Definition fits (w : N) (v : N) : Prop := v < 2 ^ w.
Definition fits_signed (w : Z) (z : Z) : Prop := (- 2 ^ (w - 1) <= z < 2 ^ (w - 1))%Z.

(** ** AIS sentences *)

(** [s] is a VDM/VDO sentence ([fff]) of talker [tt] with these fields after the type. *)
Definition vdm_with (s tt fff : str) (fields : list str) : Prop :=
  sentence s ((lit "!" ++ tt ++ fff) :: fields) /\ fields <> [] /\
  utf8_bytes tt = 2%nat /\ (fff = lit "VDM" \/ fff = lit "VDO").

(** A VDM/VDO sentence with at least the first six fields. *)
Definition vdm_sentence (s tt fff count number id channel payload : str) : Prop :=
  exists more, vdm_with s tt fff (count :: number :: id :: channel :: payload :: more).

(** A sentence that carries a whole message: fragment count 1. *)
Definition one_fragment (s tt fff payload : str) : Prop :=
  exists count number id channel n, vdm_sentence s tt fff count number id channel payload /\
    denotes count 1 /\ denotes number n /\ n <= 255.

(** The sentence a simple encoder writes. *)
Definition encode_sentence (tt fff channel : str) (bits : list bool) : str :=
  let body := lit "!" ++ tt ++ fff ++ lit ",1,1,," ++ channel ++ lit "," ++ armor bits ++ lit ",0" in
  body ++ lit "*" ++ nmea_checksum body.

(** ** Values of fields *)

(** Coordinates: 1/10000 minutes, [na] is the 'not available' code. *)
Definition degrees (na raw : Z) : option f64 :=
  if (raw =? na)%Z then None else Some (f64_div (f64_of_Z raw) (f64_of_Z 600000)).
Definition lat_degrees (raw : Z) : option f64 := degrees (91 * 600000) raw.
Definition lon_degrees (raw : Z) : option f64 := degrees (181 * 600000) raw.

(** Tenths: the raw number times the double nearest 0.1. *)
Definition tenths (na raw : N) : option f64 :=
  if raw =? na then None else Some (f64_mul (f64_of_Z (Z.of_N raw)) (f64_of_dec false 1 (-1))).

(** Whole numbers with a 'not available' code. *)
Definition whole (na raw : N) : option f64 :=
  if raw =? na then None else Some (f64_of_Z (Z.of_N raw)).
Definition available (na raw : N) : option N := if raw =? na then None else Some raw.

(** Text: empty means not available. *)
Definition text_value (t : str) : option str := match t with [] => None | _ => Some t end.

(** ITU-R M.1371 navigational status 0..15. *)
Definition navigation_statuses : list NavigationStatus :=
  [NsUnderWayUsingEngine; NsAtAnchor; NsNotUnderCommand; NsRestrictedManoeuverability;
   NsConstrainedByDraught; NsMoored; NsAground; NsEngagedInFishing; NsUnderWaySailing; NsReserved9;
   NsReserved10; NsReserved11; NsReserved12; NsReserved13; NsAisSartIsActive; NsNotDefined].

(** Type of electronic position fixing device; 0 and the unused codes 9..15 are undefined. *)
Definition position_fix_types : list PositionFixType :=
  [PfUndefined; PfGPS; PfGLONASS; PfGPSGLONASS; PfLoranC; PfChayka; PfIntegratedNavigationSystem;
   PfSurveyed; PfGalileo].
Definition fix_type (code : N) : PositionFixType := nth (N.to_nat code) position_fix_types PfUndefined.

(** Types of aids to navigation 0..31. *)
Definition nav_aid_types : list NavAidType :=
  [NaNotSpecified; NaReferencePoint; NaRacon; NaFixedStructure; NaReserved4; NaLightWithoutSectors;
   NaLightWithSectors; NaLeadingLightFront; NaLeadingLightRear; NaBeaconCardinalNorth;
   NaBeaconCardinalEast; NaBeaconCardinalSouth; NaBeaconCardinalWest; NaBeaconLateralPort;
   NaBeaconLateralStarboard; NaBeaconLateralPreferredChannelPort;
   NaBeaconLateralPreferredChannelStarboard; NaBeaconIsolatedDanger; NaBeaconSafeWater;
   NaBeaconSpecialMark; NaCardinalMarkNorth; NaCardinalMarkEast; NaCardinalMarkSouth;
   NaCardinalMarkWest; NaPortHandMark; NaStarboardHandMark; NaPreferredChannelPort;
   NaPreferredChannelStarboard; NaIsolatedDanger; NaSafeWater; NaSpecialMark; NaLightVessel].

(** Time stamp field: the second, or the state of the positioning system (60 = not available). *)
Definition positioning_state (sec : N) : option PositioningSystemMeta :=
  if sec <? 60 then Some PsOperative
  else nth (N.to_nat (sec - 60)) [None; Some PsManualInputMode; Some PsDeadReckoningMode; Some PsInoperative]
         None.

(** Electronic position fixing device in base station and voyage reports: 0 is not available. *)
Definition fix_report (code : N) : option PositionFixType :=
  if code =? 0 then None else Some (fix_type code).

(** What the crate makes of the rate of turn (see C35 about its deviation from the documentation). *)
Definition turn_magnitude (r : Z) : f64 :=
  let x := f64_div (f64_div (f64_mul (f64_of_Z r) (f64_of_Z 708)) (f64_of_Z 126)) (f64_of_dec false 4733 (-3)) in
  f64_mul x x.
Definition reported_turn (raw : Z) : option f64 :=
  if (Z.abs raw <=? 126)%Z
  then Some (if (raw <? 0)%Z then f64_neg (turn_magnitude (Z.abs raw)) else turn_magnitude (Z.abs raw))
  else None.

(** Direction of turn: -128 is 'not available', -1..1 is straight on. *)
Definition turn_direction (raw : Z) : option Z :=
  if (raw =? -128)%Z then None else if (Z.abs raw <=? 1)%Z then Some 0%Z else Some (Z.sgn raw).

(** What the crate makes of the special manoeuvre indicator (see C36). *)
Definition reported_manoeuvre (raw : N) : option bool :=
  if (raw =? 1) || (raw =? 2) then Some true else None.

(** Documented ship types, src/ais/mod.rs:300-407 and ITU-R M.1371 table 53. *)
Definition documented_ship_type (code : N) : ShipType :=
  match code / 10 with
  | 1 => ShReserved1
  | 2 => ShWingInGround
  | 3 => nth (N.to_nat (code mod 10))
           [ShFishing; ShTowing; ShTowingLong; ShDredgingOrUnderwaterOps; ShDivingOps; ShMilitaryOps;
            ShSailing; ShPleasureCraft; ShReserved38; ShReserved39] ShNotAvailable
  | 4 => ShHighSpeedCraft
  | 5 => nth (N.to_nat (code mod 10))
           [ShPilot; ShSearchAndRescue; ShTug; ShPortTender; ShAntiPollutionEquipment; ShLawEnforcement;
            ShSpareLocal56; ShSpareLocal57; ShMedicalTransport; ShNoncombatant] ShNotAvailable
  | 6 => ShPassenger
  | 7 => ShCargo
  | 8 => ShTanker
  | 9 => ShOther
  | _ => ShNotAvailable
  end.

(** What the crate reports: tankers and other types come out as cargo (see C53). *)
Definition reported_ship_type (code : N) : ShipType :=
  if (80 <=? code) && (code <=? 99) then ShCargo else documented_ship_type code.

(** Cargo type: the last digit of the codes 1x, 2x, 4x, 6x, 7x, 8x, 9x. *)
Definition cargo_type (code : N) : CargoType :=
  if existsb (N.eqb (code / 10)) [1; 2; 4; 6; 7; 8; 9] then
    nth (N.to_nat (code mod 10))
      [CaUndefined; CaHazardousCategoryA; CaHazardousCategoryB; CaHazardousCategoryC;
       CaHazardousCategoryD; CaReserved5; CaReserved6; CaReserved7; CaReserved8; CaReserved9] CaUndefined
  else CaUndefined.

(** What the crate makes of the ETA of a voyage report (see C54). [sec] are the six bits after the
    minute (they belong to the draught). The year is the current one; 0 means the current month or
    day; hour 24 means 23:59:59, minute 60 means the end of the hour. *)
Inductive eta_report (now : datetime) (month day hour minute sec : N) : option datetime -> Prop :=
| eta_none :
    month = 0 -> day = 0 -> hour = 24 -> minute = 60 -> sec = 60 ->
    eta_report now month day hour minute sec None
| eta_some mo d h mi s :
    ~ (month = 0 /\ day = 0 /\ hour = 24 /\ minute = 60 /\ sec = 60) ->
    mo = (if month =? 0 then dt_month now else month) ->
    d = (if day =? 0 then dt_day now else day) ->
    (hour = 24 /\ h = 23 /\ mi = 59 /\ s = 59 \/
     hour <> 24 /\ minute = 60 /\ h = hour /\ mi = 59 /\ s = 59 \/
     hour <> 24 /\ minute <> 60 /\ h = hour /\ mi = minute /\ s = if sec =? 60 then 59 else sec) ->
    year_in_range (dt_year now) -> valid_date (dt_year now) mo d -> valid_time h mi s ->
    eta_report now month day hour minute sec (Some (mk_datetime (dt_year now) mo d h mi s 0)).

(** The six bits of any character (for those of the armor alphabet, what they stand for). *)
Definition char_value (c : N) : N :=
  let k := (c + 208) mod 256 in (if 40 <? k then k - 8 else k) mod 64.
Definition payload_bits (payload : str) : list bool := flat_map (fun c => be_bits 6 (char_value c)) payload.

(** The number in bits [i], ..., [i+n-1]. *)
Definition bits_at (bits : list bool) (i n : nat) : N := be_value (window bits i n).
(** A payload that can be read: with overflow checks, no character below '0'. *)
Definition readable (ovf : bool) (payload : str) : Prop := ovf = true -> Forall (fun c => 48 <= c mod 256) payload.
