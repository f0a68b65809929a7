(** Specification vocabulary for the texts of values and for the position accessors. *)
From Coq Require Import List NArith ZArith Bool String.
From Verif Require Import Base Str F64 Chrono Types SpecText SpecResult SpecReal SpecMeasure SpecFields.
Import ListNotations.
Open Scope N_scope.

(** Two values have the same text only if they are the same. *)
Definition identifies {A} (text : A -> str) : Prop := forall a b, text a = text b -> a = b.

(** Names of the navigation systems by talker; all others are 'other'. *)
Definition system_names : list (str * str) :=
  [(lit "GN", lit "combination"); (lit "GP", lit "GPS"); (lit "GL", lit "GLONASS");
   (lit "GA", lit "Galileo"); (lit "BD", lit "BeiDou"); (lit "GI", lit "Navic"); (lit "QZ", lit "QZSS")].

(** Names of the stations by talker; all others are 'other'. *)
Definition station_names : list (str * str) :=
  [(lit "AB", lit "base station"); (lit "AD", lit "dependent AIS base station");
   (lit "AI", lit "mobile station"); (lit "AN", lit "aid to navigation station");
   (lit "AR", lit "ais receiving station"); (lit "AS", lit "limited base station");
   (lit "AT", lit "AIS transmitting station"); (lit "AX", lit "repeater station")].

(** [text] is the name of talker [tt] in a list of names. *)
Definition talker_name (names : list (str * str)) (tt text : str) : Prop :=
  In (tt, text) names \/ (~ In tt (map fst names) /\ text = lit "other").

(** Texts of GPS quality indicators 0..8. *)
Definition quality_names : list str :=
  [lit "invalid"; lit "GPS fix"; lit "DGPS fix"; lit "PPS fix"; lit "Real-Time Kinematic";
   lit "Real-Time Kinematic (floating point)"; lit "dead reckoning"; lit "manual input mode";
   lit "simulation mode"].

(** Texts of fix modes by the digit in the sentence. *)
Definition fix_names : list (str * str) :=
  [(lit "1", lit "no available"); (lit "2", lit "2D fix"); (lit "3", lit "3D fix")].

(** Texts of the types of aids to navigation, 0..31. *)
Definition aid_names : list str :=
  [lit "not specified"; lit "reference point"; lit "RACON"; lit "FixedStructure"; lit "(reserved)";
   lit "light without sectors"; lit "light with sectors"; lit "leading light front"; lit "leading light rear";
   lit "cardinal beacon, north"; lit "cardinal beacon, east"; lit "cardinal beacon, south"; lit "cardinal beacon, west";
   lit "lateral beacon, port side"; lit "lateral beacon, starboard side";
   lit "lateral beacon, preferred channel, port side"; lit "lateral beacon, preferred channel, starboard side";
   lit "isolated danger beacon"; lit "safe water"; lit "special mark";
   lit "cardinal mark, north"; lit "cardinal mark, east"; lit "cardinal mark, south"; lit "cardinal mark, west";
   lit "port hand mark"; lit "starboard hand mark"; lit "preferred channel, port side";
   lit "preferred channel, starboard side"; lit "isolated danger"; lit "safe water"; lit "special mark";
   lit "light vessel"].

(** Texts of position fix types 0..8; all others are 'undefined'. *)
Definition fix_type_names : list str :=
  [lit "undefined"; lit "GPS"; lit "GLONASS"; lit "GPS/GLONASS"; lit "Loran-C"; lit "Chayka";
   lit "integrated navigation system"; lit "surveyed"; lit "Galileo"].

(** Texts of ship and cargo codes: from, to, text. *)
Definition ship_type_names : list (N * N * str) :=
  [(0, 9, lit "(not available)"); (10, 19, lit "(reserved)"); (20, 29, lit "wing in ground");
   (30, 30, lit "fishing"); (31, 31, lit "towing"); (32, 32, lit "towing, long");
   (33, 33, lit "dredging or underwater ops"); (34, 34, lit "diving ops"); (35, 35, lit "military ops");
   (36, 36, lit "sailing"); (37, 37, lit "pleasure craft"); (38, 39, lit "(reserved)");
   (40, 49, lit "high-speed craft"); (50, 50, lit "pilot"); (51, 51, lit "search and rescue");
   (52, 52, lit "tug"); (53, 53, lit "port tender"); (54, 54, lit "anti-pollution equipment");
   (55, 55, lit "law enforcement"); (56, 57, lit "(local)"); (58, 58, lit "medical transport");
   (59, 59, lit "noncombatant"); (60, 69, lit "passenger"); (70, 79, lit "cargo");
   (80, 89, lit "tanker"); (90, 99, lit "other"); (100, 255, lit "(not available)")].
Definition ship_type_name (code : N) (text : str) : Prop :=
  exists from to, In (from, to, text) ship_type_names /\ from <= code <= to.

(** Texts of the cargo by the last digit of the code, of codes whose first digit is 1, 2, 4 or 6 to 9. *)
Definition cargo_names : list str :=
  [lit "undefined"; lit "hazardous category A"; lit "hazardous category B"; lit "hazardous category C";
   lit "hazardous category D"].
Inductive cargo_name (code : N) : str -> Prop :=
| cargo_class tens units text :
    code = 10 * tens + units -> In tens [1; 2; 4; 6; 7; 8; 9] -> nth_error cargo_names (N.to_nat units) = Some text ->
    cargo_name code text
| cargo_reserved tens units :
    code = 10 * tens + units -> In tens [1; 2; 4; 6; 7; 8; 9] -> 5 <= units <= 9 ->
    cargo_name code (lit "(reserved)")
| cargo_none tens units :
    code = 10 * tens + units -> units <= 9 -> ~ In tens [1; 2; 4; 6; 7; 8; 9] ->
    cargo_name code (lit "undefined").

(** Texts of the state of the positioning system by the time stamp; 60 is not available. *)
Definition positioning_name (sec : N) : option str :=
  if sec <? 60 then Some (lit "operative") else
  nth (N.to_nat sec - 60) [None; Some (lit "manual input mode"); Some (lit "dead reckoning mode");
    Some (lit "inoperative")] None.

(** Both are one of the reserved ship types, or both one of the local ones. *)
Definition ship_twins (a b : ShipType) : Prop :=
  let reserved := [ShReserved1; ShReserved38; ShReserved39] in
  let local := [ShSpareLocal56; ShSpareLocal57] in
  In a reserved /\ In b reserved \/ In a local /\ In b local.

(** Both are reserved cargo types. *)
Definition cargo_twins (a b : CargoType) : Prop :=
  let reserved := [CaReserved5; CaReserved6; CaReserved7; CaReserved8; CaReserved9] in
  In a reserved /\ In b reserved.

(** Beacon and floating mark of the same kind: safe water (18 and 29), special mark (19 and 30). *)
Definition aid_twins (a b : N) : Prop :=
  (a = 18 \/ a = 29) /\ (b = 18 \/ b = 29) \/ (a = 19 \/ a = 30) /\ (b = 19 \/ b = 30).

(** Fields of the position (latitude, its side, longitude, its side) of a GNSS sentence by type. *)
Definition position_fields : list (str * (nat * nat * nat * nat)) :=
  [(lit "GGA", (1, 2, 3, 4)%nat); (lit "RMC", (2, 3, 4, 5)%nat); (lit "GLL", (0, 1, 2, 3)%nat)].
