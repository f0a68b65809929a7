(** C110: sentences and messages that differ in a hemisphere, a side or a sense of turn only. *)
From Coq Require Import List NArith ZArith String.
From Verif Require Import Base Str F64 Chrono Types SpecFields SpecColumns.
Import ListNotations.
Open Scope N_scope.

(** The fields of NMEA 0183 that name a hemisphere or a side, by sentence: number of the field, letter of positive
    and of negative values. *)
Definition side_fields : list (str * nat * str * str) :=
  [(lit "GGA", 2%nat, lit "N", lit "S"); (lit "GGA", 4%nat, lit "E", lit "W");
   (lit "RMC", 3%nat, lit "N", lit "S"); (lit "RMC", 5%nat, lit "E", lit "W"); (lit "RMC", 10%nat, lit "E", lit "W");
   (lit "GLL", 1%nat, lit "N", lit "S"); (lit "GLL", 3%nat, lit "E", lit "W")].

(** The fields of two sentences [fff] are the same but for number [k], which names opposite sides. *)
Definition opposite_sides (fff : str) (k : nat) (fs gs : list str) : Prop :=
  (exists a b, In (fff, k, a, b) side_fields /\ (fld fs k = a /\ fld gs k = b \/ fld fs k = b /\ fld gs k = a)) /\
  forall i, i <> k -> fld fs i = fld gs i.

(** The value whose side is given in field [k]. *)
Definition sided_value (r : ParsedSentence) (k : nat) : option f64 :=
  match r, k with
  | PsGga d, 2%nat => gga_latitude d
  | PsGga d, 4%nat => gga_longitude d
  | PsRmc d, 3%nat => rmc_latitude d
  | PsRmc d, 5%nat => rmc_longitude d
  | PsRmc d, 10%nat => rmc_variation d
  | PsGll d, 1%nat => gll_latitude d
  | PsGll d, 3%nat => gll_longitude d
  | _, _ => None
  end.

(** [r'] says the same as [r], on the other side. *)
Definition mirror_image (k : nat) (r r' : ParsedSentence) : Prop :=
  columns r r' <> [] /\ source_of r' = source_of r /\ sided_value r' k = option_map f64_neg (sided_value r k) /\
  forall fields P, In (fields, P) (columns r r') -> ~ In k fields -> P.

(** The numbers that mean 'not available': 181 and 91 degrees in 1/10000 minutes. *)
Definition no_longitude : Z := 108600000.
Definition no_latitude : Z := 54600000.

(** The coordinates in reports of message type [t] by ITU-R M.1371: first bit, number of bits, number that means
    'not available', value. For type 27 see C31. *)
Definition coordinate_bits (t : N) (r : ParsedSentence) : list (nat * nat * Z * option f64) :=
  match r with
  | PsVesselDynamicData d =>
      if t =? 27 then []
      else if t =? 18 then [(57, 28, no_longitude, vdd_longitude d); (85, 27, no_latitude, vdd_latitude d)]%nat
      else [(61, 28, no_longitude, vdd_longitude d); (89, 27, no_latitude, vdd_latitude d)]%nat
  | PsBaseStationReport d => [(79, 28, no_longitude, bsr_longitude d); (107, 27, no_latitude, bsr_latitude d)]%nat
  | PsStandardSarAircraftPositionReport d =>
      [(61, 28, no_longitude, sar_longitude d); (89, 27, no_latitude, sar_latitude d)]%nat
  | PsAidToNavigationReport d => [(164, 28, no_longitude, atn_longitude d); (192, 27, no_latitude, atn_latitude d)]%nat
  | _ => []
  end.
