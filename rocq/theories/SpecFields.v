(** Specification vocabulary for the fields of GNSS sentences. *)
From Coq Require Import List NArith ZArith Bool String Reals.
From Verif Require Import Base Str F64 Chrono Types SpecText SpecResult SpecTime SpecReal.
Import ListNotations.
Open Scope N_scope.

(** [s] is a GNSS sentence [fff] of talker [tt] with these fields after the type. *)
Definition gnss_with (s tt fff : str) (fields : list str) : Prop :=
  sentence s ((lit "$" ++ tt ++ fff) :: fields) /\ fields <> [] /\ utf8_bytes tt = 2%nat.

(** Field number [i] after the type; a missing field counts as empty. *)
Definition fld (fields : list str) (i : nat) : str := nth i fields [].

(** ** Values of fields *)

(** An empty field means 'not available', any other must be a text for a value. *)
Inductive field_value {A} (means : str -> A -> Prop) (f : str) : option A -> Prop :=
| field_empty : f = [] -> field_value means f None
| field_given v : f <> [] -> means f v -> field_value means f (Some v).

(** A field that is not empty and stands for no value. *)
Definition malformed {A} (means : str -> A -> Prop) (f : str) : Prop :=
  f <> [] /\ forall v, ~ means f v.

(** As before, but a malformed field counts as not available. *)
Inductive lenient_value {A} (means : str -> A -> Prop) (f : str) : option A -> Prop :=
| lenient_none : f = [] \/ (forall v, ~ means f v) -> lenient_value means f None
| lenient_some v : f <> [] -> means f v -> lenient_value means f (Some v).

(** A whole number from 0 to [max]. *)
Definition number_text (max : N) (f : str) (v : N) : Prop := denotes f v /\ v <= max.

(** A word from a table. *)
Definition word {A} (table : list (str * A)) (f : str) (v : A) : Prop := In (f, v) table.

(** ** Positions *)

(** Degrees and minutes as text: [n] digits for the degrees, two for the minutes, a dot and digits.
    Anything may follow. *)
Inductive degrees_minutes (n : nat) (f : str) (degrees : N) (minutes : R) : Prop :=
| degrees_minutes_intro dd mm frac rest :
    f = dd ++ mm ++ lit "." ++ frac ++ rest ->
    Forall digit dd -> Forall digit mm -> Forall digit frac ->
    List.length dd = n -> List.length mm = 2%nat -> frac <> [] ->
    match rest with [] => True | c :: _ => ~ digit c end ->
    degrees = numeral_value dd ->
    minutes = decimal_size (numeral_value (mm ++ frac)) (- Z.of_nat (List.length frac)) ->
    degrees_minutes n f degrees minutes.

(** The double computed from them: the minutes are rounded, divided by sixty and rounded, added to
    the degrees and rounded. The letter [minus] in the hemisphere field makes it negative. *)
Definition angle (n : nat) (minus hemisphere : str) (f : str) (x : f64) : Prop :=
  exists degrees minutes m q y, degrees_minutes n f degrees minutes /\
    nearest minutes m /\ nearest (real_of m / 60) q /\ nearest (IZR (Z.of_N degrees) + real_of q) y /\
    negative y = false /\
    (hemisphere = minus -> x = f64_neg y) /\ (hemisphere <> minus -> x = y).

Definition latitude_text (hemisphere : str) : str -> f64 -> Prop := angle 2 (lit "S") hemisphere.
Definition longitude_text (hemisphere : str) : str -> f64 -> Prop := angle 3 (lit "W") hemisphere.

(** ** Times *)

(** The three numbers at the start of a time of day, two bytes each; [None] if one of them is
    unreadable. There is no value if the text ends before (or in the middle of a character). *)
Inductive time_text (f : str) : option (N * N * N) -> Prop :=
| time_readable a b c rest h m s :
    f = a ++ b ++ c ++ rest -> utf8_bytes a = 2%nat -> utf8_bytes b = 2%nat -> utf8_bytes c = 2%nat ->
    denotes a h -> denotes b m -> denotes c s -> time_text f (Some (h, m, s))
| unreadable_hour a rest :
    f = a ++ rest -> utf8_bytes a = 2%nat -> (forall v, ~ denotes a v) -> time_text f None
| unreadable_minute a b rest h :
    f = a ++ b ++ rest -> utf8_bytes a = 2%nat -> utf8_bytes b = 2%nat ->
    denotes a h -> (forall v, ~ denotes b v) -> time_text f None
| unreadable_second a b c rest h m :
    f = a ++ b ++ c ++ rest -> utf8_bytes a = 2%nat -> utf8_bytes b = 2%nat -> utf8_bytes c = 2%nat ->
    denotes a h -> denotes b m -> (forall v, ~ denotes c v) -> time_text f None.

(** A moment of the current day. *)
Definition today (now : datetime) (h m s : N) : datetime :=
  mk_datetime (dt_year now) (dt_month now) (dt_day now) h m s 0.

(** The time stamp for a time of day. *)
Inductive time_stamp (now : datetime) (f : str) : option datetime -> Prop :=
| time_stamp_none : time_text f None -> time_stamp now f None
| time_stamp_some h m s : time_text f (Some (h, m, s)) -> valid_time h m s ->
    time_stamp now f (Some (today now h m s)).

(** At most two characters of a text, from number [i] on. *)
Definition pair_at (f : str) (i : nat) : str := firstn 2 (skipn i f).

(** A whole number with an optional sign. *)
Definition signed_number (f : str) (z : Z) : Prop :=
  (exists v, denotes f v /\ z = Z.of_N v) \/
  (exists ds, f = lit "-" ++ ds /\ is_numeral ds /\ z = (- Z.of_N (numeral_value ds))%Z).

(** The six numbers of a date DDMMYY and a time HHMMSS. *)
Definition date_time_numbers (fdate ftime : str) (d mo : N) (y : Z) (h mi s : N) : Prop :=
  denotes (pair_at fdate 0) d /\ denotes (pair_at fdate 2) mo /\ signed_number (pair_at fdate 4) y /\
  denotes (pair_at ftime 0) h /\ denotes (pair_at ftime 2) mi /\ denotes (pair_at ftime 4) s.

(** First year of the century of a clock reading. *)
Definition century (now : datetime) : Z := (dt_year now / 100 * 100)%Z.

(** The time stamp for a date and a time. *)
Inductive date_time_stamp (now : datetime) (fdate ftime : str) : option datetime -> Prop :=
| date_time_none : (forall d mo y h mi s, ~ date_time_numbers fdate ftime d mo y h mi s) ->
    date_time_stamp now fdate ftime None
| date_time_some d mo y h mi s : date_time_numbers fdate ftime d mo y h mi s ->
    year_in_range (century now + y) -> valid_date (century now + y) mo d -> valid_time h mi s ->
    date_time_stamp now fdate ftime (Some (mk_datetime (century now + y) mo d h mi s 0)).

(** ** Reports *)

(** Quality indicators 0..8; anything else, and an empty field, is invalid. *)
Definition qualities : list GgaQualityIndicator :=
  [QInvalid; QGpsFix; QDGpsFix; QPpsFix; QRealTimeKinematic; QRealTimeKinematicFloat; QDeadReckoning;
   QManualInputMode; QSimulationMode].
Definition quality (o : option N) : GgaQualityIndicator :=
  match o with Some q => nth (N.to_nat q) qualities QInvalid | None => QInvalid end.

Definition gga_report (now : datetime) (nav : NavigationSystem) (fs : list str) (d : GgaData) : Prop :=
  gga_source d = nav /\
  time_stamp now (fld fs 0) (gga_timestamp d) /\
  field_value (latitude_text (fld fs 2)) (fld fs 1) (gga_latitude d) /\
  field_value (longitude_text (fld fs 4)) (fld fs 3) (gga_longitude d) /\
  (exists q, field_value (number_text 255) (fld fs 5) q /\ gga_quality d = quality q) /\
  field_value (number_text 255) (fld fs 6) (gga_satellite_count d) /\
  field_value reads_double (fld fs 7) (gga_hdop d) /\
  field_value reads_double (fld fs 8) (gga_altitude d) /\
  field_value reads_double (fld fs 10) (gga_geoid_separation d) /\
  field_value reads_double (fld fs 12) (gga_age_of_dgps d) /\
  field_value (number_text 65535) (fld fs 13) (gga_ref_station_id d).

Definition gga_malformed (fs : list str) : Prop :=
  malformed (latitude_text (fld fs 2)) (fld fs 1) \/ malformed (longitude_text (fld fs 4)) (fld fs 3) \/
  malformed (number_text 255) (fld fs 5) \/ malformed (number_text 255) (fld fs 6) \/
  malformed reads_double (fld fs 7) \/ malformed reads_double (fld fs 8) \/
  malformed reads_double (fld fs 10) \/ malformed reads_double (fld fs 12) \/
  malformed (number_text 65535) (fld fs 13).

(** Status of the receiver: A is active, V is a warning. *)
Definition statuses : list (str * bool) := [(lit "A", true); (lit "V", false)].

(** Magnetic variation: a number and a side; west is negative. *)
Definition variation (side f : str) (x : f64) : Prop :=
  exists y, reads_double f y /\ (side = lit "E" /\ x = y \/ side = lit "W" /\ x = f64_neg y).

Definition rmc_report (now : datetime) (nav : NavigationSystem) (fs : list str) (d : RmcData) : Prop :=
  rmc_source d = nav /\
  date_time_stamp now (fld fs 8) (fld fs 0) (rmc_timestamp d) /\
  field_value (word statuses) (fld fs 1) (rmc_status_active d) /\
  field_value (latitude_text (fld fs 3)) (fld fs 2) (rmc_latitude d) /\
  field_value (longitude_text (fld fs 5)) (fld fs 4) (rmc_longitude d) /\
  field_value reads_double (fld fs 6) (rmc_sog_knots d) /\
  field_value reads_double (fld fs 7) (rmc_bearing d) /\
  field_value (variation (fld fs 10)) (fld fs 9) (rmc_variation d).

Definition rmc_malformed (fs : list str) : Prop :=
  malformed (word statuses) (fld fs 1) \/
  malformed (latitude_text (fld fs 3)) (fld fs 2) \/ malformed (longitude_text (fld fs 5)) (fld fs 4) \/
  malformed reads_double (fld fs 6) \/ malformed reads_double (fld fs 7) \/
  malformed (variation (fld fs 10)) (fld fs 9).

(** GSA: selection mode (manual, automatic) and kind of fix. *)
Definition selection_modes : list (str * bool) := [(lit "M", false); (lit "A", true)].
Definition fix_modes : list (str * GsaFixMode) :=
  [(lit "1", FixNotAvailable); (lit "2", Fix2D); (lit "3", Fix3D)].

(** The numbers in the non-empty ones of some fields, in order. *)
Inductive numbers_in : list str -> list N -> Prop :=
| numbers_nil : numbers_in [] []
| numbers_skip fs l : numbers_in fs l -> numbers_in ([] :: fs) l
| numbers_cons f fs v l : f <> [] -> number_text 255 f v -> numbers_in fs l -> numbers_in (f :: fs) (v :: l).

(** Fields [i], ..., [i+n-1]. *)
Definition flds (fs : list str) (i n : nat) : list str := map (fld fs) (seq i n).

Definition gsa_report (nav : NavigationSystem) (fs : list str) (d : GsaData) : Prop :=
  gsa_source d = nav /\
  field_value (word selection_modes) (fld fs 0) (gsa_mode1_automatic d) /\
  field_value (word fix_modes) (fld fs 1) (gsa_mode2_3d d) /\
  numbers_in (flds fs 2 12) (gsa_prn_numbers d) /\
  field_value reads_double (fld fs 14) (gsa_pdop d) /\
  field_value reads_double (fld fs 15) (gsa_hdop d) /\
  field_value reads_double (fld fs 16) (gsa_vdop d).

Definition gsa_malformed (fs : list str) : Prop :=
  malformed (word selection_modes) (fld fs 0) \/ malformed (word fix_modes) (fld fs 1) \/
  Exists (malformed (number_text 255)) (flds fs 2 12) \/
  malformed reads_double (fld fs 14) \/ malformed reads_double (fld fs 15) \/
  malformed reads_double (fld fs 16).

(** FAA mode letters. *)
Definition faa_modes : list (str * FaaMode) :=
  [(lit "A", FaaAutonomous); (lit "D", FaaDifferential); (lit "E", FaaEstimated); (lit "N", FaaNotValid)].

Definition gll_report (now : datetime) (nav : NavigationSystem) (fs : list str) (d : GllData) : Prop :=
  gll_source d = nav /\
  field_value (latitude_text (fld fs 1)) (fld fs 0) (gll_latitude d) /\
  field_value (longitude_text (fld fs 3)) (fld fs 2) (gll_longitude d) /\
  time_stamp now (fld fs 4) (gll_timestamp d) /\
  lenient_value (word statuses) (fld fs 5) (gll_data_valid d) /\
  lenient_value (word faa_modes) (fld fs 6) (gll_faa_mode d).

Definition gll_malformed (fs : list str) : Prop :=
  malformed (latitude_text (fld fs 1)) (fld fs 0) \/ malformed (longitude_text (fld fs 3)) (fld fs 2).

Definition vtg_report (nav : NavigationSystem) (fs : list str) (d : VtgData) : Prop :=
  vtg_source d = nav /\
  lenient_value reads_double (fld fs 0) (vtg_cog_true d) /\
  lenient_value reads_double (fld fs 2) (vtg_cog_magnetic d) /\
  lenient_value reads_double (fld fs 4) (vtg_sog_knots d) /\
  lenient_value reads_double (fld fs 6) (vtg_sog_kph d) /\
  lenient_value (word faa_modes) (fld fs 8) (vtg_faa_mode d).

(** The result of a sentence, by type. *)
Inductive gnss_report (now : datetime) (nav : NavigationSystem) (fs : list str) : str -> ParsedSentence -> Prop :=
| report_gga d : gga_report now nav fs d -> gnss_report now nav fs (lit "GGA") (PsGga d)
| report_rmc d : rmc_report now nav fs d -> gnss_report now nav fs (lit "RMC") (PsRmc d)
| report_gsa d : gsa_report nav fs d -> gnss_report now nav fs (lit "GSA") (PsGsa d)
| report_gll d : gll_report now nav fs d -> gnss_report now nav fs (lit "GLL") (PsGll d)
| report_vtg d : vtg_report nav fs d -> gnss_report now nav fs (lit "VTG") (PsVtg d).

(** ** Where attributes come from *)

(** Coordinates: number of degree digits, letter of the negative hemisphere, numbers of the two fields,
    value. *)
Definition coordinates (r : ParsedSentence) : list (nat * str * nat * nat * option f64) :=
  match r with
  | PsGga d => [(2%nat, lit "S", 1%nat, 2%nat, gga_latitude d); (3%nat, lit "W", 3%nat, 4%nat, gga_longitude d)]
  | PsRmc d => [(2%nat, lit "S", 2%nat, 3%nat, rmc_latitude d); (3%nat, lit "W", 4%nat, 5%nat, rmc_longitude d)]
  | PsGll d => [(2%nat, lit "S", 0%nat, 1%nat, gll_latitude d); (3%nat, lit "W", 2%nat, 3%nat, gll_longitude d)]
  | _ => []
  end.

(** Decimal numbers: field and value. *)
Definition decimals (r : ParsedSentence) : list (nat * option f64) :=
  match r with
  | PsGga d => [(7%nat, gga_hdop d); (8%nat, gga_altitude d); (10%nat, gga_geoid_separation d);
      (12%nat, gga_age_of_dgps d)]
  | PsRmc d => [(6%nat, rmc_sog_knots d); (7%nat, rmc_bearing d)]
  | PsGsa d => [(14%nat, gsa_pdop d); (15%nat, gsa_hdop d); (16%nat, gsa_vdop d)]
  | PsVtg d => [(0%nat, vtg_cog_true d); (2%nat, vtg_cog_magnetic d); (4%nat, vtg_sog_knots d);
      (6%nat, vtg_sog_kph d)]
  | _ => []
  end.

(** Times of day: field and value. *)
Definition times (r : ParsedSentence) : list (nat * option datetime) :=
  match r with
  | PsGga d => [(0%nat, gga_timestamp d)]
  | PsGll d => [(4%nat, gll_timestamp d)]
  | _ => []
  end.

(** FAA modes: field and value. *)
Definition modes (r : ParsedSentence) : list (nat * option FaaMode) :=
  match r with
  | PsGll d => [(6%nat, gll_faa_mode d)]
  | PsVtg d => [(8%nat, vtg_faa_mode d)]
  | _ => []
  end.

(** Six digits and a rest. *)
Definition six_digits (f : str) (a b c : N) : Prop :=
  exists d1 d2 d3 d4 d5 d6 rest, f = [d1; d2; d3; d4; d5; d6] ++ rest /\
    Forall digit [d1; d2; d3; d4; d5; d6] /\
    a = 10 * (d1 - 48) + (d2 - 48) /\ b = 10 * (d3 - 48) + (d4 - 48) /\ c = 10 * (d5 - 48) + (d6 - 48).
