(** GNSS sentence handlers, src/gnss/*.rs. *)
From Coq Require Import List NArith ZArith Bool String.
From Verif Require Import Base Str F64 Chrono Types Util.
Import ListNotations.
Open Scope N_scope.

(** src/gnss/gga.rs:80-95 *)
Definition GgaQualityIndicator_new (a : N) : GgaQualityIndicator :=
  match a with
  | 0 => QInvalid
  | 1 => QGpsFix
  | 2 => QDGpsFix
  | 3 => QPpsFix
  | 4 => QRealTimeKinematic
  | 5 => QRealTimeKinematicFloat
  | 6 => QDeadReckoning
  | 7 => QManualInputMode
  | 8 => QSimulationMode
  | _ => QInvalid
  end.

(** src/gnss/mod.rs:106-116 *)
Definition FaaMode_new (val : str) : outcome str FaaMode :=
  if str_eqb val (lit "A") then Ok FaaAutonomous
  else if str_eqb val (lit "D") then Ok FaaDifferential
  else if str_eqb val (lit "E") then Ok FaaEstimated
  else if str_eqb val (lit "N") then Ok FaaNotValid
  else Err (lit "Unrecognized FAA information value: " ++ val).

(** src/gnss/mod.rs:118-129 *)
Definition FaaMode_display (m : FaaMode) : str :=
  match m with
  | FaaAutonomous => lit "A"
  | FaaDifferential => lit "D"
  | FaaEstimated => lit "E"
  | FaaNotValid => lit "N"
  | FaaSimulator => lit "?"
  end.

(** [pick_number_field(..)?] in a handler: the [String] error becomes [InvalidSentence]
    (src/error.rs:31-35). *)
Definition number {A} (parse : str -> option A) (split : list str) (num : nat)
    : outcome ParseError (option A) :=
  map_err InvalidSentence (pick_number_field parse split num).

(** [pick_number_field(..).ok().unwrap_or(None)], src/gnss/vtg.rs:50, src/gnss/gsv.rs:63.
    [pick_number_field] does not panic. *)
Definition number_lenient {A} (parse : str -> option A) (split : list str) (num : nat) : option A :=
  match pick_number_field parse split num with
  | Ok o => o
  | _ => None
  end.

(** [str::parse] at the types used: u8 (src/gnss/gga.rs:38, src/gnss/gsv.rs:25-34), u16
    (src/gnss/gga.rs:53, src/gnss/gsv.rs:31), u32 (src/gnss/gsv.rs:83). *)
Definition parse_u8 := parse_uint u8_max.
(** src/gnss/gga.rs:53, src/gnss/gsv.rs:31 *)
Definition parse_u16 := parse_uint u16_max.
(** src/gnss/gsv.rs:83 *)
Definition parse_u32 := parse_uint u32_max.

(** src/gnss/gga.rs:118-137 *)
Definition handle_gga (now : datetime) (sentence : str) (nav : NavigationSystem)
    : outcome ParseError ParsedSentence :=
  let split := split_on 44 sentence in
  let! timestamp := ok_opt (parse_hhmmss (field split 1) now) in
  let! latitude := map_err InvalidSentence (parse_latitude_ddmm_mmm (field split 2) (field split 3)) in
  let! longitude := map_err InvalidSentence (parse_longitude_dddmm_mmm (field split 4) (field split 5)) in
  let! quality := number parse_u8 split 6 in
  let! satellite_count := number parse_u8 split 7 in
  let! hdop := number parse_f64 split 8 in
  let! altitude := number parse_f64 split 9 in
  let! geoid_separation := number parse_f64 split 11 in
  let! age_of_dgps := number parse_f64 split 13 in
  let! ref_station_id := number parse_u16 split 14 in
  Ok (PsGga {|
    gga_source := nav;
    gga_timestamp := timestamp;
    gga_latitude := latitude;
    gga_longitude := longitude;
    gga_quality := GgaQualityIndicator_new (unwrap_or quality 0);
    gga_satellite_count := satellite_count;
    gga_hdop := hdop;
    gga_altitude := altitude;
    gga_geoid_separation := geoid_separation;
    gga_age_of_dgps := age_of_dgps;
    gga_ref_station_id := ref_station_id |}).

(** src/gnss/rmc.rs:67-75 *)
Definition rmc_status (s : str) : outcome ParseError (option bool) :=
  if str_eqb s (lit "A") then Ok (Some true)
  else if str_eqb s (lit "V") then Ok (Some false)
  else if str_eqb s [] then Ok None
  else Err (InvalidSentence (lit "Invalid RMC navigation receiver status: " ++ s)).

(** src/gnss/rmc.rs:82-93 *)
Definition rmc_variation_field (split : list str) : outcome ParseError (option f64) :=
  let! v := number parse_f64 split 10 in
  match v with
  | Some val =>
    let side := field split 11 in
    if str_eqb side (lit "E") then Ok (Some val)
    else if str_eqb side (lit "W") then Ok (Some (f64_neg val))
    else Err (InvalidSentence (lit "Invalid RMC variation side: " ++ side))
  | None => Ok None
  end.

(** src/gnss/rmc.rs:60-96 *)
Definition handle_rmc (now : datetime) (sentence : str) (nav : NavigationSystem)
    : outcome ParseError ParsedSentence :=
  let split := split_on 44 sentence in
  let! timestamp := ok_opt (parse_yymmdd_hhmmss (field split 9) (field split 1) now) in
  let! status := rmc_status (field split 2) in
  let! latitude := map_err InvalidSentence (parse_latitude_ddmm_mmm (field split 3) (field split 4)) in
  let! longitude := map_err InvalidSentence (parse_longitude_dddmm_mmm (field split 5) (field split 6)) in
  let! sog := number parse_f64 split 7 in
  let! bearing := number parse_f64 split 8 in
  let! variation := rmc_variation_field split in
  Ok (PsRmc {|
    rmc_source := nav;
    rmc_timestamp := timestamp;
    rmc_status_active := status;
    rmc_latitude := latitude;
    rmc_longitude := longitude;
    rmc_sog_knots := sog;
    rmc_bearing := bearing;
    rmc_variation := variation |}).

(** src/gnss/gsa.rs:75-81 *)
Definition gsa_mode1 (s : str) : outcome ParseError (option bool) :=
  if str_eqb s (lit "M") then Ok (Some false)
  else if str_eqb s (lit "A") then Ok (Some true)
  else if str_eqb s [] then Ok None
  else Err (InvalidSentence (lit "Invalid GPGSA mode: " ++ s)).

(** src/gnss/gsa.rs:82-91 *)
Definition gsa_mode2 (s : str) : outcome ParseError (option GsaFixMode) :=
  if str_eqb s (lit "1") then Ok (Some FixNotAvailable)
  else if str_eqb s (lit "2") then Ok (Some Fix2D)
  else if str_eqb s (lit "3") then Ok (Some Fix3D)
  else if str_eqb s [] then Ok None
  else Err (InvalidSentence (lit "Invalid GPGSA fix type: " ++ s)).

(** src/gnss/gsa.rs:92-102, the loop over the given field numbers *)
Fixpoint gsa_prns (split : list str) (nums : list nat) : outcome ParseError (list N) :=
  match nums with
  | [] => Ok []
  | i :: rest =>
    if negb (str_eqb (field split i) []) then
      let! val := number parse_u8 split i in
      let! v := gsa_prns split rest in
      Ok (match val with Some n => n :: v | None => v end)
    else gsa_prns split rest
  end.

(** src/gnss/gsa.rs:70-107 *)
Definition handle_gsa (sentence : str) (nav : NavigationSystem) : outcome ParseError ParsedSentence :=
  let split := split_on 44 sentence in
  let! mode1 := gsa_mode1 (field split 1) in
  let! mode2 := gsa_mode2 (field split 2) in
  let! prns := gsa_prns split (seq 3 12) in
  let! pdop := number parse_f64 split 15 in
  let! hdop := number parse_f64 split 16 in
  let! vdop := number parse_f64 split 17 in
  Ok (PsGsa {|
    gsa_source := nav;
    gsa_mode1_automatic := mode1;
    gsa_mode2_3d := mode2;
    gsa_prn_numbers := prns;
    gsa_pdop := pdop;
    gsa_hdop := hdop;
    gsa_vdop := vdop |}).

(** src/gnss/gsv.rs:83-85 *)
Definition make_gsv_key (sentence_type : str) (msg_count msg_num : N) : str :=
  sentence_type ++ lit "," ++ dec msg_count ++ lit "," ++ dec msg_num.

(** The range [1..(msg_count + 1)] of src/gnss/gsv.rs:51 and 59, u32 arithmetic: [None] is the
    overflow panic, without overflow checks the sum wraps to 0 and the range is empty. *)
Definition gsv_range (ovf : bool) (msg_count : N) : option (list N) :=
  if msg_count <? u32_max then Some (map N.of_nat (seq 1 (N.to_nat msg_count)))
  else if ovf then None else Some [].

(** src/gnss/gsv.rs:50-55 *)
Definition gsv_found (msg_type : str) (msg_count : N) (range : list N) (p : NmeaParser) : N :=
  fold_left
    (fun found i => if contains_key (make_gsv_key msg_type msg_count i) p then found + 1 else found)
    range 0.

(** src/gnss/gsv.rs:62-72: the four blocks of one sentence *)
Definition gsv_blocks (nav : NavigationSystem) (sentence : str) : list GsvData :=
  let split := split_on 44 sentence in
  flat_map
    (fun j =>
       match number_lenient parse_u8 split (4 + 4 * j + 0) with
       | Some prn =>
         [{| gsv_source := nav;
             gsv_prn_number := prn;
             gsv_elevation := number_lenient parse_u8 split (4 + 4 * j + 1);
             gsv_azimuth := number_lenient parse_u16 split (4 + 4 * j + 2);
             gsv_snr := number_lenient parse_u8 split (4 + 4 * j + 3) |}]
       | None => []
       end)
    (seq 0 4).

(** src/gnss/gsv.rs:58-74: pull every part in order *)
Fixpoint gsv_collect (nav : NavigationSystem) (msg_type : str) (msg_count : N) (range : list N)
    (p : NmeaParser) : list GsvData * NmeaParser :=
  match range with
  | [] => ([], p)
  | i :: rest =>
    let '(o, p1) := pull_string (make_gsv_key msg_type msg_count i) p in
    let blocks := match o with Some sentence => gsv_blocks nav sentence | None => [] end in
    let '(v, p2) := gsv_collect nav msg_type msg_count rest p1 in
    (blocks ++ v, p2)
  end.

(** src/gnss/gsv.rs:41-80 *)
Definition handle_gsv (ovf : bool) (sentence : str) (nav : NavigationSystem) (p : NmeaParser)
    : outcome ParseError ParsedSentence * NmeaParser :=
  let split := split_on 44 sentence in
  let msg_type := field split 0 in
  match number parse_u32 split 1 with
  | Panic => (Panic, p)
  | Err e => (Err e, p)
  | Ok count =>
    let msg_count := unwrap_or count 0 in
    match number parse_u32 split 2 with
    | Panic => (Panic, p)
    | Err e => (Err e, p)
    | Ok num =>
      let msg_num := unwrap_or num 0 in
      let p1 := push_string (make_gsv_key msg_type msg_count msg_num) sentence p in
      match gsv_range ovf msg_count with
      | None => (Panic, p1)
      | Some range =>
        if gsv_found msg_type msg_count range p1 =? msg_count then
          let '(v, p2) := gsv_collect nav msg_type msg_count range p1 in (Ok (PsGsv v), p2)
        else (Ok PsIncomplete, p1)
      end
    end
  end.

(** src/gnss/vtg.rs:44-56 *)
Definition handle_vtg (sentence : str) (nav : NavigationSystem) : outcome ParseError ParsedSentence :=
  let split := split_on 44 sentence in
  Ok (PsVtg {|
    vtg_source := nav;
    vtg_cog_true := number_lenient parse_f64 split 1;
    vtg_cog_magnetic := number_lenient parse_f64 split 3;
    vtg_sog_knots := number_lenient parse_f64 split 5;
    vtg_sog_kph := number_lenient parse_f64 split 7;
    vtg_faa_mode := ok_value (FaaMode_new (field split 9)) |}).

(** src/gnss/gll.rs:66-78 *)
Definition gll_valid (s : str) : option bool :=
  if str_eqb s (lit "A") then Some true else if str_eqb s (lit "V") then Some false else None.

(** src/gnss/gll.rs:54-81 *)
Definition handle_gll (now : datetime) (sentence : str) (nav : NavigationSystem)
    : outcome ParseError ParsedSentence :=
  let split := split_on 44 sentence in
  let! latitude := map_err InvalidSentence (parse_latitude_ddmm_mmm (field split 1) (field split 2)) in
  let! longitude := map_err InvalidSentence (parse_longitude_dddmm_mmm (field split 3) (field split 4)) in
  let! timestamp := ok_opt (parse_hhmmss (field split 5) now) in
  Ok (PsGll {|
    gll_source := nav;
    gll_latitude := latitude;
    gll_longitude := longitude;
    gll_timestamp := timestamp;
    gll_data_valid := gll_valid (field split 6);
    gll_faa_mode := ok_value (FaaMode_new (field split 7)) |}).
