(** C111: the sentences a receiver writes, from the numbers it means. *)
From Coq Require Import List NArith ZArith Bool String Reals.
From Verif Require Import Base Str F64 Chrono Types SpecText SpecTime SpecReal SpecFields.
Import ListNotations.
Open Scope N_scope.

(** ** Writing numbers *)

(** The last [w] decimal digits of a number. *)
Fixpoint digits_of (w : nat) (n : N) : str :=
  match w with
  | O => []
  | S w' => digits_of w' (n / 10) ++ [48 + n mod 10]
  end.

(** A decimal number as a receiver writes it: digits before and after the dot, and the number without the dot. *)
Record figure := mk_figure { digits_before : nat; digits_after : nat; figure_units : Z }.

(** It fits in its digits, of which there are 15 at most. *)
Definition fits (x : figure) : Prop :=
  (1 <= digits_before x)%nat /\ (digits_before x + digits_after x <= 15)%nat /\
  Z.abs_N (figure_units x) < 10 ^ N.of_nat (digits_before x + digits_after x).

Definition unsigned_text (before after : nat) (n : N) : str :=
  digits_of before (n / 10 ^ N.of_nat after) ++ lit "." ++ digits_of after n.
Definition figure_text (x : figure) : str :=
  (if (figure_units x <? 0)%Z then lit "-" else []) ++
  unsigned_text (digits_before x) (digits_after x) (Z.abs_N (figure_units x)).

(** A coordinate: the number of decimals of the minutes, and the coordinate in units of the last one. *)
Record place := mk_place { minute_decimals : nat; place_units : Z }.
Definition units_per_degree (x : place) : Z := (60 * 10 ^ Z.of_nat (minute_decimals x))%Z.
Definition within (degrees : Z) (x : place) : Prop :=
  (1 <= minute_decimals x <= 9)%nat /\ (Z.abs (place_units x) <= degrees * units_per_degree x)%Z.
Definition place_text (n : nat) (x : place) : str :=
  let a := Z.abs_N (place_units x) in
  let u := Z.to_N (units_per_degree x) in
  digits_of n (a / u) ++ unsigned_text 2 (minute_decimals x) (a mod u).

(** The letter of the hemisphere. *)
Definition hemisphere (plus minus : str) (z : Z) : str := if (z <? 0)%Z then minus else plus.

(** A number that is not known is written as an empty field. *)
Definition known {A} (text : A -> str) (o : option A) : str := match o with Some x => text x | None => [] end.

(** Time of day with decimals of the seconds; date. *)
Definition clock_text (h m s decimals : N) : str :=
  digits_of 2 h ++ digits_of 2 m ++ digits_of 2 s ++ lit "." ++ digits_of 2 decimals.
Definition date_text (d m y : N) : str := digits_of 2 d ++ digits_of 2 m ++ digits_of 2 y.

(** Satellites are written with two digits or, from 100 on, with three. *)
Definition satellite_text (n : N) : str := if n <? 100 then digits_of 2 n else digits_of 3 n.

(** A whole sentence. *)
Definition written_sentence (tt fff : str) (fields : list str) : str :=
  let body := join ((lit "$" ++ tt ++ fff) :: fields) in body ++ lit "*" ++ nmea_checksum body.

(** ** Reading them back *)

(** The double [v] gives back the number [z] of units of which [unit] are one. *)
Definition gives (unit : Z) (z : Z) (v : f64) : Prop :=
  finite v /\ (Rabs (real_of v * IZR unit - IZR z) < / 2)%R.

Definition both {A B} (R : A -> B -> Prop) (a : option A) (b : option B) : Prop :=
  match a, b with Some x, Some y => R x y | None, None => True | _, _ => False end.

Definition gives_figure (x : figure) : f64 -> Prop := gives (10 ^ Z.of_nat (digits_after x)) (figure_units x).
Definition gives_place (x : place) : f64 -> Prop := gives (units_per_degree x) (place_units x).

(** A condition on what is known. *)
Definition every {A} (P : A -> Prop) (o : option A) : Prop := match o with Some x => P x | None => True end.

(** ** Sentences *)

Record sent_gga := mk_sent_gga {
  sg_hour : N; sg_minute : N; sg_second : N; sg_hundredths : N;
  sg_latitude : option place; sg_longitude : option place;
  sg_quality : N; sg_satellites : option N; sg_hdop : option figure; sg_altitude : option figure;
  sg_geoid : option figure; sg_age : option figure; sg_station : option N }.

Definition gga_sendable (x : sent_gga) : Prop :=
  valid_time (sg_hour x) (sg_minute x) (sg_second x) /\
  every (within 90) (sg_latitude x) /\ every (within 180) (sg_longitude x) /\
  sg_quality x <= 8 /\ every (fun n => n < 100) (sg_satellites x) /\
  every fits (sg_hdop x) /\ every fits (sg_altitude x) /\ every fits (sg_geoid x) /\ every fits (sg_age x) /\
  every (fun n => n < 1024) (sg_station x).

Definition gga_written (x : sent_gga) : list str :=
  [clock_text (sg_hour x) (sg_minute x) (sg_second x) (sg_hundredths x);
   known (place_text 2) (sg_latitude x); known (fun a => hemisphere (lit "N") (lit "S") (place_units a)) (sg_latitude x);
   known (place_text 3) (sg_longitude x); known (fun a => hemisphere (lit "E") (lit "W") (place_units a)) (sg_longitude x);
   digits_of 1 (sg_quality x); known (digits_of 2) (sg_satellites x);
   known figure_text (sg_hdop x); known figure_text (sg_altitude x); lit "M";
   known figure_text (sg_geoid x); lit "M"; known figure_text (sg_age x); known (digits_of 4) (sg_station x)].

Definition gga_read_back (now : datetime) (nav : NavigationSystem) (x : sent_gga) (d : GgaData) : Prop :=
  gga_source d = nav /\
  gga_timestamp d = Some (mk_datetime (dt_year now) (dt_month now) (dt_day now) (sg_hour x) (sg_minute x) (sg_second x) 0) /\
  both gives_place (sg_latitude x) (gga_latitude d) /\ both gives_place (sg_longitude x) (gga_longitude d) /\
  nth_error qualities (N.to_nat (sg_quality x)) = Some (gga_quality d) /\
  gga_satellite_count d = sg_satellites x /\
  both gives_figure (sg_hdop x) (gga_hdop d) /\ both gives_figure (sg_altitude x) (gga_altitude d) /\
  both gives_figure (sg_geoid x) (gga_geoid_separation d) /\ both gives_figure (sg_age x) (gga_age_of_dgps d) /\
  gga_ref_station_id d = sg_station x.

Record sent_rmc := mk_sent_rmc {
  sr_hour : N; sr_minute : N; sr_second : N; sr_hundredths : N; sr_day : N; sr_month : N; sr_year : N;
  sr_active : bool; sr_latitude : option place; sr_longitude : option place;
  sr_speed : option figure; sr_course : option figure; sr_variation : option figure; sr_mode : str }.

(** Two-digit years are years of the century of the clock. *)
Definition rmc_sendable (now : datetime) (x : sent_rmc) : Prop :=
  valid_time (sr_hour x) (sr_minute x) (sr_second x) /\ sr_year x < 100 /\
  valid_date (dt_year now / 100 * 100 + Z.of_N (sr_year x)) (sr_month x) (sr_day x) /\
  every (within 90) (sr_latitude x) /\ every (within 180) (sr_longitude x) /\
  every fits (sr_speed x) /\ every fits (sr_course x) /\ every fits (sr_variation x) /\ plain (sr_mode x).

Definition rmc_written (x : sent_rmc) : list str :=
  [clock_text (sr_hour x) (sr_minute x) (sr_second x) (sr_hundredths x);
   if sr_active x then lit "A" else lit "V";
   known (place_text 2) (sr_latitude x); known (fun a => hemisphere (lit "N") (lit "S") (place_units a)) (sr_latitude x);
   known (place_text 3) (sr_longitude x); known (fun a => hemisphere (lit "E") (lit "W") (place_units a)) (sr_longitude x);
   known figure_text (sr_speed x); known figure_text (sr_course x);
   date_text (sr_day x) (sr_month x) (sr_year x);
   known (fun a => unsigned_text (digits_before a) (digits_after a) (Z.abs_N (figure_units a))) (sr_variation x);
   known (fun a => hemisphere (lit "E") (lit "W") (figure_units a)) (sr_variation x);
   sr_mode x].

Definition rmc_read_back (now : datetime) (nav : NavigationSystem) (x : sent_rmc) (d : RmcData) : Prop :=
  rmc_source d = nav /\
  rmc_timestamp d = Some (mk_datetime (dt_year now / 100 * 100 + Z.of_N (sr_year x)) (sr_month x) (sr_day x)
                            (sr_hour x) (sr_minute x) (sr_second x) 0) /\
  rmc_status_active d = Some (sr_active x) /\
  both gives_place (sr_latitude x) (rmc_latitude d) /\ both gives_place (sr_longitude x) (rmc_longitude d) /\
  both gives_figure (sr_speed x) (rmc_sog_knots d) /\ both gives_figure (sr_course x) (rmc_bearing d) /\
  both gives_figure (sr_variation x) (rmc_variation d).

Record sent_gll := mk_sent_gll {
  sl_latitude : option place; sl_longitude : option place;
  sl_hour : N; sl_minute : N; sl_second : N; sl_hundredths : N; sl_valid : bool; sl_mode : option FaaMode }.

(** The letter of simulators is not read (see
    [c111_simulator]). *)
Definition mode_letter (m : FaaMode) : str :=
  match m with
  | FaaAutonomous => lit "A" | FaaDifferential => lit "D" | FaaEstimated => lit "E" | FaaNotValid => lit "N"
  | FaaSimulator => lit "S"
  end.
Definition readable_mode (m : FaaMode) : Prop := m <> FaaSimulator.

Definition gll_sendable (x : sent_gll) : Prop :=
  every readable_mode (sl_mode x) /\ every (within 90) (sl_latitude x) /\ every (within 180) (sl_longitude x) /\
  valid_time (sl_hour x) (sl_minute x) (sl_second x).

Definition gll_written (x : sent_gll) : list str :=
  [known (place_text 2) (sl_latitude x); known (fun a => hemisphere (lit "N") (lit "S") (place_units a)) (sl_latitude x);
   known (place_text 3) (sl_longitude x); known (fun a => hemisphere (lit "E") (lit "W") (place_units a)) (sl_longitude x);
   clock_text (sl_hour x) (sl_minute x) (sl_second x) (sl_hundredths x);
   if sl_valid x then lit "A" else lit "V"; known mode_letter (sl_mode x)].

Definition gll_read_back (now : datetime) (nav : NavigationSystem) (x : sent_gll) (d : GllData) : Prop :=
  gll_source d = nav /\
  both gives_place (sl_latitude x) (gll_latitude d) /\ both gives_place (sl_longitude x) (gll_longitude d) /\
  gll_timestamp d = Some (mk_datetime (dt_year now) (dt_month now) (dt_day now) (sl_hour x) (sl_minute x) (sl_second x) 0) /\
  gll_data_valid d = Some (sl_valid x) /\ gll_faa_mode d = sl_mode x.

Record sent_vtg := mk_sent_vtg {
  sv_true : option figure; sv_magnetic : option figure; sv_knots : option figure; sv_kph : option figure;
  sv_mode : option FaaMode }.

Definition vtg_sendable (x : sent_vtg) : Prop :=
  every readable_mode (sv_mode x) /\ every fits (sv_true x) /\ every fits (sv_magnetic x) /\ every fits (sv_knots x) /\ every fits (sv_kph x).

Definition vtg_written (x : sent_vtg) : list str :=
  [known figure_text (sv_true x); lit "T"; known figure_text (sv_magnetic x); lit "M";
   known figure_text (sv_knots x); lit "N"; known figure_text (sv_kph x); lit "K"; known mode_letter (sv_mode x)].

Definition vtg_read_back (nav : NavigationSystem) (x : sent_vtg) (d : VtgData) : Prop :=
  vtg_source d = nav /\
  both gives_figure (sv_true x) (vtg_cog_true d) /\ both gives_figure (sv_magnetic x) (vtg_cog_magnetic d) /\
  both gives_figure (sv_knots x) (vtg_sog_knots d) /\ both gives_figure (sv_kph x) (vtg_sog_kph d) /\
  vtg_faa_mode d = sv_mode x.

Record sent_gsa := mk_sent_gsa {
  sa_automatic : bool; sa_fix : GsaFixMode; sa_satellites : list N;
  sa_pdop : option figure; sa_hdop : option figure; sa_vdop : option figure }.

Definition gsa_sendable (x : sent_gsa) : Prop :=
  (List.length (sa_satellites x) <= 12)%nat /\ Forall (fun n => n <= 255) (sa_satellites x) /\
  every fits (sa_pdop x) /\ every fits (sa_hdop x) /\ every fits (sa_vdop x).

Definition gsa_written (x : sent_gsa) : list str :=
  [if sa_automatic x then lit "A" else lit "M";
   match sa_fix x with FixNotAvailable => lit "1" | Fix2D => lit "2" | Fix3D => lit "3" end] ++
  map satellite_text (sa_satellites x) ++ repeat [] (12 - List.length (sa_satellites x)) ++
  [known figure_text (sa_pdop x); known figure_text (sa_hdop x); known figure_text (sa_vdop x)].

Definition gsa_read_back (nav : NavigationSystem) (x : sent_gsa) (d : GsaData) : Prop :=
  gsa_source d = nav /\ gsa_mode1_automatic d = Some (sa_automatic x) /\ gsa_mode2_3d d = Some (sa_fix x) /\
  gsa_prn_numbers d = sa_satellites x /\
  both gives_figure (sa_pdop x) (gsa_pdop d) /\ both gives_figure (sa_hdop x) (gsa_hdop d) /\
  both gives_figure (sa_vdop x) (gsa_vdop d).

(** ** Satellites in view *)

Record sent_satellite := mk_sent_satellite {
  ss_number : N; ss_elevation : option N; ss_azimuth : option N; ss_snr : option N }.

Definition satellite_sendable (x : sent_satellite) : Prop :=
  ss_number x <= 255 /\ every (fun n => n < 100) (ss_elevation x) /\ every (fun n => n < 360) (ss_azimuth x) /\
  every (fun n => n < 100) (ss_snr x).

Definition satellite_fields (x : sent_satellite) : list str :=
  [satellite_text (ss_number x); known (digits_of 2) (ss_elevation x); known (digits_of 3) (ss_azimuth x);
   known (digits_of 2) (ss_snr x)].

(** Four satellites to a sentence; the sentences are numbered from 1. *)
Definition sentences_needed (l : list sent_satellite) : N := (N.of_nat (List.length l) + 3) / 4.
Definition page (l : list sent_satellite) (n : N) : list sent_satellite := firstn 4 (skipn (4 * (N.to_nat n - 1)) l).
Definition page_fields (l : list sent_satellite) (n : N) : list str :=
  [digits_of 1 (sentences_needed l); digits_of 1 n; digits_of 2 (N.of_nat (List.length l))] ++
  flat_map satellite_fields (page l n).

(** The entry of a satellite in the result. *)
Definition satellite_entry (nav : NavigationSystem) (x : sent_satellite) : GsvData :=
  {| gsv_source := nav; gsv_prn_number := ss_number x; gsv_elevation := ss_elevation x;
     gsv_azimuth := ss_azimuth x; gsv_snr := ss_snr x |}.
