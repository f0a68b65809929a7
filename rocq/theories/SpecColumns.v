(** C109: which fields of a GNSS sentence a datum of the report is about. *)
From Coq Require Import List NArith.
From Verif Require Import Base Str F64 Chrono Types SpecFields.
Import ListNotations.
Open Scope N_scope.

(** Two sentences have the same texts in these fields (numbered from 0; a missing field counts as empty). *)
Definition agree_on (fs gs : list str) (fields : list nat) : Prop := forall i, In i fields -> fld fs i = fld gs i.

(** The data by NMEA 0183: the numbers of their fields, and what it means that two reports have the same. *)
Definition columns (r r' : ParsedSentence) : list (list nat * Prop) :=
  match r, r' with
  | PsGga x, PsGga y =>
      [([0], gga_timestamp x = gga_timestamp y);
       ([1; 2], gga_latitude x = gga_latitude y);
       ([3; 4], gga_longitude x = gga_longitude y);
       ([5], gga_quality x = gga_quality y);
       ([6], gga_satellite_count x = gga_satellite_count y);
       ([7], gga_hdop x = gga_hdop y);
       ([8], gga_altitude x = gga_altitude y);
       ([10], gga_geoid_separation x = gga_geoid_separation y);
       ([12], gga_age_of_dgps x = gga_age_of_dgps y);
       ([13], gga_ref_station_id x = gga_ref_station_id y)]%nat
  | PsRmc x, PsRmc y =>
      [([8; 0], rmc_timestamp x = rmc_timestamp y);
       ([1], rmc_status_active x = rmc_status_active y);
       ([2; 3], rmc_latitude x = rmc_latitude y);
       ([4; 5], rmc_longitude x = rmc_longitude y);
       ([6], rmc_sog_knots x = rmc_sog_knots y);
       ([7], rmc_bearing x = rmc_bearing y);
       ([9; 10], rmc_variation x = rmc_variation y)]%nat
  | PsGsa x, PsGsa y =>
      [([0], gsa_mode1_automatic x = gsa_mode1_automatic y);
       ([1], gsa_mode2_3d x = gsa_mode2_3d y);
       ([2; 3; 4; 5; 6; 7; 8; 9; 10; 11; 12; 13], gsa_prn_numbers x = gsa_prn_numbers y);
       ([14], gsa_pdop x = gsa_pdop y);
       ([15], gsa_hdop x = gsa_hdop y);
       ([16], gsa_vdop x = gsa_vdop y)]%nat
  | PsGll x, PsGll y =>
      [([0; 1], gll_latitude x = gll_latitude y);
       ([2; 3], gll_longitude x = gll_longitude y);
       ([4], gll_timestamp x = gll_timestamp y);
       ([5], gll_data_valid x = gll_data_valid y);
       ([6], gll_faa_mode x = gll_faa_mode y)]%nat
  | PsVtg x, PsVtg y =>
      [([0], vtg_cog_true x = vtg_cog_true y);
       ([2], vtg_cog_magnetic x = vtg_cog_magnetic y);
       ([4], vtg_sog_knots x = vtg_sog_knots y);
       ([6], vtg_sog_kph x = vtg_sog_kph y);
       ([8], vtg_faa_mode x = vtg_faa_mode y)]%nat
  | _, _ => []
  end.

(** The navigation system named by the talker. *)
Definition source_of (r : ParsedSentence) : option NavigationSystem :=
  match r with
  | PsGga d => Some (gga_source d) | PsRmc d => Some (rmc_source d) | PsGsa d => Some (gsa_source d)
  | PsGll d => Some (gll_source d) | PsVtg d => Some (vtg_source d) | _ => None
  end.
