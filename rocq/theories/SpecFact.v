(** C102: data of AIS reports that GNSS sentences also have. *)
From Coq Require Import List NArith ZArith Bool String.
From Verif Require Import Base Str F64 Chrono Types SpecText SpecAis SpecReal SpecMeasure.
Import ListNotations.

(** A coordinate of an AIS position report: number of degree digits and negative letter of the same coordinate in
    GNSS sentences, the transmitted number (ten-thousandths of a minute), the reported double. *)
Definition ais_coordinates (bits : list bool) (t : N) (r : ParsedSentence) : list (nat * str * Z * option f64) :=
  match position_bits t, position r with
  | Some (lo, la), Some (lat, lon) =>
    [(2%nat, lit "S", signed_value (window bits la 27), lat); (3%nat, lit "W", signed_value (window bits lo 28), lon)]
  | _, _ => []
  end.

(** Speed and course of an AIS position report: the 'not available' code, the transmitted tenths, the double. *)
Definition ais_motion (bits : list bool) (t : N) (r : ParsedSentence) : list (N * N * option f64) :=
  match motion_bits t, r with
  | Some (so, co, _), PsVesselDynamicData d =>
    [(1023%N, be_value (window bits so 10), vdd_sog_knots d); (3600%N, be_value (window bits co 12), vdd_cog d)]
  | _, _ => []
  end.
