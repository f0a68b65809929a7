(** Specification vocabulary for the measurements of AIS reports, as real numbers. *)
From Coq Require Import List NArith ZArith Bool String Reals.
From Verif Require Import Base Str F64 Chrono Types SpecText SpecAis SpecReal.
Import ListNotations.
Open Scope R_scope.

(** A coordinate sent as [raw] ten-thousandths of a minute; [na] is the 'not available' code. *)
Definition coordinate (na raw : Z) (o : option f64) : Prop :=
  (raw = na /\ o = None) \/
  (raw <> na /\ exists x, o = Some x /\ nearest (IZR raw / 600000) x).

(** 91 and 181 degrees stand for 'not available'. *)
Definition latitude_na : Z := (91 * 60 * 10000)%Z.
Definition longitude_na : Z := (181 * 60 * 10000)%Z.

(** ITU-R M.1371: first bits of longitude (28 bits) and latitude (27 bits) by message type. *)
Definition position_bits (t : N) : option (nat * nat) :=
  match t with
  | 1 | 2 | 3 | 9 => Some (61, 89)%nat
  | 4 => Some (79, 107)%nat
  | 18 => Some (57, 85)%nat
  | 21 => Some (164, 192)%nat
  | _ => None
  end%N.

(** Latitude and longitude of a report. *)
Definition position (r : ParsedSentence) : option (option f64 * option f64) :=
  match r with
  | PsVesselDynamicData d => Some (vdd_latitude d, vdd_longitude d)
  | PsBaseStationReport d => Some (bsr_latitude d, bsr_longitude d)
  | PsStandardSarAircraftPositionReport d => Some (sar_latitude d, sar_longitude d)
  | PsAidToNavigationReport d => Some (atn_latitude d, atn_longitude d)
  | _ => None
  end.

(** A measurement sent as [raw] tenths of a unit; [na] is the 'not available' code. *)
Definition in_tenths (na raw : N) (o : option f64) : Prop :=
  (raw = na /\ o = None) \/
  (raw <> na /\ exists x, o = Some x /\ finite x /\ 0 <= real_of x /\
    Rabs (real_of x - IZR (Z.of_N raw) / 10) <= / 10 ^ 12).

(** A measurement sent as a whole number. *)
Definition in_units (na raw : N) (o : option f64) : Prop :=
  (raw = na /\ o = None) \/
  (raw <> na /\ exists x, o = Some x /\ finite x /\ real_of x = IZR (Z.of_N raw)).

(** First bits of speed (10 bits), course (12 bits) and heading (9 bits) in class A and B reports. *)
Definition motion_bits (t : N) : option (nat * nat * nat) :=
  match t with
  | 1 | 2 | 3 => Some (50, 116, 128)%nat
  | 18 => Some (46, 112, 124)%nat
  | _ => None
  end%N.

(** [bits] are the bits of a message of type [t]. *)
Definition message_type (bits : list bool) (t : N) : Prop := be_value (window bits 0 6) = t.

(** The rate of turn the crate computes from the indicator [k] = 0..126. (The documented inverse of
    the indicator is the square of k / 4.733, at most 708.) *)
Definition crate_turn (k : Z) : R := (IZR k * 708 / 126 / 4.733) ^ 2.
