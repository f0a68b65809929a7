(** C108: the bits of static reports of class B equipment (type 24, two messages). *)
From stdpp Require Import gmap.
From Coq Require Import List NArith ZArith.
From Verif Require Import Base Str Chrono Types Parser SpecText SpecAis SpecTime SpecState SpecLocal.
Import ListNotations.
Open Scope N_scope.

(** The report [d] was made of a part A with the payload [a] and a part B with the payload [b], which came one
    directly after the other, in any order, when no part of that vessel was waiting. *)
Definition made_of (ovf : bool) (a b : str) (d : VesselStaticData) : Prop :=
  exists p now1 s1 now2 s2 tt1 fff1 tt2 fff2 x y,
    let q := snd (parse_sentence ovf now1 s1 p) in
    reachable ovf p /\ clock now1 /\ (0 <= dt_year now1)%Z /\ clock now2 /\ (0 <= dt_year now2)%Z /\
    completes s1 tt1 fff1 p x /\ completes s2 tt2 fff2 q y /\ (x = a /\ y = b \/ x = b /\ y = a) /\
    bits_at (payload_bits a) 0 6 = 24 /\ bits_at (payload_bits a) 38 2 = 0 /\
    bits_at (payload_bits b) 0 6 = 24 /\ bits_at (payload_bits b) 38 2 = 1 /\
    bits_at (payload_bits a) 8 30 = bits_at (payload_bits b) 8 30 /\
    stored p (Vessel (bits_at (payload_bits a) 8 30)) = None /\
    fst (parse_sentence ovf now2 s2 q) = Ok (PsVesselStaticData d).

(** The data of part B. The last 30 bits are dimensions or, for auxiliary craft, the identity of the mother ship. *)
Definition data_24 (x y : VesselStaticData) : list datum := [
  ([(8, 30)], vsd_mmsi x = vsd_mmsi y);
  ([(40, 8)], vsd_ship_type x = vsd_ship_type y /\ vsd_cargo_type x = vsd_cargo_type y);
  ([(48, 18)], vsd_equipment_vendor_id x = vsd_equipment_vendor_id y);
  ([(66, 4)], vsd_equipment_model x = vsd_equipment_model y);
  ([(70, 20)], vsd_equipment_serial_number x = vsd_equipment_serial_number y);
  ([(90, 42)], vsd_call_sign x = vsd_call_sign y);
  ([(132, 9)], vsd_dimension_to_bow x = vsd_dimension_to_bow y);
  ([(141, 9)], vsd_dimension_to_stern x = vsd_dimension_to_stern y);
  ([(150, 6)], vsd_dimension_to_port x = vsd_dimension_to_port y);
  ([(156, 6)], vsd_dimension_to_starboard x = vsd_dimension_to_starboard y);
  ([(132, 30)], vsd_mothership_mmsi x = vsd_mothership_mmsi y);
  ([], vsd_ais_type x = vsd_ais_type y /\ vsd_ais_version_indicator x = vsd_ais_version_indicator y /\
       vsd_imo_number x = vsd_imo_number y /\ vsd_position_fix_type x = vsd_position_fix_type y /\
       vsd_eta x = vsd_eta y /\ vsd_draught10 x = vsd_draught10 y /\ vsd_destination x = vsd_destination y)]%nat.
(** The datum of part A. *)
Definition name_24 (x y : VesselStaticData) : datum := ([(40, 120)], vsd_name x = vsd_name y)%nat.
