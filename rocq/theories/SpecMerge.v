(** What it means to put two static reports of one vessel together. *)
From Coq Require Import List NArith ZArith Bool String.
From Verif Require Import Base Str F64 Chrono Types.
Import ListNotations.
Open Scope N_scope.

(** Field [f] of [d] is the value in [v], or if that has none, the value in [w]. *)
Definition prefers {A} (f : VesselStaticData -> option A) (v w d : VesselStaticData) : Prop :=
  (forall x, f v = Some x -> f d = Some x) /\ (f v = None -> f d = f w).

(** The report [d] says what [v] says and, where that says nothing, what [w] says. *)
Definition merged (v w d : VesselStaticData) : Prop :=
  vsd_mmsi d = vsd_mmsi v /\ vsd_mmsi d = vsd_mmsi w /\ vsd_ais_type d = AisClassB /\
  vsd_own_vessel d = vsd_own_vessel v /\ vsd_ais_version_indicator d = vsd_ais_version_indicator v /\
  prefers vsd_imo_number v w d /\ prefers vsd_call_sign v w d /\ prefers vsd_name v w d /\
  prefers vsd_equipment_vendor_id v w d /\ prefers vsd_equipment_model v w d /\
  prefers vsd_equipment_serial_number v w d /\ prefers vsd_dimension_to_bow v w d /\
  prefers vsd_dimension_to_stern v w d /\ prefers vsd_dimension_to_port v w d /\
  prefers vsd_dimension_to_starboard v w d /\ prefers vsd_position_fix_type v w d /\
  prefers vsd_eta v w d /\ prefers vsd_draught10 v w d /\ prefers vsd_destination v w d /\
  prefers vsd_mothership_mmsi v w d /\
  (vsd_ship_type v <> ShNotAvailable -> vsd_ship_type d = vsd_ship_type v) /\
  (vsd_ship_type v = ShNotAvailable -> vsd_ship_type d = vsd_ship_type w) /\
  (vsd_cargo_type v <> CaUndefined -> vsd_cargo_type d = vsd_cargo_type v) /\
  (vsd_cargo_type v = CaUndefined -> vsd_cargo_type d = vsd_cargo_type w).
