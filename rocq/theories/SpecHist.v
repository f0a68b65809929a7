(** Where pending entries and reports come from: vocabulary for C65 and C66. *)
From stdpp Require Import gmap.
From Coq Require Import List NArith ZArith Bool String.
From Verif Require Import Base Str F64 Chrono Types Parser SpecText SpecResult SpecAis SpecState SpecGnss SpecPanic.
Import ListNotations.
Open Scope N_scope.

(** What can be kept of a type 24 message with these bits, received in a sentence of formatter [fff]:
    a record of its vessel with nothing that only the other part has. *)
Definition part_record (fff : str) (bits : list bool) (d : VesselStaticData) : Prop :=
  bits_at bits 0 6 = 24 /\ vsd_mmsi d = bits_at bits 8 30 /\
  (vsd_own_vessel d = true <-> fff = lit "VDO") /\
  (bits_at bits 38 2 = 0 /\ vsd_call_sign d = None /\ vsd_equipment_vendor_id d = None /\
   vsd_equipment_model d = None /\ vsd_equipment_serial_number d = None /\
   vsd_dimension_to_bow d = None /\ vsd_dimension_to_stern d = None /\
   vsd_dimension_to_port d = None /\ vsd_dimension_to_starboard d = None /\
   vsd_mothership_mmsi d = None
   \/ bits_at bits 38 2 = 1 /\ vsd_name d = None) /\
  vsd_imo_number d = None /\ vsd_eta d = None /\ vsd_draught10 d = None /\ vsd_destination d = None.

(** [s], parsed in state [p], brings entry [e] with this value. *)
Inductive brings (s : str) (p : NmeaParser) : entry -> str + VesselStaticData -> Prop :=
| bring_half tt fff mid channel n payload :
    fragment s tt fff mid channel n payload ->
    (forall x, ~ waiting p fff mid channel (3 - n) x) ->
    brings s p (Text (fragment_key fff mid channel n)) (inl payload)
| bring_gsv tt c n body given :
    gsv_part s tt c n -> has_body s body given -> brings s p (Text (gsv_key tt c n)) (inl body)
| bring_part tt fff payload d :
    completes s tt fff p payload -> part_record fff (payload_bits payload) d ->
    stored p (Vessel (vsd_mmsi d)) = None ->
    brings s p (Vessel (vsd_mmsi d)) (inr d).
