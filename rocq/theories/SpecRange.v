(** Numbers and texts in AIS reports: vocabulary for C70 to C72. *)
From Coq Require Import List NArith ZArith Bool String.
From Verif Require Import Base Str F64 Chrono Types SpecText SpecAis.
Import ListNotations.
Open Scope N_scope.

(** The value of an attribute, if present. *)
Definition present {A} (o : option A) : list A := match o with Some a => [a] | None => [] end.

(** The whole numbers in an AIS report, each with the number of bits the documentation of the attribute (or,
    where it says nothing, ITU-R M.1371) gives. *)
Definition numbers (r : ParsedSentence) : list (N * N) :=
  match r with
  | PsVesselDynamicData d =>
    [(30, vdd_mmsi d); (6, vdd_timestamp_seconds d)] ++ map (pair 19) (present (vdd_radio_status d))
  | PsVesselStaticData d =>
    [(30, vsd_mmsi d); (2, vsd_ais_version_indicator d)] ++ map (pair 30) (present (vsd_imo_number d)) ++
    map (pair 4) (present (vsd_equipment_model d)) ++ map (pair 20) (present (vsd_equipment_serial_number d)) ++
    map (pair 9) (present (vsd_dimension_to_bow d)) ++ map (pair 9) (present (vsd_dimension_to_stern d)) ++
    map (pair 6) (present (vsd_dimension_to_port d)) ++ map (pair 6) (present (vsd_dimension_to_starboard d)) ++
    map (pair 8) (present (vsd_draught10 d)) ++ map (pair 30) (present (vsd_mothership_mmsi d))
  | PsBaseStationReport d => [(30, bsr_mmsi d); (19, bsr_radio_status d)]
  | PsBinaryAddressedMessage d =>
    [(30, bam_mmsi d); (2, bam_sequence_number d); (30, bam_destination_mmsi d); (10, bam_dac d); (6, bam_fid d)]
  | PsStandardSarAircraftPositionReport d =>
    [(30, sar_mmsi d)] ++ map (pair 12) (present (sar_altitude d)) ++ map (pair 10) (present (sar_sog_knots d)) ++
    [(6, sar_timestamp_seconds d); (8, sar_regional d); (20, sar_radio_status d)]
  | PsUtcDateInquiry d => [(30, udi_source_mmsi d); (30, udi_destination_mmsi d)]
  | PsAidToNavigationReport d =>
    [(30, atn_mmsi d)] ++
    map (pair 9) (present (atn_dimension_to_bow d)) ++ map (pair 9) (present (atn_dimension_to_stern d)) ++
    map (pair 6) (present (atn_dimension_to_port d)) ++ map (pair 6) (present (atn_dimension_to_starboard d)) ++
    [(6, atn_timestamp_seconds d); (8, atn_regional d)]
  | _ => []
  end.

(** The texts in an AIS report, each with the longest length in characters; [name] is that of the name of
    a vessel. *)
Definition texts (name : nat) (r : ParsedSentence) : list (nat * str) :=
  match r with
  | PsVesselStaticData d =>
    map (pair 7%nat) (present (vsd_call_sign d)) ++ map (pair name) (present (vsd_name d)) ++
    map (pair 3%nat) (present (vsd_equipment_vendor_id d)) ++ map (pair 20%nat) (present (vsd_destination d))
  | PsAidToNavigationReport d => [(34%nat, atn_name d)]
  | _ => []
  end.

(** Texts that are left out when empty. *)
Definition optional_texts (r : ParsedSentence) : list str :=
  match r with
  | PsVesselStaticData d => present (vsd_call_sign d) ++ present (vsd_name d) ++ present (vsd_destination d)
  | _ => []
  end.

(** A text as it can come out of six-bit characters: from the alphabet, without '@' and without a space at
    the end. *)
Definition six_bit_text (t : str) : Prop :=
  Forall encodable t /\ ~ In 64 t /\ forall u, t <> u ++ [32].

(** ** Documented ranges of satellite data *)

Definition at_most (max : N) (o : option N) : Prop := forall v, o = Some v -> v <= max.
Definition legal_satellite (d : GsvData) : Prop :=
  at_most 90 (gsv_elevation d) /\ at_most 359 (gsv_azimuth d) /\ at_most 99 (gsv_snr d).

(** A field that holds no number above [max]. *)
Definition holds_at_most (max : N) (f : str) : Prop := forall v, denotes f v -> v <= max.
(** The fields of a GSV sentence, four blocks of satellite number, elevation, azimuth, SNR. *)
Definition legal_gsv_fields (fields : list str) : Prop :=
  Forall (fun k => holds_at_most 90 (nth (k + 1) fields []) /\ holds_at_most 359 (nth (k + 2) fields []) /\
                   holds_at_most 99 (nth (k + 3) fields []))
    [3; 7; 11; 15]%nat.
