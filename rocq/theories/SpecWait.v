(** Specification vocabulary for C82: calls that are answered with [Incomplete], and the kind of
    report of the others. *)
From stdpp Require Import gmap.
From Coq Require Import List NArith ZArith Bool String.
From Verif Require Import Base Str F64 Chrono Types SpecText SpecResult SpecAis SpecState.
Import ListNotations.
Open Scope N_scope.

(** A number of at most three digits' worth: 0 to 255. *)
Definition small_number (f : str) : Prop := exists v, denotes f v /\ v <= 255.

(** Calls after which something is still missing. *)
Inductive unfinished (ovf : bool) (s : str) (p : NmeaParser) : Prop :=
(** Half of an AIS message whose other half has not arrived. *)
| wait_half tt fff mid channel n payload :
    fragment s tt fff mid channel n payload -> stored p (Text (fragment_key fff mid channel (3 - n))) = None ->
    unfinished ovf s p
(** A part of a message that is not assembled: neither a whole message nor a half with identification. *)
| wait_never tt fff fields :
    vdm_with s tt fff fields -> Forall small_number (firstn 2 fields) -> ~ denotes (nth 0 fields []) 1 ->
    (forall mid channel n payload, ~ fragment s tt fff mid channel n payload) -> unfinished ovf s p
(** A part of a GSV group of which another part has not arrived. *)
| wait_group tt c n k :
    gsv_part s tt c n -> c < 4294967295 -> 1 <= k <= c -> k <> n -> stored p (Text (gsv_key tt c k)) = None ->
    unfinished ovf s p
(** The largest group size (it is never complete without overflow checks). *)
| wait_overflow tt n : gsv_part s tt 4294967295 n -> ovf = false -> unfinished ovf s p
(** A part of a static data report of a vessel of which no part is waiting. *)
| wait_vessel tt fff payload :
    completes s tt fff p payload -> readable ovf payload -> bits_at (payload_bits payload) 0 6 = 24 ->
    bits_at (payload_bits payload) 38 2 < 2 ->
    stored p (Vessel (bits_at (payload_bits payload) 8 30)) = None -> unfinished ovf s p.

(** AIS message types and kinds of reports. *)
Definition report_of (n : N) (r : ParsedSentence) : Prop :=
  match r with
  | PsVesselDynamicData _ => In n [1; 2; 3; 18; 27]
  | PsVesselStaticData _ => In n [5; 24]
  | PsBaseStationReport _ => n = 4
  | PsBinaryAddressedMessage _ => n = 6
  | PsStandardSarAircraftPositionReport _ => n = 9
  | PsUtcDateInquiry _ => n = 10
  | PsAidToNavigationReport _ => n = 21
  | _ => False
  end.
