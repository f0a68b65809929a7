(** Specification vocabulary for C84: what is written to the log. *)
From stdpp Require Import gmap.
From Coq Require Import List NArith ZArith Bool String.
From Verif Require Import Base Str F64 Chrono Types Log SpecText SpecAis SpecTime SpecState SpecWait.
Import ListNotations.
Open Scope N_scope.

(** The line about a missing checksum. *)
Definition checksum_line (s : str) (l : list LogLine) : Prop :=
  (In 42 s /\ l = []) \/ (~ In 42 s /\ l = [LogDebug (lit "No checksum found for sentence: " ++ s)]).

(** Ship type codes with a cargo digit: those of 1x, 2x, 4x, 6x, 7x, 8x and 9x. *)
Definition has_cargo_digit (code : N) : Prop := In (code / 10) [1; 2; 4; 6; 7; 8; 9].

(** Warnings about a ship type code: one for codes from 100 on, one for codes without a cargo digit. *)
Inductive ship_warnings (code : N) : list str -> Prop :=
| ship_cargo : has_cargo_digit code -> ship_warnings code []
| ship_no_cargo : ~ has_cargo_digit code -> code < 100 ->
    ship_warnings code [lit "Unexpected ship and cargo type: " ++ dec code]
| ship_unknown : 100 <= code ->
    ship_warnings code [lit "Unexpected ship and cargo type: " ++ dec code;
                        lit "Unexpected ship and cargo type: " ++ dec code].

(** Warnings about the kind of positioning device. *)
Definition fix_warnings (code : N) (l : list str) : Prop :=
  (code <= 8 /\ l = []) \/ (9 <= code /\ l = [lit "Unrecognized position fix type: " ++ dec code]).

(** Warnings about a message with these bits. *)
Inductive value_warnings (bits : list bool) : list str -> Prop :=
| values_manoeuvre : In (bits_at bits 0 6) [1; 2; 3] -> bits_at bits 143 2 = 3 ->
    value_warnings bits [lit "Unrecognized Maneuver Indicator value: 3"]
| values_base l : bits_at bits 0 6 = 4 ->
    valid_date (Z.of_N (bits_at bits 38 14)) (bits_at bits 52 4) (bits_at bits 56 5) ->
    valid_time (bits_at bits 61 5) (bits_at bits 66 6) (bits_at bits 72 6) ->
    fix_warnings (bits_at bits 134 4) l -> value_warnings bits l
| values_voyage l l' : bits_at bits 0 6 = 5 -> ship_warnings (bits_at bits 232 8) l ->
    fix_warnings (bits_at bits 270 4) l' -> value_warnings bits (l ++ l')
| values_aid l : bits_at bits 0 6 = 21 -> fix_warnings (bits_at bits 249 4) l -> value_warnings bits l
| values_static l : bits_at bits 0 6 = 24 -> bits_at bits 38 2 = 1 -> ship_warnings (bits_at bits 40 8) l ->
    value_warnings bits l.

(** An AIS sentence with readable fragment count [c] and fragment number [n] (0 if missing). *)
Definition numbered (s tt fff : str) (fields : list str) (c n : N) : Prop :=
  vdm_with s tt fff fields /\ denotes (nth 0 fields []) c /\ c <= 255 /\
  (List.length fields = 1%nat /\ n = 0 \/ (2 <= List.length fields)%nat /\ denotes (nth 1 fields []) n /\ n <= 255).

(** The warnings of a call. *)
Inductive warnings (ovf : bool) (s : str) (p : NmeaParser) : list str -> Prop :=
| warn_count tt fff fields c n : numbered s tt fff fields c n -> c <> 1 -> c <> 2 ->
    warnings ovf s p [lit "NMEA sentence fragment count greater (" ++ dec c ++ lit ") than supported 2"]
| warn_id tt fff fields n : numbered s tt fff fields 2 n ->
    (forall v, denotes (nth 2 fields []) v -> 2 ^ 64 <= v) ->
    warnings ovf s p [lit "NMEA message_id missing from !" ++ fff ++ lit " than supported 2"]
| warn_number tt fff fields n v : numbered s tt fff fields 2 n ->
    denotes (nth 2 fields []) v -> v < 2 ^ 64 -> n <> 1 -> n <> 2 ->
    warnings ovf s p [lit "Unexpected NMEA fragment number: " ++ dec n ++ lit "/2"]
| warn_values tt fff payload l : completes s tt fff p payload -> readable ovf payload ->
    value_warnings (payload_bits payload) l -> warnings ovf s p l.
