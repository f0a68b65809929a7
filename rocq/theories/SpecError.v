(** Errors and their texts: vocabulary for C77-C79. *)
From stdpp Require Import gmap.
From Coq Require Import List NArith ZArith Bool String.
From Verif Require Import Base Str F64 Chrono Types SpecText SpecResult SpecTime SpecAis SpecReal SpecFields SpecState SpecPanic.
Import ListNotations.
Open Scope N_scope.

(** Things to check, in this order: what would be wrong, and what is said then. *)
Definition checks := list (Prop * str).

(** [t] is said: about the first thing that is wrong. *)
Fixpoint complaint (cs : checks) (t : str) : Prop :=
  match cs with
  | [] => False
  | (wrong, text) :: rest => wrong /\ t = text \/ ~ wrong /\ complaint rest t
  end.

Definition number_check {A} (means : str -> A -> Prop) (i : string) (f : str) : Prop * str :=
  (malformed means f, lit "Failed to parse field " ++ lit i ++ lit ": " ++ f).
Definition latitude_check (f h : str) : Prop * str :=
  (malformed (latitude_text h) f, lit "Failed to parse latitude (DDMM.MMM) from " ++ f).
Definition longitude_check (f h : str) : Prop * str :=
  (malformed (longitude_text h) f, lit "Failed to parse longitude (DDDMM.MMM) from " ++ f).

Definition gga_checks (fs : list str) : checks :=
  [latitude_check (fld fs 1) (fld fs 2); longitude_check (fld fs 3) (fld fs 4);
   number_check (number_text 255) "6" (fld fs 5); number_check (number_text 255) "7" (fld fs 6);
   number_check reads_double "8" (fld fs 7); number_check reads_double "9" (fld fs 8);
   number_check reads_double "11" (fld fs 10); number_check reads_double "13" (fld fs 12);
   number_check (number_text 65535) "14" (fld fs 13)].

Definition rmc_checks (fs : list str) : checks :=
  [(malformed (word statuses) (fld fs 1), lit "Invalid RMC navigation receiver status: " ++ fld fs 1);
   latitude_check (fld fs 2) (fld fs 3); longitude_check (fld fs 4) (fld fs 5);
   number_check reads_double "7" (fld fs 6); number_check reads_double "8" (fld fs 7);
   number_check reads_double "10" (fld fs 9);
   (fld fs 9 <> [] /\ fld fs 10 <> lit "E" /\ fld fs 10 <> lit "W", lit "Invalid RMC variation side: " ++ fld fs 10)].

Definition gsa_numbers : list (string * nat) :=
  [("3", 2%nat); ("4", 3%nat); ("5", 4%nat); ("6", 5%nat); ("7", 6%nat); ("8", 7%nat); ("9", 8%nat); ("10", 9%nat);
   ("11", 10%nat); ("12", 11%nat); ("13", 12%nat); ("14", 13%nat)]%string.

Definition gsa_checks (fs : list str) : checks :=
  [(malformed (word selection_modes) (fld fs 0), lit "Invalid GPGSA mode: " ++ fld fs 0);
   (malformed (word fix_modes) (fld fs 1), lit "Invalid GPGSA fix type: " ++ fld fs 1)] ++
  map (fun x => number_check (number_text 255) (fst x) (fld fs (snd x))) gsa_numbers ++
  [number_check reads_double "15" (fld fs 14); number_check reads_double "16" (fld fs 15);
   number_check reads_double "17" (fld fs 16)].

Definition gll_checks (fs : list str) : checks :=
  [latitude_check (fld fs 0) (fld fs 1); longitude_check (fld fs 2) (fld fs 3)].

Definition gsv_checks (fs : list str) : checks :=
  [number_check (number_text (2 ^ 32 - 1)) "1" (fld fs 0); number_check (number_text (2 ^ 32 - 1)) "2" (fld fs 1)].

(** Fragment count and number of an AIS sentence: unlike above, an empty field is wrong too, while a
    missing one is not. *)
Definition fragment_check (f : str) : Prop * str :=
  (forall v, ~ number_text 255 f v, lit "Failed to parse fragment count: " ++ f).
Definition vdm_checks (fs : list str) : checks := map fragment_check (firstn 2 fs).

(** ** Which calls return which error *)

(** The name under which a sentence type is looked up: without talker if it has six bytes. *)
Inductive type_name : str -> str -> Prop :=
| short_type mark tt fff : mark = lit "$" \/ mark = lit "!" -> utf8_bytes tt = 2%nat -> utf8_bytes fff = 3%nat ->
    type_name (mark ++ tt ++ fff) (mark ++ fff)
| long_type mark tt more : mark = lit "$" \/ mark = lit "!" -> utf8_bytes tt = 2%nat -> (3 < utf8_bytes more)%nat ->
    type_name (mark ++ tt ++ more) (mark ++ tt ++ more)
| other_type c r : c < 128 -> c <> 36 -> c <> 33 -> type_name (c :: r) (c :: r).

(** Names of types that are decoded. *)
Definition decoded_types : list str :=
  map (app (lit "$")) gnss_formatters ++ map (app (lit "!")) ais_formatters.

(** Errors about a decoded AIS payload: an unknown message type, or a part of a static data report that
    is neither A (0) nor B (1). *)
Inductive message_error (fff : str) (bits : list bool) : ParseError -> Prop :=
| error_19 : bits_at bits 0 6 = 19 ->
    message_error fff bits (UnsupportedSentenceType (lit "Unsupported AIVDM message type: 19"))
| error_type n : bits_at bits 0 6 = n -> ~ In n [1; 2; 3; 4; 5; 6; 9; 10; 18; 19; 21; 24; 27] ->
    message_error fff bits (UnsupportedSentenceType (lit "Unsupported !" ++ fff ++ lit " message type: " ++ dec n))
| error_part k : bits_at bits 0 6 = 24 -> bits_at bits 38 2 = k -> k = 2 \/ k = 3 ->
    message_error fff bits (InvalidSentence (lit "AIVDM type 24 part number has unexpected value: " ++ dec k)).

(** The errors of a call. *)
Inductive error_of (ovf : bool) (now : datetime) (s : str) (p : NmeaParser) : ParseError -> Prop :=
| error_checksum body given : has_body s body given -> ~ checksum_ok body given ->
    error_of ovf now s p (CorruptedSentence (nmea_checksum body) given)
| error_no_comma body : sentence s [body] ->
    error_of ovf now s p (InvalidSentence (lit "Invalid NMEA sentence: " ++ body))
| error_unimplemented t fields f : sentence s (t :: fields) -> fields <> [] -> type_name t (lit "$" ++ f) ->
    In f undecoded_formatters ->
    error_of ovf now s p (UnsupportedSentenceType (lit "Unimplemented NMEA sentence: $" ++ f))
| error_unsupported t fields t' : sentence s (t :: fields) -> fields <> [] -> type_name t t' ->
    ~ In t' decoded_types -> ~ In t' (map (app (lit "$")) undecoded_formatters) ->
    error_of ovf now s p (UnsupportedSentenceType (lit "Unsupported sentence type: " ++ t'))
| error_gga tt fields o text : gnss_with s tt (lit "GGA") fields -> time_stamp now (fld fields 0) o ->
    complaint (gga_checks fields) text -> error_of ovf now s p (InvalidSentence text)
| error_rmc tt fields o text : gnss_with s tt (lit "RMC") fields ->
    date_time_stamp now (fld fields 8) (fld fields 0) o ->
    complaint (rmc_checks fields) text -> error_of ovf now s p (InvalidSentence text)
| error_gsa tt fields text : gnss_with s tt (lit "GSA") fields ->
    complaint (gsa_checks fields) text -> error_of ovf now s p (InvalidSentence text)
| error_gll tt fields text : gnss_with s tt (lit "GLL") fields ->
    complaint (gll_checks fields) text -> error_of ovf now s p (InvalidSentence text)
| error_gsv tt fields text : gnss_with s tt (lit "GSV") fields ->
    complaint (gsv_checks fields) text -> error_of ovf now s p (InvalidSentence text)
| error_fragment tt fff fields text : vdm_with s tt fff fields ->
    complaint (vdm_checks fields) text -> error_of ovf now s p (InvalidSentence text)
(** A whole message without payload field counts as one of type 0. *)
| error_no_payload tt fff fields : vdm_with s tt fff fields -> (forall text, ~ complaint (vdm_checks fields) text) ->
    denotes (fld fields 0) 1 -> (List.length fields < 5)%nat ->
    error_of ovf now s p (UnsupportedSentenceType (lit "Unsupported !" ++ fff ++ lit " message type: 0"))
| error_message tt fff payload e : completes s tt fff p payload ->
    readable ovf payload ->
    message_error fff (payload_bits payload) e -> error_of ovf now s p e.

(** Characters that are shown as they are. *)
Definition ordinary (c : N) : Prop := 32 <= c < 127 /\ c <> 34 /\ c <> 39 /\ c <> 92.
