(** Which calls panic: specification vocabulary for C08. *)
From Coq Require Import List NArith ZArith Bool String.
From Verif Require Import Base Str F64 Chrono Types Parser SpecText SpecTime SpecAis SpecState SpecFields.
Import ListNotations.
Open Scope N_scope.

(** A sentence type that can be looked at: it starts with an ASCII character and, if that is '$' or
    '!', two bytes for the talker and at least three more follow. *)
Definition legible_type (t : str) : Prop :=
  exists c r, t = c :: r /\ c < 128 /\
    (c = 36 \/ c = 33 ->
     exists tt more, r = tt ++ more /\ utf8_bytes tt = 2%nat /\ (3 <= utf8_bytes more)%nat).

(** Payloads that cannot be decoded: with a character below '0' (only with overflow checks), base
    station reports without a legal date and time, voyage reports without a legal ETA. *)
Inductive bad_payload (ovf : bool) (now : datetime) (payload : str) : Prop :=
| bad_character : ovf = true -> Exists (fun c => c mod 256 < 48) payload -> bad_payload ovf now payload
| bad_time bits : bits = payload_bits payload -> bits_at bits 0 6 = 4 ->
    ~ (valid_date (Z.of_N (bits_at bits 38 14)) (bits_at bits 52 4) (bits_at bits 56 5) /\
       valid_time (bits_at bits 61 5) (bits_at bits 66 6) (bits_at bits 72 6)) ->
    bad_payload ovf now payload
| bad_eta bits : bits = payload_bits payload -> bits_at bits 0 6 = 5 ->
    (forall eta, ~ eta_report now (bits_at bits 274 4) (bits_at bits 278 5) (bits_at bits 283 5)
                    (bits_at bits 288 6) (bits_at bits 294 6) eta) ->
    bad_payload ovf now payload.

(** The calls that panic. *)
Inductive panics (ovf : bool) (now : datetime) (s : str) (p : NmeaParser) : Prop :=
| panic_type t fields : sentence s (t :: fields) -> fields <> [] -> ~ legible_type t -> panics ovf now s p
| panic_gga tt fields : gnss_with s tt (lit "GGA") fields ->
    (forall o, ~ time_stamp now (fld fields 0) o) -> panics ovf now s p
| panic_rmc tt fields : gnss_with s tt (lit "RMC") fields ->
    (forall o, ~ date_time_stamp now (fld fields 8) (fld fields 0) o) -> panics ovf now s p
| panic_gll tt fields : gnss_with s tt (lit "GLL") fields -> ~ gll_malformed fields ->
    (forall o, ~ time_stamp now (fld fields 4) o) -> panics ovf now s p
| panic_gsv tt n : gsv_part s tt 4294967295 n -> ovf = true -> panics ovf now s p
| panic_ais tt fff payload : completes s tt fff p payload -> bad_payload ovf now payload -> panics ovf now s p.

(** ** Sentences that ought to be safe *)

(** A field with a legal time of day, six digits. *)
Definition good_time (f : str) : Prop := exists h m s, six_digits f h m s /\ valid_time h m s.
(** A field with a legal date DDMMYY of this century. *)
Definition good_date (now : datetime) (f : str) : Prop :=
  exists d m y, six_digits f d m y /\ valid_date (century now + Z.of_N y) m d /\
    year_in_range (century now + Z.of_N y).

(** Payloads of characters from the armor alphabet; legal dates in base station reports and voyage
    reports with an ETA whose month, day, hour and minute are given and legal in the current year, and
    whose draught is below 24.4 m. *)
Record good_payload (now : datetime) (payload : str) : Prop := {
  good_armor : armored payload;
  good_base : bits_at (payload_bits payload) 0 6 = 4 ->
    valid_date (Z.of_N (bits_at (payload_bits payload) 38 14)) (bits_at (payload_bits payload) 52 4)
      (bits_at (payload_bits payload) 56 5) /\
    valid_time (bits_at (payload_bits payload) 61 5) (bits_at (payload_bits payload) 66 6)
      (bits_at (payload_bits payload) 72 6);
  good_voyage : bits_at (payload_bits payload) 0 6 = 5 ->
    valid_date (dt_year now) (bits_at (payload_bits payload) 274 4) (bits_at (payload_bits payload) 278 5) /\
    bits_at (payload_bits payload) 283 5 < 24 /\ bits_at (payload_bits payload) 288 6 < 60 /\
    bits_at (payload_bits payload) 294 8 < 244 }.

Record well_formed (now : datetime) (s : str) (p : NmeaParser) : Prop := {
  wf_type t fields : sentence s (t :: fields) -> fields <> [] -> legible_type t;
  wf_gga tt fields : gnss_with s tt (lit "GGA") fields -> good_time (fld fields 0);
  wf_rmc tt fields : gnss_with s tt (lit "RMC") fields ->
    fld fields 0 = [] \/ fld fields 8 = [] \/ good_time (fld fields 0) /\ good_date now (fld fields 8);
  wf_gll tt fields : gnss_with s tt (lit "GLL") fields -> good_time (fld fields 4);
  wf_gsv tt count n : gsv_part s tt count n -> count < 4294967295;
  wf_ais tt fff payload : completes s tt fff p payload -> good_payload now payload }.
