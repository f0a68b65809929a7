(** Specification vocabulary for C111: everything a receiver writes, one sentence after the other. *)
From Coq Require Import List NArith ZArith Bool String.
From Verif Require Import Base Str F64 Chrono Types SpecText SpecResult SpecTime SpecState SpecReal SpecGnss SpecSender Parser.
Import ListNotations.
Open Scope N_scope.

(** What the receiver tells, with the clock reading at the moment when it is received; for satellites one
    clock reading for each of the sentences that are needed. *)
Inductive news :=
| NewsGga (now : datetime) (x : sent_gga)
| NewsRmc (now : datetime) (x : sent_rmc)
| NewsGll (now : datetime) (x : sent_gll)
| NewsVtg (now : datetime) (x : sent_vtg)
| NewsGsa (now : datetime) (x : sent_gsa)
| NewsSatellites (nows : list datetime) (l : list sent_satellite).

(** The receiver has the values that fit its formats, and the clock works. *)
Definition tellable (n : news) : Prop :=
  match n with
  | NewsGga now x => clock now /\ gga_sendable x
  | NewsRmc now x => (0 <= dt_year now <= 262000)%Z /\ rmc_sendable now x
  | NewsGll now x => clock now /\ gll_sendable x
  | NewsVtg _ x => vtg_sendable x
  | NewsGsa _ x => gsa_sendable x
  | NewsSatellites nows l => (1 <= List.length l <= 36)%nat /\ Forall satellite_sendable l /\
      N.of_nat (List.length nows) = sentences_needed l
  end.

(** The calls that receive it. *)
Definition told (tt : str) (n : news) : history :=
  match n with
  | NewsGga now x => [(now, written_sentence tt (lit "GGA") (gga_written x))]
  | NewsRmc now x => [(now, written_sentence tt (lit "RMC") (rmc_written x))]
  | NewsGll now x => [(now, written_sentence tt (lit "GLL") (gll_written x))]
  | NewsVtg now x => [(now, written_sentence tt (lit "VTG") (vtg_written x))]
  | NewsGsa now x => [(now, written_sentence tt (lit "GSA") (gsa_written x))]
  | NewsSatellites nows l =>
    map (fun ni => (fst ni, written_sentence tt (lit "GSV") (page_fields l (snd ni))))
      (combine nows (map N.of_nat (seq 1 (List.length nows))))
  end.

(** The answers say what the receiver told. *)
Definition understood (nav : NavigationSystem) (n : news) (answers : list (outcome ParseError ParsedSentence)) : Prop :=
  match n with
  | NewsGga now x => exists d, answers = [Ok (PsGga d)] /\ gga_read_back now nav x d
  | NewsRmc now x => exists d, answers = [Ok (PsRmc d)] /\ rmc_read_back now nav x d
  | NewsGll now x => exists d, answers = [Ok (PsGll d)] /\ gll_read_back now nav x d
  | NewsVtg _ x => exists d, answers = [Ok (PsVtg d)] /\ vtg_read_back nav x d
  | NewsGsa _ x => exists d, answers = [Ok (PsGsa d)] /\ gsa_read_back nav x d
  | NewsSatellites nows l =>
    answers = List.repeat (Ok PsIncomplete) (List.length nows - 1) ++ [Ok (PsGsv (map (satellite_entry nav) l))]
  end.

(** A page of the journal: talker, its system, and what it tells. *)
Record entry_of_journal := mk_entry { je_talker : str; je_system : NavigationSystem; je_news : news }.

Definition in_order (e : entry_of_journal) : Prop :=
  utf8_bytes (je_talker e) = 2%nat /\ plain (je_talker e) /\ names_system (je_talker e) (je_system e) /\ tellable (je_news e).
Definition journal_calls (j : list entry_of_journal) : history := flat_map (fun e => told (je_talker e) (je_news e)) j.

(** Nothing is waiting from any satellite group. *)
Definition no_groups (p : NmeaParser) : Prop := forall tt c, no_group p tt c.
