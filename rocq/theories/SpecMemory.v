(** Specification vocabulary for C87: streams that follow the standards. *)
From stdpp Require Import gmap.
From Coq Require Import List NArith ZArith Bool String.
From Verif Require Import Base Str F64 Chrono Types Parser SpecText SpecResult SpecAis SpecState.
Import ListNotations.
Open Scope N_scope.

(** Radio channels as written in VDM sentences; own-vessel messages have none. *)
Definition radio_channels : list str := [lit "A"; lit "B"; lit "1"; lit "2"; []].

(** The fragment and group numbers of [s] are those the standards allow: message identifications 0 to 9,
    the usual channels; satellite groups of at most 9 messages numbered from 1, talkers from a list. *)
Definition conforming (talkers : list str) (s : str) : Prop :=
  (forall tt fff mid channel n payload,
     fragment s tt fff mid channel n payload -> mid <= 9 /\ In channel radio_channels) /\
  (forall tt c n, gsv_part s tt c n -> In tt talkers /\ 1 <= n <= c /\ c <= 9).

(** Every type 24 message that a call of the history completes is from one of these vessels. *)
Definition static_data_from (ovf : bool) (vessels : list N) (h : history) : Prop :=
  forall h1 now s h2 tt fff payload, h = h1 ++ (now, s) :: h2 ->
    completes s tt fff (after ovf h1 new_parser) payload ->
    bits_at (payload_bits payload) 0 6 = 24 -> In (bits_at (payload_bits payload) 8 30) vessels.
