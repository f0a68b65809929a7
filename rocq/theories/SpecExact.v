(** Specification vocabulary for numbers written with leading zeros and for the satellite handler on any
    text. *)
From stdpp Require Import gmap.
From Coq Require Import List NArith ZArith Bool String.
From Verif Require Import Base Str F64 Chrono Types SpecText SpecState Parser.
Import ListNotations.
Open Scope N_scope.

(** An optional number written with [k] leading zeros, and the numbers of a list of such fields. *)
Definition written (o : option (nat * N)) : str :=
  match o with None => [] | Some (k, n) => repeat 48 k ++ dec n end.
Definition values (l : list (option (nat * N))) : list N :=
  flat_map (fun o => match o with None => [] | Some (_, n) => [n] end) l.

(** Where the satellite handler keeps the text of message [n] of [c] under the heading [t]. *)
Definition heading_key (t : str) (c n : N) : str := join [t; dec c; dec n].

(** The text kept for message [i] once the text for message [n] has come. *)
Definition kept_with (p : NmeaParser) (t : str) (c n : N) (text : str) (i : N) (x : str) : Prop :=
  i = n /\ x = text \/ i <> n /\ stored p (Text (heading_key t c i)) = Some (inl x).
