(** Parts of different transmissions: vocabulary for C75. *)
From stdpp Require Import gmap.
From Coq Require Import List NArith ZArith Bool String.
From Verif Require Import Base Str F64 Chrono Types SpecText SpecState SpecGnss.
Import ListNotations.
Open Scope N_scope.

(** The calls are the messages [ns] (in this order) of one transmission with these fields. *)
Definition transmits (tt : str) (c : N) (fields : N -> list str) (ns : list N) (calls : history) : Prop :=
  Forall2 (fun n call => gsv_message (snd call) tt c n (fields n)) ns calls.

(** Numbers 2 to [c]. *)
Definition later (c : N) : list N := tl (numbers_to c).

(** Several transmissions one after the other, each complete and in order. *)
Definition transmissions (tt : str) (c : N) (gs : list (N -> list str)) (calls : list history) : Prop :=
  Forall2 (fun fields => transmits tt c fields (numbers_to c)) gs calls.

(** What the parser returns once it is out of step: at message 1 of each transmission the satellites of
    this message together with those of messages 2 to [c] of the transmission before. *)
Fixpoint out_of_step (c : N) (before : N -> list GsvData) (gs : list (N -> list GsvData))
    : list (outcome ParseError ParsedSentence) :=
  match gs with
  | [] => []
  | g :: rest => Ok (PsGsv (g 1 ++ flat_map before (later c))) :: List.repeat (Ok PsIncomplete) (N.to_nat c - 1)
                 ++ out_of_step c g rest
  end.
