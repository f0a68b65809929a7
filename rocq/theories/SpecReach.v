(** C106: which parsers a parser can become. *)
From Coq Require Import List NArith Bool String.
From Verif Require Import Base Str Types SpecText SpecAis SpecState Parser.
Import ListNotations.
Open Scope N_scope.

(** The place of a satellite message whose number is 0 or above the count of its group, or whose group announces
    2^32 - 1 messages. *)
Definition stray_place (e : entry) : Prop :=
  exists tt c n, plain tt /\ e = Text (gsv_key tt c n) /\ (n = 0 \/ c < n \/ c = 2 ^ 32 - 1).
