(** Specification vocabulary for C90: how many received sentences a report is made of. *)
From stdpp Require Import gmap.
From Coq Require Import List NArith ZArith Bool String.
From Verif Require Import Base Str F64 Chrono Types Parser SpecText SpecResult SpecAis SpecState.
Import ListNotations.
Open Scope N_scope.

(** A result that is a report. *)
Definition reports (r : outcome ParseError ParsedSentence) (x : ParsedSentence) : Prop := r = Ok x /\ x <> PsIncomplete.

(** The call with sentence [s] in state [p] completes a type 24 message. *)
Definition static_part (s : str) (p : NmeaParser) : Prop :=
  exists tt fff payload, completes s tt fff p payload /\ bits_at (payload_bits payload) 0 6 = 24.
Definition is_fragment (s : str) : Prop := exists tt fff mid channel n payload, fragment s tt fff mid channel n payload.
Definition is_gsv (s : str) : Prop := exists tt c n, gsv_part s tt c n.

(** Number of sentences behind the result of a call: none if there is no report; those of the group for
    satellites; two for a message in two fragments; one more for static data in two parts, as the other part
    took at least one sentence. *)
Inductive used (s : str) (p : NmeaParser) (r : outcome ParseError ParsedSentence) : nat -> Prop :=
| used_nothing : (forall x, ~ reports r x) -> used s p r 0
| used_group x tt c n : reports r x -> gsv_part s tt c n -> used s p r (N.to_nat c)
| used_alone x : reports r x -> ~ is_gsv s -> ~ is_fragment s -> ~ static_part s p -> used s p r 1
| used_two x : reports r x -> is_fragment s -> ~ static_part s p -> used s p r 2
| used_parts x : reports r x -> ~ is_fragment s -> static_part s p -> used s p r 2
| used_parts_two x : reports r x -> is_fragment s -> static_part s p -> used s p r 3.

(** The sum over the calls of a history. *)
Inductive all_used (ovf : bool) : history -> NmeaParser -> nat -> Prop :=
| all_used_nil p : all_used ovf [] p 0
| all_used_cons now s h p n m : used s p (fst (parse_sentence ovf now s p)) n ->
    all_used ovf h (snd (parse_sentence ovf now s p)) m -> all_used ovf ((now, s) :: h) p (n + m)%nat.
