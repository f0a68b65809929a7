(** C96: what becomes of the parts of class B static reports (message type 24). *)
From stdpp Require Import gmap.
From Coq Require Import List NArith ZArith Bool String.
From Verif Require Import Base Str F64 Chrono Types SpecText SpecResult SpecAis SpecState SpecMerge Parser.
Import ListNotations.
Open Scope N_scope.

(** What the sentence [s] says about vessel [m]: what a parser that has received nothing else remembers. *)
Definition says (ovf : bool) (now : datetime) (s : str) (m : N) (v : VesselStaticData) : Prop :=
  stored (snd (parse_sentence ovf now s new_parser)) (Vessel m) = Some (inr v).

(** For each vessel what has been said and not yet reported. *)
Definition parts := N -> option VesselStaticData.
Definition no_parts : parts := fun _ => None.
Definition part_changed (w : parts) (m : N) (v : option VesselStaticData) (w' : parts) : Prop :=
  w' m = v /\ forall k, k <> m -> w' k = w k.

(** Whole messages (with gaps) and the answers to static parts: they are answered in pairs, for each vessel
    separately. The first of a pair waits; the second is reported together with it, whatever their part
    letters. *)
Inductive paired (ovf : bool) : parts -> list (option (datetime * str)) -> list (option (outcome ParseError ParsedSentence)) -> parts -> Prop :=
| paired_end w : paired ovf w [] [] w
| paired_gap w l a w' : paired ovf w l a w' -> paired ovf w (None :: l) (None :: a) w'
| paired_other w now s l a w' : (forall m v, ~ says ovf now s m v) ->
    paired ovf w l a w' -> paired ovf w (Some (now, s) :: l) (None :: a) w'
| paired_first w w1 now s m v l a w' : says ovf now s m v -> w m = None -> part_changed w m (Some v) w1 ->
    paired ovf w1 l a w' -> paired ovf w (Some (now, s) :: l) (Some (Ok PsIncomplete) :: a) w'
| paired_second w w1 now s m v v0 d l a w' : says ovf now s m v -> w m = Some v0 -> part_changed w m None w1 ->
    merged v v0 d ->
    paired ovf w1 l a w' -> paired ovf w (Some (now, s) :: l) (Some (Ok (PsVesselStaticData d)) :: a) w'.
