(** Specification vocabulary for C92: how much text was received and is kept. *)
From stdpp Require Import gmap.
From Coq Require Import List NArith ZArith Bool String.
From Verif Require Import Base Str F64 Chrono Types Parser Cost SpecText SpecState.
Import ListNotations.
Open Scope N_scope.

(** Size of a text: its characters and one for its end. *)
Definition text_size (s : str) : N := N.of_nat (List.length s) + 1.

(** Total size of the texts that the parser keeps. *)
Definition stored_size (p : NmeaParser) : N := map_fold (fun _ text sum => text_size text + sum) 0 (saved_fragments p).

(** Total size of the sentences of a history. *)
Fixpoint received_size (h : history) : N :=
  match h with
  | [] => 0
  | (_, s) :: rest => text_size s + received_size rest
  end.

(** If [s] is a GSV sentence, it says that its group has at most [c] sentences. *)
Definition announces_at_most (c : N) (s : str) : Prop := forall tt c' n, gsv_part s tt c' n -> c' <= c.

(** Work of the calls of a history. *)
Fixpoint work (ovf : bool) (h : history) (p : NmeaParser) : N :=
  match h with
  | [] => 0
  | (now, s) :: rest => parse_steps ovf s p + work ovf rest (snd (parse_sentence ovf now s p))
  end.
