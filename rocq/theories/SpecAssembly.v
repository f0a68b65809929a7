(** C94: what becomes of the halves of AIS messages, in any order and with any losses and repetitions. *)
From Coq Require Import List NArith ZArith Bool String.
From Verif Require Import Base Str F64 Chrono Types SpecText SpecResult SpecAis SpecState Parser.
Import ListNotations.
Open Scope N_scope.

(** What a half must share with its other half: formatter, message identification and radio channel. *)
Definition slot : Type := str * N * str.
(** For each slot the half that waits for the other one, if any: its number and its payload. *)
Definition slots := slot -> option (N * str).
Definition no_halves : slots := fun _ => None.
(** Only slot [k] changes, to [v]. *)
Definition changed (m : slots) (k : slot) (v : option (N * str)) (m' : slots) : Prop :=
  m' k = v /\ forall k', k' <> k -> m' k' = m k'.

(** The payload of the whole message when half [n] comes with [x] and [y] was waiting. *)
Definition joined (n : N) (x y : str) : str := if n =? 1 then x ++ y else y ++ x.

(** A history, and what is left of it after assembly: every sentence that is no half stays; a half that has
    to wait vanishes and replaces an earlier one with the same number; a half whose other half waits
    becomes one sentence with the whole message, from the same talker. *)
Inductive assembled : slots -> history -> list (option (datetime * str)) -> slots -> Prop :=
| assembled_end m : assembled m [] [] m
| assembled_other m now s h l m' :
    (forall tt fff mid channel n x, ~ fragment s tt fff mid channel n x) ->
    assembled m h l m' -> assembled m ((now, s) :: h) (Some (now, s) :: l) m'
| assembled_wait m m1 now s tt fff mid channel n x h l m' :
    fragment s tt fff mid channel n x ->
    (forall k y, m (fff, mid, channel) = Some (k, y) -> k = n) ->
    changed m (fff, mid, channel) (Some (n, x)) m1 ->
    assembled m1 h l m' -> assembled m ((now, s) :: h) (None :: l) m'
| assembled_join m m1 now s tt fff mid channel n x k y whole h l m' :
    fragment s tt fff mid channel n x ->
    m (fff, mid, channel) = Some (k, y) -> k <> n ->
    one_fragment whole tt fff (joined n x y) ->
    changed m (fff, mid, channel) None m1 ->
    assembled m1 h l m' -> assembled m ((now, s) :: h) (Some (now, whole) :: l) m'.

(** Calls with gaps: a gap is answered with [Incomplete] and changes nothing. *)
Fixpoint replay (ovf : bool) (l : list (option (datetime * str))) (p : NmeaParser)
    : list (outcome ParseError ParsedSentence) * NmeaParser :=
  match l with
  | [] => ([], p)
  | None :: l' => let '(rs, q) := replay ovf l' p in (Ok PsIncomplete :: rs, q)
  | Some (now, s) :: l' =>
    let '(r, p1) := parse_sentence ovf now s p in
    let '(rs, q) := replay ovf l' p1 in (r :: rs, q)
  end.

(** Entries that are no halves of AIS messages. *)
Definition no_half (e : entry) : Prop :=
  forall fff mid channel n, fff = lit "VDM" \/ fff = lit "VDO" -> n = 1 \/ n = 2 ->
    e <> Text (fragment_key fff mid channel n).

(** Complete transmissions, first half first, one after the other: both halves with their clock readings and
    payloads. *)
Record transmission := {
  first_at : datetime; first_sentence : str; first_payload : str;
  second_at : datetime; second_sentence : str; second_payload : str }.
Definition transmitted (tt fff : str) (mid : N) (channel : str) (t : transmission) : Prop :=
  fragment (first_sentence t) tt fff mid channel 1 (first_payload t) /\
  fragment (second_sentence t) tt fff mid channel 2 (second_payload t).
Definition calls_of (t : transmission) : history :=
  [(first_at t, first_sentence t); (second_at t, second_sentence t)].
(** The sentences [ws] carry, for each transmission, its own two halves. *)
Definition right_wholes (tt fff : str) (ts : list transmission) (ws : list str) : Prop :=
  Forall2 (fun t w => one_fragment w tt fff (first_payload t ++ second_payload t)) ts ws.
(** The sentences [ws] carry, for each transmission, its first half and the second half of the one before; [b]
    is the second half before the first transmission. *)
Inductive mixed_wholes (tt fff : str) : str -> list transmission -> list str -> Prop :=
| mixed_end b : mixed_wholes tt fff b [] []
| mixed_next b t ts w ws : one_fragment w tt fff (first_payload t ++ b) ->
    mixed_wholes tt fff (second_payload t) ts ws -> mixed_wholes tt fff b (t :: ts) (w :: ws).
(** Reported with the second half of each transmission, or with the first. *)
Definition in_step (ts : list transmission) (ws : list str) : list (option (datetime * str)) :=
  flat_map (fun tw => [None; Some (second_at (fst tw), snd tw)]) (combine ts ws).
Definition shifted (ts : list transmission) (ws : list str) : list (option (datetime * str)) :=
  flat_map (fun tw => [Some (first_at (fst tw), snd tw); None]) (combine ts ws).
