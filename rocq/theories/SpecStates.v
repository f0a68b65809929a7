(** C99: which parsers there can be. *)
From stdpp Require Import gmap.
From Coq Require Import List NArith ZArith Bool String.
From Verif Require Import Base Str F64 Chrono Types SpecText SpecAis SpecState SpecPairs Parser.
Import ListNotations.
Open Scope N_scope.

(** [v] is what a part of a class B static report can say about vessel [m]: some sentence of a simple
    encoder says it, at any time and in any build. *)
Definition static_part (m : N) (v : VesselStaticData) : Prop :=
  exists fff bits, (fff = lit "VDM" \/ fff = lit "VDO") /\
    forall ovf now, says ovf now (encode_sentence (lit "AI") fff (lit "A") bits) m v.

(** The entry [e] of parser [p] may hold [x]: half of an AIS message whose other half is not there; a
    satellite message of a group that is not complete (or announces no messages, or 2^32 - 1); a static
    part. *)
Inductive may_hold (p : NmeaParser) : entry -> str + VesselStaticData -> Prop :=
| holds_half fff mid channel n payload :
    fff = lit "VDM" \/ fff = lit "VDO" -> mid < 2 ^ 64 -> plain channel -> plain payload -> n = 1 \/ n = 2 ->
    stored p (Text (fragment_key fff mid channel (3 - n))) = None ->
    may_hold p (Text (fragment_key fff mid channel n)) (inl payload)
| holds_message tt c n fields :
    utf8_bytes tt = 2%nat -> plain tt -> fields <> [] -> Forall plain fields ->
    count_field (nth 0 fields []) c -> count_field (nth 1 fields []) n ->
    (1 <= c < 2 ^ 32 - 1 -> exists k, 1 <= k <= c /\ stored p (Text (gsv_key tt c k)) = None) ->
    may_hold p (Text (gsv_key tt c n)) (inl (join ((lit "$" ++ tt ++ lit "GSV") :: fields)))
| holds_part m v : static_part m v -> may_hold p (Vessel m) (inr v).
