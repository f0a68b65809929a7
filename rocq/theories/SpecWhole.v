(** C97: everything that a parser keeps. *)
From stdpp Require Import gmap.
From Coq Require Import List NArith ZArith Bool String.
From Verif Require Import Base Str F64 Chrono Types SpecText SpecState SpecAssembly SpecGroups SpecPairs.
Import ListNotations.
Open Scope N_scope.

(** The entry [e] with contents [x] is a waiting half, a waiting satellite message or a waiting static part. *)
Inductive waits (m : slots) (g : messages) (w : parts) : entry -> str + VesselStaticData -> Prop :=
| waits_half fff mid channel n y : m (fff, mid, channel) = Some (n, y) ->
    waits m g w (Text (fragment_key fff mid channel n)) (inl y)
| waits_message tt c n fields : g (tt, c, n) = Some fields ->
    waits m g w (Text (gsv_key tt c n)) (inl (join ((lit "$" ++ tt ++ lit "GSV") :: fields)))
| waits_part v d : w v = Some d -> waits m g w (Vessel v) (inr d).
