(** Specification vocabulary for GNSS sentences. *)
From stdpp Require Import gmap.
From Coq Require Import List NArith ZArith Bool String Permutation.
From Verif Require Import Base Str F64 Chrono Types SpecText SpecResult SpecState Parser.
Import ListNotations.
Open Scope N_scope.

(** ** Satellites in view *)

(** The value of an optional whole number field: the number written there if there is one and it is
    at most [max], otherwise nothing. *)
Inductive optional_number (max : N) (f : str) : option N -> Prop :=
| number_present v : denotes f v -> v <= max -> optional_number max f (Some v)
| number_absent : (forall v, denotes f v -> max < v) -> optional_number max f None.

(** The entry of one block of four fields: satellite number, elevation, azimuth, signal to noise
    ratio. Without a satellite number there is no entry. *)
Inductive satellite (nav : NavigationSystem) (fprn felev fazim fsnr : str) : list GsvData -> Prop :=
| satellite_present prn elev azim snr :
    denotes fprn prn -> prn <= 255 ->
    optional_number 255 felev elev -> optional_number 65535 fazim azim -> optional_number 255 fsnr snr ->
    satellite nav fprn felev fazim fsnr
      [{| gsv_source := nav; gsv_prn_number := prn; gsv_elevation := elev;
          gsv_azimuth := azim; gsv_snr := snr |}]
| satellite_absent : (forall v, denotes fprn v -> 255 < v) -> satellite nav fprn felev fazim fsnr [].

(** The entries of a GSV sentence with these fields after the sentence type: the number of messages,
    the number of this message, the number of satellites, then four blocks. Missing fields count as
    empty. *)
Definition satellites (nav : NavigationSystem) (fields : list str) (l : list GsvData) : Prop :=
  exists l0 l1 l2 l3, l = l0 ++ l1 ++ l2 ++ l3 /\
    satellite nav (nth 3 fields []) (nth 4 fields []) (nth 5 fields []) (nth 6 fields []) l0 /\
    satellite nav (nth 7 fields []) (nth 8 fields []) (nth 9 fields []) (nth 10 fields []) l1 /\
    satellite nav (nth 11 fields []) (nth 12 fields []) (nth 13 fields []) (nth 14 fields []) l2 /\
    satellite nav (nth 15 fields []) (nth 16 fields []) (nth 17 fields []) (nth 18 fields []) l3.

(** [s] is message [n] of a group of [c] messages of talker [tt], with these fields. *)
Definition gsv_message (s tt : str) (c n : N) (fields : list str) : Prop :=
  gsv_with s tt fields /\ count_field (nth 0 fields []) c /\ count_field (nth 1 fields []) n.

(** The numbers 1 to [c]. *)
Definition numbers_to (c : N) : list N := map N.of_nat (seq 1 (N.to_nat c)).

(** The messages of a whole group, each with its number, in order of arrival. *)
Definition gsv_group (tt : str) (c : N) (fields : N -> list str) (calls : list (N * (datetime * str))) : Prop :=
  Permutation (map fst calls) (numbers_to c) /\
  Forall (fun x => gsv_message (snd (snd x)) tt c (fst x) (fields (fst x))) calls.

(** No message of the group is waiting. *)
Definition no_group (p : NmeaParser) (tt : str) (c : N) : Prop :=
  forall n, 1 <= n <= c -> stored p (Text (gsv_key tt c n)) = None.
