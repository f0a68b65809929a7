(** Specification vocabulary for pending state and histories of calls. *)
From stdpp Require Import gmap.
From Coq Require Import List NArith ZArith Bool String.
From Verif Require Import Base Str F64 Chrono Types SpecText SpecAis Parser.
Import ListNotations.
Open Scope N_scope.

(** ** Sentences that use the parser's memory *)

(** [s] is half number [n] (1 or 2) of the two-fragment message with identification [mid] on
    [channel]; it carries [payload]. A missing channel or payload field counts as empty. *)
Definition fragment (s tt fff : str) (mid : N) (channel : str) (n : N) (payload : str) : Prop :=
  exists fields count number id, vdm_with s tt fff fields /\
    nth_error fields 0 = Some count /\ denotes count 2 /\
    nth_error fields 1 = Some number /\ denotes number n /\ (n = 1 \/ n = 2) /\
    nth_error fields 2 = Some id /\ denotes id mid /\ mid < 2 ^ 64 /\
    channel = nth 3 fields [] /\ payload = nth 4 fields [].

(** [s] is a GSV sentence of talker [tt] with these fields after the type. *)
Definition gsv_with (s tt : str) (fields : list str) : Prop :=
  sentence s ((lit "$" ++ tt ++ lit "GSV") :: fields) /\ fields <> [] /\ utf8_bytes tt = 2%nat.

(** An optional number: an empty or missing field is 0. *)
Definition count_field (f : str) (v : N) : Prop := (f = [] /\ v = 0) \/ (denotes f v /\ v < 2 ^ 32).

(** [s] is message number [n] of a GSV group of [c] messages of talker [tt]. *)
Definition gsv_part (s tt : str) (c n : N) : Prop :=
  exists fields, gsv_with s tt fields /\ count_field (nth 0 fields []) c /\ count_field (nth 1 fields []) n.

(** ** Entries of the memory *)

(** Where a half of an AIS message and a part of a GSV group are kept. *)
Definition fragment_key (fff : str) (mid : N) (channel : str) (n : N) : str :=
  join [lit "!" ++ fff; lit "2"; dec n; dec mid; channel].
Definition gsv_key (tt : str) (c n : N) : str := join [lit "$" ++ tt ++ lit "GSV"; dec c; dec n].

(** An entry of the memory: a stored text, or the static data of a vessel. *)
Inductive entry := Text (key : str) | Vessel (mmsi : N).

Definition stored (p : NmeaParser) (e : entry) : option (str + VesselStaticData) :=
  match e with
  | Text k => inl <$> saved_fragments p !! k
  | Vessel m => inr <$> saved_vsds p !! m
  end.

Definition agree (K : entry -> Prop) (p q : NmeaParser) : Prop :=
  forall e, K e -> stored p e = stored q e.

(** Half [n] of a message is waiting. *)
Definition waiting (p : NmeaParser) (fff : str) (mid : N) (channel : str) (n : N) (payload : str) : Prop :=
  stored p (Text (fragment_key fff mid channel n)) = Some (inl payload).
Definition not_waiting (p : NmeaParser) (fff : str) (mid : N) (channel : str) : Prop :=
  forall n, n = 1 \/ n = 2 -> stored p (Text (fragment_key fff mid channel n)) = None.

(** [payload] is the payload text that parsing [s] completes in state [p]. *)
Inductive completes (s tt fff : str) (p : NmeaParser) : str -> Prop :=
| complete_one payload : one_fragment s tt fff payload -> completes s tt fff p payload
| complete_second mid channel a b : fragment s tt fff mid channel 2 b ->
    waiting p fff mid channel 1 a -> completes s tt fff p (a ++ b)
| complete_first mid channel a b : fragment s tt fff mid channel 1 a ->
    waiting p fff mid channel 2 b -> completes s tt fff p (a ++ b).

(** The entries that parsing [s] in state [p] may read or write: both halves of the message it is a
    fragment of, the parts of its GSV group, and the vessel of a completed type 24 message. *)
Inductive touches (ovf : bool) (s : str) (p : NmeaParser) : entry -> Prop :=
| touch_fragment tt fff mid channel n payload k :
    fragment s tt fff mid channel n payload -> k = 1 \/ k = 2 ->
    touches ovf s p (Text (fragment_key fff mid channel k))
| touch_gsv tt c n k : gsv_part s tt c n -> touches ovf s p (Text (gsv_key tt c k))
| touch_static tt fff payload :
    completes s tt fff p payload -> readable ovf payload -> bits_at (payload_bits payload) 0 6 = 24 ->
    touches ovf s p (Vessel (bits_at (payload_bits payload) 8 30)).

(** A sentence that is no fragment of this message. *)
Definition unrelated (fff : str) (mid : N) (channel : str) (s : str) : Prop :=
  forall tt n payload, ~ fragment s tt fff mid channel n payload.

(** The entries other than the two halves of a message. *)
Definition other_than (fff : str) (mid : N) (channel : str) (e : entry) : Prop :=
  forall n, n = 1 \/ n = 2 -> e <> Text (fragment_key fff mid channel n).

(** ** Histories *)

(** A history: clock reading and sentence of every call. *)
Definition history := list (datetime * str).

(** Results of the calls and the final state. *)
Fixpoint run (ovf : bool) (h : history) (p : NmeaParser)
    : list (outcome ParseError ParsedSentence) * NmeaParser :=
  match h with
  | [] => ([], p)
  | (now, s) :: h' =>
    let '(r, p1) := parse_sentence ovf now s p in
    let '(rs, p2) := run ovf h' p1 in (r :: rs, p2)
  end.
Definition results (ovf : bool) (h : history) (p : NmeaParser) := fst (run ovf h p).
Definition after (ovf : bool) (h : history) (p : NmeaParser) : NmeaParser := snd (run ovf h p).

(** States that a new parser can get into. *)
Definition reachable (ovf : bool) (p : NmeaParser) : Prop := exists h, p = after ovf h new_parser.

(** Each call of the history touches only entries in [K]. *)
Fixpoint touches_only (ovf : bool) (K : entry -> Prop) (h : history) (p : NmeaParser) : Prop :=
  match h with
  | [] => True
  | (now, s) :: h' =>
    (forall e, touches ovf s p e -> K e) /\ touches_only ovf K h' (snd (parse_sentence ovf now s p))
  end.

(** Calls of several streams, in the order they are made; the number says to which stream a call
    belongs. *)
Definition interleaving := list (N * (datetime * str)).
Definition stream (i : N) (m : interleaving) : history :=
  map snd (List.filter (fun x => fst x =? i) m).
(** The results of the calls of one stream, in the interleaved run. *)
Definition stream_results (ovf : bool) (i : N) (m : interleaving) (p : NmeaParser)
    : list (outcome ParseError ParsedSentence) :=
  map snd (List.filter (fun x => fst x =? i) (combine (map fst m) (results ovf (map snd m) p))).
