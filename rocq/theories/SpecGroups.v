(** C95: what becomes of the messages of satellite groups, in any order and with any losses and repetitions. *)
From stdpp Require Import gmap.
From Coq Require Import List NArith ZArith Bool String.
From Verif Require Import Base Str F64 Chrono Types SpecText SpecResult SpecState SpecGnss Parser.
Import ListNotations.
Open Scope N_scope.

(** The latest message received with each talker, message count and message number, as far as it has not been
    reported. *)
Definition messages := str * N * N -> option (list str).
Definition no_messages : messages := fun _ => None.
(** The message [n] of group [tt], [c] is replaced by [fields]. *)
Definition received (g : messages) (tt : str) (c n : N) (fields : list str) (g' : messages) : Prop :=
  g' (tt, c, n) = Some fields /\ forall k, k <> (tt, c, n) -> g' k = g k.
(** The messages 1 to [c] of group [tt], [c] are taken out. *)
Definition taken (g : messages) (tt : str) (c : N) (g' : messages) : Prop :=
  (forall n, 1 <= n <= c -> g' (tt, c, n) = None) /\
  forall k, (forall n, 1 <= n <= c -> k <> (tt, c, n)) -> g' k = g k.

(** A history and the answers to its satellite messages: a message waits, and replaces an earlier one
    with its number, until one with each of the numbers 1 to [c] is there; then they are reported together in
    the order of their numbers. A message that announces 2^32 - 1 messages waits forever, and is a panic in
    builds with overflow checks. *)
Inductive collected (ovf : bool) : messages -> history -> list (option (outcome ParseError ParsedSentence)) -> messages -> Prop :=
| collected_end g : collected ovf g [] [] g
| collected_other g now s h l g' :
    (forall tt c n fields, ~ gsv_message s tt c n fields) ->
    collected ovf g h l g' -> collected ovf g ((now, s) :: h) (None :: l) g'
| collected_wait g g1 now s tt c n fields k h l g' :
    gsv_message s tt c n fields -> c < 2 ^ 32 - 1 -> received g tt c n fields g1 ->
    1 <= k <= c -> g1 (tt, c, k) = None ->
    collected ovf g1 h l g' -> collected ovf g ((now, s) :: h) (Some (Ok PsIncomplete) :: l) g'
| collected_report g g1 g2 now s tt c n fields nav all sats h l g' :
    gsv_message s tt c n fields -> c < 2 ^ 32 - 1 -> received g tt c n fields g1 ->
    (forall k, 1 <= k <= c -> g1 (tt, c, k) = Some (all k)) ->
    names_system tt nav -> (forall k, 1 <= k <= c -> satellites nav (all k) (sats k)) ->
    taken g1 tt c g2 ->
    collected ovf g2 h l g' -> collected ovf g ((now, s) :: h) (Some (Ok (PsGsv (flat_map sats (numbers_to c)))) :: l) g'
| collected_too_many g g1 now s tt n fields h l g' :
    gsv_message s tt (2 ^ 32 - 1) n fields -> received g tt (2 ^ 32 - 1) n fields g1 ->
    collected ovf g1 h l g' ->
    collected ovf g ((now, s) :: h) (Some (if ovf then Panic else Ok PsIncomplete) :: l) g'.

(** The results [rs] are the answers [l], where [l] has one. *)
Definition answers (l : list (option (outcome ParseError ParsedSentence))) (rs : list (outcome ParseError ParsedSentence)) : Prop :=
  Forall2 (fun a r => forall r', a = Some r' -> r = r') l rs.
