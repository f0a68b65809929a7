(** Specification vocabulary for the handlers of the crate when they are called directly. *)
From Coq Require Import List NArith ZArith Bool String.
From Verif Require Import Base Str F64 Chrono Types Util AisMod Vdm Gnss Parser SpecText SpecFields.
Import ListNotations.
Open Scope N_scope.

(** The public function [handle] for messages of type [t] (src/ais/vdm_t*.rs), with the parser as it
    is before and after. *)
Definition ais_handler (now : datetime) (t : N)
    : option (list bool -> Station -> bool -> NmeaParser -> outcome ParseError ParsedSentence * NmeaParser) :=
  match t with
  | 1 | 2 | 3 => Some (fun bits st own p => (handle_t1t2t3 bits st own, p))
  | 4 => Some (fun bits st own p => (handle_t4 bits st own, p))
  | 5 => Some (fun bits st own p => (handle_t5 now bits st own, p))
  | 6 => Some (fun bits st own p => (handle_t6 bits st own, p))
  | 9 => Some (fun bits st own p => (handle_t9 bits st own, p))
  | 10 => Some (fun bits st own p => (handle_t10 bits st own, p))
  | 18 => Some (fun bits st own p => (handle_t18 bits st own, p))
  | 19 => Some (fun bits st own p => (handle_t19 bits st own, p))
  | 21 => Some (fun bits st own p => (handle_t21 bits st own, p))
  | 24 => Some (fun bits st own p => handle_t24 bits st p own)
  | 27 => Some (fun bits st own p => (handle_t27 bits st own, p))
  | _ => None
  end.

(** The public function [handle] for sentences [fff] that need no parser (src/gnss/*.rs). *)
Inductive gnss_handler (now : datetime)
    : str -> (str -> NavigationSystem -> outcome ParseError ParsedSentence) -> Prop :=
| handler_gga : gnss_handler now (lit "GGA") (handle_gga now)
| handler_rmc : gnss_handler now (lit "RMC") (handle_rmc now)
| handler_gsa : gnss_handler now (lit "GSA") handle_gsa
| handler_vtg : gnss_handler now (lit "VTG") handle_vtg
| handler_gll : gnss_handler now (lit "GLL") (handle_gll now).

(** The same bits from bit 6 on, that is after the message type; past the end there are zeros. *)
Definition same_after_type (a b : list bool) : Prop :=
  forall i, (6 <= i)%nat -> nth i a false = nth i b false.

(** The same fields, a missing one counting as empty. *)
Definition same_fields (a b : list str) : Prop := forall i, fld a i = fld b i.
