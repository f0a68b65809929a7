(** The work of one call of [parse_sentence]: how often the bodies of the loops are entered whose number of
    rounds depends on the sentence or on the memory, and how many fields a text is split into. Not counted:
    loops with a fixed number of rounds outside the ones below (bits of a number, characters of a name,
    satellites of a GSA sentence), and the work inside one call of a library function (reading a number,
    searching a comma, hashing, comparing and copying texts). *)
From Coq Require Import List NArith ZArith Bool String.
From Verif Require Import Base Str F64 Chrono Types Util AisMod Vdm Gnss Parser.
Import ListNotations.
Open Scope N_scope.

(** src/lib.rs:178-180: one round for each character but the first. *)
Definition checksum_steps (body : str) : N := N.of_nat (List.length (skipn 1 body)).

(** Fields of [split(',').collect()], src/gnss/gsv.rs:43 and 61, src/gnss/gga.rs:120 and the other GNSS
    handlers. *)
Definition split_steps (text : str) : N := N.of_nat (List.length (split_on 44 text)).

(** src/lib.rs:345-382: rounds of the loop over the fields, which ends early if one of the two numbers is
    unreadable. *)
Fixpoint scan_steps (num : nat) (split : list str) : N :=
  match split with
  | [] => 0
  | s :: rest =>
    1 + match num with
        | 1%nat | 2%nat => match parse_u8 s with Some _ => scan_steps (S num) rest | None => 0 end
        | _ => scan_steps (S num) rest
        end
  end.

(** src/util.rs:30-40: one round for each character, and six for its bits, unless line 31 panics. *)
Fixpoint payload_steps (ovf : bool) (payload : str) : N :=
  match payload with
  | [] => 0
  | c :: rest =>
    match payload_char ovf c with
    | None => 1
    | Some _ => 1 + 6 + payload_steps ovf rest
    end
  end.

(** src/lib.rs:337-586. The dispatch on the message type and the message decoders have no loops that depend
    on the input. *)
Definition vdm_steps (ovf : bool) (sentence_type sentence : str) (p : NmeaParser) : N :=
  scan_steps 0 (split_on 44 sentence) +
  match vdm_scan 0 vdm_start (split_on 44 sentence) with
  | Ok f =>
    match fst (vdm_payload sentence_type f p) with
    | Some payload => payload_steps ovf payload
    | None => 0
    end
  | _ => 0
  end.

(** src/gnss/gsv.rs:59-74: one round for each number, the fields of the text found under it, and four
    rounds of the inner loop. *)
Fixpoint collect_steps (msg_type : str) (msg_count : N) (range : list N) (p : NmeaParser) : N :=
  match range with
  | [] => 0
  | i :: rest =>
    let '(o, p1) := pull_string (make_gsv_key msg_type msg_count i) p in
    1 + match o with Some sentence => split_steps sentence + 4 | None => 0 end
      + collect_steps msg_type msg_count rest p1
  end.

(** src/gnss/gsv.rs:41-80 *)
Definition gsv_steps (ovf : bool) (sentence : str) (p : NmeaParser) : N :=
  let split := split_on 44 sentence in
  let msg_type := field split 0 in
  split_steps sentence +
  match number parse_u32 split 1, number parse_u32 split 2 with
  | Ok count, Ok num =>
    let msg_count := unwrap_or count 0 in
    let p1 := push_string (make_gsv_key msg_type msg_count (unwrap_or num 0)) sentence p in
    match gsv_range ovf msg_count with
    | None => 0
    | Some range =>
      N.of_nat (List.length range) +
      (if gsv_found msg_type msg_count range p1 =? msg_count
       then collect_steps msg_type msg_count range p1 else 0)
    end
  | _, _ => 0
  end.

(** src/lib.rs:246-591. The five handlers in the list split the sentence once (src/gnss/gga.rs:120, rmc.rs:61,
    gsa.rs:71, vtg.rs:46, gll.rs:57); the other types are reported without looking at the fields. *)
Definition dispatch_steps (ovf : bool) (sentence_type sentence : str) (p : NmeaParser) : N :=
  if str_eqb sentence_type (lit "$GSV") then gsv_steps ovf sentence p
  else if existsb (str_eqb sentence_type) [lit "$GGA"; lit "$RMC"; lit "$GSA"; lit "$VTG"; lit "$GLL"]
  then split_steps sentence
  else if str_eqb sentence_type (lit "!VDM") || str_eqb sentence_type (lit "!VDO")
  then vdm_steps ovf sentence_type sentence p
  else 0.

(** src/lib.rs:188-591 *)
Definition body_steps (ovf : bool) (body : str) (p : NmeaParser) : N :=
  match before_first 44 body with
  | None => 0
  | Some t0 =>
    match recognize (lit "$") nav_of_talker t0 with
    | None => 0
    | Some (_, t1) =>
      match recognize (lit "!") station_of_talker t1 with
      | None => 0
      | Some (_, t2) => dispatch_steps ovf t2 body p
      end
    end
  end.

(** src/lib.rs:166-592 *)
Definition parse_steps (ovf : bool) (sentence : str) (p : NmeaParser) : N :=
  let '(body, given) := split_checksum sentence in
  checksum_steps body +
  if negb (str_eqb (hex2 (checksum body)) given) && negb (str_eqb given []) then 0
  else body_steps ovf body p.
