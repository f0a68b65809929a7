(** src/lib.rs, [NmeaParser::parse_sentence]. *)
From Coq Require Import List NArith ZArith Bool String.
From Verif Require Import Base Str F64 Chrono Types Util AisMod Vdm Gnss.
Import ListNotations.
Open Scope N_scope.

(** src/lib.rs:170-177: text before and after the last '*'. *)
Definition split_checksum (sentence : str) : str * str :=
  match split_last 42 sentence with
  | Some (body, given) => (body, given)
  | None => (sentence, [])
  end.

(** src/lib.rs:169, 178-180 *)
Definition checksum (body : str) : N :=
  fold_left (fun acc c => N.lxor acc (as_u8 c)) (skipn 1 body) 0.

(** src/lib.rs:200-209 *)
Definition nav_of_talker (t : str) : NavigationSystem :=
  if str_eqb t (lit "GN") then NavCombination
  else if str_eqb t (lit "GP") then NavGps
  else if str_eqb t (lit "GL") then NavGlonass
  else if str_eqb t (lit "GA") then NavGalileo
  else if str_eqb t (lit "BD") then NavBeidou
  else if str_eqb t (lit "GI") then NavNavic
  else if str_eqb t (lit "QZ") then NavQzss
  else NavOther.

(** src/lib.rs:224-234 *)
Definition station_of_talker (t : str) : Station :=
  if str_eqb t (lit "AB") then StBaseStation
  else if str_eqb t (lit "AD") then StDependentAisBaseStation
  else if str_eqb t (lit "AI") then StMobileStation
  else if str_eqb t (lit "AN") then StAidToNavigationStation
  else if str_eqb t (lit "AR") then StAisReceivingStation
  else if str_eqb t (lit "AS") then StLimitedBaseStation
  else if str_eqb t (lit "AT") then StAisTransmittingStation
  else if str_eqb t (lit "AX") then StRepeaterStation
  else StOther.

(** Common shape of src/lib.rs:198-219 and 222-244: if the type starts with [mark], read the talker
    from bytes 1..3 and shorten a type of at most six bytes to [mark] and bytes 3..6. [None] is a
    slicing panic. *)
Definition recognize {A} (mark : str) (of_talker : str -> A) (sentence_type : str)
    : option (option A * str) :=
  match slice sentence_type 0 1 with
  | None => None
  | Some m =>
    if str_eqb m mark then
      match slice sentence_type 1 3 with
      | None => None
      | Some t =>
        if Nat.leb (byte_len sentence_type) 6 then
          match slice sentence_type 3 6 with
          | None => None
          | Some r => Some (Some (of_talker t), mark ++ r)
          end
        else Some (Some (of_talker t), sentence_type)
      end
    else Some (None, sentence_type)
  end.

(** The local variables of src/lib.rs:340-344. *)
Record vdm_fields := {
  vf_count : N;
  vf_number : N;
  vf_id : option N;
  vf_channel : option str;
  vf_payload : str }.

(** src/lib.rs:340-344 *)
Definition vdm_start : vdm_fields :=
  {| vf_count := 0; vf_number := 0; vf_id := None; vf_channel := None; vf_payload := [] |}.

(** src/lib.rs:345-382. The i32 counter [num] is a nat (simplification: no overflow after 2^31
    fields). *)
Fixpoint vdm_scan (num : nat) (f : vdm_fields) (split : list str) : outcome ParseError vdm_fields :=
  match split with
  | [] => Ok f
  | s :: rest =>
    let bad := Err (InvalidSentence (lit "Failed to parse fragment count: " ++ s)) in
    match num with
    | 1%nat =>
      match parse_u8 s with
      | Some i => vdm_scan (S num)
          {| vf_count := i; vf_number := vf_number f; vf_id := vf_id f;
             vf_channel := vf_channel f; vf_payload := vf_payload f |} rest
      | None => bad
      end
    | 2%nat =>
      match parse_u8 s with
      | Some i => vdm_scan (S num)
          {| vf_count := vf_count f; vf_number := i; vf_id := vf_id f;
             vf_channel := vf_channel f; vf_payload := vf_payload f |} rest
      | None => bad
      end
    | 3%nat => vdm_scan (S num)
          {| vf_count := vf_count f; vf_number := vf_number f; vf_id := parse_uint u64_max s;
             vf_channel := vf_channel f; vf_payload := vf_payload f |} rest
    | 4%nat => vdm_scan (S num)
          {| vf_count := vf_count f; vf_number := vf_number f; vf_id := vf_id f;
             vf_channel := Some s; vf_payload := vf_payload f |} rest
    | 5%nat => vdm_scan (S num)
          {| vf_count := vf_count f; vf_number := vf_number f; vf_id := vf_id f;
             vf_channel := vf_channel f; vf_payload := s |} rest
    | _ => vdm_scan (S num) f rest
    end
  end.

(** src/lib.rs:384-418 up to the calls of [parse_payload]: the payload text to decode, if any, and
    the new state. *)
Definition vdm_payload (sentence_type : str) (f : vdm_fields) (p : NmeaParser)
    : option str * NmeaParser :=
  if vf_count f =? 1 then (Some (vf_payload f), p)
  else if vf_count f =? 2 then
    match vf_id f with
    | Some msg_id =>
      let chan := unwrap_or (vf_channel f) [] in
      let key1 := make_fragment_key sentence_type msg_id (vf_count f) 1 chan in
      let key2 := make_fragment_key sentence_type msg_id (vf_count f) 2 chan in
      if vf_number f =? 1 then
        match pull_string key2 p with
        | (Some second, p') => (Some (vf_payload f ++ second), p')
        | (None, p') => (None, push_string key1 (vf_payload f) p')
        end
      else if vf_number f =? 2 then
        match pull_string key1 p with
        | (Some first, p') => (Some (first ++ vf_payload f), p')
        | (None, p') => (None, push_string key2 (vf_payload f) p')
        end
      else (None, p)
    | None => (None, p)
    end
  else (None, p).

(** src/lib.rs:446-448 and the other arms of the same form *)
Definition unsupported_message (sentence_type : str) (message_type : N)
    : outcome ParseError ParsedSentence :=
  Err (UnsupportedSentenceType
         (lit "Unsupported " ++ sentence_type ++ lit " message type: " ++ dec message_type)).

(** src/lib.rs:420-582 *)
Definition dispatch_message (now : datetime) (sentence_type : str) (bv : bitvec) (st : Station)
    (own_vessel : bool) (p : NmeaParser) : outcome ParseError ParsedSentence * NmeaParser :=
  let message_type := pick_u64 bv 0 6 in
  match message_type with
  | 1 | 2 | 3 => (handle_t1t2t3 bv st own_vessel, p)
  | 4 => (handle_t4 bv st own_vessel, p)
  | 5 => (handle_t5 now bv st own_vessel, p)
  | 6 => (handle_t6 bv st own_vessel, p)
  | 9 => (handle_t9 bv st own_vessel, p)
  | 10 => (handle_t10 bv st own_vessel, p)
  | 18 => (handle_t18 bv st own_vessel, p)
  | 19 => (handle_t19 bv st own_vessel, p)
  | 21 => (handle_t21 bv st own_vessel, p)
  | 24 => handle_t24 bv st p own_vessel
  | 27 => (handle_t27 bv st own_vessel, p)
  | _ => (unsupported_message sentence_type message_type, p)
  end.

(** src/lib.rs:337-586. [parse_payload(..).ok()] is always [Some] (or panics). *)
Definition handle_vdm (ovf : bool) (now : datetime) (sentence_type sentence : str)
    (station : option Station) (p : NmeaParser) : outcome ParseError ParsedSentence * NmeaParser :=
  let own_vessel := str_eqb sentence_type (lit "!VDO") in
  match vdm_scan 0 vdm_start (split_on 44 sentence) with
  | Panic => (Panic, p)
  | Err e => (Err e, p)
  | Ok f =>
    match vdm_payload sentence_type f p with
    | (None, p') => (Ok PsIncomplete, p')
    | (Some payload, p') =>
      match parse_payload ovf payload with
      | Panic => (Panic, p')
      | Err _ => (Ok PsIncomplete, p')
      | Ok bv => dispatch_message now sentence_type bv (unwrap_or station StOther) own_vessel p'
      end
    end
  end.

(** src/lib.rs:281-333, the recognised but unimplemented types *)
Definition unimplemented_types : list str :=
  [lit "$ALM"; lit "$HDT"; lit "$TRF"; lit "$STN"; lit "$VBW"; lit "$XTC"; lit "$XTE"; lit "$ZDA";
   lit "$BOD"; lit "$RMA"].

(** src/lib.rs:246-591 *)
Definition dispatch_sentence (ovf : bool) (now : datetime) (sentence_type sentence : str)
    (nav : option NavigationSystem) (station : option Station) (p : NmeaParser)
    : outcome ParseError ParsedSentence * NmeaParser :=
  let nav_system := unwrap_or nav NavOther in
  if str_eqb sentence_type (lit "$GGA") then (handle_gga now sentence nav_system, p)
  else if str_eqb sentence_type (lit "$RMC") then (handle_rmc now sentence nav_system, p)
  else if str_eqb sentence_type (lit "$GSA") then (handle_gsa sentence nav_system, p)
  else if str_eqb sentence_type (lit "$GSV") then handle_gsv ovf sentence nav_system p
  else if str_eqb sentence_type (lit "$VTG") then (handle_vtg sentence nav_system, p)
  else if str_eqb sentence_type (lit "$GLL") then (handle_gll now sentence nav_system, p)
  else if existsb (str_eqb sentence_type) unimplemented_types then
    (Err (UnsupportedSentenceType (lit "Unimplemented NMEA sentence: " ++ sentence_type)), p)
  else if str_eqb sentence_type (lit "!VDM") || str_eqb sentence_type (lit "!VDO") then
    handle_vdm ovf now sentence_type sentence station p
  else (Err (UnsupportedSentenceType (lit "Unsupported sentence type: " ++ sentence_type)), p).

(** src/lib.rs:188-591, after the checksum part *)
Definition parse_body (ovf : bool) (now : datetime) (body : str) (p : NmeaParser)
    : outcome ParseError ParsedSentence * NmeaParser :=
  match before_first 44 body with
  | None => (Err (InvalidSentence (lit "Invalid NMEA sentence: " ++ body)), p)
  | Some t0 =>
    match recognize (lit "$") nav_of_talker t0 with
    | None => (Panic, p)
    | Some (nav, t1) =>
      match recognize (lit "!") station_of_talker t1 with
      | None => (Panic, p)
      | Some (station, t2) => dispatch_sentence ovf now t2 body nav station p
      end
    end
  end.

(** src/lib.rs:166-592. [ovf]: overflow checks enabled (debug profile); [now]: the clock reading of
    this call (each handler reads the clock at most once). The parser state is returned also when
    the call panics. *)
Definition parse_sentence (ovf : bool) (now : datetime) (sentence : str) (p : NmeaParser)
    : outcome ParseError ParsedSentence * NmeaParser :=
  let '(body, given) := split_checksum sentence in
  let calculated := hex2 (checksum body) in
  if negb (str_eqb calculated given) && negb (str_eqb given []) then
    (Err (CorruptedSentence calculated given), p)
  else parse_body ovf now body p.
