(** Sentences as the bytes of their UTF-8 encoding, and the first part of [parse_sentence] (src/lib.rs:166-245) on
    these bytes with the byte offsets of the source. The rest of the model works on characters ([Str]); PropUtf8
    proves that the two agree. *)
From Coq Require Import List NArith Bool String Arith.
From Verif Require Import Base Str Chrono Types Parser.
Import ListNotations.
Open Scope N_scope.

(** UTF-8 (RFC 3629), the representation of the [&str] of src/lib.rs:166. *)
Definition encode_char (c : N) : list N :=
  if c <? 128 then [c]
  else if c <? 2048 then [192 + c / 64; 128 + c mod 64]
  else if c <? 65536 then [224 + c / 4096; 128 + c / 64 mod 64; 128 + c mod 64]
  else [240 + c / 262144; 128 + c / 4096 mod 64; 128 + c / 64 mod 64; 128 + c mod 64].
(** src/lib.rs:166 *)
Definition bytes (s : str) : list N := flat_map encode_char s.

(** [chars()] of src/lib.rs:178: one character after the other. The bytes are known to be valid, so nothing is
    checked, as in the standard library. *)
Fixpoint decode (b : list N) : str :=
  match b with
  | [] => []
  | x :: t =>
    if x <? 128 then x :: decode t
    else match t with
    | [] => []
    | y :: t2 =>
      if x <? 224 then (x mod 32) * 64 + y mod 64 :: decode t2
      else match t2 with
      | [] => []
      | z :: t3 =>
        if x <? 240 then (x mod 16) * 4096 + (y mod 64) * 64 + z mod 64 :: decode t3
        else match t3 with
        | [] => []
        | w :: t4 => (x mod 8) * 262144 + (y mod 64) * 4096 + (z mod 64) * 64 + w mod 64 :: decode t4
        end
      end
    end
  end.

(** [str::is_char_boundary], the condition of the slices of src/lib.rs:172,191,199,200,217,223,224,242 and
    src/util.rs:138-140: at the start, at the end, or at a byte that is no continuation byte. *)
Definition is_char_boundary (b : list N) (i : nat) : bool :=
  if Nat.eqb i 0 then true
  else match nth_error b i with
  | Some x => (x <? 128) || (192 <=? x)
  | None => Nat.eqb i (List.length b)
  end.

(** [s[i..j]], src/lib.rs:172,191,199,200,217,223,224,242 and src/util.rs:138-140; [None] is a panic. *)
Definition byte_slice (b : list N) (i j : nat) : option (list N) :=
  if Nat.leb i j && is_char_boundary b i && is_char_boundary b j then Some (firstn (j - i) (skipn i b)) else None.

(** [s.find(c)] for an ASCII character, src/lib.rs:190: the offset of the first such byte. *)
Fixpoint byte_find (c : N) (b : list N) : option nat :=
  match b with
  | [] => None
  | x :: t => if x =? c then Some 0%nat else option_map S (byte_find c t)
  end.
(** [s.rfind(c)], src/lib.rs:171: the offset of the last such byte. *)
Fixpoint byte_rfind (c : N) (b : list N) : option nat :=
  match b with
  | [] => None
  | x :: t => match byte_rfind c t with Some i => Some (S i) | None => if x =? c then Some 0%nat else None end
  end.

(** How the part before the [match] of src/lib.rs:247 ends. *)
Inductive front_end :=
| FrontPanic
| FrontCorrupted (calculated given : list N)                                                   (** src/lib.rs:183-185 *)
| FrontInvalid (body : list N)                                                                 (** src/lib.rs:193 *)
| FrontGo (sentence_type body : list N) (nav : option NavigationSystem) (station : option Station).

(** src/lib.rs:198-219 with [mark] '$', 222-244 with [mark] '!'. *)
Definition byte_recognize {A} (mark : N) (of_talker : str -> A) (sentence_type : list N) : option (option A * list N) :=
  match byte_slice sentence_type 0 1 with
  | None => None
  | Some m =>
    if str_eqb m [mark] then
      match byte_slice sentence_type 1 3 with
      | None => None
      | Some t =>
        if Nat.leb (List.length sentence_type) 6 then
          match byte_slice sentence_type 3 6 with
          | None => None
          | Some r => Some (Some (of_talker (decode t)), mark :: r)
          end
        else Some (Some (of_talker (decode t)), sentence_type)
      end
    else Some (None, sentence_type)
  end.

(** src/lib.rs:170-177 *)
Definition byte_split (b : list N) : option (list N * list N) :=
  match byte_rfind 42 b with
  | Some pos =>
    match byte_slice b 0 pos, byte_slice b (pos + 1) (List.length b) with
    | Some body, Some given => Some (body, given)
    | _, _ => None
    end
  | None => Some (b, [])
  end.

(** src/lib.rs:166-245 *)
Definition front (b : list N) : front_end :=
  match byte_split b with
  | None => FrontPanic
  | Some (body, given) =>
    let calculated := hex2 (fold_left (fun acc c => N.lxor acc (as_u8 c)) (skipn 1 (decode body)) 0) in
    if negb (str_eqb calculated given) && negb (str_eqb given []) then FrontCorrupted calculated given
    else match byte_find 44 body with
    | None => FrontInvalid body
    | Some i =>
      match byte_slice body 0 i with
      | None => FrontPanic
      | Some t0 =>
        match byte_recognize 36 nav_of_talker t0 with
        | None => FrontPanic
        | Some (nav, t1) =>
          match byte_recognize 33 station_of_talker t1 with
          | None => FrontPanic
          | Some (station, t2) => FrontGo t2 body nav station
          end
        end
      end
    end
  end.

(** src/lib.rs:166-592, the part from line 246 on being that of the model on characters. *)
Definition parse_bytes (ovf : bool) (now : datetime) (b : list N) (p : NmeaParser)
    : outcome ParseError ParsedSentence * NmeaParser :=
  match front b with
  | FrontPanic => (Panic, p)
  | FrontCorrupted calculated given => (Err (CorruptedSentence (decode calculated) (decode given)), p)
  | FrontInvalid body => (Err (InvalidSentence (lit "Invalid NMEA sentence: " ++ decode body)), p)
  | FrontGo sentence_type body nav station => dispatch_sentence ovf now (decode sentence_type) (decode body) nav station p
  end.
