(** src/util.rs *)
From Coq Require Import List NArith ZArith Bool String.
From Verif Require Import Base Str F64 Chrono.
Import ListNotations.
Open Scope N_scope.

(** src/util.rs:22-24 *)
Definition make_fragment_key (sentence_type : str) (message_id fragment_count fragment_number : N)
    (radio_channel_code : str) : str :=
  sentence_type ++ lit "," ++ dec fragment_count ++ lit "," ++ dec fragment_number ++ lit ","
  ++ dec message_id ++ lit "," ++ radio_channel_code.

(** [BitVec], src/util.rs:28-29, in push order. *)
Definition bitvec := list bool.

(** src/util.rs:36-39: the six low bits of [ci], most significant first. *)
Definition six_bits (ci : N) : bitvec :=
  map (fun i => negb (N.land (N.shiftr ci (5 - i)) 1 =? 0)) [0; 1; 2; 3; 4; 5].

(** src/util.rs:31-34: [(c as u8) - 48], then minus 8 if above 40. With overflow checks ([ovf]) the
    first subtraction panics ([None]) below 48, otherwise it wraps. *)
Definition payload_char (ovf : bool) (c : N) : option N :=
  let b := as_u8 c in
  if (b <? 48) && ovf then None
  else let ci := (b + 256 - 48) mod 256 in
       Some (if 40 <? ci then ci - 8 else ci).

(** src/util.rs:28-43. The function never returns Err. *)
Fixpoint parse_payload (ovf : bool) (payload : str) : outcome str bitvec :=
  match payload with
  | [] => Ok []
  | c :: t =>
    match payload_char ovf c with
    | None => Panic
    | Some ci => let! bv := parse_payload ovf t in Ok (six_bits ci ++ bv)
    end
  end.

(** src/util.rs:49-51 and 59-61: the shift-and-or loop on a u64. [bv.get(pos)] past the end counts
    as false. *)
Fixpoint pick_loop (bv : bitvec) (pos len : nat) (res : N) : N :=
  match len with
  | O => res
  | S len' =>
    pick_loop bv (S pos) len'
      (N.lor (N.shiftl res 1 mod 18446744073709551616) (N.b2n (nth pos bv false)))
  end.

(** src/util.rs:47-53 *)
Definition pick_u64 (bv : bitvec) (index len : nat) : N := pick_loop bv index len 0.

(** src/util.rs:57-69. [len] is positive in every call. *)
Definition pick_i64 (bv : bitvec) (index len : nat) : Z :=
  let res := pick_loop bv index len 0 in
  let sign_bit := N.shiftl 1 (N.of_nat len - 1) in
  if negb (N.land res sign_bit =? 0)
  then (Z.of_N (N.land res (sign_bit - 1)) - Z.of_N sign_bit)%Z
  else Z.of_N res.

(** src/util.rs:76-86: the character loop; [None] is a failed [assert!(ch < 64)]. The two
    [from_u32] calls cannot fail on these values. *)
Fixpoint pick_chars (bv : bitvec) (index : nat) (char_count : nat) : option str :=
  match char_count with
  | O => Some []
  | S n =>
    let ch := as_u32 (pick_u64 bv index 6) in
    if ch <? 64 then
      if ch =? 0 then Some []
      else option_map (cons (if ch <? 32 then 64 + ch else ch)) (pick_chars bv (index + 6) n)
    else None
  end.

(** src/util.rs:73-88 *)
Definition pick_string {E} (bv : bitvec) (index char_count : nat) : outcome E str :=
  match pick_chars bv index char_count with
  | Some s => Ok (trim_end s)
  | None => Panic
  end.

(** src/util.rs:92-121. [now] is the clock reading. *)
Definition pick_eta {E} (bv : bitvec) (index : nat) (now : datetime) : outcome E (option datetime) :=
  let month  := as_u32 (pick_u64 bv index 4) in
  let day    := as_u32 (pick_u64 bv (index + 4) 5) in
  let hour   := as_u32 (pick_u64 bv (index + 4 + 5) 5) in
  let minute := as_u32 (pick_u64 bv (index + 4 + 5 + 5) 6) in
  let second := as_u32 (pick_u64 bv (index + 4 + 5 + 5 + 6) 6) in
  if (month =? 0) && (day =? 0) && (hour =? 24) && (minute =? 60) && (second =? 60) then Ok None
  else
    let month := if month =? 0 then dt_month now else month in
    let day := if day =? 0 then dt_day now else day in
    let '(hour, minute, second) :=
      if hour =? 24 then (23, 59, 59) else (hour, minute, second) in
    let '(minute, second) := if minute =? 60 then (59, 59) else (minute, second) in
    let second := if second =? 60 then 59 else second in
    let! this_year_eta := ymd_and_hms (dt_year now) month day hour minute second in
    let! next_year_eta := ymd_and_hms (dt_year now) month day hour minute second in
    if dt_leb now this_year_eta then Ok (Some this_year_eta) else Ok (Some next_year_eta).

(** [split.get(num).unwrap_or(&"")], src/util.rs:125, src/gnss/gga.rs:124 *)
Definition field (split : list str) (num : nat) : str := nth num split [].

(** src/util.rs:124-134, generic in the parsed type: [parse] is [FromStr] of the type. *)
Definition pick_number_field {A} (parse : str -> option A) (split : list str) (num : nat)
    : outcome str (option A) :=
  let s := field split num in
  if negb (str_eqb s []) then
    match parse s with
    | Some p => Ok (Some p)
    | None => Err (lit "Failed to parse field " ++ dec (N.of_nat num) ++ lit ": " ++ s)
    end
  else Ok None.

(** src/util.rs:137-146. A slice outside the text or inside a character panics. *)
Definition parse_hhmmss (hhmmss : str) (now : datetime) : outcome str datetime :=
  let e := Err (lit "Invalid time format: " ++ hhmmss) in
  match slice hhmmss 0 2 with
  | None => Panic
  | Some a =>
    match parse_uint u32_max a with
    | None => e
    | Some hour =>
      match slice hhmmss 2 4 with
      | None => Panic
      | Some b =>
        match parse_uint u32_max b with
        | None => e
        | Some minute =>
          match slice hhmmss 4 6 with
          | None => Panic
          | Some c =>
            match parse_uint u32_max c with
            | None => e
            | Some second => ymd_and_hms (dt_year now) (dt_month now) (dt_day now) hour minute second
            end
          end
        end
      end
    end
  end.

(** src/util.rs:170-172 *)
Definition pick_s2 (s : str) (i : nat) : str := firstn 2 (skipn i s).

(** src/util.rs:149-167. Rust's integer division truncates toward zero. *)
Definition parse_yymmdd_hhmmss (yymmdd hhmmss : str) (now : datetime) : outcome str datetime :=
  let century := (Z.quot (dt_year now) 100 * 100)%Z in
  let ed := Err (lit "Invalid date format: " ++ yymmdd) in
  let et := Err (lit "Invalid time format: " ++ hhmmss) in
  match parse_uint u32_max (pick_s2 yymmdd 0) with
  | None => ed
  | Some day =>
    match parse_uint u32_max (pick_s2 yymmdd 2) with
    | None => ed
    | Some month =>
      match parse_i32 (pick_s2 yymmdd 4) with
      | None => ed
      | Some year =>
        match parse_uint u32_max (pick_s2 hhmmss 0) with
        | None => et
        | Some hour =>
          match parse_uint u32_max (pick_s2 hhmmss 2) with
          | None => et
          | Some minute =>
            match parse_uint u32_max (pick_s2 hhmmss 4) with
            | None => et
            | Some second => ymd_and_hms (century + year)%Z month day hour minute second
            end
          end
        end
      end
    end
  end.

(** The regular expressions of src/util.rs:180 and 200: [n] digits (group 1), then two digits, a
    dot and a maximal non-empty run of digits (group 2), anchored at the start only. *)
Fixpoint take_digits (n : nat) (s : str) : option (str * str) :=
  match n with
  | O => Some ([], s)
  | S n' =>
    match s with
    | c :: t =>
      if is_digit c then
        match take_digits n' t with Some (a, b) => Some (c :: a, b) | None => None end
      else None
    | [] => None
    end
  end.

(** src/util.rs:180-181 ([n] = 2) and 200-201 ([n] = 3): the two capture groups. *)
Definition match_degrees (n : nat) (s : str) : option (str * str) :=
  match take_digits n s with
  | None => None
  | Some (d, r) =>
    match take_digits 2 r with
    | None => None
    | Some (mm, r2) =>
      match r2 with
      | c :: r3 =>
        if c =? 46 then
          match span_digits r3 with
          | ([], _) => None
          | (f, _) => Some (d, mm ++ [46] ++ f)
          end
        else None
      | [] => None
      end
    end
  end.

(** [Option::unwrap_or], e.g. src/util.rs:182 *)
Definition unwrap_or {A} (o : option A) (d : A) : A := match o with Some a => a | None => d end.

(** Common part of src/util.rs:177-192 and 197-212: [n] degree digits, [neg] the letter that negates
    the value (positive letter and any other text leave it positive). *)
Definition parse_angle (n : nat) (neg : str) (what : str) (s hemisphere : str)
    : outcome str (option f64) :=
  if negb (str_eqb s []) then
    match match_degrees n s with
    | Some (g1, g2) =>
      let d := unwrap_or (parse_f64 g1) (f64_of_Z 0) in
      let m := unwrap_or (parse_f64 g2) (f64_of_Z 0) in
      let val := f64_add d (f64_div m (f64_of_Z 60)) in
      Ok (Some (if str_eqb hemisphere neg then f64_neg val else val))
    | None => Err (what ++ s)
    end
  else Ok None.

(** src/util.rs:177-192 *)
Definition parse_latitude_ddmm_mmm (lat_string hemisphere : str) : outcome str (option f64) :=
  parse_angle 2 (lit "S") (lit "Failed to parse latitude (DDMM.MMM) from ") lat_string hemisphere.

(** src/util.rs:197-212 *)
Definition parse_longitude_dddmm_mmm (lon_string eastwest : str) : outcome str (option f64) :=
  parse_angle 3 (lit "W") (lit "Failed to parse longitude (DDDMM.MMM) from ") lon_string eastwest.
