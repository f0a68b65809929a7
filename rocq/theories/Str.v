(** Rust string operations used by the crate.

    A [&str]/[String] is modelled as the list of its [char]s (code points). Byte offsets are
    computed from the UTF-8 length of each character, so slicing at a byte offset that is out of
    range or not a character boundary is a panic ([None] of [slice]). *)
From Coq Require Import List NArith ZArith Bool Ascii String Decimal DecimalN.
Import ListNotations.
Open Scope N_scope.

(** [&str] / [String], e.g. the argument of src/lib.rs:166. *)
Definition str := list N.

(** ASCII string literals of the Rust source, e.g. src/lib.rs:201. *)
Definition lit (s : string) : str := map N_of_ascii (list_ascii_of_string s).

(** Equality of strings: [==] (src/lib.rs:182,199) and [match] on literals (src/lib.rs:247). *)
Fixpoint str_eqb (a b : str) : bool :=
  match a, b with
  | [], [] => true
  | x :: a', y :: b' => (x =? y) && str_eqb a' b'
  | _, _ => false
  end.

(** Number of bytes of a char in UTF-8, for the byte offsets of src/lib.rs:172-242 and
    src/util.rs:138-140. *)
Definition utf8_len (c : N) : nat :=
  if c <? 128 then 1%nat else if c <? 2048 then 2%nat else if c <? 65536 then 3%nat else 4%nat.

(** [str::len] in bytes (src/lib.rs:216,241). *)
Fixpoint byte_len (s : str) : nat :=
  match s with
  | [] => 0%nat
  | c :: t => (utf8_len c + byte_len t)%nat
  end.

(** Drop the first [k] bytes; [None] if [k] is not a char boundary. Part of slicing, src/lib.rs:199. *)
Fixpoint drop_bytes (s : str) (k : nat) : option str :=
  match k with
  | O => Some s
  | S _ =>
    match s with
    | [] => None
    | c :: t => if Nat.leb (utf8_len c) k then drop_bytes t (k - utf8_len c) else None
    end
  end.

(** Keep the first [k] bytes; [None] if [k] is not a char boundary. Part of slicing, src/lib.rs:199. *)
Fixpoint take_bytes (s : str) (k : nat) : option str :=
  match k with
  | O => Some []
  | S _ =>
    match s with
    | [] => None
    | c :: t =>
      if Nat.leb (utf8_len c) k then option_map (cons c) (take_bytes t (k - utf8_len c)) else None
    end
  end.

(** [s[a..b]] on bytes, src/lib.rs:199,200,217,223,224,242, src/util.rs:138-140; [None] is a panic. *)
Definition slice (s : str) (a b : nat) : option str :=
  match drop_bytes s a with
  | Some t => if Nat.leb a b then take_bytes t (b - a) else None
  | None => None
  end.

(** [s.split(',')], src/lib.rs:345, src/gnss/gga.rs:120: never empty. *)
Fixpoint split_on (sep : N) (s : str) : list str :=
  match s with
  | [] => [[]]
  | c :: t =>
    if c =? sep then [] :: split_on sep t
    else match split_on sep t with
         | [] => [[c]]
         | w :: ws => (c :: w) :: ws
         end
  end.

(** [s.find(c)] together with [s[0..i]], src/lib.rs:190-191: the text before the first [c]. *)
Fixpoint before_first (sep : N) (s : str) : option str :=
  match s with
  | [] => None
  | c :: t => if c =? sep then Some [] else option_map (cons c) (before_first sep t)
  end.

(** [s.rfind(c)] together with [s[0..pos]] and [s[pos+1..]], src/lib.rs:171-172: the text before and
    after the last [c]. *)
Fixpoint split_last (sep : N) (s : str) : option (str * str) :=
  match s with
  | [] => None
  | c :: t =>
    match split_last sep t with
    | Some (a, b) => Some (c :: a, b)
    | None => if c =? sep then Some ([], t) else None
    end
  end.

(** [char::is_whitespace] (Unicode White_Space), used by [trim_end] in src/util.rs:87. *)
Definition is_whitespace (c : N) : bool :=
  ((9 <=? c) && (c <=? 13)) || (c =? 32) || (c =? 133) || (c =? 160) || (c =? 5760)
  || ((8192 <=? c) && (c <=? 8202)) || (c =? 8232) || (c =? 8233) || (c =? 8239)
  || (c =? 8287) || (c =? 12288).

(** [str::trim_end], src/util.rs:87. *)
Fixpoint trim_end (s : str) : str :=
  match s with
  | [] => []
  | c :: t =>
    match trim_end t with
    | [] => if is_whitespace c then [] else [c]
    | t' => c :: t'
    end
  end.

(** Display of an unsigned integer ([{}]), src/util.rs:23, src/gnss/gsv.rs:84. *)
Fixpoint uint_chars (d : Decimal.uint) : str :=
  match d with
  | Decimal.Nil => []
  | Decimal.D0 d => 48 :: uint_chars d
  | Decimal.D1 d => 49 :: uint_chars d
  | Decimal.D2 d => 50 :: uint_chars d
  | Decimal.D3 d => 51 :: uint_chars d
  | Decimal.D4 d => 52 :: uint_chars d
  | Decimal.D5 d => 53 :: uint_chars d
  | Decimal.D6 d => 54 :: uint_chars d
  | Decimal.D7 d => 55 :: uint_chars d
  | Decimal.D8 d => 56 :: uint_chars d
  | Decimal.D9 d => 57 :: uint_chars d
  end.
(** Decimal text of an unsigned integer, src/util.rs:23. *)
Definition dec (n : N) : str := uint_chars (N.to_uint n).

(** [{:02X?}] of a u8, src/lib.rs:181: two upper-case hexadecimal digits. *)
Definition hex_digit (n : N) : N := if n <? 10 then 48 + n else 55 + n.
(** [{:02X?}], src/lib.rs:181 *)
Definition hex2 (n : N) : str := [hex_digit (n / 16); hex_digit (n mod 16)].

(** ASCII digits, for [str::parse] (src/util.rs:127) and the regular expressions src/util.rs:180,200. *)
Definition is_digit (c : N) : bool := (48 <=? c) && (c <=? 57).

(** The digit loop of [str::parse] for integers (src/lib.rs:348, src/util.rs:127) with its overflow checks: [None] on a non-digit or when the
    accumulated value exceeds [max]. *)
Fixpoint digits_acc (max acc : N) (s : str) : option N :=
  match s with
  | [] => Some acc
  | c :: t =>
    if is_digit c then
      let a := acc * 10 + (c - 48) in
      if a <=? max then digits_acc max a t else None
    else None
  end.

(** [s.parse::<T>()] for an unsigned type with maximum [max] (src/lib.rs:348,366, src/util.rs:127,138): optional '+', then at least one
    digit. *)
Definition parse_uint (max : N) (s : str) : option N :=
  match s with
  | [] => None
  | c :: t =>
    if c =? 43 then match t with [] => None | _ :: _ => digits_acc max 0 t end
    else digits_acc max 0 s
  end.

(** Ranges of the integer types used at src/lib.rs:348,366, src/gnss/gsv.rs:83. *)
Definition u8_max : N := 255.
(** src/gnss/gga.rs:53 *)
Definition u16_max : N := 65535.
(** src/gnss/gsv.rs:83 *)
Definition u32_max : N := 4294967295.
(** src/lib.rs:366 *)
Definition u64_max : N := 18446744073709551615.

(** [s.parse::<i32>()], src/util.rs:153: optional sign, then at least one digit. *)
Definition parse_i32 (s : str) : option Z :=
  match s with
  | [] => None
  | c :: t =>
    if c =? 43 then match t with [] => None | _ :: _ => option_map Z.of_N (digits_acc 2147483647 0 t) end
    else if c =? 45 then
      match t with [] => None | _ :: _ => option_map (fun n => (- Z.of_N n)%Z) (digits_acc 2147483648 0 t) end
    else option_map Z.of_N (digits_acc 2147483647 0 s)
  end.
