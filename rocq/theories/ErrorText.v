(** Texts of errors: src/error.rs, and the [format!] of src/lib.rs:183-185. *)
From Coq Require Import List NArith Bool String Hexadecimal HexadecimalN.
From Verif Require Import Base Str Types.
Import ListNotations.
Open Scope N_scope.

(** Lower case hexadecimal digits in a [\u{..}] escape of src/lib.rs:184 (core::char::EscapeUnicode). *)
Fixpoint hex_chars (u : Hexadecimal.uint) : str :=
  match u with
  | Nil => []
  | D0 u => 48 :: hex_chars u
  | D1 u => 49 :: hex_chars u
  | D2 u => 50 :: hex_chars u
  | D3 u => 51 :: hex_chars u
  | D4 u => 52 :: hex_chars u
  | D5 u => 53 :: hex_chars u
  | D6 u => 54 :: hex_chars u
  | D7 u => 55 :: hex_chars u
  | D8 u => 56 :: hex_chars u
  | D9 u => 57 :: hex_chars u
  | Da u => 97 :: hex_chars u
  | Db u => 98 :: hex_chars u
  | Dc u => 99 :: hex_chars u
  | Dd u => 100 :: hex_chars u
  | De u => 101 :: hex_chars u
  | Df u => 102 :: hex_chars u
  end.
(** As above. *)
Definition hex_lower (n : N) : str := hex_chars (N.to_hex_uint n).

(** How the standard library escapes in [{:?}] of a string (used at src/lib.rs:184) depends on its
    version, which /repo does not fix: the characters beyond ASCII that get a [\u{..}] escape
    (unprintable and combining ones, by the Unicode tables of the version), whether the character 0 is
    written [\0], and whether a single quote is escaped. *)
Record debug_style := {
  unprintable : N -> bool;
  short_nul : bool;
  quote_escaped : bool }.

(** [char::escape_debug] as used for [{:02X?}] of a [String], src/lib.rs:184 *)
Definition escape_debug (k : debug_style) (c : N) : str :=
  let long := lit "\u{" ++ hex_lower c ++ lit "}" in
  if c =? 0 then (if short_nul k then lit "\0" else long)
  else if c =? 9 then lit "\t"
  else if c =? 13 then lit "\r"
  else if c =? 10 then lit "\n"
  else if c =? 92 then lit "\\"
  else if c =? 34 then [92; 34]
  else if c =? 39 then (if quote_escaped k then lit "\'" else [c])
  else if (c <? 32) || (c =? 127) then long
  else if c <? 127 then [c]
  else if unprintable k c then long else [c].

(** [{:02X?}] of a [String], src/lib.rs:184: the width is ignored. *)
Definition debug_str (k : debug_style) (s : str) : str := [34] ++ flat_map (escape_debug k) s ++ [34].

(** src/error.rs:37-45, with the text built at src/lib.rs:183-185 *)
Definition ParseError_to_string (k : debug_style) (e : ParseError) : str :=
  match e with
  | UnsupportedSentenceType s => s
  | CorruptedSentence calculated given =>
    lit "Corrupted NMEA sentence: " ++ debug_str k calculated ++ lit " != " ++ debug_str k given
  | InvalidSentence s => s
  end.
