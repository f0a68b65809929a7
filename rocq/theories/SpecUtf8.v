(** Unicode text, valid UTF-8 and checksums of bytes: vocabulary for C105. *)
From Coq Require Import List NArith Bool String.
From Verif Require Import Base Str SpecText.
Import ListNotations.
Open Scope N_scope.

(** A Unicode scalar value, i.e. a value of the Rust type [char]. *)
Definition scalar (c : N) : Prop := c < 55296 \/ 57344 <= c < 1114112.

(** The well-formed byte sequences of Unicode characters (table 3-7 of the Unicode standard). *)
Definition continuation (b : N) : Prop := 128 <= b < 192.
Inductive valid_utf8 : list N -> Prop :=
| valid_end : valid_utf8 []
| valid_1 a l : a < 128 -> valid_utf8 l -> valid_utf8 (a :: l)
| valid_2 a b l : 194 <= a < 224 -> continuation b -> valid_utf8 l -> valid_utf8 (a :: b :: l)
| valid_3 a b c l : 224 <= a < 240 -> continuation b -> continuation c ->
    (a = 224 -> 160 <= b) -> (a = 237 -> b < 160) -> valid_utf8 l -> valid_utf8 (a :: b :: c :: l)
| valid_4 a b c d l : 240 <= a < 245 -> continuation b -> continuation c -> continuation d ->
    (a = 240 -> 144 <= b) -> (a = 244 -> b < 144) -> valid_utf8 l -> valid_utf8 (a :: b :: c :: d :: l).

(** The checksum of NMEA 0183: exclusive or of the bytes between the first one and the '*'. *)
Definition byte_checksum (b : list N) : str := two_hex (xor_all (tl b)).
