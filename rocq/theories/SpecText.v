(** Specification vocabulary for sentences as text, independent of the model's helpers:
    comma-joined fields, the checksum, numerals. *)
From Coq Require Import List NArith ZArith Bool String.
From Verif Require Import Base Str.
Import ListNotations.
Open Scope N_scope.

(** Fields written one after the other, separated by commas. *)
Fixpoint join (fs : list str) : str :=
  match fs with
  | [] => []
  | [f] => f
  | f :: fs' => f ++ lit "," ++ join fs'
  end.

(** A field contains no comma. *)
Definition plain (f : str) : Prop := ~ In 44 f.

(** [body] is the text [fs] joined by commas. *)
Definition has_fields (body : str) (fs : list str) : Prop :=
  fs <> [] /\ Forall plain fs /\ body = join fs.

(** Sixteen hexadecimal digits, upper case. *)
Definition hex_alphabet : str := lit "0123456789ABCDEF".

(** Two hexadecimal digits of a number below 256. *)
Definition two_hex (n : N) : str :=
  [nth (N.to_nat (n / 16)) hex_alphabet 0; nth (N.to_nat (n mod 16)) hex_alphabet 0].

(** Exclusive or of a list of numbers. *)
Definition xor_all (l : list N) : N := fold_right N.lxor 0 l.

(** NMEA checksum: exclusive or of the low bytes of all characters after the first. *)
Definition nmea_checksum (body : str) : str :=
  two_hex (xor_all (map (fun c => c mod 256) (tl body))).

(** [s] consists of [body], optionally followed by '*' and a checksum text [given] (empty if there is
    no '*'). *)
Definition has_body (s body given : str) : Prop :=
  (~ In 42 s /\ body = s /\ given = []) \/ (s = body ++ lit "*" ++ given /\ ~ In 42 given).

(** The checksum text is acceptable: absent, empty or right. *)
Definition checksum_ok (body given : str) : Prop := given = [] \/ given = nmea_checksum body.

(** [s] is a sentence with these comma-separated fields, the sentence type first, and an acceptable
    checksum. *)
Definition sentence (s : str) (fields : list str) : Prop :=
  exists body given, has_body s body given /\ checksum_ok body given /\ has_fields body fields.

(** Value of a list of decimal digits. *)
Definition numeral_value (ds : str) : N := fold_left (fun v d => 10 * v + (d - 48)) ds 0.

(** [ds] is a non-empty run of ASCII digits. *)
Definition is_numeral (ds : str) : Prop := ds <> [] /\ Forall (fun d => 48 <= d <= 57) ds.

(** [s] denotes the natural number [v]: digits, optionally after one '+'. *)
Definition denotes (s : str) (v : N) : Prop :=
  exists ds, (s = ds \/ s = 43 :: ds) /\ is_numeral ds /\ numeral_value ds = v.

(** Every character is ASCII. *)
Definition ascii (s : str) : Prop := Forall (fun c => c < 128) s.

(** Number of bytes of a text in UTF-8. *)
Definition utf8_bytes (s : str) : nat :=
  list_sum (map (fun c : N => if c <? 128 then 1%nat else if c <? 2048 then 2%nat
                          else if c <? 65536 then 3%nat else 4%nat) s).
