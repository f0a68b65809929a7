(** Specification vocabulary for C88 and C89: what is written in GNSS sentences. *)
From Coq Require Import List NArith ZArith Bool String Reals.
From Verif Require Import Base Str F64 Chrono Types SpecText SpecResult SpecTime SpecReal SpecFields.
Import ListNotations.
Open Scope N_scope.

(** What the fields of a GNSS sentence hold. *)
Inductive contents : Type := Word | Decimal | Whole | Degrees (digits : nat) | Clock | Unread.

(** The fields of each sentence, by NMEA 0183; fields after the list are not read. *)
Definition field_contents : list (str * list contents) :=
  [(lit "GGA", [Clock; Degrees 2; Word; Degrees 3; Word; Whole; Whole; Decimal; Decimal; Unread; Decimal; Unread;
                Decimal; Whole]);
   (lit "RMC", [Clock; Word; Degrees 2; Word; Degrees 3; Word; Decimal; Decimal; Clock; Decimal; Word]);
   (lit "GSA", [Word; Word] ++ repeat Whole 12 ++ [Decimal; Decimal; Decimal]);
   (lit "GLL", [Degrees 2; Word; Degrees 3; Word; Clock; Word; Word]);
   (lit "VTG", [Decimal; Unread; Decimal; Unread; Decimal; Unread; Decimal; Unread; Word])].

(** The same contents, possibly written differently: leading and trailing zeros, plus signs, exponents,
    fractions of seconds. *)
Inductive same_contents : contents -> str -> str -> Prop :=
| same_text k f : same_contents k f f
| same_number f g neg n e n' e' : decimal f neg n e -> decimal g neg n' e' ->
    decimal_size n e = decimal_size n' e' -> same_contents Decimal f g
| same_whole f g v : denotes f v -> denotes g v -> same_contents Whole f g
| same_degrees n f g d m : degrees_minutes n f d m -> degrees_minutes n g d m -> same_contents (Degrees n) f g
| same_clock f g a b c : six_digits f a b c -> six_digits g a b c -> same_contents Clock f g
| same_unread f g : same_contents Unread f g.

Definition same_fields (kinds : list contents) (fs gs : list str) : Prop :=
  forall i, same_contents (nth i kinds Unread) (fld fs i) (fld gs i).

(** Degrees with the sign of the hemisphere. *)
Definition written_angle (degrees : N) (minutes : R) (west_or_south : Prop) (v : R) : Prop :=
  (west_or_south -> v = (- (IZR (Z.of_N degrees) + minutes / 60))%R) /\
  (~ west_or_south -> v = (IZR (Z.of_N degrees) + minutes / 60)%R).
