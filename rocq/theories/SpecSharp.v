(** Specification vocabulary for C101: the data of a GNSS sentence, and when two sentences have the same. *)
From Coq Require Import List NArith ZArith Bool String Reals.
From Verif Require Import Base Str F64 Chrono Types SpecText SpecResult SpecTime SpecReal SpecFields SpecWriting.
Import ListNotations.
Open Scope N_scope.

(** The real number that a decimal numeral stands for. *)
Definition stands_for (f : str) (v : R) : Prop :=
  exists neg n e, decimal f neg n e /\ v = (if neg : bool then - decimal_size n e else decimal_size n e)%R.

(** The same with a side: west is negative. *)
Definition sided (side f : str) (v : R) : Prop :=
  exists u, stands_for f u /\ (side = lit "E" /\ v = u \/ side = lit "W" /\ v = (- u)%R).

(** Degrees and minutes, negative in the hemisphere [minus]. *)
Definition angle_written (n : nat) (minus hemisphere f : str) (v : R) : Prop :=
  exists degrees minutes, degrees_minutes n f degrees minutes /\ written_angle degrees minutes (hemisphere = minus) v.

(** At most fifteen significant digits, and 0 or a size between 1e-300 and 1e300. *)
Definition fifteen_digits (f : str) : Prop :=
  exists v m k, stands_for f v /\ Rabs v = decimal_size m k /\ m < 10 ^ 15 /\
    (v = 0 \/ / 10 ^ 300 <= Rabs v <= 10 ^ 300)%R.

(** Less than sixty minutes, with at most nine decimals. *)
Definition nine_decimals (n : nat) (f : str) : Prop :=
  exists degrees minutes k, degrees_minutes n f degrees minutes /\ (minutes < 60)%R /\
    (minutes * 10 ^ 9 = IZR (Z.of_N k))%R.

(** A datum and the numbers of its fields. *)
Inductive datum :=
| Number (i : nat)
| SidedNumber (i side : nat)
| Angle (digits : nat) (minus : str) (i hemisphere : nat)
| Time (i : nat)
| DateTime (date time : nat)
| Count (i : nat)
| Counts (i n : nat)
| Quality (i : nat)
| Letter (letters : list str) (i : nat).

(** The data of each sentence, by NMEA 0183. *)
Definition gnss_data : list (str * list datum) :=
  let position i := [Angle 2 (lit "S") i (i + 1); Angle 3 (lit "W") (i + 2) (i + 3)] in
  [(lit "GGA", [Time 0] ++ position 1%nat ++
      [Quality 5; Count 6; Number 7; Number 8; Number 10; Number 12; Count 13]);
   (lit "RMC", [DateTime 8 0; Letter [lit "A"; lit "V"] 1] ++ position 2%nat ++ [Number 6; Number 7; SidedNumber 9 10]);
   (lit "GSA", [Letter [lit "M"; lit "A"] 0; Letter [lit "1"; lit "2"; lit "3"] 1; Counts 2 12;
      Number 14; Number 15; Number 16]);
   (lit "GLL", position 0%nat ++ [Time 4; Letter [lit "A"; lit "V"] 5; Letter [lit "A"; lit "D"; lit "E"; lit "N"] 6]);
   (lit "VTG", [Number 0; Number 2; Number 4; Number 6; Letter [lit "A"; lit "D"; lit "E"; lit "N"] 8])].

(** No more digits than a double can tell apart. *)
Definition sharp (fs : list str) (d : datum) : Prop :=
  match d with
  | Number i | SidedNumber i _ => fld fs i = [] \/ fifteen_digits (fld fs i)
  | Angle n _ i _ => fld fs i = [] \/ nine_decimals n (fld fs i)
  | _ => True
  end.

(** Missing in both or given in both, and then the same. *)
Definition both_or_none (f g : str) (means_f means_g : R -> Prop) : Prop :=
  (f = [] <-> g = []) /\ forall v w, means_f v -> means_g w -> v = w.

(** The datum is the same in both sentences. *)
Definition same_datum (fs gs : list str) (d : datum) : Prop :=
  match d with
  | Number i => both_or_none (fld fs i) (fld gs i) (stands_for (fld fs i)) (stands_for (fld gs i))
  | SidedNumber i j =>
    both_or_none (fld fs i) (fld gs i) (sided (fld fs j) (fld fs i)) (sided (fld gs j) (fld gs i))
  | Angle n minus i j =>
    both_or_none (fld fs i) (fld gs i) (angle_written n minus (fld fs j) (fld fs i)) (angle_written n minus (fld gs j) (fld gs i))
  | Time i => forall o, time_text (fld fs i) o <-> time_text (fld gs i) o
  | DateTime i j => forall d mo y h mi s,
    date_time_numbers (fld fs i) (fld fs j) d mo y h mi s <-> date_time_numbers (fld gs i) (fld gs j) d mo y h mi s
  | Count i => forall v, denotes (fld fs i) v <-> denotes (fld gs i) v
  | Counts i n => forall l, numbers_in (flds fs i n) l <-> numbers_in (flds gs i n) l
  | Quality i => forall q, 1 <= q <= 8 -> (denotes (fld fs i) q <-> denotes (fld gs i) q)
  | Letter letters i => forall l, In l letters -> (fld fs i = l <-> fld gs i = l)
  end.
