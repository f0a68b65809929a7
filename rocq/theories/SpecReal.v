(** Specification vocabulary for binary64 numbers as real numbers. *)
From Coq Require Import List NArith ZArith Bool String Reals Floats.SpecFloat.
From Verif Require Import Base Str F64 SpecText.
Import ListNotations.
Open Scope R_scope.

(** The real number a double stands for (0 for infinities and NaN). *)
Definition real_of (x : f64) : R :=
  match x with
  | S754_finite s m e => (if s then - IZR (Zpos m) else IZR (Zpos m)) * powerRZ 2 e
  | _ => 0
  end.

Definition finite (x : f64) : Prop :=
  match x with S754_zero _ | S754_finite _ _ _ => True | _ => False end.

(** Sign bit. *)
Definition negative (x : f64) : bool :=
  match x with S754_zero s | S754_infinity s | S754_finite s _ _ => s | S754_nan => false end.

(** [x] is written as IEEE 754 binary64 does: 53 bits, smallest exponent -1074, largest 971, leading
    bit set unless subnormal. Two such numbers with the same sign and real value are the same. *)
Definition proper (x : f64) : Prop :=
  match x with
  | S754_finite _ m e =>
    (Zpos m < 2 ^ 53 /\ -1074 <= e <= 971 /\ (e = -1074 \/ 2 ^ 52 <= Zpos m))%Z
  | _ => True
  end.

(** The real numbers that are doubles. *)
Definition double_value (r : R) : Prop :=
  exists m e : Z, r = IZR m * powerRZ 2 e /\ (Z.abs m < 2 ^ 53)%Z /\ (-1074 <= e <= 971)%Z.

(** Last bit of the significand is zero. *)
Definition even_significand (x : f64) : Prop :=
  match x with S754_finite _ m _ => Z.even (Zpos m) = true | _ => True end.

(** [x] is the double nearest to [v]; of two equally near ones the even one. *)
Definition nearest (v : R) (x : f64) : Prop :=
  finite x /\ proper x /\
  forall r, double_value r ->
    Rabs (real_of x - v) <= Rabs (r - v) /\
    (r <> real_of x -> Rabs (r - v) = Rabs (real_of x - v) -> even_significand x).

(** ** Numbers in text *)

Definition digit (c : N) : Prop := (48 <= c <= 57)%N.

(** An optional sign. *)
Definition sign_text (s : str) (neg : bool) : Prop :=
  (s = [] /\ neg = false) \/ (s = lit "+" /\ neg = false) \/ (s = lit "-" /\ neg = true).

(** An optional exponent: 'e' or 'E', an optional sign, digits. *)
Inductive exponent_text : str -> Z -> Prop :=
| no_exponent : exponent_text [] 0
| exponent mark sign neg ds :
    mark = lit "e" \/ mark = lit "E" -> sign_text sign neg -> is_numeral ds ->
    exponent_text (mark ++ sign ++ ds)
      (if neg : bool then - Z.of_N (numeral_value ds) else Z.of_N (numeral_value ds))%Z.

(** [s] is a decimal numeral: sign, digits with an optional dot, exponent. It stands for [n] times
    the [e]-th power of ten, negated if [neg]. *)
Inductive decimal (s : str) (neg : bool) (n : N) (e : Z) : Prop :=
| decimal_intro sign ip dot fp ex x :
    s = sign ++ ip ++ dot ++ fp ++ ex -> sign_text sign neg ->
    Forall digit ip -> Forall digit fp -> ip ++ fp <> [] ->
    dot = lit "." \/ (dot = [] /\ fp = []) ->
    exponent_text ex x ->
    n = numeral_value (ip ++ fp) -> e = (x - Z.of_nat (List.length fp))%Z ->
    decimal s neg n e.

(** The size of a decimal number; from [double_overflow] on the nearest double is infinity. *)
Definition decimal_size (n : N) (e : Z) : R := IZR (Z.of_N n) * powerRZ 10 e.
Definition double_overflow : R := powerRZ 2 1024 - powerRZ 2 970.

(** Equal up to the case of ASCII letters; [w] is in lower case. *)
Definition in_any_case (s w : str) : Prop :=
  Forall2 (fun c l => c = l \/ (97 <= l <= 122 /\ c = l - 32))%N s w.

(** The double that a text stands for: the nearest one to a decimal number, or a special value. *)
Inductive reads_double (s : str) : f64 -> Prop :=
| reads_decimal neg n e x :
    decimal s neg n e -> decimal_size n e < double_overflow ->
    nearest (if neg then - decimal_size n e else decimal_size n e) x -> negative x = neg ->
    reads_double s x
| reads_overflow neg n e :
    decimal s neg n e -> double_overflow <= decimal_size n e -> reads_double s (S754_infinity neg)
| reads_infinity sign neg word :
    s = sign ++ word -> sign_text sign neg -> in_any_case word (lit "inf") \/ in_any_case word (lit "infinity") ->
    reads_double s (S754_infinity neg)
| reads_nan sign neg word :
    s = sign ++ word -> sign_text sign neg -> in_any_case word (lit "nan") -> reads_double s S754_nan.
