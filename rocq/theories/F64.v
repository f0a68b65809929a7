(** IEEE 754 binary64 arithmetic (round to nearest, ties to even) on the axiom-free
    specification floats of the standard library, and [str::parse::<f64>]. *)
From Coq Require Import List NArith ZArith Bool String Floats.SpecFloat.
From Verif Require Import Str.
Import ListNotations.
Open Scope Z_scope.

(** [f64], e.g. src/ais/mod.rs:112. *)
Definition f64 := spec_float.

(** [raw as f64] for an integer, e.g. src/ais/vdm_t1t2t3.rs:65,74. *)
Definition f64_of_Z (z : Z) : f64 := binary_normalize 53 1024 z 0 false.

(** The operators [*], [/], [+] and unary [-], src/ais/vdm_t1t2t3.rs:41,65,74, src/util.rs:184-185. *)
Definition f64_mul : f64 -> f64 -> f64 := SFmul 53 1024.
(** [/], src/ais/vdm_t1t2t3.rs:74 *)
Definition f64_div : f64 -> f64 -> f64 := SFdiv 53 1024.
(** [+], src/util.rs:184-185 *)
Definition f64_add : f64 -> f64 -> f64 := SFadd 53 1024.
(** unary [-], src/ais/vdm_t1t2t3.rs:41 *)
Definition f64_neg : f64 -> f64 := SFopp.

(** The binary64 number nearest to (-1)^neg * n * 10^e: decimal literals
    (src/ais/vdm_t1t2t3.rs:41,65) and [parse::<f64>] (src/util.rs:127,182). *)
Definition f64_of_dec (neg : bool) (n : N) (e : Z) : f64 :=
  match n with
  | N0 => S754_zero neg
  | Npos p =>
    if 0 <=? e then binary_round 53 1024 neg (Z.to_pos (Z.pos p * 10 ^ e)) 0
    else SFdiv 53 1024 (S754_finite neg p 0) (S754_finite false (Z.to_pos (10 ^ (- e))) 0)
  end.

Open Scope N_scope.

(** Leading ASCII digits and the rest; part of [parse::<f64>], src/util.rs:127, and of the regular
    expressions src/util.rs:180,200. *)
Fixpoint span_digits (s : str) : str * str :=
  match s with
  | [] => ([], [])
  | c :: t => if is_digit c then let '(a, b) := span_digits t in (c :: a, b) else ([], s)
  end.

(** Value of a run of digits; part of [parse::<f64>], src/util.rs:127,182-183. *)
Definition digits_value (s : str) : N := fold_left (fun acc c => acc * 10 + (c - 48)) s 0.

(** ASCII lower case; part of [parse::<f64>], src/util.rs:127. *)
Definition to_lower (c : N) : N := if (65 <=? c) && (c <=? 90) then c + 32 else c.

(** Part of [parse::<f64>], src/util.rs:127. Optional exponent: [e|E], optional sign, at least one digit, end of text. *)
Definition parse_exponent (s : str) : option Z :=
  match s with
  | [] => Some 0%Z
  | c :: t =>
    if (c =? 101) || (c =? 69) then
      let '(neg, u) := match t with
                       | d :: t' => if d =? 45 then (true, t') else if d =? 43 then (false, t') else (false, t)
                       | [] => (false, t)
                       end in
      let '(ds, rest) := span_digits u in
      match ds, rest with
      | _ :: _, [] => Some (if neg : bool then (- Z.of_N (digits_value ds))%Z else Z.of_N (digits_value ds))
      | _, _ => None
      end
    else None
  end.

(** Part of [parse::<f64>], src/util.rs:127. Digits with an optional dot (at least one digit on some side), then an optional exponent. *)
Definition parse_decimal (neg : bool) (s : str) : option f64 :=
  let '(ip, r1) := span_digits s in
  let '(fp, r2) := match r1 with
                   | c :: t => if c =? 46 then span_digits t else ([], r1)
                   | [] => ([], r1)
                   end in
  match ip ++ fp with
  | [] => None
  | ds =>
    match parse_exponent r2 with
    | Some e => Some (f64_of_dec neg (digits_value ds) (e - Z.of_nat (List.length fp)))
    | None => None
    end
  end.

(** [s.parse::<f64>()], src/util.rs:127,182-183, src/gnss/rmc.rs:83: the grammar documented since Rust
    1.55, with correct rounding. Simplification: the exponent is taken at its value; the library stops
    counting at 65536, which could matter only in a text of tens of thousands of digits. *)
Definition parse_f64 (s : str) : option f64 :=
  let '(neg, body) := match s with
                      | c :: t => if c =? 45 then (true, t) else if c =? 43 then (false, t) else (false, s)
                      | [] => (false, s)
                      end in
  let low := map to_lower body in
  if str_eqb low (lit "inf") || str_eqb low (lit "infinity") then Some (S754_infinity neg)
  else if str_eqb low (lit "nan") then Some S754_nan
  else parse_decimal neg body.
