(** Outcomes of Rust functions: a value, an error value, or a panic. *)
From Coq Require Import List NArith ZArith Bool.
Import ListNotations.

(** [Result<A, E>] of the Rust code (e.g. src/lib.rs:166), extended with an explicit panic. *)
Inductive outcome (E A : Type) : Type :=
| Ok (a : A)
| Err (e : E)
| Panic.
Arguments Ok {E A} a.
Arguments Err {E A} e.
Arguments Panic {E A}.

(** Sequencing: the [?] operator on a Result (e.g. src/gnss/gga.rs:125-135), propagating panics. *)
Definition bind {E A B} (m : outcome E A) (f : A -> outcome E B) : outcome E B :=
  match m with
  | Ok a => f a
  | Err e => Err e
  | Panic => Panic
  end.

(** Conversion of the error type, as done by [?] through [From] (src/error.rs:31-35). *)
Definition map_err {E F A} (g : E -> F) (m : outcome E A) : outcome F A :=
  match m with
  | Ok a => Ok a
  | Err e => Err (g e)
  | Panic => Panic
  end.

(** [Result::ok] (e.g. src/gnss/gga.rs:124): an error becomes [None]; a panic still propagates. *)
Definition ok_opt {E F A} (m : outcome E A) : outcome F (option A) :=
  match m with
  | Ok a => Ok (Some a)
  | Err _ => Ok None
  | Panic => Panic
  end.

(** [Result::ok] of a function that does not panic: src/gnss/vtg.rs:54, src/gnss/gll.rs:79, src/ais/vdm_t21.rs:305. *)
Definition ok_value {E A} (m : outcome E A) : option A :=
  match m with
  | Ok a => Some a
  | _ => None
  end.

Declare Scope outcome_scope.
Delimit Scope outcome_scope with outcome.
(** The [?] operator, e.g. src/gnss/gsv.rs:46. *)
Notation "'let!' x ':=' m 'in' k" := (bind m (fun x => k))
  (at level 200, x name, m at level 100, k at level 200, right associativity) : outcome_scope.
Open Scope outcome_scope.

(** Integer cast [as u8], e.g. src/lib.rs:179, src/ais/vdm_t1t2t3.rs:103. *)
Definition as_u8  (n : N) : N := (n mod 256)%N.
(** Integer cast [as u16], e.g. src/ais/vdm_t1t2t3.rs:106. *)
Definition as_u16 (n : N) : N := (n mod 65536)%N.
(** Integer cast [as u32], e.g. src/ais/vdm_t1t2t3.rs:33. *)
Definition as_u32 (n : N) : N := (n mod 4294967296)%N.
(** Integer cast [as i32], e.g. src/ais/vdm_t1t2t3.rs:72. *)
Definition as_i32 (z : Z) : Z :=
  let m := (z mod 4294967296)%Z in
  if (m <? 2147483648)%Z then m else (m - 4294967296)%Z.
