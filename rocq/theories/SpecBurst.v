(** Specification vocabulary for wrong bits on the line between a receiver and the program. *)
From Coq Require Import List NArith Arith Bool.
From Verif Require Import Base Str.
Import ListNotations.
Open Scope N_scope.

(** The bits of a text as a serial line carries them: eight per character, the lowest first (start and stop bits left out). *)
Definition line_bits (s : str) : list bool := flat_map (fun c => map (fun j => N.testbit c (N.of_nat j)) (seq 0 8)) s.

Definition differing (a b : list bool) : nat := List.length (filter (fun x => xorb (fst x) (snd x)) (combine a b)).

(** How many bits of [r] were received wrong as [r'], in all and in the bit [j] of the characters. *)
Definition wrong_bits (r r' : str) : nat := differing (line_bits r) (line_bits r').
Definition wrong_bits_in (j : nat) (r r' : str) : nat :=
  differing (map (fun c => N.testbit c (N.of_nat j)) r) (map (fun c => N.testbit c (N.of_nat j)) r').

(** All wrong bits lie among [n] consecutive bits of the line. *)
Definition burst (n : nat) (r r' : str) : Prop :=
  exists k, forall q, (q < k \/ k + n <= q)%nat -> nth q (line_bits r) false = nth q (line_bits r') false.
