(** Specification vocabulary for C83: ends of lines and fields that are not read. *)
From Coq Require Import List NArith ZArith Bool String.
From Verif Require Import Base Str SpecText.
Import ListNotations.
Open Scope N_scope.

(** What may end a line: carriage return and line feed, or one of them. *)
Definition line_end (e : str) : Prop := In e [[13; 10]; [10]; [13]].

(** The fields of a sentence to which a text was appended. *)
Fixpoint append_last (fields : list str) (e : str) : list str :=
  match fields with
  | [] => []
  | [f] => [f ++ e]
  | f :: fields' => f :: append_last fields' e
  end.

(** The fields (0 is the first after the type) that carry data. Not listed: units of measurement and
    whatever follows the last known field. *)
Definition data_fields : list (str * list nat) :=
  [(lit "GGA", [0; 1; 2; 3; 4; 5; 6; 7; 8; 10; 12; 13]); (lit "RMC", seq 0 11); (lit "GSA", seq 0 17);
   (lit "GLL", seq 0 7); (lit "VTG", [0; 2; 4; 6; 8])]%nat.

(** Fields that hold a number (possibly empty), and sentence types that reject malformed ones. *)
Definition number_fields : list (str * list nat) :=
  [(lit "GGA", [5; 6; 7; 8; 10; 12; 13]); (lit "RMC", [6; 7; 9]); (lit "GSA", seq 2 15)]%nat.
