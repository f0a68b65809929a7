(** Specification vocabulary for damaged transmissions: sentences with their checksum, lost ends, lines
    that ran together. *)
From Coq Require Import List NArith ZArith Bool String.
From Verif Require Import Base Str SpecText.
Import ListNotations.
Open Scope N_scope.

(** [body] with its checksum, as it is sent. *)
Definition sent (body : str) : str := body ++ lit "*" ++ nmea_checksum body.

(** What stands between two sentences that ran together: nothing or an end of line. *)
Definition separators : list str := [[]; [10]; [13]; [13; 10]].

(** Checksums of a first sentence for which the checksum of the run-together text is that of the second
    one, given the text between them and the first character of the second. *)
Definition unnoticed (between : str) (start : N) : list str :=
  match between, start with
  | [], 36 => [lit "7B"; lit "7D"; lit "7F"]
  | [13; 10], 33 => [lit "7A"; lit "7E"]
  | _, _ => []
  end.
