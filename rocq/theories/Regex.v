(** Regular expressions as far as src/util.rs:180 and 200 use them: the syntax of the pattern texts and the
    captures of the leftmost match. Of the possible ways to match, the one that a backtracking search finds first
    counts ([+] takes as much as it can), as the documentation of the crate regex says. Patterns outside this
    syntax are refused here. *)
From Coq Require Import List NArith Bool String.
From Verif Require Import Base Str.
Import ListNotations.
Open Scope N_scope.

(** What occurs in the patterns of src/util.rs:180 and 200. *)
Inductive regex :=
| Range (lo hi : N)                (** one character, e.g. [0-9] *)
| Nothing                          (** the empty text *)
| Then (a b : regex)
| Plus (a : regex)                 (** once or more, greedy *)
| Group (a : regex).               (** a capturing group *)

(** One way to match a prefix: the prefix, the captures of the groups in order, the rest. *)
Definition way : Type := (str * list str * str).

(** [n] rounds at most of [step], the longest run first. *)
Fixpoint rounds (step : str -> list way) (n : nat) (s : str) : list way :=
  match n with
  | O => []
  | S n' =>
    flat_map (fun '(x, gx, r) =>
      map (fun '(y, gy, r') => (x ++ y, gx ++ gy, r')) (rounds step n' r) ++ [(x, gx, r)]) (step s)
  end.

(** All ways to match a prefix of the text, in the order of a backtracking search. Rounds of [+] are bounded by the
    length of the text, since each round takes a character in the patterns used. *)
Fixpoint ways (r : regex) (s : str) : list way :=
  match r with
  | Range lo hi =>
    match s with
    | c :: t => if (lo <=? c) && (c <=? hi) then [([c], [], t)] else []
    | [] => []
    end
  | Nothing => [([], [], s)]
  | Then a b =>
    flat_map (fun '(x, gx, t) => map (fun '(y, gy, u) => (x ++ y, gx ++ gy, u)) (ways b t)) (ways a s)
  | Plus a => rounds (ways a) (List.length s) s
  | Group a => map (fun '(x, gx, t) => (x, x :: gx, t)) (ways a s)
  end.

(** [Regex::captures] for a pattern that starts with '^' (only there a match may start), src/util.rs:181 and 201:
    groups 1, 2, ... of the first way. *)
Definition captures (r : regex) (s : str) : option (list str) :=
  match ways r s with (_, g, _) :: _ => Some g | [] => None end.

(** One piece of a pattern: a group, a range, an escaped or an ordinary character; then perhaps '+'. [fuel] bounds
    the depth of groups and the number of pieces. *)
Fixpoint pieces (fuel : nat) (s : str) : option (regex * str) :=
  let plus r t := match t with 43 :: t' => (Plus r, t') | _ => (r, t) end in
  let go fuel' r t :=
    let '(r, t) := plus r t in
    match pieces fuel' t with Some (rest, u) => Some (Then r rest, u) | None => None end in
  match fuel with
  | O => None
  | S fuel' =>
    match s with
    | 40 :: t =>                                     (* ( *)
      match pieces fuel' t with
      | Some (r, 41 :: u) => go fuel' (Group r) u    (* ) *)
      | _ => None
      end
    | 91 :: lo :: 45 :: hi :: 93 :: t => go fuel' (Range lo hi) t      (* [lo-hi] *)
    | 92 :: c :: t => if (c =? 46) then go fuel' (Range c c) t else None   (* \. *)
    | 41 :: _ | [] => Some (Nothing, s)
    | _ => None
    end
  end.

(** [Regex::new] for the patterns of src/util.rs:180 and 200; [None] is an error, on which the code panics. *)
Definition compile (pattern : str) : option regex :=
  match pattern with
  | 94 :: t =>                                       (* ^ *)
    match pieces (List.length pattern) t with
    | Some (r, []) => Some r
    | _ => None
    end
  | _ => None
  end.

(** src/util.rs:180 *)
Definition latitude_pattern : str := lit "^([0-9][0-9])([0-9][0-9]\.[0-9]+)".
(** src/util.rs:200 *)
Definition longitude_pattern : str := lit "^([0-9][0-9][0-9])([0-9][0-9]\.[0-9]+)".

