(** The meaning of regular expressions: vocabulary for C104. *)
From Coq Require Import List NArith Bool String.
From Verif Require Import Base Str Regex.
Import ListNotations.
Open Scope N_scope.

(** The text [x] belongs to the expression; [g] are the texts of its groups, in the order of their opening
    parentheses (with [+], of all rounds). *)
Inductive in_language : regex -> str -> list str -> Prop :=
| in_range lo hi c : lo <= c <= hi -> in_language (Range lo hi) [c] []
| in_nothing : in_language Nothing [] []
| in_then a b x y gx gy : in_language a x gx -> in_language b y gy -> in_language (Then a b) (x ++ y) (gx ++ gy)
| in_plus_one a x gx : in_language a x gx -> in_language (Plus a) x gx
| in_plus_more a x y gx gy : in_language a x gx -> in_language (Plus a) y gy -> in_language (Plus a) (x ++ y) (gx ++ gy)
| in_group a x gx : in_language a x gx -> in_language (Group a) x (x :: gx).

(** What is repeated is never empty. *)
Fixpoint productive (r : regex) : Prop :=
  match r with
  | Range _ _ | Nothing => True
  | Then a b => productive a /\ productive b
  | Plus a => productive a /\ forall g, ~ in_language a [] g
  | Group a => productive a
  end.
