(** C79: how a text is shown between quotation marks. The style, of which only the three fields are used, stands for
    the version of the standard library. *)
From Coq Require Import List NArith Bool String.
From Verif Require Import Base Str ErrorText SpecText.
Import ListNotations.
Open Scope N_scope.

(** [t] is the number [n] in lower case hexadecimal digits without leading zeros. *)
Definition hexadecimal (t : str) (n : N) : Prop := exists ds,
  t = map (fun d => nth (N.to_nat d) (lit "0123456789abcdef") 0) ds /\ Forall (fun d => d < 16) ds /\
  fold_left (fun v d => 16 * v + d) ds 0 = n /\ ds <> [] /\ (n <> 0 -> hd 0 ds <> 0) /\ (n = 0 -> ds = [0]).

(** [t] shows the character [c]. *)
Inductive shown (k : debug_style) : N -> str -> Prop :=
| shown_nul : short_nul k = true -> shown k 0 (lit "\0")
| shown_tab : shown k 9 (lit "\t")
| shown_feed : shown k 10 (lit "\n")
| shown_return : shown k 13 (lit "\r")
| shown_double : shown k 34 (lit "\""")
| shown_single : quote_escaped k = true -> shown k 39 (lit "\'")
| shown_backslash : shown k 92 (lit "\\")
| shown_number c t :
    c = 0 /\ short_nul k = false \/ c < 32 /\ ~ In c [0; 9; 10; 13] \/ c = 127 \/ 127 < c /\ unprintable k c = true ->
    hexadecimal t c -> shown k c (lit "\u{" ++ t ++ lit "}")
| shown_plain c :
    32 <= c < 127 /\ ~ In c [34; 92] /\ (c = 39 -> quote_escaped k = false) \/ 127 < c /\ unprintable k c = false ->
    shown k c [c].

(** [t] shows the text [s]. *)
Inductive shown_text (k : debug_style) : str -> str -> Prop :=
| shown_nil : shown_text k [] []
| shown_cons c s t u : shown k c t -> shown_text k s u -> shown_text k (c :: s) (t ++ u).
