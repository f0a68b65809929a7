(** C79: the texts of errors. *)
From stdpp Require Import gmap.
From Coq Require Import List NArith ZArith Bool String Lia Hexadecimal HexadecimalN.
From Verif Require Import Base Str F64 Chrono Types Util AisMod Vdm Gnss Parser ErrorText
  SpecText SpecResult SpecTime SpecAis SpecReal SpecState SpecFields SpecPanic SpecError StrFacts FrontFacts
  RunFacts PropFront PropError SpecErrorText.
Import ListNotations.
Open Scope N_scope.

(** ** Escaping loses nothing *)

Lemma hex_chars_end u v x y : hex_chars u ++ 125 :: x = hex_chars v ++ 125 :: y -> u = v /\ x = y.
Proof.
  revert v. induction u; intros v; destruct v; cbn [hex_chars app]; intros H; injection H as H; try discriminate;
    try (subst; now split); match goal with IH : forall v, _ -> _ |- _ => apply IH in H as [-> ->]; now split end.
Qed.

Lemma hex_lower_end a b x y : hex_lower a ++ 125 :: x = hex_lower b ++ 125 :: y -> a = b /\ x = y.
Proof.
  intros H. apply hex_chars_end in H as [E ->]. split; [|reflexivity].
  rewrite <- (HexadecimalN.Unsigned.of_to a), <- (HexadecimalN.Unsigned.of_to b). now rewrite E.
Qed.

(** Characters with an escape of two characters. *)
Definition shorts : list (N * N) := [(0, 48); (9, 116); (13, 114); (10, 110); (92, 92); (34, 34); (39, 39)].

Lemma escape_cases k c :
  escape_debug k c = [c] /\ c <> 92 /\ c <> 34 \/
  (exists x, In (c, x) shorts /\ escape_debug k c = [92; x]) \/
  escape_debug k c = [92; 117; 123] ++ hex_lower c ++ [125].
Proof.
  unfold escape_debug. cbv zeta. unfold shorts.
  destruct (N.eqb_spec c 0) as [-> |H0]; [destruct (short_nul k); [right; left; exists 48; split; [cbn; tauto|reflexivity]|right; right; reflexivity]|].
  destruct (N.eqb_spec c 9) as [-> |H1]; [right; left; exists 116; split; [cbn; tauto|reflexivity]|].
  destruct (N.eqb_spec c 13) as [-> |H2]; [right; left; exists 114; split; [cbn; tauto|reflexivity]|].
  destruct (N.eqb_spec c 10) as [-> |H3]; [right; left; exists 110; split; [cbn; tauto|reflexivity]|].
  destruct (N.eqb_spec c 92) as [-> |H4]; [right; left; exists 92; split; [cbn; tauto|reflexivity]|].
  destruct (N.eqb_spec c 34) as [-> |H5]; [right; left; exists 34; split; [cbn; tauto|reflexivity]|].
  destruct (N.eqb_spec c 39) as [-> |H6]; [destruct (quote_escaped k); [right; left; exists 39; split; [cbn; tauto|reflexivity]|left; auto]|].
  destruct (_ || _); [right; right; reflexivity|]. destruct (c <? 127); [left; auto|].
  destruct (unprintable k c); [right; right; reflexivity|left; auto].
Qed.

Lemma shorts_inj a b x : In (a, x) shorts -> In (b, x) shorts -> a = b /\ x <> 117.
Proof.
  unfold shorts. cbn [In]. intros H H'.
  repeat (destruct H as [H|H]; [injection H as <- <-; repeat (destruct H' as [H'|H']; [first [discriminate H'|injection H' as <-; split; [reflexivity|discriminate]]|]); destruct H'|]).
  destruct H.
Qed.

Lemma escape_inj k a b x y : escape_debug k a ++ x = escape_debug k b ++ y -> a = b /\ x = y.
Proof.
  destruct (escape_cases k a) as [(-> & A1 & A2)|[(u & A1 & ->)| ->]], (escape_cases k b) as [(-> & B1 & B2)|[(v & B1 & ->)| ->]];
    cbn [app]; intros H.
  - injection H as -> ->. now split.
  - exfalso. injection H as E _. congruence.
  - exfalso. injection H as E _. congruence.
  - exfalso. injection H as E _. congruence.
  - injection H as E ->. subst v. now destruct (shorts_inj a b u A1 B1) as [-> _].
  - exfalso. injection H as E _. now apply (proj2 (shorts_inj a a u A1 A1)).
  - exfalso. injection H as E _. congruence.
  - exfalso. injection H as E _. now apply (proj2 (shorts_inj b b v B1 B1)).
  - injection H as H. rewrite <- !app_assoc in H. cbn [app] in H. now apply hex_lower_end in H.
Qed.

Lemma escape_quote k a x y : escape_debug k a ++ x <> 34 :: y.
Proof.
  destruct (escape_cases k a) as [(-> & A1 & A2)|[(u & A1 & ->)| ->]]; cbn [app]; intros H; injection H as E _; congruence.
Qed.

Lemma escaped_inj k s t x y : flat_map (escape_debug k) s ++ 34 :: x = flat_map (escape_debug k) t ++ 34 :: y -> s = t /\ x = y.
Proof.
  revert t. induction s as [|a s IH]; intros [|b t]; cbn [flat_map app]; rewrite <- ?app_assoc.
  - intros H. injection H as ->. now split.
  - intros H. symmetry in H. now apply escape_quote in H.
  - intros H. now apply escape_quote in H.
  - intros H. apply escape_inj in H as [-> H]. apply IH in H as [-> ->]. now split.
Qed.

Lemma debug_inj k s t x y : debug_str k s ++ x = debug_str k t ++ y -> s = t /\ x = y.
Proof.
  unfold debug_str. cbn [app]. intros H. injection H as H. rewrite <- !app_assoc in H. cbn [app] in H. now apply escaped_inj in H.
Qed.

(** ** C79 *)

Lemma escape_ordinary k s : Forall ordinary s -> flat_map (escape_debug k) s = s.
Proof.
  induction 1 as [|c s (H1 & H2 & H3 & H4) _ IH]; [reflexivity|]. cbn [flat_map]. rewrite IH.
  assert (E : escape_debug k c = [c]); [|now rewrite E]. unfold escape_debug. cbv zeta.
  repeat match goal with |- context [?a =? ?b] => destruct (N.eqb_spec a b) as [X|_]; [lia|] end.
  destruct (N.ltb_spec c 32); [lia|]. cbn [orb]. destruct (N.ltb_spec c 127); [reflexivity|lia].
Qed.

Lemma checksum_ordinary body : Forall ordinary (nmea_checksum body).
Proof.
  rewrite <- hex2_checksum. pose proof (checksum_lt body) as L. unfold hex2.
  assert (D : forall n, n < 16 -> ordinary (hex_digit n)).
  { intros n Hn. unfold hex_digit, ordinary. destruct (N.ltb_spec n 10); lia. }
  constructor; [apply D; apply N.div_lt_upper_bound; lia|]. constructor; [|constructor]. apply D, N.mod_lt. lia.
Qed.

(** The text of a wrong checksum. *)
Theorem c79_checksum_text k ovf now s p body given :
  has_body s body given -> ~ checksum_ok body given -> Forall ordinary given ->
  exists e, parse_sentence ovf now s p = (Err e, p) /\
    ParseError_to_string k e = lit "Corrupted NMEA sentence: """ ++ nmea_checksum body ++ lit """ != """ ++ given ++ lit """".
Proof.
  intros Hb Hc Hg. eexists. split; [exact (parse_sentence_bad _ _ _ _ _ _ Hb Hc)|].
  cbn [ParseError_to_string]. unfold debug_str. rewrite (escape_ordinary k _ (checksum_ordinary body)), (escape_ordinary k _ Hg).
  change (lit "Corrupted NMEA sentence: """) with (lit "Corrupted NMEA sentence: " ++ [34]).
  change (lit """ != """) with ([34] ++ lit " != " ++ [34]). now rewrite <- !app_assoc.
Qed.
Print Assumptions c79_checksum_text.

(** First characters of the texts of the kinds of errors. *)
Definition first_char (e : ParseError) : Prop :=
  match e with
  | UnsupportedSentenceType s => hd 0 s = 85
  | InvalidSentence s => In (hd 0 s) [65; 70; 73]
  | CorruptedSentence _ _ => True
  end.

Lemma complaint_in cs t : complaint cs t -> In t (map snd cs).
Proof. induction cs as [|[b u] cs IH]; cbn [complaint map In snd]; [tauto|]. intros [[_ ->]|[_ H]]; auto. Qed.

Lemma error_first ovf now s p e : error_of ovf now s p e -> first_char e.
Proof.
  assert (L : forall cs t, complaint cs t -> Forall (fun u => In (hd 0 u) [65; 70; 73]) (map snd cs) -> In (hd 0 t) [65; 70; 73]).
  { intros cs t H F. rewrite Forall_forall in F. apply F. now apply complaint_in. }
  assert (A : In 65 [65; 70; 73] /\ In 70 [65; 70; 73] /\ In 73 [65; 70; 73]) by (cbn; tauto). destruct A as (A & F & I).
  intros [body given Hb Hc|body Hs|t fields f Hs Hne Hn Hf|t fields t' Hs Hne Hn Hd Hu
      |tt fields o text G T W|tt fields o text G T W|tt fields text G W|tt fields text G W|tt fields text G W
      |tt fff fields text V W|tt fff fields V W D Ln|tt fff payload e' C Lg M]; cbn [first_char]; try reflexivity; try exact Logic.I.
  - exact I.
  - apply (L _ _ W). repeat (constructor; [first [exact F|exact I]|]). constructor.
  - apply (L _ _ W). repeat (constructor; [first [exact F|exact I]|]). constructor.
  - apply (L _ _ W). repeat (constructor; [first [exact F|exact I]|]). constructor.
  - apply (L _ _ W). repeat (constructor; [first [exact F|exact I]|]). constructor.
  - apply (L _ _ W). repeat (constructor; [first [exact F|exact I]|]). constructor.
  - apply (L _ _ W). unfold vdm_checks. destruct fields as [|a [|b fields]]; repeat (constructor; [exact F|]); constructor.
  - destruct M as [X|n X Y|n X Y Z]; cbn [first_char]; [reflexivity|reflexivity|exact A].
Qed.

(** The text of an error tells which error it is: no two different errors of any two calls have the
    same text. *)
Theorem c79_text_identifies k ovf1 now1 s1 p1 e1 ovf2 now2 s2 p2 e2 :
  reachable ovf1 p1 -> clock now1 -> (0 <= dt_year now1)%Z -> fst (parse_sentence ovf1 now1 s1 p1) = Err e1 ->
  reachable ovf2 p2 -> clock now2 -> (0 <= dt_year now2)%Z -> fst (parse_sentence ovf2 now2 s2 p2) = Err e2 ->
  ParseError_to_string k e1 = ParseError_to_string k e2 -> e1 = e2.
Proof.
  intros R1 C1 Y1 H1 R2 C2 Y2 H2 E.
  apply c78_errors, error_first in H1; [|assumption..]. apply c78_errors, error_first in H2; [|assumption..].
  destruct e1 as [a|a b|a], e2 as [c|c d|c]; cbn [ParseError_to_string first_char] in *.
  - now rewrite E.
  - exfalso. rewrite E in H1. discriminate.
  - exfalso. rewrite E in H1. rewrite H1 in H2. cbn [In] in H2. lia.
  - exfalso. rewrite <- E in H2. discriminate.
  - apply app_inv_head in E. apply debug_inj in E as [-> E]. apply app_inv_head in E.
    apply (f_equal (fun l => l ++ [])) in E. apply debug_inj in E as [-> _]. reflexivity.
  - exfalso. rewrite <- E in H2. change (In 67 [65; 70; 73]) in H2. cbn [In] in H2. lia.
  - exfalso. rewrite E in H1. rewrite H2 in H1. cbn [In] in H1. lia.
  - exfalso. rewrite E in H1. change (In 67 [65; 70; 73]) in H1. cbn [In] in H1. lia.
  - now rewrite E.
Qed.
Print Assumptions c79_text_identifies.

Example c79_example :
  let k := {| unprintable := fun c => c =? 8203; short_nul := true; quote_escaped := false |} in
  let s := lit "$GPGLL,1*4" ++ [9; 34; 8203] in
  has_body s (lit "$GPGLL,1") (lit "4" ++ [9; 34; 8203]) /\ ~ checksum_ok (lit "$GPGLL,1") (lit "4" ++ [9; 34; 8203]) /\
  match fst (parse_sentence true ex_now s new_parser) with
  | Err e => ParseError_to_string k e = lit "Corrupted NMEA sentence: ""4D"" != ""4\t\""\u{200b}"""
  | _ => False
  end /\
  Forall ordinary (lit "4x") /\ has_body (lit "$GPGLL,1*4x") (lit "$GPGLL,1") (lit "4x") /\
  ~ checksum_ok (lit "$GPGLL,1") (lit "4x").
Proof.
  cbv zeta. split; [rewrite has_body_split; reflexivity|].
  assert (N : forall g, str_eqb g [] = false -> str_eqb g (nmea_checksum (lit "$GPGLL,1")) = false -> ~ checksum_ok (lit "$GPGLL,1") g).
  { intros g A B [X|X]; rewrite X in *; [discriminate A|]. now rewrite str_eqb_refl in B. }
  split; [apply N; reflexivity|]. split; [vm_compute; reflexivity|].
  split; [repeat constructor; try discriminate|]. split; [rewrite has_body_split; reflexivity|apply N; reflexivity].
Qed.

(** ** What is shown *)

Fixpoint hex_numbers (u : Hexadecimal.uint) : list N :=
  match u with
  | Nil => [] | D0 u => 0 :: hex_numbers u | D1 u => 1 :: hex_numbers u | D2 u => 2 :: hex_numbers u
  | D3 u => 3 :: hex_numbers u | D4 u => 4 :: hex_numbers u | D5 u => 5 :: hex_numbers u | D6 u => 6 :: hex_numbers u
  | D7 u => 7 :: hex_numbers u | D8 u => 8 :: hex_numbers u | D9 u => 9 :: hex_numbers u | Da u => 10 :: hex_numbers u
  | Db u => 11 :: hex_numbers u | Dc u => 12 :: hex_numbers u | Dd u => 13 :: hex_numbers u | De u => 14 :: hex_numbers u
  | Df u => 15 :: hex_numbers u
  end.

Lemma hex_numbers_acc u acc :
  fold_left (fun v d => 16 * v + d) (hex_numbers u) (Npos acc) = Npos (Pos.of_hex_uint_acc u acc).
Proof. revert acc. induction u; intros acc; [reflexivity|..]; cbn [hex_numbers fold_left Pos.of_hex_uint_acc]; rewrite <- IHu; f_equal; lia. Qed.

Lemma hex_numbers_value u : fold_left (fun v d => 16 * v + d) (hex_numbers u) 0 = N.of_hex_uint u.
Proof.
  unfold N.of_hex_uint. induction u; [reflexivity|exact IHu|..]; cbn [hex_numbers fold_left Pos.of_hex_uint]; rewrite <- hex_numbers_acc; reflexivity.
Qed.

Lemma nzhead_first u : hex_numbers (nzhead u) = [] \/ hd 0 (hex_numbers (nzhead u)) <> 0.
Proof. induction u; [now left|exact IHu|..]; right; cbn; lia. Qed.

Lemma hex_lower_hexadecimal n : hexadecimal (hex_lower n) n.
Proof.
  exists (hex_numbers (N.to_hex_uint n)). unfold hex_lower.
  assert (U : N.to_hex_uint n = unorm (N.to_hex_uint n)).
  { rewrite <- HexadecimalN.Unsigned.to_of. now rewrite HexadecimalN.Unsigned.of_to. }
  assert (V : fold_left (fun v d => 16 * v + d) (hex_numbers (N.to_hex_uint n)) 0 = n)
    by (rewrite hex_numbers_value; apply HexadecimalN.Unsigned.of_to).
  split; [|split; [|split; [exact V|]]].
  - generalize (N.to_hex_uint n). intros u. induction u; [reflexivity|..]; cbn [hex_chars hex_numbers map]; now rewrite IHu.
  - generalize (N.to_hex_uint n). intros u. induction u; cbn [hex_numbers]; constructor; assumption || lia.
  - destruct (N.eq_dec n 0) as [-> |Z]; [split; [discriminate|split; [lia|reflexivity]]|].
    assert (W : hex_numbers (N.to_hex_uint n) <> []) by (intros E; rewrite E in V; cbn in V; lia).
    split; [exact W|split; [|lia]]. intros _. rewrite U in W, V |- *. unfold unorm in *.
    destruct (nzhead_first (N.to_hex_uint n)) as [E|E].
    + destruct (nzhead (N.to_hex_uint n)); try discriminate E. cbn in V. lia.
    + destruct (nzhead (N.to_hex_uint n)); exact E.
Qed.

Lemma escape_shown k c : shown k c (escape_debug k c).
Proof.
  unfold escape_debug. cbv zeta. pose proof (hex_lower_hexadecimal c) as H.
  destruct (N.eqb_spec c 0) as [-> |H0]; [destruct (short_nul k) eqn:E; [now constructor|apply shown_number; auto]|].
  destruct (N.eqb_spec c 9) as [-> |H1]; [constructor|]. destruct (N.eqb_spec c 13) as [-> |H2]; [constructor|].
  destruct (N.eqb_spec c 10) as [-> |H3]; [constructor|]. destruct (N.eqb_spec c 92) as [-> |H4]; [constructor|].
  destruct (N.eqb_spec c 34) as [-> |H5]; [apply (shown_double k)|].
  destruct (N.eqb_spec c 39) as [-> |H6].
  { destruct (quote_escaped k) eqn:E; [now constructor|]. apply shown_plain. left. split; [lia|]. split; [|auto].
    intros X. repeat (destruct X as [X|X]; [discriminate X|]). exact X. }
  destruct (N.ltb_spec c 32) as [L|L]; cbn [orb].
  { apply shown_number; [|exact H]. right. left. split; [exact L|]. intros X.
    repeat (destruct X as [X|X]; [now rewrite X in *|]). exact X. }
  destruct (N.eqb_spec c 127) as [-> |H7]; [apply shown_number; auto|].
  destruct (N.ltb_spec c 127) as [L'|L'].
  { apply shown_plain. left. split; [lia|]. split; [|congruence]. intros X.
    repeat (destruct X as [X|X]; [now rewrite X in *|]). exact X. }
  destruct (unprintable k c) eqn:E; [apply shown_number; [|exact H]; right; right; right|apply shown_plain; right]; split; auto; lia.
Qed.

Lemma escaped_shown k s : shown_text k s (flat_map (escape_debug k) s).
Proof. induction s as [|c s IH]; cbn [flat_map]; constructor; [apply escape_shown|exact IH]. Qed.

(** The text of a wrong checksum of any characters. *)
Theorem c79_any_checksum_text k ovf now s p body given :
  has_body s body given -> ~ checksum_ok body given ->
  exists e t, parse_sentence ovf now s p = (Err e, p) /\ shown_text k given t /\
    ParseError_to_string k e = lit "Corrupted NMEA sentence: """ ++ nmea_checksum body ++ lit """ != """ ++ t ++ lit """".
Proof.
  intros Hb Hc. do 2 eexists. split; [exact (parse_sentence_bad _ _ _ _ _ _ Hb Hc)|]. split; [apply escaped_shown|].
  cbn [ParseError_to_string]. unfold debug_str. rewrite (escape_ordinary k _ (checksum_ordinary body)).
  change (lit "Corrupted NMEA sentence: """) with (lit "Corrupted NMEA sentence: " ++ [34]).
  change (lit """ != """) with ([34] ++ lit " != " ++ [34]). now rewrite <- !app_assoc.
Qed.
Print Assumptions c79_any_checksum_text.

Lemma hexadecimal_unique t u n : hexadecimal t n -> hexadecimal u n -> t = u.
Proof.
  intros (d & -> & Fd & Vd & Nd & Hd & Zd) (e & -> & Fe & Ve & Ne & He & Ze). f_equal.
  destruct (N.eq_dec n 0) as [-> |Z]; [now rewrite Zd, Ze|].
  assert (R : forall l, List.Forall (fun d => d < 16) l -> forall b v w, List.Forall (fun d => d < 16) b ->
    0 < v -> 0 < w -> fold_left (fun v d => 16 * v + d) l v = fold_left (fun v d => 16 * v + d) b w ->
    List.length l = List.length b -> v = w /\ l = b).
  { intros l F. induction F as [|x l Lx F IH]; intros [|y b] v w G Pv Pw E L; try discriminate L; cbn [fold_left] in E; [auto|].
    inversion G; subst. apply IH in E as [E ->]; [|assumption|lia|lia|cbn [List.length] in L; lia]. assert (x = y) by lia. subst. split; [lia|reflexivity]. }
  assert (B : forall l, List.Forall (fun d => d < 16) l -> forall v, 0 < v ->
    v * 16 ^ N.of_nat (List.length l) <= fold_left (fun v d => 16 * v + d) l v < (v + 1) * 16 ^ N.of_nat (List.length l)).
  { intros l F. induction F as [|x l Lx F IH]; intros v Pv; cbn [fold_left List.length]; [rewrite N.pow_0_r; lia|].
    rewrite Nat2N.inj_succ, N.pow_succ_r'. specialize (IH (16 * v + x) ltac:(lia)). set (q := 16 ^ _) in *.
    set (F1 := fold_left _ _ _) in *. split; nia. }
  destruct d as [|x d], e as [|y e]; try easy. cbn [hd] in *. inversion Fd; inversion Fe; subst. cbn [fold_left] in *.
  change (16 * 0) with 0 in *. rewrite !N.add_0_l in *. specialize (Hd Z). specialize (He Z).
  assert (L : List.length d = List.length e).
  { pose proof (B d ltac:(assumption) x ltac:(lia)) as B1. pose proof (B e ltac:(assumption) y ltac:(lia)) as B2.
    rewrite Ve in B2. destruct (Nat.lt_trichotomy (List.length d) (List.length e)) as [T|[T|T]]; [exfalso|exact T|exfalso].
    - assert (16 ^ N.succ (N.of_nat (List.length d)) <= 16 ^ N.of_nat (List.length e)) by (apply N.pow_le_mono_r; lia).
      rewrite N.pow_succ_r' in H. nia.
    - assert (16 ^ N.succ (N.of_nat (List.length e)) <= 16 ^ N.of_nat (List.length d)) by (apply N.pow_le_mono_r; lia).
      rewrite N.pow_succ_r' in H. nia. }
  destruct (R d ltac:(assumption) e x y ltac:(assumption) ltac:(lia) ltac:(lia) ltac:(congruence) L) as [-> ->]. reflexivity.
Qed.

Lemma shown_unique k c t u : shown k c t -> shown k c u -> t = u.
Proof.
  intros [A| | | | |A| |c1 t1 A H1|c1 A] B; inversion B as [B1| | | | |B1| |c2 t2 B1 H2|c2 B1]; subst; try reflexivity;
    try (now rewrite (hexadecimal_unique _ _ _ H1 H2)); exfalso; cbn [In] in *;
    repeat match goal with H : _ \/ _ |- _ => destruct H | H : _ /\ _ |- _ => destruct H end;
    subst; try lia; try congruence; try tauto;
    match goal with H : 39 = 39 -> _ |- _ => specialize (H eq_refl); congruence end.
Qed.

(** The text is determined. *)
Theorem c79_shown_unique k s t u : shown_text k s t -> shown_text k s u -> t = u.
Proof.
  intros H. revert u. induction H as [|c s t u Hc Hs IH]; intros v Hv; inversion Hv; subst; [reflexivity|].
  f_equal; [eapply shown_unique; eassumption|now apply IH].
Qed.
Print Assumptions c79_shown_unique.

Example c79_shown_example :
  let k := {| unprintable := fun c => c =? 8203; short_nul := true; quote_escaped := false |} in
  shown_text k (lit "4" ++ [9; 34; 8203; 246; 31]) (lit "4\t\""\u{200b}" ++ [246] ++ lit "\u{1f}") /\
  has_body (lit "$GPGLL,1*4" ++ [9; 34; 8203; 246; 31]) (lit "$GPGLL,1") (lit "4" ++ [9; 34; 8203; 246; 31]) /\
  ~ checksum_ok (lit "$GPGLL,1") (lit "4" ++ [9; 34; 8203; 246; 31]).
Proof.
  cbv zeta. split; [|split; [rewrite has_body_split; reflexivity|intros [X|X]; discriminate X]].
  apply (shown_cons _ 52 _ [52]); [apply shown_plain; left; cbn; lia|]. apply (shown_cons _ 9 _ (lit "\t")); [constructor|].
  apply (shown_cons _ 34 _ (lit "\""")); [constructor|].
  apply (shown_cons _ 8203 _ (lit "\u{200b}")).
  { apply (shown_number _ 8203 (lit "200b")); [right; right; right; split; reflexivity|]. exists [2; 0; 0; 11].
    split; [reflexivity|]. split; [repeat constructor|]. split; [reflexivity|]. split; [discriminate|]. split; [intros _; discriminate|discriminate]. }
  apply (shown_cons _ 246 _ [246]); [apply shown_plain; right; split; reflexivity|].
  change (lit "\u{1f}") with (lit "\u{1f}" ++ []). apply shown_cons; [|constructor].
  apply (shown_number _ 31 (lit "1f")); [right; left; split; [reflexivity|cbn; lia]|]. exists [1; 15].
  split; [reflexivity|]. split; [repeat constructor|]. split; [reflexivity|]. split; [discriminate|]. split; [intros _; discriminate|discriminate].
Qed.
