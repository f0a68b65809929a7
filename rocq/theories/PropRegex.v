(** C104: coordinates are read by the regular expressions in the source. *)
From stdpp Require Import gmap.
From Coq Require Import List NArith ZArith Bool String Lia Reals Lra SpecFloat.
From Verif Require Import Base Str F64 Chrono Types Util AisMod Vdm Gnss Parser Regex
  SpecText SpecResult SpecTime SpecReal SpecFields SpecRegex
  StrFacts FrontFacts CallFacts ResultFacts FieldFacts PropFront PropFields.
Import ListNotations.
Open Scope N_scope.

(** ** The search *)

Lemma rounds_sound step (P : str -> list str -> Prop) (Q : str -> list str -> Prop) n :
  (forall s x g t, In (x, g, t) (step s) -> s = x ++ t /\ P x g) ->
  (forall x g, P x g -> Q x g) -> (forall x y g h, P x g -> Q y h -> Q (x ++ y) (g ++ h)) ->
  forall s x g t, In (x, g, t) (rounds step n s) -> s = x ++ t /\ Q x g.
Proof.
  intros Hs H1 H2. induction n as [|n IH]; intros s x g t I; [destruct I|]. cbn [rounds] in I.
  apply in_flat_map in I as ([[x1 g1] t1] & I1 & I). apply Hs in I1 as [-> P1]. apply in_app_iff in I as [I|[I|[]]].
  - apply in_map_iff in I as ([[y h] u] & E & I). injection E as <- <- <-. apply IH in I as [-> Q1].
    split; [now rewrite app_assoc|auto].
  - injection I as <- <- <-. auto.
Qed.

Lemma ways_sound r : forall s x g t, In (x, g, t) (ways r s) -> s = x ++ t /\ in_language r x g.
Proof.
  induction r as [lo hi| |a IHa b IHb|a IHa|a IHa]; intros s x g t I; cbn [ways] in I.
  - destruct s as [|c s]; [destruct I|]. destruct ((lo <=? c) && (c <=? hi)) eqn:E; [|destruct I].
    destruct I as [I|[]]. injection I as <- <- <-. apply andb_true_iff in E as [E1 E2]. apply N.leb_le in E1, E2.
    split; [reflexivity|]. now constructor.
  - destruct I as [I|[]]. injection I as <- <- <-. split; [reflexivity|constructor].
  - apply in_flat_map in I as ([[x1 g1] t1] & I1 & I). apply IHa in I1 as [-> L1].
    apply in_map_iff in I as ([[y h] u] & E & I). injection E as <- <- <-. apply IHb in I as [-> L2].
    split; [now rewrite app_assoc|now constructor].
  - revert I. apply (rounds_sound _ (in_language a) (in_language (Plus a))); auto; [apply in_plus_one|apply in_plus_more].
  - apply in_map_iff in I as ([[y h] u] & E & I). injection E as <- <- <-. apply IHa in I as [-> L]. split; [reflexivity|now constructor].
Qed.

Lemma ways_complete r x g : in_language r x g -> productive r -> forall t, In (x, g, t) (ways r (x ++ t)).
Proof.
  induction 1 as [lo hi c H| |a b x y gx gy H1 IH1 H2 IH2|a x gx H IH|a x y gx gy H1 IH1 H2 IH2|a x gx H IH]; intros P t; cbn [ways productive] in *.
  - cbn [app]. destruct H as [L1 L2]. apply N.leb_le in L1, L2. rewrite L1, L2. now left.
  - now left.
  - destruct P as [Pa Pb]. rewrite <- app_assoc. apply in_flat_map. exists (x, gx, y ++ t). split; [auto|].
    apply in_map_iff. exists (y, gy, t). auto.
  - destruct P as [Pa Pn]. specialize (IH Pa t). destruct x as [|c x]; [now apply Pn in H|]. cbn [app List.length rounds] in *.
    apply in_flat_map. exists (c :: x, gx, t). split; [exact IH|]. apply in_app_iff. right. now left.
  - destruct P as [Pa Pn]. specialize (IH1 Pa (y ++ t)). specialize (IH2 (conj Pa Pn) t). rewrite <- app_assoc.
    destruct x as [|c x]; [now apply Pn in H1|].
    assert (M : forall n m s w, (n <= m)%nat -> In w (rounds (ways a) n s) -> In w (rounds (ways a) m s)).
    { clear. induction n as [|n IH]; intros m s w L I; [destruct I|]. destruct m as [|m]; [lia|]. cbn [rounds] in *.
      apply in_flat_map in I as ([[x g] r] & I1 & I). apply in_flat_map. exists (x, g, r). split; [exact I1|].
      apply in_app_iff in I as [I|I]; apply in_app_iff; [left|now right].
      apply in_map_iff in I as (v & E & I). apply in_map_iff. exists v. split; [exact E|]. apply IH; [lia|exact I]. }
    cbn [app List.length rounds] in *. apply in_flat_map. exists (c :: x, gx, y ++ t). split; [exact IH1|].
    apply in_app_iff. left. apply in_map_iff. exists (y, gy, t). split; [reflexivity|].
    eapply M; [|exact IH2]. rewrite !app_length. lia.
  - apply in_map_iff. exists (x, gx, t). auto.
Qed.

(** The search finds a match at the start exactly if there is one, and reports the groups of one. *)
Theorem c104_search r s : productive r ->
  (forall g, captures r s = Some g -> exists x t, s = x ++ t /\ in_language r x g) /\
  (captures r s = None <-> forall x t g, s = x ++ t -> ~ in_language r x g).
Proof.
  intros P. unfold captures. destruct (ways r s) as [|[[x g] t] l] eqn:E.
  - split; [discriminate|]. split; [|reflexivity]. intros _ x t g -> L. pose proof (ways_complete _ _ _ L P t) as I.
    rewrite E in I. destruct I.
  - destruct (ways_sound r s x g t ltac:(rewrite E; now left)) as [-> L]. split.
    + intros g' [= <-]. eauto.
    + split; [discriminate|]. intros H. exfalso. exact (H _ _ _ eq_refl L).
Qed.
Print Assumptions c104_search.

(** ** The patterns *)

Lemma hd_map {A B} (f : A -> B) l : hd_error (map f l) = option_map f (hd_error l).
Proof. now destruct l. Qed.

Lemma captures_hd r s : captures r s = option_map (fun '(_, g, _) => g) (hd_error (ways r s)).
Proof. unfold captures. now destruct (ways r s) as [|[[x g] t] l]. Qed.

Lemma hd_range_then lo hi b s : hd_error (ways (Then (Range lo hi) b) s) =
  match s with
  | c :: t => if (lo <=? c) && (c <=? hi) then option_map (fun '(y, g, u) => (c :: y, g, u)) (hd_error (ways b t)) else None
  | [] => None
  end.
Proof.
  cbn [ways]. destruct s as [|c s]; [reflexivity|]. destruct (_ && _); [|reflexivity]. cbn [flat_map]. rewrite app_nil_r.
  apply hd_map.
Qed.

Lemma hd_run n s : (List.length s <= n)%nat ->
  hd_error (rounds (ways (Range 48 57)) n s) =
  match span_digits s with ([], _) => None | (f, t) => Some (f, [], t) end.
Proof.
  revert s. induction n as [|n IH]; intros s L.
  { destruct s; [reflexivity|]. cbn in L. lia. }
  destruct s as [|c s]; [reflexivity|]. cbn [List.length] in L. cbn [rounds].
  change (ways (Range 48 57) (c :: s)) with (if (48 <=? c) && (c <=? 57) then [([c], @nil str, s)] else []).
  cbn [span_digits]. change (is_digit c) with ((48 <=? c) && (c <=? 57)).
  destruct (_ && _) eqn:D; [|reflexivity]. cbn [flat_map]. rewrite app_nil_r.
  specialize (IH s ltac:(lia)).
  destruct (rounds (ways (Range 48 57)) n s) as [|[[y h] u] l]; destruct (span_digits s) as [[|d f] t] eqn:E; cbn in IH; try discriminate.
  - assert (X : s = t); [|subst; reflexivity].
    destruct s as [|c' s]; cbn in E; [now injection E|]. destruct (is_digit c'); [destruct (span_digits s); discriminate|now injection E].
  - injection IH as -> -> ->. reflexivity.
Qed.

(** Two minute digits, a dot, a run of digits. *)
Definition minutes_regex : regex :=
  Then (Range 48 57) (Then (Range 48 57) (Then (Range 46 46) (Then (Plus (Range 48 57)) Nothing))).

Lemma hd_then_nothing a s : hd_error (ways (Then a Nothing) s) = hd_error (ways a s).
Proof.
  cbn [ways]. destruct (ways a s) as [|[[x g] t] l]; [reflexivity|]. cbn [flat_map map app hd_error]. now rewrite !app_nil_r.
Qed.

Lemma hd_group a s : hd_error (ways (Group a) s) = option_map (fun '(x, gx, t) => (x, x :: gx, t)) (hd_error (ways a s)).
Proof. apply hd_map. Qed.

Lemma hd_minutes s : hd_error (ways (Then (Group minutes_regex) Nothing) s) =
  match take_digits 2 s with
  | Some (mm, c :: r) =>
    if c =? 46 then
      match span_digits r with
      | ([], _) => None
      | (f, t) => Some (mm ++ [46] ++ f, [mm ++ [46] ++ f], t)
      end
    else None
  | _ => None
  end.
Proof.
  rewrite hd_then_nothing, hd_group. unfold minutes_regex. rewrite hd_range_then.
  destruct s as [|c1 s]; [reflexivity|]. cbn [take_digits]. change (is_digit c1) with ((48 <=? c1) && (c1 <=? 57)).
  destruct (_ && _); [|reflexivity]. rewrite hd_range_then.
  destruct s as [|c2 s]; [reflexivity|]. change (is_digit c2) with ((48 <=? c2) && (c2 <=? 57)).
  destruct (_ && _); [|reflexivity]. rewrite hd_range_then.
  destruct s as [|c3 s]; [reflexivity|].
  replace ((46 <=? c3) && (c3 <=? 46)) with (c3 =? 46).
  2:{ destruct (N.eqb_spec c3 46) as [-> |H]; [reflexivity|]. symmetry. apply andb_false_iff. rewrite !N.leb_gt. lia. }
  destruct (N.eqb_spec c3 46) as [-> |H]; [|reflexivity]. rewrite hd_then_nothing. change (ways (Plus (Range 48 57)) s) with (rounds (ways (Range 48 57)) (List.length s) s).
  rewrite hd_run by lia. destruct (span_digits s) as [[|d f] t]; reflexivity.
Qed.

(** [n] digits. *)
Fixpoint digits_regex (n : nat) : regex :=
  match n with O => Nothing | S n' => Then (Range 48 57) (digits_regex n') end.

Lemma ways_digits n s : ways (digits_regex n) s = match take_digits n s with Some (d, t) => [(d, [], t)] | None => [] end.
Proof.
  revert s. induction n as [|n IH]; intros s; [reflexivity|]. cbn [digits_regex take_digits]. cbn [ways].
  destruct s as [|c s]; [reflexivity|]. change (is_digit c) with ((48 <=? c) && (c <=? 57)).
  destruct (_ && _); [|reflexivity]. cbn [flat_map]. rewrite app_nil_r, IH. now destruct (take_digits n s) as [[d t]|].
Qed.

(** The hand-written matcher of the model gives the captures of the regular expression. *)
Lemma captures_degrees n s : captures (Then (Group (digits_regex n)) (Then (Group minutes_regex) Nothing)) s =
  option_map (fun '(a, b) => [a; b]) (match_degrees n s).
Proof.
  rewrite captures_hd. unfold match_degrees.
  assert (E : forall a b, ways (Then a b) s = flat_map (fun '(x, gx, t) => map (fun '(y, gy, u) => (x ++ y, gx ++ gy, u)) (ways b t)) (ways a s)) by reflexivity.
  rewrite E. change (ways (Group (digits_regex n)) s) with (map (fun '(x, gx, t) => (x, x :: gx, t)) (ways (digits_regex n) s)).
  rewrite ways_digits. destruct (take_digits n s) as [[d r]|]; [|reflexivity]. cbn [map flat_map]. rewrite app_nil_r, hd_map, hd_minutes.
  destruct (take_digits 2 r) as [[mm [|c r2]]|]; [reflexivity| |reflexivity]. destruct (c =? 46); [|reflexivity].
  destruct (span_digits r2) as [[|x f] t]; reflexivity.
Qed.

Lemma compile_latitude : compile latitude_pattern = Some (Then (Group (digits_regex 2)) (Then (Group minutes_regex) Nothing)).
Proof. reflexivity. Qed.
Lemma compile_longitude : compile longitude_pattern = Some (Then (Group (digits_regex 3)) (Then (Group minutes_regex) Nothing)).
Proof. reflexivity. Qed.

Lemma digits_productive n : productive (digits_regex n).
Proof. induction n; cbn; auto. Qed.

Lemma pattern_productive n : productive (Then (Group (digits_regex n)) (Then (Group minutes_regex) Nothing)).
Proof.
  cbn [productive minutes_regex]. split; [apply digits_productive|]. repeat split. intros g H. inversion H.
Qed.

(** ** Languages of the patterns *)

Lemma in_digits n x g : in_language (digits_regex n) x g -> List.length x = n /\ Forall digit x /\ g = [].
Proof.
  revert x g. induction n as [|n IH]; intros x g H; cbn in H; inversion H; subst; [auto|].
  match goal with H : in_language (Range _ _) _ _ |- _ => inversion H; subst end.
  match goal with H : in_language (digits_regex n) _ _ |- _ => apply IH in H as (<- & F & ->) end.
  split; [reflexivity|]. split; [constructor; assumption|reflexivity].
Qed.

Lemma in_run x g : in_language (Plus (Range 48 57)) x g -> x <> [] /\ Forall digit x /\ g = [].
Proof.
  intros H. remember (Plus (Range 48 57)) as r eqn:E. revert E. induction H as [| | |a x gx H IH|a x y gx gy H1 IH1 H2 IH2|]; intros [= ->].
  - inversion H; subst. split; [discriminate|]. split; [constructor; [assumption|constructor]|reflexivity].
  - inversion H1; subst. destruct (IH2 eq_refl) as (N & F & ->). split; [discriminate|]. split; [constructor; assumption|reflexivity].
Qed.

Lemma in_minutes x g : in_language minutes_regex x g ->
  exists mm frac, x = mm ++ lit "." ++ frac /\ List.length mm = 2%nat /\ Forall digit mm /\ Forall digit frac /\ frac <> [] /\ g = [].
Proof.
  unfold minutes_regex. intros H.
  repeat match goal with
  | H : in_language (Then _ _) _ _ |- _ => inversion H; subst; clear H
  | H : in_language (Range _ _) _ _ |- _ => inversion H; subst; clear H
  | H : in_language Nothing _ _ |- _ => inversion H; subst; clear H
  | H : in_language (Plus _) _ _ |- _ => apply in_run in H as (? & ? & ->)
  end.
  match goal with |- exists mm frac, ([?a] ++ [?b] ++ [?c] ++ ?f ++ []) = _ /\ _ => exists [a; b], f; replace c with 46 by lia end.
  cbn [app]. rewrite !app_nil_r. repeat split; auto.
Qed.

Lemma in_pattern n x g : in_language (Then (Group (digits_regex n)) (Then (Group minutes_regex) Nothing)) x g ->
  exists dd mm frac, x = dd ++ mm ++ lit "." ++ frac /\ g = [dd; mm ++ lit "." ++ frac] /\
    List.length dd = n /\ Forall digit dd /\ List.length mm = 2%nat /\ Forall digit mm /\ Forall digit frac /\ frac <> [].
Proof.
  intros H.
  repeat match goal with
  | H : in_language (Then _ _) _ _ |- _ => inversion H; subst; clear H
  | H : in_language (Group _) _ _ |- _ => inversion H; subst; clear H
  | H : in_language Nothing _ _ |- _ => inversion H; subst; clear H
  end.
  all: match goal with H1 : in_language (digits_regex _) _ _, H2 : in_language minutes_regex _ _ |- _ =>
    apply in_digits in H1 as (<- & F & ->); apply in_minutes in H2 as (mm & frac & -> & L & F1 & F2 & N & ->) end.
  eexists _, mm, frac. rewrite !app_nil_r. cbn [app]. split; [reflexivity|]. split; [reflexivity|]. auto 8.
Qed.

(** The pattern for [n] degree digits. *)
Definition pattern (n : nat) : str := if Nat.eqb n 2 then latitude_pattern else longitude_pattern.

Lemma longest n f dd mm frac rest x t g :
  f = dd ++ mm ++ lit "." ++ frac ++ rest -> List.length dd = n -> List.length mm = 2%nat ->
  match rest with [] => True | c :: _ => ~ digit c end ->
  f = x ++ t -> in_language (Then (Group (digits_regex n)) (Then (Group minutes_regex) Nothing)) x g ->
  (List.length x <= List.length (dd ++ mm ++ lit "." ++ frac))%nat.
Proof.
  intros -> L1 L2 R E H. apply in_pattern in H as (dd' & mm' & frac' & -> & -> & L1' & _ & L2' & _ & F & _).
  rewrite <- !app_assoc in E. apply app_length_inj in E as [<- E]; [|congruence]. apply app_length_inj in E as [<- E]; [|congruence].
  apply app_length_inj in E as [_ E]; [|reflexivity]. rewrite !app_length. apply Nat.add_le_mono_l, Nat.add_le_mono_l, Nat.add_le_mono_l.
  clear - R E F. revert frac E. induction F as [|c frac' Hc F IH]; intros [|d frac] E; cbn in *; try lia.
  - subst rest. contradiction.
  - injection E as -> E. apply IH in E. lia.
Qed.

Open Scope R_scope.

(** A latitude or longitude of a GGA, RMC or GLL sentence: there is none exactly for an empty field. Otherwise the
    pattern in the source matches the longest prefix of the field that belongs to its language, its first group is
    the degrees and its second group, a decimal number, the minutes. *)
Theorem c104_coordinates ovf now s tt fff fields p r n minus i j o :
  gnss_with s tt fff fields -> In fff [lit "GGA"; lit "RMC"; lit "GLL"] ->
  clock now -> (0 <= dt_year now)%Z -> fst (parse_sentence ovf now s p) = Ok r ->
  In (n, minus, i, j, o) (coordinates r) ->
  exists re, compile (pattern n) = Some re /\
  match o with
  | None => fld fields i = []
  | Some x => exists degrees minutes rest m e,
      captures re (fld fields i) = Some [degrees; minutes] /\
      fld fields i = degrees ++ minutes ++ rest /\ in_language re (degrees ++ minutes) [degrees; minutes] /\
      (forall y g t, fld fields i = y ++ t -> in_language re y g -> (List.length y <= List.length (degrees ++ minutes))%nat) /\
      decimal minutes false m e /\
      Rabs (Rabs (real_of x) - (IZR (Z.of_N (numeral_value degrees)) + decimal_size m e / 60)) <= / 10 ^ 12
  end.
Proof.
  intros Hs Hf Hc Hy Hr Hi.
  assert (Hn : n = 2%nat \/ n = 3%nat).
  { destruct r; cbn [coordinates In] in Hi; try contradiction; destruct Hi as [E|[E|[]]]; injection E; intros; subst; auto. }
  exists (Then (Group (digits_regex n)) (Then (Group minutes_regex) Nothing)). split; [destruct Hn as [-> | ->]; reflexivity|].
  pose proof (c44_text_coordinates _ _ _ _ _ _ _ _ _ _ _ _ _ Hs Hf Hc Hy Hr Hi) as H. destruct o as [x|]; [|exact H].
  destruct H as (d & mi & [dd mm frac rest E F1 F2 F3 L1 L2 N R Ed Em] & Fx & Px & Hm & Hp).
  assert (C : captures (Then (Group (digits_regex n)) (Then (Group minutes_regex) Nothing)) (fld fields i) = Some [dd; mm ++ lit "." ++ frac]).
  { rewrite captures_degrees. replace (match_degrees n (fld fields i)) with (Some (dd, mm ++ lit "." ++ frac)); [reflexivity|].
    symmetry. apply match_degrees_spec. exists mm, frac, rest. auto 12. }
  exists dd, (mm ++ lit "." ++ frac), rest, (numeral_value (mm ++ frac)), (- Z.of_nat (List.length frac))%Z.
  split; [exact C|]. split; [rewrite E, <- !app_assoc; reflexivity|]. split; [|split; [|split]].
  - apply (c104_search _ _ (pattern_productive n)) in C as (x0 & t & E0 & L). pose proof (in_pattern _ _ _ L) as (dd' & mm' & frac' & -> & X & _).
    set (M := mm ++ lit "." ++ frac) in *. set (M' := mm' ++ lit "." ++ frac') in *. injection X as -> X. rewrite X in *. exact L.
  - intros y g t Ey Ly. eapply longest; eauto.
  - apply (decimal_intro _ _ _ _ [] mm (lit ".") frac [] 0%Z); auto; try (now left); try constructor; try discriminate.
    + now rewrite app_nil_r.
    + destruct mm; [discriminate L2|discriminate].
  - assert (P : 0 <= IZR (Z.of_N d) + mi / 60).
    { assert (0 <= mi); [|pose proof (IZR_le 0 (Z.of_N d) ltac:(lia)); lra]. rewrite Em. unfold decimal_size.
      apply Rmult_le_pos; [apply IZR_le; lia|]. apply powerRZ_le. lra. }
    rewrite <- Ed, <- Em. set (v := IZR (Z.of_N d) + mi / 60) in *.
    destruct (str_eqb_spec (fld fields j) minus) as [M|M].
    + destruct (Hm M) as [S A]. rewrite <- (Rabs_Ropp (real_of x)). replace v with (Rabs v) at 1 by now apply Rabs_pos_eq.
      eapply Rle_trans; [apply Rabs_triang_inv2|]. rewrite <- Rabs_Ropp. replace (- (- real_of x - v)) with (real_of x + v) by lra. exact A.
    + destruct (Hp M) as [S A]. replace v with (Rabs v) at 1 by now apply Rabs_pos_eq.
      eapply Rle_trans; [apply Rabs_triang_inv2|]. exact A.
Qed.
Print Assumptions c104_coordinates.

(** A text that the pattern does not match is refused, and only such a text (or none) is not read. *)
Theorem c104_refused n f h : n = 2%nat \/ n = 3%nat ->
  exists re, compile (pattern n) = Some re /\
  let read := if Nat.eqb n 2 then parse_latitude_ddmm_mmm f h else parse_longitude_dddmm_mmm f h in
  ((exists e, read = Err e) <-> f <> [] /\ captures re f = None) /\
  ((exists e, read = Err e) <-> f <> [] /\ forall x t g, f = x ++ t -> ~ in_language re x g) /\
  (read = Ok None <-> f = []) /\ read <> Panic.
Proof.
  intros Hn. exists (Then (Group (digits_regex n)) (Then (Group minutes_regex) Nothing)). split; [destruct Hn as [-> | ->]; reflexivity|]. cbv zeta.
  destruct (c104_search _ f (pattern_productive n)) as [_ S]. rewrite <- S. rewrite captures_degrees.
  replace (if Nat.eqb n 2 then parse_latitude_ddmm_mmm f h else parse_longitude_dddmm_mmm f h) with
    (if Nat.eqb n 2 then parse_angle 2 (lit "S") (lit "Failed to parse latitude (DDMM.MMM) from ") f h
     else parse_angle 3 (lit "W") (lit "Failed to parse longitude (DDDMM.MMM) from ") f h) by reflexivity.
  assert (X : forall minus what, let read := parse_angle n minus what f h in
    ((exists e, read = Err e) <-> f <> [] /\ match_degrees n f = None) /\ (read = Ok None <-> f = []) /\ read <> Panic).
  { intros minus what. cbv zeta. unfold parse_angle. destruct (str_eqb_spec f []) as [-> |N]; cbn [negb].
    - split; [split; [intros (e & [=])|intros [[] _]; reflexivity]|]. split; [tauto|discriminate].
    - destruct (match_degrees n f) as [[g1 g2]|].
      + split; [split; [intros (e & [=])|intros [_ [=]]]|]. split; [split; [discriminate|contradiction]|discriminate].
      + split; [split; [auto|eauto]|]. split; [split; [discriminate|contradiction]|discriminate]. }
  assert (O : option_map (fun '(a, b) => [a; b]) (match_degrees n f) = None <-> match_degrees n f = None) by (destruct (match_degrees n f) as [[]|]; split; discriminate || auto).
  rewrite O. destruct Hn as [-> | ->]; cbn [Nat.eqb]; specialize (X (lit "S")) as X1; specialize (X (lit "W")) as X2.
  - destruct (X1 (lit "Failed to parse latitude (DDMM.MMM) from ")) as (A & B & C). auto.
  - destruct (X2 (lit "Failed to parse longitude (DDDMM.MMM) from ")) as (A & B & C). auto.
Qed.
Print Assumptions c104_refused.

Close Scope R_scope.

(** The patterns compile; "4807.038" and "4807.038N" give the groups "48" and "07.038"; "4807" does not match, but
    without the '.' in the pattern it would. The sentence of C44 has a latitude and a longitude read this way. *)
Example c104_example :
  compile latitude_pattern = Some (Then (Group (digits_regex 2)) (Then (Group minutes_regex) Nothing)) /\
  captures (Then (Group (digits_regex 2)) (Then (Group minutes_regex) Nothing)) (lit "4807.038N") = Some [lit "48"; lit "07.038"] /\
  captures (Then (Group (digits_regex 2)) (Then (Group minutes_regex) Nothing)) (lit "4807") = None /\
  (exists re, compile (lit "^([0-9][0-9])([0-9]+)") = Some re /\ productive re /\ captures re (lit "48070") = Some [lit "48"; lit "070"]) /\
  (exists d, fst (parse_sentence true ex_now ex_gga_fields new_parser) = Ok (PsGga d) /\
     In (2%nat, lit "S", 1%nat, 2%nat, Some (S754_finite false 6771907948439824 (-47))) (coordinates (PsGga d))) /\
  parse_latitude_ddmm_mmm (lit "4807") (lit "N") = Err (lit "Failed to parse latitude (DDMM.MMM) from 4807") /\
  parse_longitude_dddmm_mmm [] (lit "W") = Ok None.
Proof.
  split; [reflexivity|]. split; [reflexivity|]. split; [reflexivity|]. split; [|split; [|split; reflexivity]].
  - eexists. split; [reflexivity|]. split; [|reflexivity]. cbn. repeat split; auto. intros g H. inversion H.
  - eexists. split; [vm_compute; reflexivity|]. left. reflexivity.
Qed.
