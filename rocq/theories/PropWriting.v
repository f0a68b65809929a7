(** C89: how the contents of a GNSS sentence are written does not matter. *)
From Coq Require Import List NArith ZArith Bool String Lia Reals Lra Floats.SpecFloat.
From Flocq Require Import Core.
From Verif Require Import Base Str F64 Chrono Types Util Gnss Parser
  SpecText SpecResult SpecAis SpecTime SpecReal SpecFields SpecWriting StrFacts FrontFacts CallFacts ResultFacts
  FloatFacts DecimalFacts FieldFacts PropFront PropFields.
Import ListNotations.
Open Scope N_scope.

Lemma same_contents_sym k f g : same_contents k f g -> same_contents k g f.
Proof. intros []; econstructor; eauto. Qed.

Lemma decimal_nonempty f neg n e : decimal f neg n e -> f <> [].
Proof.
  intros [sign ip dot fp ex x E _ _ _ Ne _ _ _ _] ->. symmetry in E.
  apply app_eq_nil in E as [_ E]. apply app_eq_nil in E as [-> E]. apply app_eq_nil in E as [_ E].
  apply app_eq_nil in E as [-> _]. now destruct Ne.
Qed.

Lemma denotes_nonempty f v : denotes f v -> f <> [].
Proof. intros (ds & [-> | ->] & [N _] & _); [exact N|discriminate]. Qed.

Lemma degrees_nonempty n f d m : degrees_minutes n f d m -> f <> [].
Proof.
  intros [dd mm frac rest -> _ _ _ _ L _ _ _ _] E. apply app_eq_nil in E as [_ E]. apply app_eq_nil in E as [-> _]. discriminate.
Qed.

Lemma same_contents_empty k f g : same_contents k f g -> k <> Unread -> (f = [] <-> g = []).
Proof.
  intros [k' h|f' g' neg n e n' e' A B _|f' g' v A B|n f' g' d m A B|f' g' a b c A B|f' g'] K; [reflexivity|..|congruence].
  - apply decimal_nonempty in A, B. tauto.
  - apply denotes_nonempty in A, B. tauto.
  - apply degrees_nonempty in A, B. tauto.
  - destruct A as (?&?&?&?&?&?&?& -> & _), B as (?&?&?&?&?&?&?& -> & _). split; discriminate.
Qed.

Lemma reads_same f g x : same_contents Decimal f g -> reads_double f x -> reads_double g x.
Proof.
  intros H Hx. inversion H as [|f' g' neg n e n' e' A B E| | | |]; subst; [exact Hx|].
  assert (Y : exists y, reads_double f y /\ reads_double g y).
  { destruct (Rlt_le_dec (decimal_size n e) double_overflow) as [L|L].
    - destruct (f64_of_dec_nearest neg n e L) as [N1 N2]. unfold signed in N1. exists (f64_of_dec neg n e). split.
      + eapply reads_decimal; eauto.
      + rewrite E in L, N1. eapply reads_decimal; eauto.
    - exists (S754_infinity neg). split; [|rewrite E in L]; eapply reads_overflow; eauto. }
  destruct Y as (y & Y1 & Y2). assert (x = y) as -> by (apply parse_f64_reads in Hx, Y1; congruence). exact Y2.
Qed.

Lemma number_same f g max v : same_contents Whole f g -> number_text max f v -> number_text max g v.
Proof.
  intros H [D B]. inversion H as [| |f' g' w A C| | |]; subst; [split; assumption|].
  rewrite (denotes_unique _ _ _ D A) in *. split; assumption.
Qed.

Lemma angle_same n minus h f g x : same_contents (Degrees n) f g -> angle n minus h f x -> angle n minus h g x.
Proof.
  intros H A. inversion H as [| | |n' f' g' d m B C| |]; subst; [exact A|].
  destruct A as (d' & m' & m1 & q & y & D & R). destruct (degrees_minutes_unique _ _ _ _ _ _ D B) as [-> ->].
  exists d, m, m1, q, y. auto.
Qed.

Lemma six_first f g a b c : six_digits f a b c -> six_digits g a b c ->
  exists six r1 r2, f = six ++ r1 /\ g = six ++ r2 /\ List.length six = 6%nat /\ Forall digit six.
Proof.
  intros (d1 & d2 & d3 & d4 & d5 & d6 & rest & -> & F & A & B & C) (e1 & e2 & e3 & e4 & e5 & e6 & rest' & -> & F' & A' & B' & C').
  exists [d1; d2; d3; d4; d5; d6], rest, rest'. split; [reflexivity|]. split; [|split; [reflexivity|exact F]].
  repeat match goal with H : Forall digit (_ :: _) |- _ => inversion H; clear H; subst end. unfold digit in *.
  f_equal. repeat f_equal; lia.
Qed.

Lemma time_same f g o : same_contents Clock f g -> time_text f o -> time_text g o.
Proof.
  intros H T. inversion H as [| | | |f' g' a b c A B|]; subst; [exact T|].
  apply six_digits_time in A, B. assert (o = Some (a, b, c)) as -> by (apply time_parts_spec in T, A; congruence). exact B.
Qed.

Lemma stamp_same now f g o : same_contents Clock f g -> time_stamp now f o -> time_stamp now g o.
Proof. intros H [T|h m s T V]; [apply time_stamp_none|apply time_stamp_some; [|exact V]]; eapply time_same; eauto. Qed.

Lemma pair_same f g i : same_contents Clock f g -> (i <= 4)%nat -> pair_at f i = pair_at g i.
Proof.
  intros H L. inversion H as [| | | |f' g' a b c A B|]; subst; [reflexivity|].
  destruct (six_first _ _ _ _ _ A B) as (six & r1 & r2 & -> & -> & E & _). unfold pair_at.
  rewrite !skipn_app, !firstn_app, !skipn_length, E.
  replace (2 - (6 - i))%nat with 0%nat by lia. now rewrite !firstn_O, !app_nil_r.
Qed.

Lemma date_same now fd gd ft gt o : same_contents Clock fd gd -> same_contents Clock ft gt ->
  date_time_stamp now fd ft o -> date_time_stamp now gd gt o.
Proof.
  intros Hd Ht. assert (E : forall d mo y h mi s, date_time_numbers fd ft d mo y h mi s <-> date_time_numbers gd gt d mo y h mi s).
  { intros. unfold date_time_numbers. rewrite !(pair_same fd gd), !(pair_same ft gt) by (auto; lia). reflexivity. }
  intros [N|d mo y h mi s N Y D T]; [apply date_time_none|apply date_time_some; auto].
  - intros d mo y h mi s. rewrite <- E. apply N.
  - now apply E.
Qed.

Lemma field_same {A} k (means1 means2 : str -> A -> Prop) f g o : k <> Unread -> same_contents k f g ->
  (forall v, means1 f v -> means2 g v) -> field_value means1 f o -> field_value means2 g o.
Proof.
  intros K H M [E|v N V]; [apply field_empty|apply field_given; [|auto]].
  - now apply (same_contents_empty _ _ _ H K).
  - intros E. now apply N, (same_contents_empty _ _ _ H K).
Qed.

Lemma lenient_same {A} k (means : str -> A -> Prop) f g o : k <> Unread -> same_contents k f g ->
  (forall v, means f v <-> means g v) -> lenient_value means f o -> lenient_value means g o.
Proof.
  intros K H M [[E|E]|v N V]; [apply lenient_none..|apply lenient_some].
  - left. now apply (same_contents_empty _ _ _ H K).
  - right. intros v. rewrite <- M. apply E.
  - intros E. now apply N, (same_contents_empty _ _ _ H K).
  - now apply M.
Qed.

Lemma same_word f g : same_contents Word f g -> f = g.
Proof. now inversion 1. Qed.

Lemma variation_same side f g x : same_contents Decimal f g -> variation side f x -> variation side g x.
Proof. intros H (y & R & S). exists y. split; [|exact S]. eapply reads_same; eauto. Qed.

Lemma numbers_same kinds fs gs l : Forall2 (same_contents Whole) fs gs -> kinds = repeat Whole (List.length fs) ->
  numbers_in fs l -> numbers_in gs l.
Proof.
  intros H _ N. revert gs H. induction N as [|fs l _ IH|f fs v l Nf V _ IH]; intros gs H; inversion H as [|? g ? gs' S R]; subst.
  - constructor.
  - assert (g = []) as -> by now apply (same_contents_empty _ _ _ S). apply numbers_skip. auto.
  - apply numbers_cons; [intros E; apply Nf; now apply (same_contents_empty _ _ _ S)|eapply number_same; eauto|auto].
Qed.

Lemma report_same now nav fff kinds fs gs r : In (fff, kinds) field_contents -> same_fields kinds fs gs ->
  gnss_report now nav fs fff r -> gnss_report now nav gs fff r.
Proof.
  intros Hk Hs R.
  assert (DF : forall i o, nth i kinds Unread = Decimal -> field_value reads_double (fld fs i) o -> field_value reads_double (fld gs i) o).
  { intros i o K. pose proof (Hs i) as S. rewrite K in S. apply (field_same Decimal); [discriminate|exact S|]. intros v. now apply reads_same. }
  assert (DL : forall i o, nth i kinds Unread = Decimal -> lenient_value reads_double (fld fs i) o -> lenient_value reads_double (fld gs i) o).
  { intros i o K. pose proof (Hs i) as S. rewrite K in S. apply (lenient_same Decimal); [discriminate|exact S|]. intros v.
    split; apply reads_same; auto. now apply same_contents_sym. }
  assert (WF : forall i max o, nth i kinds Unread = Whole -> field_value (number_text max) (fld fs i) o -> field_value (number_text max) (fld gs i) o).
  { intros i max o K. pose proof (Hs i) as S. rewrite K in S. apply (field_same Whole); [discriminate|exact S|]. intros v. now apply number_same. }
  assert (E : forall i, nth i kinds Unread = Word -> fld fs i = fld gs i).
  { intros i K. pose proof (Hs i) as S. rewrite K in S. now apply same_word. }
  assert (AF : forall i j n minus o, nth i kinds Unread = Degrees n -> nth j kinds Unread = Word ->
    field_value (angle n minus (fld fs j)) (fld fs i) o -> field_value (angle n minus (fld gs j)) (fld gs i) o).
  { intros i j n minus o K J. rewrite (E j J). pose proof (Hs i) as S. rewrite K in S.
    apply (field_same (Degrees n)); [discriminate|exact S|]. intros v. now apply angle_same. }
  assert (C : forall i, nth i kinds Unread = Clock -> same_contents Clock (fld fs i) (fld gs i)).
  { intros i K. pose proof (Hs i) as S. now rewrite K in S. }
  cbn [In field_contents] in Hk.
  destruct R as [d R|d R|d R|d R|d R];
    destruct Hk as [Hk|[Hk|[Hk|[Hk|[Hk|[]]]]]]; try discriminate Hk; injection Hk as <-.
  - constructor. destruct R as (R0 & R1 & R2 & R3 & (q & R4 & R4') & R5 & R6 & R7 & R8 & R9 & R10).
    split; [exact R0|]. split; [now apply (stamp_same _ (fld fs 0)); [apply C|]|].
    split; [now apply (AF 1%nat 2%nat)|]. split; [now apply (AF 3%nat 4%nat)|]. split; [exists q; split; [now apply WF|exact R4']|].
    repeat split; auto.
  - constructor. destruct R as (R0 & R1 & R2 & R3 & R4 & R5 & R6 & R7).
    split; [exact R0|]. split; [now apply (date_same _ (fld fs 8) _ (fld fs 0)); [apply C|apply C|]|].
    split; [now rewrite <- (E 1%nat)|]. split; [now apply (AF 2%nat 3%nat)|]. split; [now apply (AF 4%nat 5%nat)|].
    split; [now apply DF|]. split; [now apply DF|]. rewrite <- (E 10%nat) by reflexivity.
    apply (field_same Decimal (variation (fld fs 10)) (variation (fld fs 10)) (fld fs 9)); [discriminate|exact (Hs 9%nat)| |exact R7].
    intros v. apply variation_same. exact (Hs 9%nat).
  - constructor. destruct R as (R0 & R1 & R2 & R3 & R4 & R5 & R6).
    split; [exact R0|]. split; [now rewrite <- (E 0%nat)|]. split; [now rewrite <- (E 1%nat)|].
    split; [|repeat split; now apply DF].
    apply (numbers_same (repeat Whole 12) (flds fs 2 12)); [|reflexivity|exact R3].
    unfold flds. cbn [seq map]. repeat (constructor; [match goal with |- same_contents Whole (fld fs ?i) _ => exact (Hs i) end|]). constructor.
  - constructor. destruct R as (R0 & R1 & R2 & R3 & R4 & R5).
    split; [exact R0|]. split; [now apply (AF 0%nat 1%nat)|]. split; [now apply (AF 2%nat 3%nat)|].
    split; [now apply (stamp_same _ (fld fs 4)); [apply C|]|]. rewrite <- (E 5%nat), <- (E 6%nat) by reflexivity. auto.
  - constructor. destruct R as (R0 & R1 & R2 & R3 & R4 & R5).
    split; [exact R0|]. repeat (split; [now apply DL|]). now rewrite <- (E 8%nat).
Qed.

Lemma gnss_report_iff ovf now s tt fff fields p r nav kinds : gnss_with s tt fff fields -> names_system tt nav ->
  In (fff, kinds) field_contents -> clock now -> (0 <= dt_year now)%Z ->
  (fst (parse_sentence ovf now s p) = Ok r <-> gnss_report now nav fields fff r).
Proof.
  intros Hs Hn Hf Hc Hy. assert (Hf' : In fff [lit "GGA"; lit "RMC"; lit "GSA"; lit "GLL"; lit "VTG"]).
  { cbn [In field_contents] in Hf. cbn [In]. destruct Hf as [H|[H|[H|[H|[H|[]]]]]]; injection H as <- _; tauto. }
  split; [now apply (gnss_ok ovf now s tt)|].
  intros R0. revert Hs. destruct R0 as [d R|d R|d R|d R|d R]; intros Hs.
  - destruct (c39_gga ovf now s tt nav fields p Hs Hn Hc) as (_ & H & _). apply H. eauto.
  - destruct (c40_rmc ovf now s tt nav fields p Hs Hn Hy) as (_ & H & _). apply H. eauto.
  - destruct (c41_gsa ovf now s tt nav fields p Hs Hn) as (_ & H & _). apply H. eauto.
  - destruct (c42_gll ovf now s tt nav fields p Hs Hn Hc) as (_ & H & _). apply H. eauto.
  - destruct (c43_vtg ovf now s tt nav fields p Hs Hn) as (_ & H). now apply H.
Qed.

(** Sentences with the same contents give the same report, or both give none. *)
Theorem c89_writing ovf now s1 s2 tt1 tt2 nav fff kinds fs1 fs2 p1 p2 r :
  gnss_with s1 tt1 fff fs1 -> gnss_with s2 tt2 fff fs2 -> names_system tt1 nav -> names_system tt2 nav ->
  In (fff, kinds) field_contents -> same_fields kinds fs1 fs2 -> clock now -> (0 <= dt_year now)%Z ->
  (fst (parse_sentence ovf now s1 p1) = Ok r <-> fst (parse_sentence ovf now s2 p2) = Ok r).
Proof.
  intros H1 H2 N1 N2 Hk Hs Hc Hy.
  rewrite (gnss_report_iff ovf now s1 tt1 fff fs1 p1 r nav kinds H1 N1 Hk Hc Hy),
    (gnss_report_iff ovf now s2 tt2 fff fs2 p2 r nav kinds H2 N2 Hk Hc Hy).
  split; apply (report_same _ _ _ kinds); auto. intros i. apply same_contents_sym, Hs.
Qed.
Print Assumptions c89_writing.

(** Two ways to write the same position report. *)
Definition ex_writing1 : list str :=
  map lit ["123519"; "4807.038"; "N"; "01131.000"; "E"; "1"; "08"; "0.9"; "545.4"; "M"; "46.9"; "M"; ""; ""]%string.
Definition ex_writing2 : list str :=
  map lit ["123519.75"; "4807.0380"; "N"; "01131.0"; "E"; "+1"; "8"; ".90"; "5.454e2"; "m"; "046.9"]%string.

Lemma ex_same_writing : same_fields (nth 0 (map snd field_contents) []) ex_writing1 ex_writing2.
Proof.
  assert (Dg : forall s, forallb (fun c => (48 <=? c) && (c <=? 57)) s = true -> Forall digit s).
  { intros s H. apply Forall_forall. intros c Hc. rewrite forallb_forall in H. apply H in Hc. apply andb_prop in Hc as [A B].
    apply N.leb_le in A, B. split; assumption. }
  assert (Dm : forall ip fp n k, forallb (fun c => (48 <=? c) && (c <=? 57)) ip = true ->
    forallb (fun c => (48 <=? c) && (c <=? 57)) fp = true -> fp <> [] -> n = numeral_value (ip ++ fp) -> k = (- Z.of_nat (List.length fp))%Z ->
    decimal (ip ++ lit "." ++ fp) false n k).
  { intros ip fp n k Hi Hf Nf -> ->. apply (decimal_intro _ _ _ _ [] ip (lit ".") fp [] 0%Z); auto.
    - now rewrite app_nil_r. - now left. - intros E. now apply app_eq_nil in E as [_ ->]. - constructor. }
  assert (Gm : forall n dd mm frac, forallb (fun c => (48 <=? c) && (c <=? 57)) (dd ++ mm ++ frac) = true -> List.length dd = n -> List.length mm = 2%nat ->
    frac <> [] -> degrees_minutes n (dd ++ mm ++ lit "." ++ frac) (numeral_value dd) (decimal_size (numeral_value (mm ++ frac)) (- Z.of_nat (List.length frac)))).
  { intros n dd mm frac H L M F. rewrite !forallb_app in H. apply andb_prop in H as [H1 H]. apply andb_prop in H as [H2 H3].
    apply (degrees_minutes_intro _ _ _ _ dd mm frac []); auto. now rewrite app_nil_r. }
  intros i. destruct i as [|[|[|[|[|[|[|[|[|[|[|[|[|[|i]]]]]]]]]]]]]];
    cbn [map snd field_contents nth fld ex_writing1 ex_writing2];
    [..|destruct i; apply same_unread]; try apply same_text; try apply same_unread.
  - apply (same_clock _ _ 12 35 19); [exists 49, 50, 51, 53, 49, 57, []|exists 49, 50, 51, 53, 49, 57, (lit ".75")];
      (split; [reflexivity|split; [now apply Dg|auto]]).
  - apply (same_degrees _ _ _ 48 (decimal_size 7038 (-3))).
    + exact (Gm 2%nat (lit "48") (lit "07") (lit "038") eq_refl eq_refl eq_refl ltac:(discriminate)).
    + replace (decimal_size 7038 (-3)) with (decimal_size 70380 (-4)) by (unfold decimal_size; simpl; lra).
      exact (Gm 2%nat (lit "48") (lit "07") (lit "0380") eq_refl eq_refl eq_refl ltac:(discriminate)).
  - apply (same_degrees _ _ _ 11 (decimal_size 31000 (-3))).
    + exact (Gm 3%nat (lit "011") (lit "31") (lit "000") eq_refl eq_refl eq_refl ltac:(discriminate)).
    + replace (decimal_size 31000 (-3)) with (decimal_size 310 (-1)) by (unfold decimal_size; simpl; lra).
      exact (Gm 3%nat (lit "011") (lit "31") (lit "0") eq_refl eq_refl eq_refl ltac:(discriminate)).
  - apply (same_whole _ _ 1); exists (lit "1"); (split; [auto|split; [split; [discriminate|now apply Dg]|reflexivity]]).
  - apply (same_whole _ _ 8); [exists (lit "08")|exists (lit "8")]; (split; [auto|split; [split; [discriminate|now apply Dg]|reflexivity]]).
  - apply (same_number _ _ false 9 (-1) 90 (-2)).
    + now apply (Dm (lit "0") (lit "9")).
    + now apply (Dm [] (lit "90")).
    + unfold decimal_size; simpl; lra.
  - apply (same_number _ _ false 5454 (-1) 5454 (-1)).
    + now apply (Dm (lit "545") (lit "4")).
    + apply (decimal_intro _ _ _ _ [] (lit "5") (lit ".") (lit "454") (lit "e2") 2%Z);
        [reflexivity|left; auto|now apply Dg|now apply Dg|discriminate|now left| |reflexivity|reflexivity].
      apply (exponent (lit "e") [] false (lit "2")); [now left|now left|]. split; [discriminate|now apply Dg].
    + reflexivity.
  - apply (same_number _ _ false 469 (-1) 469 (-1)).
    + now apply (Dm (lit "46") (lit "9")).
    + now apply (Dm (lit "046") (lit "9")).
    + reflexivity.
Qed.

Example c89_example :
  let s1 := lit "$GPGGA,123519,4807.038,N,01131.000,E,1,08,0.9,545.4,M,46.9,M,," in
  let s2 := lit "$GPGGA,123519.75,4807.0380,N,01131.0,E,+1,8,.90,5.454e2,m,046.9" in
  exists d, fst (parse_sentence true ex_now s1 new_parser) = Ok (PsGga d) /\
    fst (parse_sentence true ex_now s2 new_parser) = Ok (PsGga d) /\ gga_satellite_count d = Some 8.
Proof.
  cbn zeta. assert (H : exists d, fst (parse_sentence true ex_now (lit "$GPGGA,123519,4807.038,N,01131.000,E,1,08,0.9,545.4,M,46.9,M,,") new_parser) = Ok (PsGga d) /\
    gga_satellite_count d = Some 8) by (eexists; split; [vm_compute; reflexivity|reflexivity]).
  destruct H as (d & R & S). exists d. split; [exact R|]. split; [|exact S].
  refine (proj1 (c89_writing true ex_now _ _ (lit "GP") (lit "GP") NavGps (lit "GGA") _ ex_writing1 ex_writing2 new_parser new_parser _ _ _ _ _
    (or_introl eq_refl) ex_same_writing _ _) R).
  - gnss. - gnss.
  - left. vm_compute. tauto. - left. vm_compute. tauto.
  - vm_compute. repeat split; intuition discriminate.
  - discriminate.
Qed.
