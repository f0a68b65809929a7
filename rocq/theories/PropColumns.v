(** C109: every datum of a GNSS report depends on its own fields only. *)
From Coq Require Import List NArith ZArith Bool String Lia Reals Floats.SpecFloat.
From Flocq Require Import Core.
From Verif Require Import Base Str F64 Chrono Types Util Gnss Parser
  SpecText SpecResult SpecTime SpecReal SpecFields SpecWriting SpecColumns StrFacts FrontFacts CallFacts
  FloatFacts DecimalFacts FieldFacts PropFront PropFields PropWriting PropSharp ResultFacts.
Import ListNotations.
Open Scope N_scope.

Local Opaque parse_f64 f64_div f64_mul f64_of_Z f64_of_dec.

(** ** A field has one value *)

Lemma lenient_unique {A} (means : str -> A -> Prop) f a b :
  (forall v w, means f v -> means f w -> v = w) -> lenient_value means f a -> lenient_value means f b -> a = b.
Proof.
  intros U [[E|E]|v N H] [[E'|E']|w N' H']; try congruence;
    try (exfalso; eapply E; eassumption); try (exfalso; eapply E'; eassumption).
  f_equal. now apply U.
Qed.

Lemma reads_one f v w : reads_double f v -> reads_double f w -> v = w.
Proof. intros H H'. apply parse_f64_reads in H, H'. congruence. Qed.
Lemma number_one max f v w : number_text max f v -> number_text max f w -> v = w.
Proof. intros [H _] [H' _]. now apply (denotes_unique f). Qed.
Lemma word_one {A} (table : list (str * A)) f v w : NoDup (map fst table) -> word table f v -> word table f w -> v = w.
Proof.
  unfold word. induction table as [|[t u] l IH]; cbn [map fst]; intros N H H'; [destruct H|].
  inversion N as [|? ? N1 N2]; subst. destruct H as [H|H], H' as [H'|H'].
  - congruence.
  - injection H as -> ->. exfalso. apply N1. now apply (in_map fst) in H'.
  - injection H' as -> ->. exfalso. apply N1. now apply (in_map fst) in H.
  - now apply IH.
Qed.
Lemma latitude_one h f v w : latitude_text h f v -> latitude_text h f w -> v = w.
Proof. apply angle_unique. lia. Qed.
Lemma longitude_one h f v w : longitude_text h f v -> longitude_text h f w -> v = w.
Proof. apply angle_unique. lia. Qed.
Lemma variation_one side f v w : variation side f v -> variation side f w -> v = w.
Proof.
  intros (x & Hx & X) (y & Hy & Y). pose proof (reads_one _ _ _ Hx Hy) as <-.
  destruct X as [[-> ->]|[-> ->]], Y as [[E ->]|[E ->]]; try reflexivity; discriminate E.
Qed.
Lemma stamp_one now f a b : time_stamp now f a -> time_stamp now f b -> a = b.
Proof.
  intros [T|h m s T V] [T'|h' m' s' T' V']; pose proof (time_text_unique _ _ _ T T') as E; try discriminate; [reflexivity|].
  now injection E as <- <- <-.
Qed.
Lemma date_stamp_one now f g a b : date_time_stamp now f g a -> date_time_stamp now f g b -> a = b.
Proof.
  intros [T|d mo y h mi s T _ _ _] [T'|d' mo' y' h' mi' s' T' _ _ _]; try reflexivity.
  - exfalso. now apply (T _ _ _ _ _ _ T').
  - exfalso. now apply (T' _ _ _ _ _ _ T).
  - pose proof (date_numbers_unique _ _ _ _ _ _ _ _ _ _ _ _ _ _ T T') as E. now injection E as <- <- <- <- <- <-.
Qed.
Lemma quality_one f x y : (exists q, field_value (number_text 255) f q /\ x = quality q) ->
  (exists q, field_value (number_text 255) f q /\ y = quality q) -> x = y.
Proof.
  intros (q & H & ->) (q' & H' & ->). f_equal. eapply field_value_unique; [|exact H|exact H']. intros v w; apply number_one.
Qed.

Lemma tables_nodup : NoDup (map fst statuses) /\ NoDup (map fst selection_modes) /\ NoDup (map fst fix_modes) /\
  NoDup (map fst faa_modes).
Proof.
  repeat split; cbn [map fst statuses selection_modes fix_modes faa_modes]; repeat constructor; cbn [In]; intuition discriminate.
Qed.

Lemma report_columns now nav nav' fff fs gs r r' :
  gnss_report now nav fs fff r -> gnss_report now nav' gs fff r' ->
  columns r r' <> [] /\ forall fields P, In (fields, P) (columns r r') -> agree_on fs gs fields -> P.
Proof.
  destruct tables_nodup as (T1 & T2 & T3 & T4). intros R R'.
  destruct R as [x R|x R|x R|x R|x R]; inversion R' as [y Y|y Y|y Y|y Y|y Y]; subst; clear R'.
  all: unfold gga_report, rmc_report, gsa_report, gll_report, vtg_report in *.
  all: repeat match goal with H : _ /\ _ |- _ => destruct H end.
  all: (split; [discriminate|]); intros fields P Hin A; cbn [columns In] in Hin.
  all: repeat (destruct Hin as [[= <- <-]|Hin]; [
    try match type of A with agree_on _ _ ?l => match l with 2%nat :: 3%nat :: 4%nat :: _ =>
      assert (E : flds fs 2 12 = flds gs 2 12) by (unfold flds; apply map_ext_in; intros i Hi; apply A; apply in_seq in Hi; cbn [In]; lia) end end;
    repeat match type of A with agree_on _ _ (?i :: ?l) =>
      let E := fresh "E" in assert (E : fld fs i = fld gs i) by (apply A; now left);
      assert (A' : agree_on fs gs l) by (intros j Hj; apply A; now right); clear A; rename A' into A end;
    repeat match goal with E : fld _ ?i = fld _ ?i |- _ => rewrite E in *; clear E end;
    try match goal with E : flds _ _ _ = _ |- _ => rewrite E in * end;
    solve [eauto using stamp_one, date_stamp_one, quality_one, numbers_unique, field_value_unique, lenient_unique, reads_one,
             number_one, word_one, latitude_one, longitude_one, variation_one]|]).
  all: destruct Hin.
Qed.

(** ** C109 *)

(** Two sentences of the same kind: a datum of which all fields are the same is reported alike, whatever the other
    fields, the talkers and what was received before. *)
Theorem c109_own_fields ovf ovf' now s s' tt tt' fff fs gs p p' r r' :
  gnss_with s tt fff fs -> gnss_with s' tt' fff gs -> In fff [lit "GGA"; lit "RMC"; lit "GSA"; lit "GLL"; lit "VTG"] ->
  clock now -> (0 <= dt_year now)%Z ->
  fst (parse_sentence ovf now s p) = Ok r -> fst (parse_sentence ovf' now s' p') = Ok r' ->
  columns r r' <> [] /\
  forall fields P, In (fields, P) (columns r r') -> agree_on fs gs fields -> P.
Proof.
  intros Hs Hs' Hf Hc Hy R R'.
  apply (gnss_ok ovf now s tt fff fs p r _ Hs (names_system_nav tt) Hf Hc Hy) in R.
  apply (gnss_ok ovf' now s' tt' fff gs p' r' _ Hs' (names_system_nav tt') Hf Hc Hy) in R'.
  eapply report_columns; eassumption.
Qed.
Print Assumptions c109_own_fields.

(** The data are all there is in a report. *)
Theorem c109_all_data r r' : columns r r' <> [] -> source_of r = source_of r' -> Forall snd (columns r r') -> r = r'.
Proof.
  intros D S A. destruct r, r'; try (exfalso; now apply D); cbn [columns] in A; cbn [source_of] in S.
  all: match goal with |- _ ?x = _ ?y => destruct x, y end.
  all: repeat match goal with H : Forall snd (_ :: _) |- _ => apply List.Forall_cons_iff in H as [? H] end; cbn [snd] in *.
  all: cbn in *; injection S as ->; subst; reflexivity.
Qed.
Print Assumptions c109_all_data.

Fixpoint apart (l : list (list nat)) : bool :=
  match l with
  | [] => true
  | w :: l' => forallb (fun w' => forallb (fun i => negb (existsb (Nat.eqb i) w')) w) l' && apart l'
  end.

Lemma only_one (l : list (list nat * Prop)) k : apart (map fst l) = true ->
  exists j, forall i w P, nth_error l i = Some (w, P) -> i <> j -> ~ In k w.
Proof.
  induction l as [|[w Q] l IH]; cbn [map apart fst]; intros A; [exists 0%nat; intros []; discriminate|].
  apply andb_true_iff in A as [A B]. destruct (in_dec Nat.eq_dec k w) as [E|E].
  - exists 0%nat. intros [|i] v P Hi Hn; [now destruct Hn|]. cbn in Hi. intros F.
    rewrite forallb_forall in A. specialize (A v). rewrite forallb_forall in A.
    assert (M : In v (map fst l)) by (apply nth_error_In in Hi; now apply (in_map fst) in Hi).
    specialize (A M k E). apply negb_true_iff in A. apply Bool.not_true_iff_false in A. apply A.
    apply existsb_exists. exists k. split; [exact F|apply Nat.eqb_refl].
  - destruct (IH B) as (j & H). exists (S j). intros [|i] v P Hi Hn.
    + cbn in Hi. injection Hi as <- <-. exact E.
    + cbn in Hi. apply (H i v P Hi). lia.
Qed.

(** One wrong field spoils at most one datum (if the sentence is still accepted). *)
Theorem c109_one_field ovf ovf' now s s' tt tt' fff fs gs p p' r r' k :
  gnss_with s tt fff fs -> gnss_with s' tt' fff gs -> In fff [lit "GGA"; lit "RMC"; lit "GSA"; lit "GLL"; lit "VTG"] ->
  clock now -> (0 <= dt_year now)%Z ->
  fst (parse_sentence ovf now s p) = Ok r -> fst (parse_sentence ovf' now s' p') = Ok r' ->
  (forall i, i <> k -> fld fs i = fld gs i) ->
  columns r r' <> [] /\
  exists j, forall i fields P, nth_error (columns r r') i = Some (fields, P) -> i <> j -> P.
Proof.
  intros Hs Hs' Hf Hc Hy R R' D.
  destruct (c109_own_fields _ _ _ _ _ _ _ _ _ _ _ _ _ _ Hs Hs' Hf Hc Hy R R') as [E L].
  split; [exact E|]. destruct (only_one (columns r r') k) as (j & O); [destruct r, r'; reflexivity|].
  exists j. intros i fields P Hi Hn. apply (L fields P); [now apply nth_error_In in Hi|].
  intros q Hq. apply D. intros ->. now apply (O i fields P Hi Hn).
Qed.
Print Assumptions c109_one_field.

(** The course of an RMC sentence is damaged; the rest is reported as before. *)
Example c109_example :
  let s := lit "$GNRMC,225446.33,A,4916.45,N,12311.12,W,000.5,054.7,191194,020.3,E" in
  let s' := lit "$GNRMC,225446.33,A,4916.45,N,12311.12,W,000.5,154.7,191194,020.3,E" in
  clock ex_now /\
  exists fs gs d d', gnss_with s (lit "GN") (lit "RMC") fs /\ gnss_with s' (lit "GN") (lit "RMC") gs /\
    (forall i, i <> 7%nat -> fld fs i = fld gs i) /\
    fst (parse_sentence true ex_now s new_parser) = Ok (PsRmc d) /\
    fst (parse_sentence true ex_now s' new_parser) = Ok (PsRmc d') /\
    rmc_bearing d <> rmc_bearing d' /\ rmc_longitude d = rmc_longitude d'.
Proof.
  cbv zeta. split; [unfold clock, year_in_range, valid_date, valid_time; cbn; lia|].
  eexists. eexists. eexists. eexists. split; [gnss|]. split; [gnss|]. split.
  - intros i Hi. do 7 (destruct i as [|i]; [reflexivity|]). destruct i as [|i]; [now destruct Hi|].
    do 4 (destruct i as [|i]; [reflexivity|]). destruct i; reflexivity.
  - split; [vm_compute; reflexivity|]. split; [vm_compute; reflexivity|]. split; [discriminate|reflexivity].
Qed.
