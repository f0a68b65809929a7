(** C77, C78: errors and their texts. *)
From stdpp Require Import gmap.
From Coq Require Import List NArith ZArith Bool String Lia.
From Verif Require Import Base Str F64 Chrono Types Util AisMod Vdm Gnss Parser
  SpecText SpecResult SpecTime SpecAis SpecReal SpecState SpecFields SpecPanic SpecError StrFacts FrontFacts CallFacts ResultFacts BitFacts VdmFacts
  LayoutFacts FloatFacts DecimalFacts FieldFacts StateFacts RunFacts PropFront PropBits PropFields PropState PropStatic PropTables PropPanic PropHist.
Import ListNotations.
Open Scope N_scope.

Local Opaque parse_f64 f64_div f64_mul f64_of_Z f64_of_dec.

Definition silent (cs : checks) : Prop := Forall (fun c : Prop * str => ~ fst c) cs.

Lemma complaint_silent cs t : complaint cs t -> ~ silent cs.
Proof.
  induction cs as [|[bad text] cs IH]; cbn [complaint]; [tauto|]. intros H S. inversion S as [|? ? S1 S2]; subst. cbn in S1.
  destruct H as [[H _]|[_ H]]; [now apply S1|now apply IH].
Qed.

Lemma complaint_app c1 c2 t : complaint (c1 ++ c2) t <-> complaint c1 t \/ silent c1 /\ complaint c2 t.
Proof.
  induction c1 as [|[bad text] c1 IH]; cbn [complaint app].
  - split; [intros H; right; split; [constructor|exact H]|tauto].
  - rewrite IH. split.
    + intros [H|(N & [H|[S H]])]; [tauto|tauto|]. right. split; [constructor; assumption|exact H].
    + intros [[H|[N H]]|[S H]]; [tauto|tauto|]. inversion S as [|? ? S1 S2]; subst. cbn in S1. tauto.
Qed.

Lemma complaint_unique cs t t' : complaint cs t -> complaint cs t' -> t = t'.
Proof.
  induction cs as [|[bad text] cs IH]; cbn [complaint]; [tauto|]. intros [[B ->]|[B H]] [[B' ->]|[B' H']]; [reflexivity|tauto|tauto|auto].
Qed.

Record complains {A} (m : outcome ParseError A) (cs : checks) : Prop := mk_complains {
  complains_err : forall e, m = Err e <-> exists t, e = InvalidSentence t /\ complaint cs t;
  complains_ok : forall a, m = Ok a -> silent cs }.

Lemma complains_one {A} (m : outcome ParseError A) P bad text :
  decides m P bad False -> (forall e, m = Err e -> e = InvalidSentence text) -> complains m [(bad, text)].
Proof.
  intros [H1 H2 H3] He. constructor.
  - intros e. cbn [complaint]. split.
    + intros E. exists text. split; [now apply He|]. left. split; [|reflexivity]. apply H2. eauto.
    + intros (t & -> & [[B ->]|[_ []]]). apply H2 in B as (e & E). rewrite E. f_equal. now apply He.
  - intros a E. constructor; [|constructor]. cbn. intros B. apply H2 in B as (e & E'). congruence.
Qed.

Lemma complains_bind {A B} (m : outcome ParseError A) (k : A -> outcome ParseError B) c1 c2 :
  complains m c1 -> m <> Panic -> (forall a, m = Ok a -> complains (k a) c2) -> complains (let! a := m in k a) (c1 ++ c2).
Proof.
  intros [E1 O1] NP H. destruct m as [a|e|]; [|clear H|congruence]; cbn [bind].
  - specialize (H a eq_refl). specialize (O1 a eq_refl). destruct H as [E2 O2]. constructor.
    + intros e. rewrite E2. split; intros (t & -> & X); exists t; (split; [reflexivity|]).
      * apply complaint_app. now right.
      * apply complaint_app in X as [X|[_ X]]; [|exact X]. now apply complaint_silent in X.
    + intros b Hb. apply Forall_app. split; [exact O1|]. now apply (O2 b).
  - constructor; [|discriminate]. intros e'. destruct (proj1 (E1 e) eq_refl) as (t & -> & X). split.
    + intros Y. injection Y as <-. exists t. split; [reflexivity|]. apply complaint_app. now left.
    + intros (t' & -> & Y). f_equal. f_equal. apply complaint_app in Y as [Y|[S _]].
      * now apply (complaint_unique c1).
      * now apply complaint_silent in X.
Qed.

Lemma complains_return {A} (a : A) : complains (Ok a) [].
Proof. constructor; [|constructor]. intros e. split; [discriminate|]. intros (t & _ & []). Qed.

Lemma decides_no_panic {E A} (m : outcome E A) P F : decides m P F False -> m <> Panic.
Proof. intros [_ _ H]. tauto. Qed.

Lemma number_complains {A} (parse : str -> option A) means h fs i l :
  (forall s v, parse s = Some v <-> means s v) -> dec (N.of_nat (S i)) = lit l ->
  complains (number parse (h :: fs) (S i)) [number_check means l (fld fs i)] /\ number parse (h :: fs) (S i) <> Panic.
Proof.
  intros H D. pose proof (number_spec parse means h fs i H) as N. split; [|now apply decides_no_panic in N].
  apply (complains_one _ _ _ _ N). intros e. unfold number, pick_number_field. change (field (h :: fs) (S i)) with (fld fs i).
  destruct (negb _); [|discriminate]. destruct (parse _); [discriminate|]. rewrite D. cbn [map_err]. congruence.
Qed.

Lemma latitude_complains f h : complains (map_err InvalidSentence (parse_latitude_ddmm_mmm f h)) [latitude_check f h] /\
  map_err InvalidSentence (parse_latitude_ddmm_mmm f h) <> Panic.
Proof.
  split; [|exact (decides_no_panic _ _ _ (latitude_decides f h))]. apply (complains_one _ _ _ _ (latitude_decides f h)).
  intros e. unfold parse_latitude_ddmm_mmm, parse_angle. destruct (negb _); [|discriminate]. destruct (match_degrees _ _) as [[]|]; cbn [map_err]; congruence.
Qed.
Lemma longitude_complains f h : complains (map_err InvalidSentence (parse_longitude_dddmm_mmm f h)) [longitude_check f h] /\
  map_err InvalidSentence (parse_longitude_dddmm_mmm f h) <> Panic.
Proof.
  split; [|exact (decides_no_panic _ _ _ (longitude_decides f h))]. apply (complains_one _ _ _ _ (longitude_decides f h)).
  intros e. unfold parse_longitude_dddmm_mmm, parse_angle. destruct (negb _); [|discriminate]. destruct (match_degrees _ _) as [[]|]; cbn [map_err]; congruence.
Qed.

Ltac step lem :=
  let C := fresh "C" in let N := fresh "N" in
  destruct lem as [C N];
  match goal with |- complains _ ?cs =>
    match cs with ?c :: ?rest => change cs with ([c] ++ rest) end end;
  apply complains_bind; [exact C|exact N|clear C N; intros ? _].

Lemma gga_complains now body nav h fs ts : split_on 44 body = h :: fs ->
  ok_opt (F := ParseError) (parse_hhmmss (fld fs 0) now) = Ok ts -> complains (handle_gga now body nav) (gga_checks fs).
Proof.
  intros Hs Ht. unfold handle_gga. rewrite Hs. cbv zeta. change (field (h :: fs) 1) with (fld fs 0). rewrite Ht. cbn [bind].
  change (field (h :: fs) 2) with (fld fs 1). change (field (h :: fs) 3) with (fld fs 2).
  change (field (h :: fs) 4) with (fld fs 3). change (field (h :: fs) 5) with (fld fs 4).
  unfold gga_checks. step (latitude_complains (fld fs 1) (fld fs 2)). step (longitude_complains (fld fs 3) (fld fs 4)).
  step (number_complains parse_u8 (number_text 255) h fs 5 "6" parse_u8_means eq_refl).
  step (number_complains parse_u8 (number_text 255) h fs 6 "7" parse_u8_means eq_refl).
  step (number_complains parse_f64 reads_double h fs 7 "8" parse_f64_reads eq_refl).
  step (number_complains parse_f64 reads_double h fs 8 "9" parse_f64_reads eq_refl).
  step (number_complains parse_f64 reads_double h fs 10 "11" parse_f64_reads eq_refl).
  step (number_complains parse_f64 reads_double h fs 12 "13" parse_f64_reads eq_refl).
  step (number_complains parse_u16 (number_text 65535) h fs 13 "14" parse_u16_means eq_refl).
  apply complains_return.
Qed.

Lemma rmc_status_complains f : complains (rmc_status f)
    [(malformed (word statuses) f, lit "Invalid RMC navigation receiver status: " ++ f)] /\ rmc_status f <> Panic.
Proof.
  split; [|exact (decides_no_panic _ _ _ (rmc_status_decides f))]. apply (complains_one _ _ _ _ (rmc_status_decides f)).
  intros e. unfold rmc_status. repeat (match goal with |- context [if ?b then _ else _] => destruct b end; [discriminate|]). congruence.
Qed.
Lemma gsa_mode1_complains f : complains (gsa_mode1 f)
    [(malformed (word selection_modes) f, lit "Invalid GPGSA mode: " ++ f)] /\ gsa_mode1 f <> Panic.
Proof.
  split; [|exact (decides_no_panic _ _ _ (gsa_mode1_decides f))]. apply (complains_one _ _ _ _ (gsa_mode1_decides f)).
  intros e. unfold gsa_mode1. repeat (match goal with |- context [if ?b then _ else _] => destruct b end; [discriminate|]). congruence.
Qed.
Lemma gsa_mode2_complains f : complains (gsa_mode2 f)
    [(malformed (word fix_modes) f, lit "Invalid GPGSA fix type: " ++ f)] /\ gsa_mode2 f <> Panic.
Proof.
  split; [|exact (decides_no_panic _ _ _ (gsa_mode2_decides f))]. apply (complains_one _ _ _ _ (gsa_mode2_decides f)).
  intros e. unfold gsa_mode2. repeat (match goal with |- context [if ?b then _ else _] => destruct b end; [discriminate|]). congruence.
Qed.

Lemma number_some {A} (parse : str -> option A) h fs i v : number parse (h :: fs) (S i) = Ok v -> (v = None <-> fld fs i = []).
Proof.
  unfold number, pick_number_field. change (field (h :: fs) (S i)) with (fld fs i).
  destruct (fld fs i) as [|c f]; cbn [str_eqb negb].
  - cbn. intros [= <-]. tauto.
  - change (negb (str_eqb (c :: f) [])) with true. cbv iota. destruct (parse _); cbn [map_err]; intros [= <-]. split; discriminate.
Qed.

Lemma variation_complains h fs : complains (rmc_variation_field (h :: fs))
   [number_check reads_double "10" (fld fs 9);
    (fld fs 9 <> [] /\ fld fs 10 <> lit "E" /\ fld fs 10 <> lit "W", lit "Invalid RMC variation side: " ++ fld fs 10)] /\
  rmc_variation_field (h :: fs) <> Panic.
Proof.
  split; [|exact (decides_no_panic _ _ _ (variation_decides h fs))]. unfold rmc_variation_field.
  destruct (number_complains parse_f64 reads_double h fs 9 "10" parse_f64_reads eq_refl) as [C N].
  match goal with |- complains _ (?c :: ?rest) => change (c :: rest) with ([c] ++ rest) end.
  apply complains_bind; [exact C|exact N|]. intros v Hv. apply number_some in Hv.
  change (field (h :: fs) 11) with (fld fs 10). cbv zeta. destruct v as [y|].
  - assert (Hn : fld fs 9 <> []) by (intros X; apply Hv in X; discriminate).
    destruct (str_eqb_spec (fld fs 10) (lit "E")) as [E|E]; [|destruct (str_eqb_spec (fld fs 10) (lit "W")) as [W|W]].
    1, 2: constructor; [intros e; split; [discriminate|cbn; intros (t & _ & [[X _]|[_ []]]); tauto]
                       |intros a _; constructor; [cbn; tauto|constructor]].
    constructor; [|discriminate]. intros e. split.
    + intros [= <-]. eexists. split; [reflexivity|]. left. auto.
    + cbn [complaint]. intros (t & -> & [[_ ->]|[_ []]]). reflexivity.
  - assert (Hn : fld fs 9 = []) by (now apply Hv).
    constructor; [intros e; split; [discriminate|cbn; intros (t & _ & [[X _]|[_ []]]); tauto]
                       |intros a _; constructor; [cbn; tauto|constructor]].
Qed.

Lemma rmc_complains now body nav h fs ts : split_on 44 body = h :: fs ->
  ok_opt (F := ParseError) (parse_yymmdd_hhmmss (fld fs 8) (fld fs 0) now) = Ok ts -> complains (handle_rmc now body nav) (rmc_checks fs).
Proof.
  intros Hs Ht. unfold handle_rmc. rewrite Hs. cbv zeta. change (field (h :: fs) 1) with (fld fs 0).
  change (field (h :: fs) 9) with (fld fs 8). rewrite Ht. cbn [bind].
  change (field (h :: fs) 2) with (fld fs 1). change (field (h :: fs) 3) with (fld fs 2).
  change (field (h :: fs) 4) with (fld fs 3). change (field (h :: fs) 5) with (fld fs 4). change (field (h :: fs) 6) with (fld fs 5).
  unfold rmc_checks. step (rmc_status_complains (fld fs 1)).
  step (latitude_complains (fld fs 2) (fld fs 3)). step (longitude_complains (fld fs 4) (fld fs 5)).
  step (number_complains parse_f64 reads_double h fs 6 "7" parse_f64_reads eq_refl).
  step (number_complains parse_f64 reads_double h fs 7 "8" parse_f64_reads eq_refl).
  match goal with |- complains _ ?cs => rewrite <- (app_nil_r cs) end.
  destruct (variation_complains h fs) as [C N]. apply complains_bind; [exact C|exact N|]. intros ? _. apply complains_return.
Qed.

Lemma gsa_prns_complains h fs l : Forall (fun x => dec (N.of_nat (S (snd x))) = lit (fst x)) l ->
  complains (gsa_prns (h :: fs) (map (fun x => S (snd x)) l))
    (map (fun x : string * nat => number_check (number_text 255) (fst x) (fld fs (snd x))) l) /\
  gsa_prns (h :: fs) (map (fun x => S (snd x)) l) <> Panic.
Proof.
  induction l as [|[n i] l IH]; intros F; cbn [map gsa_prns fst snd]; [split; [apply complains_return|discriminate]|].
  inversion F as [|? ? F1 F2]; subst. specialize (IH F2) as [IH1 IH2]. cbn in F1.
  destruct (number_complains parse_u8 (number_text 255) h fs i n parse_u8_means F1) as [C N].
  change (field (h :: fs) (S i)) with (fld fs i).
  match goal with |- complains _ (?c :: ?rest) /\ _ => change (c :: rest) with ([c] ++ rest) end.
  destruct (str_eqb_spec (fld fs i) []) as [E|E]; cbn [negb].
  - split; [|exact IH2]. rewrite E. assert (~ malformed (number_text 255) []) by (unfold malformed; tauto).
    destruct IH1 as [I1 I2]. constructor.
    + intros e. rewrite I1. split; intros (t & -> & X); exists t; (split; [reflexivity|]).
      * right. split; assumption.
      * destruct X as [[X _]|[_ X]]; [contradiction|exact X].
    + intros a Ha. constructor; [assumption|]. now apply (I2 a).
  - split.
    + apply complains_bind; [exact C|exact N|]. intros v _. match goal with |- complains _ ?cs => rewrite <- (app_nil_r cs) end.
      apply complains_bind; [exact IH1|exact IH2|]. intros w _. apply complains_return.
    + destruct (number parse_u8 (h :: fs) (S i)); cbn [bind]; [|discriminate|congruence].
      destruct (gsa_prns _ _); cbn [bind]; [discriminate|discriminate|congruence].
Qed.

Lemma gsa_complains body nav h fs : split_on 44 body = h :: fs -> complains (handle_gsa body nav) (gsa_checks fs).
Proof.
  intros Hs. unfold handle_gsa. rewrite Hs. cbv zeta.
  change (field (h :: fs) 1) with (fld fs 0). change (field (h :: fs) 2) with (fld fs 1).
  unfold gsa_checks. cbn [app]. step (gsa_mode1_complains (fld fs 0)). step (gsa_mode2_complains (fld fs 1)).
  destruct (gsa_prns_complains h fs gsa_numbers) as [C N].
  { unfold gsa_numbers. repeat (constructor; [vm_compute; reflexivity|]). constructor. }
  change (map _ gsa_numbers) with (seq 3 12) in C at 1. change (map (fun x => S (snd x)) gsa_numbers) with (seq 3 12) in N.
  apply complains_bind; [exact C|exact N|]. intros ? _.
  step (number_complains parse_f64 reads_double h fs 14 "15" parse_f64_reads eq_refl).
  step (number_complains parse_f64 reads_double h fs 15 "16" parse_f64_reads eq_refl).
  step (number_complains parse_f64 reads_double h fs 16 "17" parse_f64_reads eq_refl).
  apply complains_return.
Qed.

Lemma gll_complains now body nav h fs : split_on 44 body = h :: fs -> complains (handle_gll now body nav) (gll_checks fs).
Proof.
  intros Hs. unfold handle_gll. rewrite Hs. cbv zeta.
  change (field (h :: fs) 1) with (fld fs 0). change (field (h :: fs) 2) with (fld fs 1).
  change (field (h :: fs) 3) with (fld fs 2). change (field (h :: fs) 4) with (fld fs 3).
  unfold gll_checks. step (latitude_complains (fld fs 0) (fld fs 1)). step (longitude_complains (fld fs 2) (fld fs 3)).
  constructor; [|constructor]. intros e. split; [|intros (t & _ & [])].
  destruct (parse_hhmmss _ _); cbn [ok_opt bind]; discriminate.
Qed.

Lemma parse_u32_means s v : parse_u32 s = Some v <-> number_text (2 ^ 32 - 1) s v.
Proof. apply parse_uint_spec. Qed.

Lemma complains_cast {A B} e cs : complains (@Err ParseError A e) cs -> complains (@Err ParseError B e) cs.
Proof.
  intros [H _]. constructor; [|discriminate]. intros e'. rewrite <- H. split; intros X; injection X as ->; reflexivity.
Qed.

Lemma gsv_complains ovf body nav p h fs : split_on 44 body = h :: fs -> complains (fst (handle_gsv ovf body nav p)) (gsv_checks fs).
Proof.
  intros Hs. unfold handle_gsv. rewrite Hs. cbv zeta. unfold gsv_checks.
  destruct (number_complains parse_u32 (number_text (2 ^ 32 - 1)) h fs 0 "1" parse_u32_means eq_refl) as [C1 N1].
  destruct (number_complains parse_u32 (number_text (2 ^ 32 - 1)) h fs 1 "2" parse_u32_means eq_refl) as [C2 N2].
  pose proof (complains_bind _ (fun _ => number parse_u32 (h :: fs) 2) _ _ C1 N1 (fun _ _ => C2)) as C. cbn [app] in C.
  destruct (number parse_u32 (h :: fs) 1) as [c|e|]; cbn [bind] in C; [|exact (complains_cast _ _ C)|congruence].
  destruct (number parse_u32 (h :: fs) 2) as [n|e|]; [|exact (complains_cast _ _ C)|congruence].
  assert (S : silent (gsv_checks fs)) by exact (complains_ok _ _ C _ eq_refl).
  constructor; [|intros _ _; exact S]. intros e. split; [|intros (t & _ & X); now apply complaint_silent in X].
  destruct (gsv_range _ _); cbn [fst]; [|discriminate]. destruct (_ =? _); [destruct (gsv_collect _ _ _ _ _)|]; discriminate.
Qed.

Lemma fragment_wrong f : parse_u8 f = None <-> fst (fragment_check f).
Proof.
  cbn [fragment_check fst]. split.
  - intros E v H. apply parse_u8_means in H. congruence.
  - intros H. destruct (parse_u8 f) as [v|] eqn:E; [|reflexivity]. apply parse_u8_means in E. now destruct (H v).
Qed.

Lemma fragment_one {B} f (k : N -> outcome ParseError B) cs :
  (forall v, parse_u8 f = Some v -> complains (k v) cs) ->
  complains (match parse_u8 f with
             | Some v => k v
             | None => Err (InvalidSentence (lit "Failed to parse fragment count: " ++ f))
             end) (fragment_check f :: cs).
Proof.
  intros H. pose proof (fragment_wrong f) as W. destruct (parse_u8 f) as [v|].
  - destruct (H v eq_refl) as [E O]. assert (G : ~ fst (fragment_check f)) by (intros X; apply W in X; discriminate).
    constructor.
    + intros e. rewrite E. split; intros (t & -> & X); exists t; (split; [reflexivity|]).
      * right. split; [exact G|exact X].
      * destruct X as [[X _]|[_ X]]; [now destruct G|exact X].
    + intros a Ha. constructor; [exact G|]. now apply (O a).
  - assert (G : fst (fragment_check f)) by (now apply W). constructor; [|discriminate]. intros e. split.
    + intros [= <-]. eexists. split; [reflexivity|]. left. split; [exact G|reflexivity].
    + intros (t & -> & [[_ ->]|[X _]]); [reflexivity|now destruct X].
Qed.

Lemma scan_ok n f l : (3 <= n)%nat -> exists g, vdm_scan n f l = Ok g.
Proof.
  revert n f. induction l as [|s l IH]; intros n f H; [eexists; reflexivity|].
  destruct n as [|[|[|[|[|[|n]]]]]]; try lia; cbn [vdm_scan]; apply IH; lia.
Qed.

Lemma vdm_scan_complains t fs : complains (vdm_scan 0 vdm_start (t :: fs)) (vdm_checks fs).
Proof.
  cbn [vdm_scan]. destruct fs as [|a fs]; [apply complains_return|]. cbn [vdm_scan]. cbv zeta.
  unfold vdm_checks. cbn [firstn map]. apply fragment_one. intros v _.
  destruct fs as [|b fs]; [apply complains_return|]. cbn [vdm_scan firstn map]. cbv zeta. apply fragment_one. intros w _.
  match goal with |- complains (vdm_scan ?n ?f ?l) _ => destruct (scan_ok n f l) as [g ->]; [lia|] end. apply complains_return.
Qed.

(** ** C77 *)

Lemma complains_sentence ovf now s p m cs : parse_sentence ovf now s p = (m, p) -> complains m cs ->
  forall e, fst (parse_sentence ovf now s p) = Err e <-> exists text, e = InvalidSentence text /\ complaint cs text.
Proof. intros -> [H _]. exact H. Qed.

Lemma decides_stamp {A} (m : outcome ParseError A) P K o : decides m P False K -> P o -> m = Ok o.
Proof. intros [H _ _] Ho. now apply H. Qed.

(** The errors of a GGA sentence, given a legible time of day. *)
Theorem c77_gga ovf now s tt fields p o :
  gnss_with s tt (lit "GGA") fields -> clock now -> time_stamp now (fld fields 0) o ->
  forall e, fst (parse_sentence ovf now s p) = Err e <->
    exists text, e = InvalidSentence text /\ complaint (gga_checks fields) text.
Proof.
  intros Hs Hc Ht. destruct (gnss_with_body _ _ _ _ Hs (gnss_with_plain _ _ _ _ Hs)) as (body & given & _ & _ & Hf & Hr).
  specialize (Hr ovf now p _ (PGga now body (nav_of_talker tt))).
  exact (complains_sentence _ _ _ _ _ _ Hr (gga_complains now body _ _ _ o Hf (decides_stamp _ _ _ _ (hhmmss_decides _ _ Hc) Ht))).
Qed.
Print Assumptions c77_gga.

Theorem c77_rmc ovf now s tt fields p o :
  gnss_with s tt (lit "RMC") fields -> (0 <= dt_year now)%Z -> date_time_stamp now (fld fields 8) (fld fields 0) o ->
  forall e, fst (parse_sentence ovf now s p) = Err e <->
    exists text, e = InvalidSentence text /\ complaint (rmc_checks fields) text.
Proof.
  intros Hs Hc Ht. destruct (gnss_with_body _ _ _ _ Hs (gnss_with_plain _ _ _ _ Hs)) as (body & given & _ & _ & Hf & Hr).
  specialize (Hr ovf now p _ (PRmc now body (nav_of_talker tt))).
  exact (complains_sentence _ _ _ _ _ _ Hr (rmc_complains now body _ _ _ o Hf (decides_stamp _ _ _ _ (yymmdd_decides _ _ _ Hc) Ht))).
Qed.
Print Assumptions c77_rmc.

Theorem c77_gsa ovf now s tt fields p :
  gnss_with s tt (lit "GSA") fields ->
  forall e, fst (parse_sentence ovf now s p) = Err e <->
    exists text, e = InvalidSentence text /\ complaint (gsa_checks fields) text.
Proof.
  intros Hs. destruct (gnss_with_body _ _ _ _ Hs (gnss_with_plain _ _ _ _ Hs)) as (body & given & _ & _ & Hf & Hr).
  specialize (Hr ovf now p _ (PGsa now body (nav_of_talker tt))).
  exact (complains_sentence _ _ _ _ _ _ Hr (gsa_complains body _ _ _ Hf)).
Qed.
Print Assumptions c77_gsa.

Theorem c77_gll ovf now s tt fields p :
  gnss_with s tt (lit "GLL") fields ->
  forall e, fst (parse_sentence ovf now s p) = Err e <->
    exists text, e = InvalidSentence text /\ complaint (gll_checks fields) text.
Proof.
  intros Hs. destruct (gnss_with_body _ _ _ _ Hs (gnss_with_plain _ _ _ _ Hs)) as (body & given & _ & _ & Hf & Hr).
  specialize (Hr ovf now p _ (PGll now body (nav_of_talker tt))).
  exact (complains_sentence _ _ _ _ _ _ Hr (gll_complains now body _ _ _ Hf)).
Qed.
Print Assumptions c77_gll.

Theorem c77_gsv ovf now s tt fields p :
  gnss_with s tt (lit "GSV") fields ->
  forall e, fst (parse_sentence ovf now s p) = Err e <->
    exists text, e = InvalidSentence text /\ complaint (gsv_checks fields) text.
Proof.
  intros Hs. pose proof (gnss_with_plain _ _ _ _ Hs) as Hp. destruct Hs as ((body & given & Hb & Hc & Hf) & Hne & Ht).
  rewrite <- byte_len_spec in Ht. pose proof Hf as (_ & _ & Hj). rewrite join_cons in Hj by exact Hne.
  rewrite (parse_gsv ovf now s p body given tt _ Hb Hc Hj Hp Ht). apply has_fields_split in Hf. symmetry in Hf.
  exact (complains_err _ _ (gsv_complains ovf body _ p _ _ Hf)).
Qed.
Print Assumptions c77_gsv.

(** An AIS sentence whose fragment count or number is wrong. *)
Theorem c77_vdm ovf now s tt fff fields p text :
  vdm_with s tt fff fields -> complaint (vdm_checks fields) text ->
  parse_sentence ovf now s p = (Err (InvalidSentence text), p).
Proof.
  intros Hs Hw. rewrite (vdm_with_step _ _ _ _ _ _ _ Hs).
  match goal with |- context [vdm_scan 0 vdm_start ?l] =>
    pose proof (vdm_scan_complains (hd [] l) fields : complains (vdm_scan 0 vdm_start l) _) as [E _] end.
  now rewrite (proj2 (E (InvalidSentence text)) (ex_intro _ text (conj eq_refl Hw))).
Qed.
Print Assumptions c77_vdm.

(** ** C78 *)

Lemma dispatch_err now fff bits st own p e : fff = lit "VDM" \/ fff = lit "VDO" -> vsds_ok p ->
  fst (dispatch_message now (lit "!" ++ fff) bits st own p) = Err e <-> message_error fff bits e.
Proof.
  intros Hf Hok.
  assert (NO : forall n, pick_u64 bits 0 6 = n -> In n [1; 2; 3; 4; 5; 6; 9; 10; 18; 21; 27] -> ~ message_error fff bits e).
  { intros n En Hn M. destruct M as [X|k X Y|k X Y Z]; unfold bits_at in X; rewrite <- pick_u64_spec in X by lia;
      rewrite En in X; subst n; cbn [In] in Hn; [lia| |lia]. cbn [In] in Y. lia. }
  assert (OK : forall n, pick_u64 bits 0 6 = n -> In n [1; 2; 3; 4; 5; 6; 9; 10; 18; 21; 27] ->
    forall o : outcome ParseError ParsedSentence, (forall e, o <> Err e) -> o = Err e <-> message_error fff bits e).
  { intros n En Hn o Ho. split; [intros X; now apply Ho in X|]. intros X. now apply (NO n) in X. }
  pose proof (dispatch_message_case now (lit "!" ++ fff) bits st own p) as C.
  remember (pick_u64 bits 0 6) as ty eqn:Ety in C. symmetry in Ety.
  destruct C as [n Hn| | | | | | | | | | |n Hn]; cbn [fst].
  - apply (OK n Ety); [cbn [In]; lia|]. intros e'. unfold handle_t1t2t3. discriminate.
  - apply (OK 4 Ety); [cbn [In]; lia|]. intros e'. unfold handle_t4.
    match goal with |- context [ymd_and_hms ?y ?m ?d ?h ?mi ?s] =>
      destruct (@ymd_and_hms_cases ParseError y m d h mi s) as [(-> & _)|(-> & _)] end; discriminate.
  - apply (OK 5 Ety); [cbn [In]; lia|]. intros e'. unfold handle_t5.
    repeat match goal with |- context [@pick_string ?E ?b ?i ?n] =>
      let x := fresh in destruct (@pick_string_ok E b i n) as [x ->] end. cbn [bind].
    destruct (@eta_cases ParseError bits 274 now (pick_u64 bits 274 4) (pick_u64 bits 278 5) (pick_u64 bits 283 5)
      (pick_u64 bits 288 6) (pick_u64 bits 294 6)) as [(eta & -> & R)|(-> & R)]; try reflexivity;
      try (apply (bits_small bits); lia); cbn [bind]; discriminate.
  - apply (OK 6 Ety); [cbn [In]; lia|]. intros e'. discriminate.
  - apply (OK 9 Ety); [cbn [In]; lia|]. intros e'. discriminate.
  - apply (OK 10 Ety); [cbn [In]; lia|]. intros e'. discriminate.
  - apply (OK 18 Ety); [cbn [In]; lia|]. intros e'. discriminate.
  - unfold handle_t19. split.
    + intros X. injection X as <-. apply error_19. unfold bits_at. now rewrite <- pick_u64_spec by lia.
    + intros M. destruct M as [X|k X Y|k X Y Z]; [reflexivity| |]; unfold bits_at in X; rewrite <- pick_u64_spec in X by lia;
        rewrite Ety in X; subst; [cbn [In] in Y; lia|lia].
  - apply (OK 21 Ety); [cbn [In]; lia|]. intros e'. unfold handle_t21.
    repeat match goal with |- context [@pick_string ?E ?b ?i ?n] =>
      let x := fresh in destruct (@pick_string_ok E b i n) as [x ->] end. cbn [bind]. discriminate.
  - unfold handle_t24. assert (L : pick_u64 bits 38 2 < 4).
    { pose proof (bits_small bits 38 2 ltac:(lia)) as L. exact L. }
    destruct ((pick_u64 bits 38 2 =? 0) || (pick_u64 bits 38 2 =? 1)) eqn:Ep.
    + assert (X : pick_u64 bits 38 2 < 2) by (apply orb_true_iff in Ep as [Ep|Ep]; apply N.eqb_eq in Ep; lia).
      split.
      * destruct (t24_fields bits own _) as [v|e'|] eqn:Ev.
        -- destruct (t24_fields_facts _ _ _ _ Ev) as [_ F]. destruct (t24_store_total v p Hok F) as [x Hx]. rewrite Hx. discriminate.
        -- exfalso. revert Ev. unfold t24_fields.
           destruct (_ =? 1); cbn [bind];
           repeat match goal with |- context [@pick_string ?E ?b ?i ?n] =>
             let x := fresh in destruct (@pick_string_ok E b i n) as [x ->] end; cbn [bind]; discriminate.
        -- discriminate.
      * intros M. destruct M as [Y|k Y Z|k Y Z W]; unfold bits_at in Y; rewrite <- pick_u64_spec in Y by lia; rewrite Ety in Y; subst.
        -- discriminate Y.
        -- cbn [In] in Z. lia.
        -- unfold bits_at in W. rewrite <- pick_u64_spec in W by lia. lia.
    + apply orb_false_iff in Ep as [E0 E1]. apply N.eqb_neq in E0, E1. cbn [fst]. split.
      * intros X. injection X as <-. apply error_part; unfold bits_at; rewrite <- ?pick_u64_spec by lia; [exact Ety|reflexivity|lia].
      * intros M. destruct M as [Y|k Y Z|k Y Z W]; unfold bits_at in Y; rewrite <- pick_u64_spec in Y by lia; rewrite Ety in Y; subst.
        -- discriminate Y.
        -- cbn [In] in Z. lia.
        -- unfold bits_at. now rewrite <- pick_u64_spec by lia.
  - apply (OK 27 Ety); [cbn [In]; lia|]. intros e'. discriminate.
  - unfold unsupported_message. split.
    + intros X. injection X as <-. apply (error_type fff bits n); [unfold bits_at; now rewrite <- pick_u64_spec by lia|exact Hn].
    + intros M. destruct M as [Y|k Y Z|k Y Z W]; unfold bits_at in Y; rewrite <- pick_u64_spec in Y by lia; rewrite Ety in Y; subst.
      * exfalso. apply Hn. cbn [In]. lia.
      * reflexivity.
      * exfalso. apply Hn. cbn [In]. lia.
Qed.

Lemma decode_err ovf now fff payload st p e : fff = lit "VDM" \/ fff = lit "VDO" -> vsds_ok p ->
  fst (decode_payload ovf now fff payload st p) = Err e <->
  readable ovf payload /\ message_error fff (payload_bits payload) e.
Proof.
  intros Hf Hok. unfold decode_payload. destruct (parse_payload_cases ovf payload) as [(bits & E)|(-> & X & ->)].
  - rewrite E. rewrite <- (payload_bits_model _ _ _ E). rewrite (dispatch_err now fff bits st _ p e Hf Hok).
    split; [|tauto]. intros M. split; [|exact M]. intros ->. apply Forall_forall. intros c Hc.
    destruct (N.lt_ge_cases (c mod 256) 48) as [L|L]; [|exact L]. exfalso. rewrite parse_payload_panic in E; [discriminate|].
    apply Exists_exists. eauto.
  - split; [discriminate|]. intros [F _]. specialize (F eq_refl). exfalso. apply Exists_exists in X as (c & Hc & Hl).
    rewrite Forall_forall in F. specialize (F c Hc). cbv beta in F. lia.
Qed.

Lemma recognized_name t nav st t2 : recognized t nav st t2 -> type_name t t2.
Proof.
  intros [tt fff H1 H2|tt fff H1 H2|tt more H1 H2|tt more H1 H2|c r H1 H2 H3]; rewrite ?byte_len_spec in *.
  - apply short_type; auto.
  - apply short_type; auto.
  - apply long_type; auto.
  - apply long_type; auto.
  - now apply other_type.
Qed.
Lemma name_recognized t t2 : type_name t t2 -> exists nav st, recognized t nav st t2.
Proof.
  intros [mark tt fff [-> | ->] H1 H2|mark tt more [-> | ->] H1 H2|c r H1 H2 H3]; rewrite <- ?byte_len_spec in *.
  - do 2 eexists. now apply RGnss.
  - do 2 eexists. now apply RAis.
  - do 2 eexists. now apply RLongGnss.
  - do 2 eexists. now apply RLongAis.
  - do 2 eexists. now apply ROther.
Qed.

Lemma decoded_handled : decoded_types = handled_types.
Proof. reflexivity. Qed.

Lemma undecoded_cases t : (exists f, In f undecoded_formatters /\ t = lit "$" ++ f /\
    unsupported_error t = UnsupportedSentenceType (lit "Unimplemented NMEA sentence: $" ++ f)) \/
  (~ In t (map (app (lit "$")) undecoded_formatters) /\
    unsupported_error t = UnsupportedSentenceType (lit "Unsupported sentence type: " ++ t)).
Proof.
  unfold unsupported_error. destruct (existsb (fun f => str_eqb t (lit "$" ++ f)) undecoded_formatters) eqn:E.
  - left. apply existsb_exists in E as (f & Hf & E). apply str_eqb_eq in E. exists f. split; [exact Hf|]. split; [exact E|]. now rewrite E.
  - right. split; [|reflexivity]. intros X. apply in_map_iff in X as (f & <- & Hf).
    rewrite <- not_true_iff_false in E. apply E. apply existsb_exists. exists f. split; [exact Hf|apply str_eqb_refl].
Qed.

Lemma unsupported_call ovf now s p t fields t2 : sentence s (t :: fields) -> fields <> [] -> type_name t t2 ->
  ~ In t2 handled_types -> fst (parse_sentence ovf now s p) = Err (unsupported_error t2).
Proof.
  intros (body & given & Hb & Hc & (_ & Hp & Hj)) Hne Hn Hh. rewrite join_cons in Hj by exact Hne. apply Forall_inv in Hp.
  apply name_recognized in Hn as (nav & st & Hr).
  rewrite (parse_unsupported ovf now s p body given t _ nav st t2 Hb Hc Hj Hp Hr Hh). cbn [fst]. now rewrite unhandled_error.
Qed.

(** What an AIS sentence does that is no half of a message. *)
Lemma quiet_error ovf now s tt fff fields e : vdm_with s tt fff fields ->
  fst (parse_sentence ovf now s new_parser) = Err e ->
  (exists text, e = InvalidSentence text /\ complaint (vdm_checks fields) text) \/
  (exists payload, one_fragment s tt fff payload) \/
  ((forall text, ~ complaint (vdm_checks fields) text) /\ denotes (fld fields 0) 1 /\ (List.length fields < 5)%nat /\
   e = UnsupportedSentenceType (lit "Unsupported !" ++ fff ++ lit " message type: 0")).
Proof.
  intros Hs. pose proof Hs as (_ & Hne & _). rewrite (vdm_with_step _ _ _ _ _ _ _ Hs).
  match goal with |- context [vdm_scan 0 vdm_start ?l] =>
    pose proof (vdm_scan_complains (hd [] l) fields : complains (vdm_scan 0 vdm_start l) _) as [E O] end.
  destruct (vdm_scan 0 vdm_start _) as [f|e'|] eqn:Ef; [|intros X; injection X as <-; left; now apply E|discriminate].
  specialize (O f eq_refl). destruct fields as [|count more]; [congruence|].
  rewrite (vdm_scan_fields _ (count :: more) count eq_refl) in Ef.
  destruct (parse_u8 count) as [c|] eqn:Ec; [|discriminate]. apply parse_u8_some in Ec as [Ec Ec'].
  assert (exists n, f = scan_of (count :: more) c n /\
     forall nb, nth_error more 0 = Some nb -> denotes nb n /\ n <= 255) as (n & -> & Hn).
  { change (nth_error (count :: more) 1) with (nth_error more 0) in Ef. destruct (nth_error more 0) as [nb|].
    - destruct (parse_u8 nb) as [n|] eqn:En; [|discriminate]. injection Ef as <-. exists n. split; [reflexivity|].
      intros nb' [= <-]. now apply parse_u8_some.
    - injection Ef as <-. exists 0. split; [reflexivity|]. discriminate. }
  clear Ef. unfold vdm_payload. cbn [scan_of vf_count vf_number vf_id vf_channel vf_payload].
  destruct (N.eqb_spec c 1) as [-> |C1].
  { destruct more as [|number [|id [|channel [|payload more]]]].
    5:{ intros _. right. left. exists payload, count, number, id, channel, n.
        destruct (Hn number eq_refl) as [Hn1 Hn2]. split; [now exists more|auto]. }
    all: intros X; right; right; split; [intros text Y; now apply complaint_silent in Y|]; split; [exact Ec|];
      split; [cbn [List.length]; lia|]; cbn [nth] in X; rewrite decode_empty in X; cbn [fst] in X; unfold unsupported_message in X;
      injection X as <-; reflexivity. }
  intros X. exfalso. revert X.
  destruct (c =? 2); [|discriminate]. destruct (match nth_error _ 2 with Some _ => _ | None => _ end); [|discriminate].
  destruct (n =? 1); [|destruct (n =? 2); [|discriminate]]; unfold pull_string; cbn [saved_fragments new_parser];
    rewrite lookup_empty; discriminate.
Qed.

(** Exactly these errors are returned. *)
Theorem c78_errors ovf now s p e :
  reachable ovf p -> clock now -> (0 <= dt_year now)%Z ->
  fst (parse_sentence ovf now s p) = Err e <-> error_of ovf now s p e.
Proof.
  intros Hr Hnow Hy. pose proof (reachable_vsds_ok _ _ Hr) as Hok. split.
  - intros H. pose proof (parse_call ovf now s p) as C.
    remember (parse_sentence ovf now s p) as r eqn:Er.
    destruct C as [body given Hb Hc|body given Hb Hc Hp|body given t rest Hb Hc Hbody Hp Ht
      |body given tt fff rest r Hb Hc Hbody Hp Ht Hr'|body given tt rest Hb Hc Hbody Hp Ht
      |body given tt fff rest Hb Hc Hbody Hp Ht Hf|body given t rest nav st t2 Hb Hc Hbody Hp Hr' Hn]; try discriminate H.
    + cbn [fst] in H. assert (E : e = CorruptedSentence (nmea_checksum body) given) by congruence. rewrite E. now apply error_checksum.
    + cbn [fst] in H. assert (E : e = InvalidSentence (lit "Invalid NMEA sentence: " ++ body)) by congruence. rewrite E. apply error_no_comma.
      exists body, given. split; [exact Hb|]. split; [exact Hc|]. repeat split; [discriminate|]. constructor; [exact Hp|constructor].
    + assert (G : gnss_with s tt fff (split_on 44 rest)).
      { split; [|split; [apply split_on_nonempty|now rewrite <- byte_len_spec]].
        eapply sentence_of; try eassumption. repeat apply plain_app; [now apply plain_lit_dec|exact Hp|].
        destruct Hr'; now apply plain_lit_dec. }
      assert (H' : fst (parse_sentence ovf now s p) = Err e) by now rewrite <- Er.
      clear H Er. destruct Hr'.
      * pose proof (c39_gga ovf now s tt _ _ p G (names_system_nav tt) Hnow) as (_ & _ & [X _] & _).
        destruct (X (ex_intro _ e H')) as [(o & To) _].
        apply (c77_gga ovf now s tt _ p o G Hnow To) in H' as (text & -> & W). eapply error_gga; eassumption.
      * pose proof (c40_rmc ovf now s tt _ _ p G (names_system_nav tt) Hy) as (_ & _ & [X _] & _).
        destruct (X (ex_intro _ e H')) as [(o & To) _].
        apply (c77_rmc ovf now s tt _ p o G Hy To) in H' as (text & -> & W). eapply error_rmc; eassumption.
      * apply (c77_gsa ovf now s tt _ p G) in H' as (text & -> & W). eapply error_gsa; eassumption.
      * exfalso. destruct (c43_vtg ovf now s tt _ _ p G (names_system_nav tt)) as [(d & E) _]. now rewrite E in H'.
      * apply (c77_gll ovf now s tt _ p G) in H' as (text & -> & W). eapply error_gll; eassumption.
    + assert (G : gnss_with s tt (lit "GSV") (split_on 44 rest)).
      { split; [|split; [apply split_on_nonempty|now rewrite <- byte_len_spec]].
        eapply sentence_of; try eassumption. now apply gsv_type_plain. }
      assert (H' : fst (parse_sentence ovf now s p) = Err e) by now rewrite <- Er.
      apply (c77_gsv ovf now s tt _ p G) in H' as (text & -> & W). eapply error_gsv; eassumption.
    + assert (V : vdm_with s tt fff (split_on 44 rest)).
      { split; [|split; [apply split_on_nonempty|split; [now rewrite <- byte_len_spec|exact Hf]]].
        eapply sentence_of; try eassumption. repeat apply plain_app; [now apply plain_lit_dec|exact Hp|].
        destruct Hf as [-> | ->]; now apply plain_lit_dec. }
      assert (H' : fst (parse_sentence ovf now s p) = Err e) by now rewrite <- Er.
      clear H Er.
      assert (Done : forall tt' fff' payload, completes s tt' fff' p payload -> fff' = lit "VDM" \/ fff' = lit "VDO" -> error_of ovf now s p e).
      { intros tt' fff' payload C F'. destruct (completes_step ovf now s tt' fff' p payload C) as (q & Hq & E).
        rewrite E in H'. apply decode_err in H' as [L M]; [|exact F'|intros m v; rewrite Hq; apply Hok].
        eapply error_message; eassumption. }
      destruct (vdm_kind ovf now s tt fff _ V) as (f & K & Ef). pose proof H' as H''. rewrite Ef in H''.
      destruct K as [r Q|tt' fff' payload F|tt' fff' mid channel a F|tt' fff' mid channel b F|tt' c n body' given' G B].
      * cbn [fst] in H''. assert (N : fst (parse_sentence ovf now s new_parser) = Err e) by (rewrite Ef; exact H'').
        destruct (quiet_error ovf now s tt fff _ e V N) as [(text & -> & W)|[(payload & O)|(W & D & L & ->)]].
        -- eapply error_fragment; eassumption.
        -- apply (Done tt fff payload); [now apply complete_one|exact Hf].
        -- eapply error_no_payload; eassumption.
      * apply (Done tt' fff' payload); [now apply complete_one|]. destruct F as (a1 & a2 & a3 & a4 & a5 & (more & F) & _).
        exact (vdm_with_formatter _ _ _ _ F).
      * unfold first_step in H''. destruct (kept p _) as [b|] eqn:Ek; [|discriminate].
        apply (Done tt' fff' (a ++ b)); [eapply complete_first; [exact F|now apply stored_kept]|exact (fragment_formatter _ _ _ _ _ _ _ F)].
      * unfold second_step in H''. destruct (kept p _) as [a|] eqn:Ek; [|discriminate].
        apply (Done tt' fff' (a ++ b)); [eapply complete_second; [exact F|now apply stored_kept]|exact (fragment_formatter _ _ _ _ _ _ _ F)].
      * exfalso. destruct G as (fields' & G & _). eapply vdm_not_gsv; eassumption.
    + cbn [fst] in H. rewrite unhandled_error in H. assert (E : e = unsupported_error t2) by congruence. rewrite E. clear H E Er.
      pose proof (sentence_of _ _ _ _ _ Hb Hc Hbody Hp) as Hs. pose proof (recognized_name _ _ _ _ Hr') as Hn'.
      destruct (undecoded_cases t2) as [(f & Hf & Et & E)|(Hf & E)]; rewrite E.
      * rewrite Et in Hn'. eapply error_unimplemented; [exact Hs|apply split_on_nonempty|exact Hn'|exact Hf].
      * eapply error_unsupported; [exact Hs|apply split_on_nonempty|exact Hn'|now rewrite decoded_handled|exact Hf].
  - intros [body given Hb Hc|body (body' & given & Hb & Hc & Hf)|t fields f Hs Hne Hn Hf|t fields t' Hs Hne Hn Hd Hu
      |tt fields o text G T W|tt fields o text G T W|tt fields text G W|tt fields text G W|tt fields text G W
      |tt fff fields text V W|tt fff fields V W D L|tt fff payload e' C L M].
    + now rewrite (parse_sentence_bad _ _ _ _ _ _ Hb Hc).
    + destruct Hf as (_ & Hp & Hj). cbn [join] in Hj. subst body'. apply Forall_inv in Hp.
      rewrite (parse_sentence_ok _ _ _ _ _ _ Hb Hc), parse_body_type. now rewrite (proj2 (before_first_none _ _) Hp).
    + rewrite (unsupported_call ovf now s p t fields (lit "$" ++ f) Hs Hne Hn).
      * f_equal. unfold undecoded_formatters in Hf. cbn [In] in Hf.
        repeat (destruct Hf as [<-|Hf]; [reflexivity|]). destruct Hf.
      * unfold undecoded_formatters in Hf. cbn [In] in Hf.
        repeat (destruct Hf as [<-|Hf]; [intros X; unfold handled_types in X; cbn [In] in X; repeat (destruct X as [X|X]; [discriminate X|]); exact X|]).
        destruct Hf.
    + rewrite decoded_handled in Hd. rewrite (unsupported_call ovf now s p t fields t' Hs Hne Hn Hd). f_equal.
      destruct (undecoded_cases t') as [(f & Hf & Et & _)|(_ & E)]; [|exact E].
      exfalso. apply Hu. rewrite Et. now apply in_map.
    + apply (c77_gga ovf now s tt _ p o G Hnow T). eauto.
    + apply (c77_rmc ovf now s tt _ p o G Hy T). eauto.
    + apply (c77_gsa ovf now s tt _ p G). eauto.
    + apply (c77_gll ovf now s tt _ p G). eauto.
    + apply (c77_gsv ovf now s tt _ p G). eauto.
    + now rewrite (c77_vdm ovf now s tt fff fields p text V W).
    + rewrite (vdm_with_step _ _ _ _ _ _ _ V).
      match goal with |- context [vdm_scan 0 vdm_start ?l] =>
        pose proof (vdm_scan_complains (hd [] l) fields : complains (vdm_scan 0 vdm_start l) _) as [E O] end.
      destruct fields as [|count more]; [destruct V as (_ & X & _); congruence|]. cbn [fld nth] in D.
      match goal with |- context [vdm_scan 0 vdm_start ?l] =>
        pose proof (vdm_scan_fields (hd [] l) (count :: more) count eq_refl) as Hv; change (hd [] l :: count :: more) with l in Hv end.
      rewrite (parse_u8_denotes _ _ D) in Hv by lia.
      match type of Hv with ?m = _ => assert (exists n, m = Ok (scan_of (count :: more) 1 n)) as (n & Hn) end.
      { destruct (nth_error (count :: more) 1) as [nb|]; [|eauto]. destruct (parse_u8 nb) as [n|]; [eauto|].
        exfalso. apply E in Hv as (text & _ & X). exact (W text X). }
      rewrite Hn. unfold vdm_payload. cbn [scan_of vf_count vf_payload]. change (1 =? 1) with true. cbv iota.
      rewrite nth_overflow by lia. reflexivity.
    + destruct (completes_step ovf now s tt fff p payload C) as (q & Hq & ->).
      apply decode_err; [|intros m v; rewrite Hq; apply Hok|now split].
      destruct C as [pl (a1 & a2 & a3 & a4 & a5 & (more & F) & _)|mid ch a b F _|mid ch a b F _];
        [exact (vdm_with_formatter _ _ _ _ F)|exact (fragment_formatter _ _ _ _ _ _ _ F)|exact (fragment_formatter _ _ _ _ _ _ _ F)].
Qed.
Print Assumptions c78_errors.

(** Every call ends in one of three ways. *)
Theorem c78_accepted ovf now s p :
  reachable ovf p -> clock now -> (0 <= dt_year now)%Z ->
  (exists r, fst (parse_sentence ovf now s p) = Ok r) <->
  ~ panics ovf now s p /\ forall e, ~ error_of ovf now s p e.
Proof.
  intros Hr Hn Hy. rewrite <- (c08_panics ovf now s p Hn Hy). pose proof (fun e => c78_errors ovf now s p e Hr Hn Hy) as He.
  destruct (fst (parse_sentence ovf now s p)) as [r|e|].
  - split; [|eauto]. intros _. split; [discriminate|]. intros e X. apply He in X. discriminate.
  - split; [intros (r & X); discriminate|]. intros [_ X]. destruct (X e). now apply He.
  - split; [intros (r & X); discriminate|]. intros [X _]. now destruct X.
Qed.
Print Assumptions c78_accepted.

Lemma ex_now_clock : clock ex_now.
Proof. vm_compute. repeat split; intuition discriminate. Qed.
(** Latitude and quality are both wrong; the latitude is named. *)
Definition ex_bad_gga := lit "$GPGGA,123519,4807,N,01131.000,E,x,08,0.9,545.4,M,46.9,M,,".
Example c77_example :
  (exists fields, gnss_with ex_bad_gga (lit "GP") (lit "GGA") fields /\ time_stamp ex_now (fld fields 0) (Some (today ex_now 12 35 19))) /\
  fst (parse_sentence true ex_now ex_bad_gga new_parser) = Err (InvalidSentence (lit "Failed to parse latitude (DDMM.MMM) from 4807")) /\
  (exists fields, gnss_with (lit "$GPRMC,,A,,,,,1.5,2.5,010190,3.5,N") (lit "GP") (lit "RMC") fields /\
     date_time_stamp ex_now (fld fields 8) (fld fields 0) None) /\
  fst (parse_sentence true ex_now (lit "$GPRMC,,A,,,,,1.5,2.5,010190,3.5,N") new_parser)
  = Err (InvalidSentence (lit "Invalid RMC variation side: N")) /\
  (exists fields, gnss_with (lit "$GPGSA,A,3,01,256,x") (lit "GP") (lit "GSA") fields) /\
  fst (parse_sentence true ex_now (lit "$GPGSA,A,3,01,256,x") new_parser) = Err (InvalidSentence (lit "Failed to parse field 4: 256")) /\
  (exists fields, gnss_with (lit "$GPGLL,,,12,E") (lit "GP") (lit "GLL") fields) /\
  fst (parse_sentence true ex_now (lit "$GPGLL,,,12,E") new_parser)
  = Err (InvalidSentence (lit "Failed to parse longitude (DDDMM.MMM) from 12")) /\
  (exists fields, gnss_with (lit "$GPGSV,1,4294967296") (lit "GP") (lit "GSV") fields) /\
  fst (parse_sentence true ex_now (lit "$GPGSV,1,4294967296") new_parser) = Err (InvalidSentence (lit "Failed to parse field 2: 4294967296")) /\
  (exists fields, vdm_with (lit "!AIVDM,2,256,1,A,0,0") (lit "AI") (lit "VDM") fields /\
     complaint (vdm_checks fields) (lit "Failed to parse fragment count: 256")) /\
  fst (parse_sentence true ex_now (lit "!AIVDM,2,256,1,A,0,0") new_parser)
  = Err (InvalidSentence (lit "Failed to parse fragment count: 256")).
Proof.
  split; [eexists; split; [gnss|]; apply (decides_ok _ _ _ _ (hhmmss_decides _ _ ex_now_clock)); vm_compute; reflexivity|].
  split; [vm_compute; reflexivity|].
  split; [eexists; split; [gnss|]; apply (decides_ok _ _ _ _ (yymmdd_decides _ _ ex_now ltac:(vm_compute; discriminate))); vm_compute; reflexivity|].
  split; [vm_compute; reflexivity|]. split; [eexists; gnss|]. split; [vm_compute; reflexivity|].
  split; [eexists; gnss|]. split; [vm_compute; reflexivity|]. split; [eexists; gnss|]. split; [vm_compute; reflexivity|].
  split; [|vm_compute; reflexivity]. eexists. split; [apply check_vdm; [vm_compute; split; reflexivity|reflexivity]|].
  right. split.
  - intros X. apply (X 2). apply parse_u8_means. reflexivity.
  - left. split; [|reflexivity]. apply fragment_wrong. reflexivity.
Qed.

(** A static data report in two halves whose part number is 2. *)
Example c78_example :
  let p := snd (parse_sentence true ex_now (lit "!AIVDM,2,1,7,B,H000,0") new_parser) in
  let s := lit "!AIVDM,2,2,7,B,0080,0" in
  reachable true p /\ clock ex_now /\ (0 <= dt_year ex_now)%Z /\
  fst (parse_sentence true ex_now s p) = Err (InvalidSentence (lit "AIVDM type 24 part number has unexpected value: 2")) /\
  fst (parse_sentence true ex_now (lit "!AIVDM,1,1,7,B") p) = Err (UnsupportedSentenceType (lit "Unsupported !VDM message type: 0")) /\
  fst (parse_sentence true ex_now (lit "!AIVDO,1,1,7,B,C") p) = Err (UnsupportedSentenceType (lit "Unsupported AIVDM message type: 19")) /\
  fst (parse_sentence true ex_now (lit "$GPZDA,1") p) = Err (UnsupportedSentenceType (lit "Unimplemented NMEA sentence: $ZDA")) /\
  fst (parse_sentence true ex_now (lit "$GPZDA") p) = Err (InvalidSentence (lit "Invalid NMEA sentence: $GPZDA")) /\
  fst (parse_sentence true ex_now (lit "$GPZDA*00") p) = Err (CorruptedSentence (lit "48") (lit "00")).
Proof.
  cbv zeta. split.
  { now exists [(ex_now, lit "!AIVDM,2,1,7,B,H000,0")]. }
  split; [exact ex_now_clock|]. split; [vm_compute; discriminate|].
  repeat split; vm_compute; reflexivity.
Qed.
