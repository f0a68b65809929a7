(** C103: what README.md lists is supported. *)
From stdpp Require Import gmap.
From Coq Require Import List NArith ZArith Bool String Lia.
From Verif Require Import Base Str F64 Chrono Types Util AisMod Vdm Gnss Parser Display
  SpecText SpecResult SpecAis SpecTime SpecState SpecGnss SpecReal SpecFields SpecPanic SpecError SpecWait SpecDirect
  StrFacts FrontFacts CallFacts StateFacts RunFacts PropFront PropState PropFields PropTables PropPanic PropError FieldFacts ResultFacts VdmFacts PropComplete.
Import ListNotations.
Open Scope N_scope.

(** README.md:92-96, 'Features': GNSS sentences, AIS message types, satellite systems. *)
Definition listed_formatters : list str := map lit ["GGA"; "RMC"; "GSA"; "GSV"; "VTG"; "GLL"]%string.
Definition listed_types : list N := [1; 2; 3; 4; 5; 18; 19; 21; 24; 27].
Definition listed_systems : list NavigationSystem := [NavGps; NavGlonass; NavGalileo; NavBeidou; NavNavic; NavQzss].

(** The sentence is a listed GNSS sentence. *)
Definition listed_gnss (s : str) : Prop := exists tt fff fields, gnss_with s tt fff fields /\ In fff listed_formatters.
(** The sentence completes an AIS message of type [t]. *)
Definition ais_message (s : str) (p : NmeaParser) (t : N) : Prop :=
  exists tt fff payload, completes s tt fff p payload /\ bits_at (payload_bits payload) 0 6 = t.

Lemma name_unique t a b : type_name t a -> type_name t b -> a = b.
Proof.
  intros A B. apply name_recognized in A as (n & st & A). apply name_recognized in B as (n' & st' & B).
  apply parse_type_recognized in A, B. congruence.
Qed.

Lemma completes_with s tt fff p payload : completes s tt fff p payload -> exists fields, vdm_with s tt fff fields.
Proof.
  intros [payload' (c & n & i & ch & k & (more & H) & _)|mid ch a b (fields & c & n & i & H & _) _
    |mid ch a b (fields & c & n & i & H & _) _]; eexists; exact H.
Qed.

(** Nothing listed, except message type 19, is called unsupported. *)
Theorem c103_supported_partial ovf now s p text :
  reachable ovf p -> clock now -> (0 <= dt_year now)%Z ->
  listed_gnss s \/ (exists t, ais_message s p t /\ In t listed_types /\ t <> 19) ->
  fst (parse_sentence ovf now s p) <> Err (UnsupportedSentenceType text).
Proof.
  intros Hr Hc Hy L E. apply c78_errors in E; [|assumption..].
  assert (N : exists t fields name, sentence s (t :: fields) /\ type_name t name /\ In name decoded_types).
  { destruct L as [(tt & fff & fields & (S & Hf & Ht) & I)|(t & (tt & fff & payload & C & Tt) & I & N)].
    - exists (lit "$" ++ tt ++ fff), fields, (lit "$" ++ fff). split; [exact S|]. split.
      + apply short_type; auto. cbn [map listed_formatters In] in I. repeat destruct I as [<-|I]; try reflexivity. destruct I.
      + unfold decoded_types. apply in_app_iff. left. apply in_map. exact I.
    - destruct (completes_with _ _ _ _ _ C) as (fields & S & _ & Ht & Hf).
      exists (lit "!" ++ tt ++ fff), fields, (lit "!" ++ fff). split; [exact S|]. split.
      + apply short_type; auto. destruct Hf as [-> | ->]; reflexivity.
      + unfold decoded_types. apply in_app_iff. right. apply in_map. cbn. destruct Hf as [-> | ->]; auto. }
  destruct N as (t0 & fields0 & name & S & Hn & Hd).
  inversion E as [| |t fields f S' Hf Hn' Hu E'|t fields t' S' Hf Hn' Hu Hu' E'| | | | | |
    |tt fff fields V _ D K E'|tt fff payload e C R M]; subst.
  - pose proof (sentence_unique _ _ _ S S') as X. injection X as <- <-. rewrite (name_unique _ _ _ Hn Hn') in Hd.
    revert Hd Hu. clear. cbn [In undecoded_formatters]. intros Hd Hu.
    repeat destruct Hu as [<-|Hu]; try destruct Hu; cbn in Hd; repeat destruct Hd as [Hd|Hd]; try discriminate Hd; exact Hd.
  - pose proof (sentence_unique _ _ _ S S') as X. injection X as <- <-. rewrite (name_unique _ _ _ Hn Hn') in Hd. tauto.
  - destruct L as [(tt' & fff' & fields' & (S' & _) & I)|(t & (tt' & fff' & payload & C & Tt) & I & N)].
    + destruct V as (V & _). pose proof (sentence_unique _ _ _ S' V) as X. discriminate X.
    + destruct C as [payload (c & n & i & ch & k & (more & V') & _)
        |mid ch a b (fs & c & n & i & V' & E1 & D1 & _) _|mid ch a b (fs & c & n & i & V' & E1 & D1 & _) _];
        destruct (vdm_with_unique _ _ _ _ _ _ _ V V') as (_ & _ & ->); [cbn in K; lia|..];
        destruct fs as [|f0 fs]; try discriminate E1; cbn in E1, D; injection E1 as ->;
        pose proof (StrFacts.denotes_unique _ _ _ D D1); discriminate.
  - destruct L as [(tt' & fff' & fields' & (S' & _) & I)|(t & (tt' & fff' & payload' & C' & Tt) & I & N)].
    + destruct (completes_with _ _ _ _ _ C) as (fs & S2 & _). pose proof (sentence_unique _ _ _ S' S2) as X. discriminate X.
    + destruct (completes_unique _ _ _ _ _ _ _ _ C C') as (_ & _ & ->). inversion M as [M1|n M1 M2|]; subst.
      * congruence.
      * apply M2. revert I. cbn [In listed_types]. tauto.
Qed.
Print Assumptions c103_supported_partial.

(** Message type 19 is listed, yet always called unsupported, with any payload of this type. *)
Theorem c103_type19_refuted ovf now s p :
  reachable ovf p -> clock now -> (0 <= dt_year now)%Z ->
  (exists tt fff payload, completes s tt fff p payload /\ readable ovf payload /\ bits_at (payload_bits payload) 0 6 = 19) ->
  In 19 listed_types /\
  fst (parse_sentence ovf now s p) = Err (UnsupportedSentenceType (lit "Unsupported AIVDM message type: 19")).
Proof.
  intros Hr Hc Hy (tt & fff & payload & C & R & T). split; [cbn; tauto|]. apply c78_errors; [assumption..|].
  eapply error_message; [exact C|exact R|]. now apply error_19.
Qed.
Print Assumptions c103_type19_refuted.

Lemma talker_sources ovf now s p tt fff fields r kind sources :
  List.length tt = 2%nat -> Forall (fun c => c < 128) tt -> gnss_with s tt fff fields ->
  fst (parse_sentence ovf now s p) = Ok r -> gnss_result r = Some (kind, sources) ->
  Forall (names_system tt) sources.
Proof.
  intros Hl Ha G R K.
  destruct (c05_gnss_result_routed _ _ _ _ _ _ _ R K) as (body & given & tt' & rest & B & _ & E & Hb' & F).
  replace tt with tt'; [exact F|].
  destruct G as ((body' & given' & B' & _ & _ & _ & J) & Hf & Hb).
  destruct (has_body_unique _ _ _ _ _ B B') as [<- _]. rewrite J in E. clear - E Hl Ha Hb Hb' Hf.
  assert (Y : exists more more', tt' ++ more' = tt ++ more).
  { destruct fields as [|f0 fs]; [contradiction|]. cbn [join] in E. rewrite <- !app_assoc in E. injection E as E. eauto. }
  destruct Y as (more & more' & Y). destruct tt as [|a [|b [|c tt]]]; try discriminate Hl.
  pose proof (two_bytes _ Hb') as Hl'. inversion Ha as [|? ? Ha1 Ha2]; subst.
  destruct tt' as [|a' [|b' [|c' tt']]]; cbn [List.length] in Hl'; try lia.
  - discriminate Hb'.
  - injection Y as -> _. exfalso. rewrite <- byte_len_spec, byte_len_mark in Hb' by exact Ha1. discriminate Hb'.
  - injection Y as -> -> _. reflexivity.
Qed.

(** Each listed system has a talker: what is reported from its sentences has this source. *)
Theorem c103_systems nav : In nav listed_systems ->
  exists tt, utf8_bytes tt = 2%nat /\
    forall ovf now s p fff fields r kind sources, gnss_with s tt fff fields ->
      fst (parse_sentence ovf now s p) = Ok r -> gnss_result r = Some (kind, sources) ->
      Forall (eq nav) sources.
Proof.
  intros I. assert (T : exists tt, In (tt, nav) gnss_talkers /\ List.length tt = 2%nat /\ Forall (fun c => c < 128) tt /\ utf8_bytes tt = 2%nat).
  { destruct nav; try (exfalso; revert I; clear; cbn [In listed_systems]; intuition discriminate).
    - exists (lit "GP"). split; [cbn; tauto|]. repeat constructor.
    - exists (lit "GL"). split; [cbn; tauto|]. repeat constructor.
    - exists (lit "GA"). split; [cbn; tauto|]. repeat constructor.
    - exists (lit "BD"). split; [cbn; tauto|]. repeat constructor.
    - exists (lit "GI"). split; [cbn; tauto|]. repeat constructor.
    - exists (lit "QZ"). split; [cbn; tauto|]. repeat constructor. }
  destruct T as (tt & T & Hl & Ha & Hb). exists tt. split; [exact Hb|].
  intros ovf now s p fff fields r kind sources G R K.
  eapply List.Forall_impl; [|exact (talker_sources _ _ _ _ _ _ _ _ _ _ Hl Ha G R K)].
  intros n Hn. cbn in Hn. apply (names_system_unique tt); [now left|exact Hn].
Qed.
Print Assumptions c103_systems.

(** The talkers that NMEA 0183 since version 4.10 gives to BeiDou and QZSS do not name these systems: the
    source is reported as some other system. *)
Theorem c103_standard_talkers_refuted tt : In tt [lit "GB"; lit "GQ"] ->
  forall ovf now s p fff fields r kind sources, gnss_with s tt fff fields ->
    fst (parse_sentence ovf now s p) = Ok r -> gnss_result r = Some (kind, sources) ->
    Forall (eq NavOther) sources.
Proof.
  intros I ovf now s p fff fields r kind sources G R K.
  assert (T : List.length tt = 2%nat /\ Forall (fun c => c < 128) tt /\ ~ In tt (map fst gnss_talkers)).
  { cbn [In] in I. destruct I as [<-|[<-|[]]]; (split; [reflexivity|]); (split; [repeat constructor|]); cbn; intuition discriminate. }
  destruct T as (Hl & Ha & Hn).
  eapply List.Forall_impl; [|exact (talker_sources _ _ _ _ _ _ _ _ _ _ Hl Ha G R K)].
  intros n H. cbn in H. apply (names_system_unique tt); [now right|exact H].
Qed.
Print Assumptions c103_standard_talkers_refuted.

(** The sample of the README: its three sentences, in turn, and the printed values. *)
Definition readme_sentences : list str := map lit
  ["!AIVDM,1,1,,A,H42O55i18tMET00000000000000,2*6D"; "!AIVDM,1,1,,A,H42O55lti4hhhilD3nink000?050,0*40";
   "$GAGGA,123519,4807.038,N,01131.000,E,1,08,0.9,545.4,M,46.9,M,,*56"]%string.

(** [x] is between two numbers: half a unit of the third decimal below and above the value printed. *)
Definition shown_between (x : option f64) (lo hi : str) : bool :=
  match x, parse_f64 lo, parse_f64 hi with
  | Some x, Some a, Some b => SpecFloat.SFltb a x && SpecFloat.SFltb x b
  | _, _, _ => false
  end.

Example c103_readme_example :
  match fst (run true (map (fun s => (ex_now, s)) readme_sentences) new_parser) with
  | [Ok PsIncomplete; Ok (PsVesselStaticData v); Ok (PsGga g)] =>
      vsd_mmsi v = 271041815 /\ country v = Some (lit "TR") /\ vsd_name v = Some (lit "PROGUY") /\
      ShipType_display (vsd_ship_type v) = lit "passenger" /\
      NavigationSystem_display (gga_source g) = lit "Galileo" /\
      shown_between (gga_latitude g) (lit "48.1165") (lit "48.1175") = true /\
      shown_between (gga_longitude g) (lit "11.5165") (lit "11.5175") = true
  | _ => False
  end.
Proof. vm_compute. repeat split. Qed.

Example c103_example :
  let s19 := lit "!AIVDM,1,1,,A,C5N3SRgPEnJGEBT>NhWAwwo862PaLELTBJ:V00000000S0D:R220,0" in
  listed_gnss (lit "$QZGLL,,,,,123519,A") /\
  (forall ovf, reachable ovf new_parser) /\ clock ex_now /\ (0 <= dt_year ex_now)%Z /\
  ais_message s19 new_parser 19 /\
  (exists tt fff payload, completes s19 tt fff new_parser payload /\ readable true payload /\ bits_at (payload_bits payload) 0 6 = 19) /\
  ais_message (lit "!AIVDM,1,1,,A,H42O55i18tMET00000000000000,2*6D") new_parser 24 /\ In 24 listed_types /\
  match fst (parse_sentence true ex_now (lit "$QZGLL,,,,,123519,A") new_parser) with
  | Ok r => gnss_result r = Some (lit "GLL", [NavQzss])
  | _ => False
  end /\
  (exists fields, gnss_with (lit "$GBGLL,,,,,123519,A") (lit "GB") (lit "GLL") fields) /\
  match fst (parse_sentence true ex_now (lit "$GBGLL,,,,,123519,A") new_parser) with
  | Ok r => gnss_result r = Some (lit "GLL", [NavOther])
  | _ => False
  end.
Proof.
  assert (A : forall s payload more, vdm_with s (lit "AI") (lit "VDM") (lit "1" :: lit "1" :: [] :: lit "A" :: payload :: more) ->
    completes s (lit "AI") (lit "VDM") new_parser payload).
  { intros s payload more V. apply complete_one, (check_one_fragment _ _ _ _ _ _ V). }
  cbn zeta. split; [|split; [|split; [|split; [|split; [|split; [|split; [|split; [|split]]]]]]]].
  - exists (lit "QZ"), (lit "GLL"). eexists. split; [gnss|cbn; tauto].
  - intros ovf. now exists [].
  - apply ex_now_clock.
  - cbn. lia.
  - do 3 eexists. split; [eapply A, check_vdm; [vm_compute; split; reflexivity|reflexivity]|]. vm_compute. reflexivity.
  - do 3 eexists. split; [eapply A, check_vdm; [vm_compute; split; reflexivity|reflexivity]|]. split; [|vm_compute; reflexivity].
    intros _. apply Forall_forall. intros c Hc. revert c Hc. rewrite <- Forall_forall. vm_compute. repeat (constructor; [discriminate|]). constructor.
  - do 3 eexists. split; [eapply A, check_vdm; [vm_compute; split; reflexivity|reflexivity]|]. vm_compute. reflexivity.
  - cbn. tauto.
  - vm_compute. reflexivity.
  - split; [eexists; gnss|vm_compute; reflexivity].
Qed.
