(** Further examples for C63-C93. *)
From stdpp Require Import gmap.
From Coq Require Import List NArith ZArith Bool String Lia Floats.SpecFloat.
From Verif Require Import Base Str F64 Chrono Types Util AisMod Vdm Gnss Parser Default Equality Log
  SpecText SpecResult SpecAis SpecTime SpecState SpecGnss SpecMerge SpecReal SpecMeasure SpecFields SpecEq SpecSame SpecLine SpecLog
  SpecDamage SpecDefault
  StrFacts FrontFacts CallFacts ResultFacts BitFacts VdmFacts LayoutFacts StateFacts RunFacts
  PropFront PropBits PropAis PropState PropStatic PropGsv PropMeasure PropFields PropTables PropEnv PropSame PropLine PropLog
  PropDamage PropDefault Cases1 Cases2 Cases3.
Import ListNotations.
Open Scope N_scope.
Local Opaque f64_div f64_mul f64_of_Z f64_of_dec.

(** ** C63, C64 *)

Example c63_runs_agree_case :
  run false [(ex_now, ex_part_a); (ex_now, ex_gga_fields); (ex_now, ex_part_b)] new_parser =
  run true [(ex_now, ex_part_a); (ex_now, ex_gga_fields); (ex_now, ex_part_b)] new_parser.
Proof. apply c63_runs_agree. vm_compute. intuition discriminate. Qed.

Example c64_errors_case ovf p :
  let e := InvalidSentence (lit "Failed to parse latitude (DDMM.MMM) from 4807") in
  fst (parse_sentence ovf april (lit "$GPGGA,123519,4807,N,,,1,08,0.9,,M,,M,,") p) <> Panic /\
  exists e, fst (parse_sentence ovf april (lit "$GPGGA,123519,4807,N,,,1,08,0.9,,M,,M,,") p) = Err e.
Proof.
  assert (A : exists e, fst (parse_sentence ovf ex_now (lit "$GPGGA,123519,4807,N,,,1,08,0.9,,M,,M,,") p) = Err e)
    by (eexists; destruct ovf; vm_compute; reflexivity).
  destruct A as (e & A). cbv zeta.
  assert (P : fst (parse_sentence ovf april (lit "$GPGGA,123519,4807,N,,,1,08,0.9,,M,,M,,") p) <> Panic)
    by (destruct ovf; vm_compute; discriminate).
  split; [exact P|]. destruct (c64_errors ovf ex_now april _ p e A) as [H|H]; [now exists e|contradiction].
Qed.

Example c64_runs_case ovf :
  after ovf [(ex_now, ex_part_a); (april, ex_gga_fields)] new_parser = after ovf [(june, ex_part_a); (ex_now, ex_gga_fields)] new_parser.
Proof. apply c64_runs. reflexivity. Qed.

(** ** C81 *)

Definition ex_base (second device : N) : base := {|
  b_repeat := 0; b_mmsi := 3669702; b_year := 2007; b_month := 5; b_day := 14; b_hour := 19; b_minute := 57; b_second := second;
  b_accurate := true; b_lon := -45811342; b_lat := 22130138; b_device := device; b_spare := 0; b_raim := false; b_radio := 67039 |}.
Lemma ex_base_fits second device : second < 60 -> device < 16 -> base_fits (ex_base second device).
Proof. intros. unfold base_fits, ex_base, fits, fits_signed, valid_date, valid_time. cbn. intuition (try lia; try discriminate). Qed.
Definition ex_base_sentence (second device : N) : str :=
  encode_sentence (lit "AI") (lit "VDM") (lit "A") (base_bits (ex_base second device) ++ []).

Example c81_base_station_case : exists r1 r2 r3,
  parse_sentence true ex_now (ex_base_sentence 39 9) new_parser = (Ok r1, new_parser) /\
  parse_sentence true ex_now (ex_base_sentence 39 12) new_parser = (Ok r2, new_parser) /\
  parse_sentence true ex_now (ex_base_sentence 40 9) new_parser = (Ok r3, new_parser) /\
  ParsedSentence_eqb r1 r2 = true /\ ParsedSentence_eqb r1 r3 = false.
Proof.
  assert (A : exists r, parse_sentence true ex_now (ex_base_sentence 39 9) new_parser = (Ok r, new_parser)) by (eexists; vm_compute; reflexivity).
  assert (B : exists r, parse_sentence true ex_now (ex_base_sentence 39 12) new_parser = (Ok r, new_parser)) by (eexists; vm_compute; reflexivity).
  assert (C : exists r, parse_sentence true ex_now (ex_base_sentence 40 9) new_parser = (Ok r, new_parser)) by (eexists; vm_compute; reflexivity).
  destruct A as (r1 & A), B as (r2 & B), C as (r3 & C). exists r1, r2, r3. do 3 (split; [assumption|]).
  assert (F : forall second device, one_fragment (ex_base_sentence second device) (lit "AI") (lit "VDM") (armor (base_bits (ex_base second device) ++ [])))
    by (intros; encoded).
  split.
  - apply (c81_base_station true ex_now ex_now _ _ _ _ _ _ _ _ _ _ (ex_base 39 9) (ex_base 39 12) [] [] r1 r2 _ _
      (F 39 9) (names_station_station (lit "AI")) (ex_base_fits 39 9 ltac:(lia) ltac:(lia))
      (F 39 12) (names_station_station (lit "AI")) (ex_base_fits 39 12 ltac:(lia) ltac:(lia)) A B).
    unfold base_alike, device_alike. cbn. intuition lia.
  - apply not_true_is_false. intros E.
    apply (c81_base_station true ex_now ex_now _ _ _ _ _ _ _ _ _ _ (ex_base 39 9) (ex_base 40 9) [] [] r1 r3 _ _
      (F 39 9) (names_station_station (lit "AI")) (ex_base_fits 39 9 ltac:(lia) ltac:(lia))
      (F 40 9) (names_station_station (lit "AI")) (ex_base_fits 40 9 ltac:(lia) ltac:(lia)) A C) in E.
    unfold base_alike in E. cbn in E. intuition discriminate.
Qed.

Definition ex_flight (altitude spare : N) : aircraft := {|
  s_repeat := 0; s_mmsi := 111232506; s_altitude := altitude; s_speed := 154; s_accurate := false; s_lon := -4100000; s_lat := 35000000;
  s_course := 1545; s_second := 15; s_regional := 0; s_dte := true; s_spare := spare; s_assigned := false; s_raim := false; s_radio := 100 |}.
Definition ex_flight_sentence (altitude spare : N) : str :=
  encode_sentence (lit "AI") (lit "VDM") (lit "A") (aircraft_bits (ex_flight altitude spare) ++ []).

Example c81_aircraft_case : exists r1 r2 r3,
  parse_sentence true ex_now (ex_flight_sentence 303 0) new_parser = (Ok r1, new_parser) /\
  parse_sentence true ex_now (ex_flight_sentence 303 5) new_parser = (Ok r2, new_parser) /\
  parse_sentence true ex_now (ex_flight_sentence 304 0) new_parser = (Ok r3, new_parser) /\
  ParsedSentence_eqb r1 r2 = true /\ ParsedSentence_eqb r1 r3 = false.
Proof.
  assert (A : exists r, parse_sentence true ex_now (ex_flight_sentence 303 0) new_parser = (Ok r, new_parser)) by (eexists; vm_compute; reflexivity).
  assert (B : exists r, parse_sentence true ex_now (ex_flight_sentence 303 5) new_parser = (Ok r, new_parser)) by (eexists; vm_compute; reflexivity).
  assert (C : exists r, parse_sentence true ex_now (ex_flight_sentence 304 0) new_parser = (Ok r, new_parser)) by (eexists; vm_compute; reflexivity).
  destruct A as (r1 & A), B as (r2 & B), C as (r3 & C). exists r1, r2, r3. do 3 (split; [assumption|]).
  assert (F : forall a b, one_fragment (ex_flight_sentence a b) (lit "AI") (lit "VDM") (armor (aircraft_bits (ex_flight a b) ++ [])))
    by (intros; encoded).
  assert (G : forall a b, a < 4096 -> b < 8 -> aircraft_fits (ex_flight a b)).
  { intros. unfold aircraft_fits, ex_flight, fits, fits_signed. cbn. intuition (try lia; try discriminate). }
  split.
  - apply (c81_aircraft true ex_now ex_now _ _ _ _ _ _ _ _ _ _ (ex_flight 303 0) (ex_flight 303 5) [] [] r1 r2 _ _
      (F 303 0) (names_station_station (lit "AI")) (G 303 0 ltac:(lia) ltac:(lia))
      (F 303 5) (names_station_station (lit "AI")) (G 303 5 ltac:(lia) ltac:(lia)) A B).
    unfold aircraft_alike. cbn. intuition.
  - apply not_true_is_false. intros E.
    apply (c81_aircraft true ex_now ex_now _ _ _ _ _ _ _ _ _ _ (ex_flight 303 0) (ex_flight 304 0) [] [] r1 r3 _ _
      (F 303 0) (names_station_station (lit "AI")) (G 303 0 ltac:(lia) ltac:(lia))
      (F 304 0) (names_station_station (lit "AI")) (G 304 0 ltac:(lia) ltac:(lia)) A C) in E.
    unfold aircraft_alike in E. cbn in E. intuition discriminate.
Qed.

Definition ex_question (spare dest : N) : str :=
  encode_sentence (lit "AI") (lit "VDM") (lit "A") (layout_bits [U 6 10; U 2 0; U 30 440882000; U 2 spare; U 30 dest] ++ []).

Example c81_inquiry_case : exists r1 r2 r3,
  parse_sentence true ex_now (ex_question 0 366972000) new_parser = (Ok r1, new_parser) /\
  parse_sentence true ex_now (ex_question 3 366972000) new_parser = (Ok r2, new_parser) /\
  parse_sentence true ex_now (ex_question 0 366972001) new_parser = (Ok r3, new_parser) /\
  ParsedSentence_eqb r1 r2 = true /\ ParsedSentence_eqb r1 r3 = false.
Proof.
  assert (A : exists r, parse_sentence true ex_now (ex_question 0 366972000) new_parser = (Ok r, new_parser)) by (eexists; vm_compute; reflexivity).
  assert (B : exists r, parse_sentence true ex_now (ex_question 3 366972000) new_parser = (Ok r, new_parser)) by (eexists; vm_compute; reflexivity).
  assert (C : exists r, parse_sentence true ex_now (ex_question 0 366972001) new_parser = (Ok r, new_parser)) by (eexists; vm_compute; reflexivity).
  destruct A as (r1 & A), B as (r2 & B), C as (r3 & C). exists r1, r2, r3. do 3 (split; [assumption|]).
  assert (F : forall a b, one_fragment (ex_question a b) (lit "AI") (lit "VDM")
    (armor (layout_bits [U 6 10; U 2 0; U 30 440882000; U 2 a; U 30 b] ++ []))) by (intros; encoded).
  split.
  - eapply (c81_inquiry true ex_now ex_now); [exact (F 0 366972000)|exact (names_station_station (lit "AI"))|reflexivity|reflexivity|reflexivity|reflexivity
      |exact (F 3 366972000)|exact (names_station_station (lit "AI"))|reflexivity|reflexivity|reflexivity|reflexivity|exact A|exact B|].
    intuition.
  - apply not_true_is_false. intros E.
    eapply (c81_inquiry true ex_now ex_now) in E; [|exact (F 0 366972000)|exact (names_station_station (lit "AI"))|reflexivity|reflexivity|reflexivity|reflexivity
      |exact (F 0 366972001)|exact (names_station_station (lit "AI"))|reflexivity|reflexivity|reflexivity|reflexivity|exact A|exact C].
    intuition discriminate.
Qed.

Definition ex_order (seq : N) (data : list bool) : str :=
  encode_sentence (lit "AI") (lit "VDM") (lit "A")
    (layout_bits [U 6 6; U 2 0; U 30 150834090; U 2 seq; U 30 313240222; F false; U 1 0; U 10 669; U 6 11] ++ data).

Example c81_binary_addressed_case : exists r1 r2 r3,
  parse_sentence true ex_now (ex_order 3 [true; false; true; true; false; false; true; false]) new_parser = (Ok r1, new_parser) /\
  parse_sentence true ex_now (ex_order 3 [true]) new_parser = (Ok r2, new_parser) /\
  parse_sentence true ex_now (ex_order 2 [true]) new_parser = (Ok r3, new_parser) /\
  ParsedSentence_eqb r1 r2 = true /\ ParsedSentence_eqb r1 r3 = false.
Proof.
  assert (A : exists r, parse_sentence true ex_now (ex_order 3 [true; false; true; true; false; false; true; false]) new_parser = (Ok r, new_parser)) by (eexists; vm_compute; reflexivity).
  assert (B : exists r, parse_sentence true ex_now (ex_order 3 [true]) new_parser = (Ok r, new_parser)) by (eexists; vm_compute; reflexivity).
  assert (C : exists r, parse_sentence true ex_now (ex_order 2 [true]) new_parser = (Ok r, new_parser)) by (eexists; vm_compute; reflexivity).
  destruct A as (r1 & A), B as (r2 & B), C as (r3 & C). exists r1, r2, r3. do 3 (split; [assumption|]).
  assert (F : forall a b, one_fragment (ex_order a b) (lit "AI") (lit "VDM")
    (armor (layout_bits [U 6 6; U 2 0; U 30 150834090; U 2 a; U 30 313240222; F false; U 1 0; U 10 669; U 6 11] ++ b))) by (intros; encoded).
  split.
  - eapply (c81_binary_addressed true ex_now ex_now); [exact (F 3 _)|exact (names_station_station (lit "AI"))|reflexivity|reflexivity|reflexivity|reflexivity|reflexivity|reflexivity|reflexivity
      |exact (F 3 [true])|exact (names_station_station (lit "AI"))|reflexivity|reflexivity|reflexivity|reflexivity|reflexivity|reflexivity|reflexivity|exact A|exact B|].
    intuition.
  - apply not_true_is_false. intros E.
    eapply (c81_binary_addressed true ex_now ex_now) in E; [|exact (F 3 _)|exact (names_station_station (lit "AI"))|reflexivity|reflexivity|reflexivity|reflexivity|reflexivity|reflexivity|reflexivity
      |exact (F 2 [true])|exact (names_station_station (lit "AI"))|reflexivity|reflexivity|reflexivity|reflexivity|reflexivity|reflexivity|reflexivity|exact A|exact C].
    intuition discriminate.
Qed.

(** ** C83 *)

Lemma crlf_is : line_end [13; 10].
Proof. now left. Qed.
Definition crlf : str := [13; 10].

Definition ex_rmc_mode := lit "$GPRMC,225446,A,4916.45,N,12311.12,W,000.5,054.7,191194,020.3,E,A".
Lemma rmc_mode_is : gnss_with ex_rmc_mode (lit "GP") (lit "RMC") (rest_fields 100 ex_rmc_mode).
Proof. gnss. Qed.
Definition ex_rmc_mode' := lit "$GPRMC,225446,A,4916.45,N,12311.12,W,000.5,054.7,191194,020.3,E,D".
Lemma rmc_mode_is' : gnss_with ex_rmc_mode' (lit "GP") (lit "RMC") (rest_fields 100 ex_rmc_mode').
Proof. gnss. Qed.

Example c83_data_fields_case ovf now p : parse_sentence ovf now ex_rmc_mode p = parse_sentence ovf now ex_rmc_mode' p.
Proof.
  apply (c83_data_fields ovf now _ _ _ _ _ _ (seq 0 11) p rmc_mode_is rmc_mode_is'); [cbn; tauto|].
  intros i H. apply in_seq in H. do 11 (destruct i as [|i]; [vm_compute; reflexivity|]). lia.
Qed.

Example c83_unread_end_partial_case ovf now p : parse_sentence ovf now (ex_rmc_mode ++ crlf) p = parse_sentence ovf now ex_rmc_mode p.
Proof.
  apply (c83_unread_end_partial ovf now _ _ _ _ (seq 0 11) crlf p rmc_mode_is); [vm_compute; intuition discriminate|cbn; tauto| |exact crlf_is].
  rewrite in_seq. vm_compute. intros (_ & H). repeat apply le_S_n in H. inversion H.
Qed.

Example c83_ais_end_partial_case ovf now p :
  let s := lit "!AIVDM,1,1,,A,15RTgt0PAso;90TKcjM8h6g208CQ,0" in
  parse_sentence ovf now (s ++ crlf) p = parse_sentence ovf now s p.
Proof.
  cbv zeta. apply (c83_ais_end_partial ovf now _ (lit "AI") (lit "VDM") [lit "1"; lit "1"; []; lit "A"; lit "15RTgt0PAso;90TKcjM8h6g208CQ"; lit "0"]);
    [|vm_compute; intuition discriminate|cbn; lia|exact crlf_is].
  split; [apply check_sentence; vm_compute; auto|]. split; [discriminate|]. split; [reflexivity|now left].
Qed.

Example c83_checksum_refuted_case ovf now p :
  parse_sentence ovf now (lit "!AIVDM,1,1,,A,15RTgt0PAso;90TKcjM8h6g208CQ,0*4A" ++ crlf) p =
  (Err (CorruptedSentence (lit "4A") (lit "4A" ++ crlf)), p).
Proof.
  apply (c83_checksum_refuted ovf now _ (lit "!AIVDM,1,1,,A,15RTgt0PAso;90TKcjM8h6g208CQ,0") (lit "4A"));
    [right; vm_compute; intuition discriminate|discriminate|vm_compute; auto|exact crlf_is].
Qed.

Definition ex_gsa_short := lit "$GPGSA,A,3,19,28".
Lemma gsa_short_is : gnss_with ex_gsa_short (lit "GP") (lit "GSA") (rest_fields 100 ex_gsa_short).
Proof. gnss. Qed.
Example c83_number_end_refuted_case ovf p r : fst (parse_sentence ovf ex_now (ex_gsa_short ++ crlf) p) <> Ok r.
Proof.
  apply (c83_number_end_refuted ovf ex_now _ _ _ _ (seq 2 15) crlf p gsa_short_is);
    [vm_compute; intuition discriminate|exact now_fine|exact year_fine|cbn; tauto|vm_compute; tauto|exact crlf_is].
Qed.

Example c83_gll_mode_refuted_case : exists d d',
  fst (parse_sentence true ex_now ex_gll_fields new_parser) = Ok (PsGll d) /\ gll_faa_mode d = Some FaaDifferential /\
  fst (parse_sentence true ex_now (ex_gll_fields ++ crlf) new_parser) = Ok (PsGll d') /\ gll_faa_mode d' = None.
Proof.
  assert (A : exists d, fst (parse_sentence true ex_now ex_gll_fields new_parser) = Ok (PsGll d) /\ gll_faa_mode d = Some FaaDifferential)
    by (eexists; split; vm_compute; reflexivity).
  destruct A as (d & A & M). eexists d, _. split; [exact A|]. split; [exact M|].
  rewrite (c83_gll_mode_refuted true ex_now _ _ _ crlf new_parser d gll_is eq_refl ltac:(vm_compute; intuition discriminate) now_fine crlf_is A).
  split; reflexivity.
Qed.

Example c83_vtg_mode_refuted_case : exists d d',
  fst (parse_sentence true ex_now ex_vtg_fields new_parser) = Ok (PsVtg d) /\ vtg_faa_mode d = Some FaaEstimated /\
  fst (parse_sentence true ex_now (ex_vtg_fields ++ crlf) new_parser) = Ok (PsVtg d') /\ vtg_faa_mode d' = None.
Proof.
  assert (A : exists d, fst (parse_sentence true ex_now ex_vtg_fields new_parser) = Ok (PsVtg d) /\ vtg_faa_mode d = Some FaaEstimated)
    by (eexists; split; vm_compute; reflexivity).
  destruct A as (d & A & M). eexists d, _. split; [exact A|]. split; [exact M|].
  rewrite (c83_vtg_mode_refuted true ex_now _ _ _ crlf new_parser d vtg_is eq_refl ltac:(vm_compute; intuition discriminate) crlf_is A).
  split; reflexivity.
Qed.

(** ** C84 *)

Definition ex_three : str := lit "!AIVDM,3,1,5,A,15RTgt0P,0*".
Lemma three_is : vdm_with ex_three (lit "AI") (lit "VDM") [lit "3"; lit "1"; lit "5"; lit "A"; lit "15RTgt0P"; lit "0"].
Proof. split; [apply check_sentence; vm_compute; auto|]. split; [discriminate|]. split; [reflexivity|now left]. Qed.
Lemma three_line : checksum_line ex_three [].
Proof. left. split; [|reflexivity]. vm_compute. tauto. Qed.

Example c84_warnings_case ovf p :
  parse_sentence_log ovf ex_three p = [LogWarn (lit "NMEA sentence fragment count greater (3) than supported 2")].
Proof.
  apply (c84_warnings ovf ex_three p [] [lit "NMEA sentence fragment count greater (" ++ dec 3 ++ lit ") than supported 2"] three_line).
  apply (warn_count ovf ex_three p (lit "AI") (lit "VDM") [lit "3"; lit "1"; lit "5"; lit "A"; lit "15RTgt0P"; lit "0"] 3 1); [|discriminate|discriminate].
  split; [exact three_is|]. split; [exact (dec_denotes 3)|]. split; [discriminate|]. right.
  split; [cbn; lia|]. split; [exact (dec_denotes 1)|discriminate].
Qed.

Example c84_unusable_announced_case ovf p : exists text, parse_sentence_log ovf ex_three p = [LogWarn text].
Proof.
  apply (c84_unusable_announced ovf ex_three p [] (lit "AI") (lit "VDM") _ three_line three_is).
  - constructor; [exists 3; split; [exact (dec_denotes 3)|discriminate]|].
    constructor; [exists 1; split; [exact (dec_denotes 1)|discriminate]|constructor].
  - intros D. pose proof (denotes_unique _ _ _ D (dec_denotes 3)). discriminate.
  - intros mid channel n payload (fields & count & ? & ? & V & E & D & _).
    destruct three_is as (S & _). destruct V as (S' & _). pose proof (sentence_unique _ _ _ S S') as X. injection X as X. subst fields.
    injection E as <-. pose proof (denotes_unique _ _ _ D (dec_denotes 3)). discriminate.
Qed.

Definition ex_fishing : str := ex_voyage_sentence 30 5 15 14 0 122.
Example c84_false_alarm_refuted_case :
  In (LogWarn (lit "Unexpected ship and cargo type: 30")) (parse_sentence_log true ex_fishing new_parser).
Proof.
  eapply (c84_false_alarm_refuted true ex_fishing new_parser (lit "AI") (lit "VDM")
    (armor (voyage_bits 0 351759000 0 9134270 (map six_code (lit "3FOF8") ++ repeat 32 2 ++ [])
    (map six_code (lit "EVER DIADEM") ++ repeat 32 9 ++ []) 30 225 70 1 31 1 5 15 14 0 122
    (map six_code (lit "NEW YORK") ++ repeat 32 12 ++ []) false 0)) 30).
  - apply complete_one. encoded.
  - intros _. vm_compute. repeat constructor; discriminate.
  - left. split; vm_compute; reflexivity.
  - right; left. lia.
Qed.

(** The first half of a message received twice. *)
Example c84_silent_loss_refuted_case :
  let p := snd (parse_sentence true ex_now ex_first new_parser) in
  parse_sentence_log true ex_first p = [] /\
  waiting (snd (parse_sentence true ex_now ex_first p)) (lit "VDM") 1 (lit "A") 1 ex_first_payload.
Proof.
  cbv zeta. apply (c84_silent_loss_refuted true ex_now ex_first _ (lit "AI") (lit "VDM") 1 (lit "A") 1 ex_first_payload ex_first_payload []
    ex_first_fragment).
  - vm_compute. reflexivity.
  - vm_compute. reflexivity.
  - left. split; [|reflexivity]. vm_compute. tauto.
Qed.

(** ** C85 *)

Example c85_lost_character_case ovf now p :
  parse_sentence ovf now (lit "$GPVTG,89.6,T*27") p = (Err (CorruptedSentence (lit "1F") (lit "27")), p).
Proof. exact (proj1 (c85_lost_character ovf now p 36 (lit "GPVTG,89.6") 56 (lit ",T") ltac:(discriminate))). Qed.

Example c85_inserted_character_case ovf now p :
  parse_sentence ovf now (lit "$GPVTG,89.68,T*1F") p = (Err (CorruptedSentence (lit "27") (lit "1F")), p).
Proof. exact (proj1 (c85_inserted_character ovf now p 36 (lit "GPVTG,89.6") 56 (lit ",T") ltac:(discriminate))). Qed.

(** ** C93 *)

Example c93_class_b_case ovf p : exists s d, parse_sentence ovf ex_now s p = (Ok (PsVesselDynamicData d), p) /\
  same_movement d VesselDynamicData_default.
Proof.
  eexists. eapply (c93_class_b ovf ex_now _ p (lit "AI") (lit "VDM") 0 367430530 0 false 0 true false true true true false false true 410967 []);
    try reflexivity. encoded.
Qed.

Example c93_aircraft_case ovf p : exists s d, parse_sentence ovf ex_now s p = (Ok (PsStandardSarAircraftPositionReport d), p) /\
  same_flight d StandardSarAircraftPositionReport_default.
Proof.
  eexists. eapply (c93_aircraft ovf ex_now _ p (lit "AI") (lit "VDM") 0 111232506 false 0 true 0 false false 100 []);
    try reflexivity. encoded.
Qed.

Example c93_base_station_case ovf p : exists s d, parse_sentence ovf ex_now s p = (Ok (PsBaseStationReport d), p) /\
  same_place d BaseStationReport_default.
Proof.
  eexists. eapply (c93_base_station ovf ex_now _ p (lit "AI") (lit "VDM") 0 3669702 2007 5 14 19 57 39 true 0 false 67039 []);
    try reflexivity; [encoded|vm_compute; intuition discriminate|vm_compute; intuition discriminate].
Qed.

Example c93_aid_partial_case ovf p : exists s d, parse_sentence ovf ex_now s p = (Ok (PsAidToNavigationReport d), p) /\
  atn_dimension_to_bow d = Some 0 /\ atn_dimension_to_bow AidToNavigationReport_default = None.
Proof.
  exists (encode_sentence (lit "AI") (lit "VDM") (lit "A") (silent_aid 0 992471097 (List.repeat 0 20) false false 0 false true false 0 ++ [])).
  edestruct (c93_aid_partial ovf ex_now (encode_sentence (lit "AI") (lit "VDM") (lit "A")
    (silent_aid 0 992471097 (List.repeat 0 20) false false 0 false true false 0 ++ [])) p (lit "AI") (lit "VDM") 0 992471097 (List.repeat 0 20) false false 0 false true false 0 [])
    as (d & D & _ & _ & _ & _ & B & _); try reflexivity; [encoded|exact (check_text_field 20 [] 0 (List.repeat 0 20) eq_refl)|].
  exists d. split; [exact D|]. split; [exact B|reflexivity].
Qed.

Example c93_long_range_refuted_case ovf p : exists s d, parse_sentence ovf ex_now s p = (Ok (PsVesselDynamicData d), p) /\
  vdd_latitude d = Some (f64_of_Z 181).
Proof.
  exists (encode_sentence (lit "AI") (lit "VDM") (lit "A") (silent_long_range 0 206914217 false false true 0 ++ [])).
  edestruct (c93_long_range_refuted ovf ex_now (encode_sentence (lit "AI") (lit "VDM") (lit "A")
    (silent_long_range 0 206914217 false false true 0 ++ [])) p (lit "AI") (lit "VDM") 0 206914217 false false true 0 [])
    as (d & D & L & _); try reflexivity; [encoded|]. exists d. split; [exact D|exact L].
Qed.
