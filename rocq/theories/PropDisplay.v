(** C67-C69: texts of values and position accessors. *)
From Coq Require Import List NArith ZArith Bool String Lia.
From Verif Require Import Base Str F64 Chrono Types Util AisMod Vdm Gnss Parser Display
  SpecText SpecResult SpecTime SpecAis SpecReal SpecMeasure SpecFields SpecDisplay StrFacts FrontFacts CallFacts ResultFacts
  BitFacts VdmFacts LayoutFacts FieldFacts PropFront PropMeasure PropFields PropAis.
Import ListNotations.
Open Scope N_scope.

Local Opaque pick_string pick_u64 pick_i64.

(** ** C67 *)

(** Different values of these types have different texts. *)
Theorem c67_texts_identify :
  identifies NavigationSystem_display /\ identifies FaaMode_display /\ identifies GgaQualityIndicator_display /\
  identifies GsaFixMode_display /\ identifies Station_display /\ identifies AisClass_display /\
  identifies PositioningSystemMeta_display /\ identifies PositionFixType_display.
Proof.
  repeat split; intros a b; destruct a, b; intros E; try reflexivity; discriminate E.
Qed.
Print Assumptions c67_texts_identify.

Lemma system_name tt n : names_system tt n -> talker_name system_names tt (NavigationSystem_display n).
Proof.
  intros [H|[H ->]].
  - left. unfold gnss_talkers, system_names in *. cbn [In] in *.
    repeat (destruct H as [H|H]; [injection H as <- <-; tauto|]). contradiction.
  - right. split; [exact H|reflexivity].
Qed.

Lemma station_name tt n : names_station tt n -> talker_name station_names tt (Station_display n).
Proof.
  intros [H|[H ->]].
  - left. unfold ais_talkers, station_names in *. cbn [In] in *.
    repeat (destruct H as [H|H]; [injection H as <- <-; tauto|]). contradiction.
  - right. split; [exact H|reflexivity].
Qed.

(** The text of the source of a report is the name of the talker of its (last) sentence. *)
Theorem c67_talker_names ovf now s p r :
  fst (parse_sentence ovf now s p) = Ok r ->
  (forall fff sources, gnss_result r = Some (fff, sources) ->
     exists body given tt rest, has_body s body given /\ body = lit "$" ++ tt ++ fff ++ lit "," ++ rest /\
       utf8_bytes tt = 2%nat /\
       Forall (fun n => talker_name system_names tt (NavigationSystem_display n)) sources) /\
  (forall own stations, ais_result r = Some (own, stations) ->
     exists body given tt fff rest, has_body s body given /\ body = lit "!" ++ tt ++ fff ++ lit "," ++ rest /\
       utf8_bytes tt = 2%nat /\ (fff = lit "VDM" \/ fff = lit "VDO") /\
       Forall (fun n => talker_name station_names tt (Station_display n)) stations).
Proof.
  intros Hr. split.
  - intros fff sources Hg.
    destruct (c05_gnss_result_routed _ _ _ _ _ _ _ Hr Hg) as (body & given & tt & rest & H1 & H2 & H3 & H4 & H5).
    exists body, given, tt, rest. repeat split; auto. eapply Forall_impl; [|exact H5]. intros n. apply system_name.
  - intros own stations Hg.
    destruct (c06_station_and_own_vessel _ _ _ _ _ _ _ Hr Hg) as (body & given & tt & fff & rest & H1 & H2 & H3 & H4 & H5 & H6).
    exists body, given, tt, fff, rest. repeat split; auto; [tauto|].
    eapply Forall_impl; [|exact H6]. intros n. apply station_name.
Qed.
Print Assumptions c67_talker_names.

(** The text of the quality of a GGA report belongs to the number in the sentence. *)
Theorem c67_quality_names ovf now s tt fields p d q :
  gnss_with s tt (lit "GGA") fields -> clock now ->
  fst (parse_sentence ovf now s p) = Ok (PsGga d) -> denotes (fld fields 5) q ->
  GgaQualityIndicator_display (gga_quality d) = nth (N.to_nat q) quality_names (lit "invalid").
Proof.
  intros Hs Hc Hr Hq.
  destruct (c39_gga ovf now s tt _ fields p Hs (names_system_nav tt) Hc) as (_ & H & _).
  apply H in Hr as (d' & E & R). injection E as <-. destruct R as (_ & _ & _ & _ & (o & Ho & ->) & _).
  destruct Ho as [E|v _ [Hv _]].
  - exfalso. rewrite E in Hq. destruct Hq as (ds & [Hq|Hq] & [N _] & _); [now apply N|discriminate].
  - rewrite (denotes_unique _ _ _ Hv Hq). unfold quality, qualities, quality_names.
    destruct (N.to_nat q) as [|[|[|[|[|[|[|[|[|k]]]]]]]]]; try reflexivity. cbn [nth]. now destruct k.
Qed.
Print Assumptions c67_quality_names.

(** The text of the fix mode of a GSA report belongs to the digit in the sentence. *)
Theorem c67_fix_names ovf now s tt fields p d m :
  gnss_with s tt (lit "GSA") fields ->
  fst (parse_sentence ovf now s p) = Ok (PsGsa d) -> gsa_mode2_3d d = Some m ->
  In (fld fields 1, GsaFixMode_display m) fix_names.
Proof.
  intros Hs Hr Hm.
  destruct (c41_gsa ovf now s tt _ fields p Hs (names_system_nav tt)) as (_ & H & _).
  apply H in Hr as (d' & E & R). injection E as <-. destruct R as (_ & _ & Hf & _). rewrite Hm in Hf.
  inversion Hf as [|v _ Hw Hv]; subst v. unfold word, fix_modes, fix_names in *. cbn [In] in *.
  destruct Hw as [Hw|[Hw|[Hw|[]]]]; injection Hw as <- <-; tauto.
Qed.
Print Assumptions c67_fix_names.

Example c67_example :
  (exists d, fst (parse_sentence true ex_now (lit "$GPGSA,A,2,11") new_parser) = Ok (PsGsa d) /\
     NavigationSystem_display (gsa_source d) = lit "GPS" /\
     option_map GsaFixMode_display (gsa_mode2_3d d) = Some (lit "2D fix")) /\
  (exists d, fst (parse_sentence true ex_now (lit "$QQGGA,123519,,,,,4,,,,M,,M,,") new_parser) = Ok (PsGga d) /\
     NavigationSystem_display (gga_source d) = lit "other" /\
     GgaQualityIndicator_display (gga_quality d) = lit "Real-Time Kinematic") /\
  talker_name system_names (lit "QQ") (lit "other") /\ talker_name system_names (lit "GP") (lit "GPS").
Proof.
  split; [|split; [|split]].
  - eexists. split; [vm_compute; reflexivity|split; reflexivity].
  - eexists. split; [vm_compute; reflexivity|split; reflexivity].
  - right. split; [|reflexivity]. cbn. intuition discriminate.
  - left. cbn. tauto.
Qed.

(** ** C68 *)

(** Every ship type has a text; the reserved ones share theirs, and so do the local ones. *)
Theorem c68_ship_and_cargo_texts_partial :
  (forall a b, ShipType_display a = ShipType_display b <-> a = b \/ ship_twins a b) /\
  (forall a b, CargoType_display a = CargoType_display b <-> a = b \/ cargo_twins a b).
Proof.
  split; intros a b; unfold ship_twins, cargo_twins; cbn [In]; split.
  - destruct a, b; intros E; try (left; reflexivity); try discriminate E; right; tauto.
  - intros [-> |[[H1 H2]|[H1 H2]]]; [reflexivity| |]; decompose [or] H1; decompose [or] H2; subst; try contradiction; reflexivity.
  - destruct a, b; intros E; try (left; reflexivity); try discriminate E; right; tauto.
  - intros [-> |[H1 H2]]; [reflexivity|]. decompose [or] H1; decompose [or] H2; subst; try contradiction; reflexivity.
Qed.
Print Assumptions c68_ship_and_cargo_texts_partial.

Lemma aid_name k : (k < 32)%nat -> NavAidType_display (nth k nav_aid_types NaNotSpecified) = nth k aid_names [].
Proof. intros H. do 32 (destruct k as [|k]; [reflexivity|]). lia. Qed.

Lemma aid_alike a b : (a < 32)%nat -> (b < 32)%nat ->
  nth a aid_names [] = nth b aid_names [] <-> a = b \/ aid_twins (N.of_nat a) (N.of_nat b).
Proof.
  intros Ha Hb.
  assert (C : forallb (fun x => forallb (fun y => Bool.eqb (str_eqb (nth x aid_names []) (nth y aid_names []))
     ((x =? y)%nat || ((x =? 18) || (x =? 29))%nat && ((y =? 18) || (y =? 29))%nat ||
      ((x =? 19) || (x =? 30))%nat && ((y =? 19) || (y =? 30))%nat)) (seq 0 32)) (seq 0 32) = true) by (vm_compute; reflexivity).
  rewrite forallb_forall in C. specialize (C a). rewrite forallb_forall in C.
  specialize (C ltac:(apply in_seq; lia) b ltac:(apply in_seq; lia)). apply eqb_prop in C.
  unfold aid_twins. destruct (str_eqb_spec (nth a aid_names []) (nth b aid_names [])) as [E|E].
  - split; [intros _|auto]. symmetry in C. rewrite !orb_true_iff, !andb_true_iff, !orb_true_iff, !Nat.eqb_eq in C. lia.
  - split; [contradiction|]. intros H. symmetry in C.
    rewrite !orb_false_iff, !andb_false_iff, !orb_false_iff, !Nat.eqb_neq in C. lia.
Qed.

(** The text of the type of an aid to navigation belongs to the five bits after the MMSI, that of the
    position fix type to its four bits. Any message of type 21, also a truncated one. *)
Theorem c68_aid_names ovf now s p tt fff bits d :
  one_fragment s tt fff (armor bits) -> message_type bits 21 ->
  fst (parse_sentence ovf now s p) = Ok (PsAidToNavigationReport d) ->
  NavAidType_display (atn_aid_type d) = nth (N.to_nat (be_value (window bits 38 5))) aid_names [] /\
  option_map PositionFixType_display (atn_position_fix_type d) =
    Some (nth (N.to_nat (be_value (window bits 249 4))) fix_type_names (lit "undefined")).
Proof.
  intros Hs Ht Hr. rewrite (one_fragment_bits _ _ _ _ _ _ _ Hs) in Hr. unfold message_type in Ht.
  unfold dispatch_message in Hr. rewrite pick_u64_spec, Ht in Hr by lia. cbn [fst] in Hr.
  unfold handle_t21 in Hr. destruct (pick_string bits 43 20); try discriminate. cbn [bind] in Hr.
  destruct (pick_string bits 272 14); try discriminate. cbn [bind] in Hr. injection Hr as <-.
  cbn [atn_aid_type atn_position_fix_type option_map]. rewrite !pick_u64_spec by lia.
  pose proof (unsigned_range bits 38 5) as F1. pose proof (unsigned_range bits 249 4) as F2.
  unfold fits in F1, F2. change (2 ^ N.of_nat 5) with 32 in F1. change (2 ^ N.of_nat 4) with 16 in F2.
  unfold as_u8. rewrite !N.mod_small by lia. rewrite aid_value by exact F1.
  split; [apply aid_name; lia|]. rewrite fix_value by exact F2. f_equal.
  unfold fix_type, position_fix_types, fix_type_names.
  destruct (N.to_nat (be_value (window bits 249 4))) as [|[|[|[|[|[|[|[|[|k]]]]]]]]]; try reflexivity. cbn [nth]. now destruct k.
Qed.
Print Assumptions c68_aid_names.

(** Two aids look alike exactly if they have the same code or are a beacon and a mark of one kind. *)
Theorem c68_aids_alike_partial ovf now1 s1 p1 tt1 fff1 bits1 d1 now2 s2 p2 tt2 fff2 bits2 d2 :
  one_fragment s1 tt1 fff1 (armor bits1) -> message_type bits1 21 ->
  one_fragment s2 tt2 fff2 (armor bits2) -> message_type bits2 21 ->
  fst (parse_sentence ovf now1 s1 p1) = Ok (PsAidToNavigationReport d1) ->
  fst (parse_sentence ovf now2 s2 p2) = Ok (PsAidToNavigationReport d2) ->
  NavAidType_display (atn_aid_type d1) = NavAidType_display (atn_aid_type d2) <->
  be_value (window bits1 38 5) = be_value (window bits2 38 5) \/
  aid_twins (be_value (window bits1 38 5)) (be_value (window bits2 38 5)).
Proof.
  intros Hs1 Ht1 Hs2 Ht2 H1 H2.
  rewrite (proj1 (c68_aid_names _ _ _ _ _ _ _ _ Hs1 Ht1 H1)), (proj1 (c68_aid_names _ _ _ _ _ _ _ _ Hs2 Ht2 H2)).
  pose proof (unsigned_range bits1 38 5) as F1. pose proof (unsigned_range bits2 38 5) as F2.
  unfold fits in F1, F2. change (2 ^ N.of_nat 5) with 32 in F1, F2.
  rewrite aid_alike by lia. rewrite !N2Nat.id, N2Nat.inj_iff. reflexivity.
Qed.
Print Assumptions c68_aids_alike_partial.

(** A message about an aid of any type. *)
Definition ex_aid_bits (aid : N) : list bool := layout_bits
  [U 6 21; U 2 0; U 30 992351000; U 5 aid; T 20 (map six_code (lit "FAIRWAY") ++ repeat 32 13)] ++ repeat false 149.

(** A safe water beacon and a safe water buoy have the same text, as have the special marks. *)
Theorem c68_aids_alike_refuted :
  forall a b, a = 18 /\ b = 29 \/ a = 19 /\ b = 30 ->
  exists s1 s2 d1 d2,
    one_fragment s1 (lit "AI") (lit "VDM") (armor (ex_aid_bits a)) /\ one_fragment s2 (lit "AI") (lit "VDM") (armor (ex_aid_bits b)) /\
    fst (parse_sentence true ex_now s1 new_parser) = Ok (PsAidToNavigationReport d1) /\
    fst (parse_sentence true ex_now s2 new_parser) = Ok (PsAidToNavigationReport d2) /\
    atn_aid_type d1 <> atn_aid_type d2 /\
    NavAidType_display (atn_aid_type d1) = NavAidType_display (atn_aid_type d2).
Proof.
  intros a b H.
  exists (encode_sentence (lit "AI") (lit "VDM") (lit "A") (ex_aid_bits a)),
    (encode_sentence (lit "AI") (lit "VDM") (lit "A") (ex_aid_bits b)).
  destruct H as [[-> ->]|[-> ->]]; (eexists; eexists;
  split; [apply (encode_sentence_one_fragment _ _ (lit "A")); [reflexivity|now apply plain_lit_dec|now left|now apply plain_lit_dec]|];
  split; [apply (encode_sentence_one_fragment _ _ (lit "A")); [reflexivity|now apply plain_lit_dec|now left|now apply plain_lit_dec]|];
  split; [vm_compute; reflexivity|]; split; [vm_compute; reflexivity|]; split; [discriminate|reflexivity]).
Qed.
Print Assumptions c68_aids_alike_refuted.

(** Ship types 38 and 39, and cargo types 15 and 16, have the same text. *)
Theorem c68_ship_and_cargo_texts_refuted :
  ~ identifies ShipType_display /\ ~ identifies CargoType_display /\ ~ identifies NavAidType_display.
Proof.
  split; [|split]; intros H.
  - specialize (H ShReserved38 ShReserved39 eq_refl). discriminate.
  - specialize (H CaReserved5 CaReserved6 eq_refl). discriminate.
  - specialize (H NaBeaconSafeWater NaSafeWater eq_refl). discriminate.
Qed.
Print Assumptions c68_ship_and_cargo_texts_refuted.

Example c68_example :
  message_type (ex_aid_bits 24) 21 /\ be_value (window (ex_aid_bits 24) 38 5) = 24 /\
  one_fragment (encode_sentence (lit "AI") (lit "VDM") (lit "A") (ex_aid_bits 24)) (lit "AI") (lit "VDM") (armor (ex_aid_bits 24)) /\
  exists d, fst (parse_sentence true ex_now (encode_sentence (lit "AI") (lit "VDM") (lit "A") (ex_aid_bits 24)) new_parser) =
    Ok (PsAidToNavigationReport d) /\ NavAidType_display (atn_aid_type d) = lit "port hand mark" /\ atn_name d = lit "FAIRWAY".
Proof.
  split; [reflexivity|]. split; [reflexivity|]. split.
  - apply (encode_sentence_one_fragment _ _ (lit "A")); [reflexivity|now apply plain_lit_dec|now left|now apply plain_lit_dec].
  - eexists. split; [vm_compute; reflexivity|]. split; reflexivity.
Qed.

(** ** C69 *)

(** The accessors give the transmitted position of an AIS report, each the right one of the two. *)
Theorem c69_ais_position ovf now s p tt fff bits t lo la r p' :
  one_fragment s tt fff (armor bits) -> message_type bits t -> position_bits t = Some (lo, la) ->
  parse_sentence ovf now s p = (Ok r, p') ->
  exists lat lon, LatLon_latitude r = Some lat /\ LatLon_longitude r = Some lon /\
    coordinate latitude_na (signed_value (window bits la 27)) lat /\
    coordinate longitude_na (signed_value (window bits lo 28)) lon.
Proof.
  intros Hs Ht Hp Hr.
  destruct (c32_nearest_coordinates _ _ _ _ _ _ _ _ _ _ _ _ Hs Ht Hp Hr) as (lat & lon & E & H1 & H2).
  exists lat, lon. destruct r; try discriminate E; injection E as <- <-; auto.
Qed.
Print Assumptions c69_ais_position.

(** The same for the position in the fields of a GNSS sentence. *)
Theorem c69_gnss_position ovf now s tt fff fields p r a b c e :
  gnss_with s tt fff fields -> In (fff, (a, b, c, e)) position_fields -> clock now -> (0 <= dt_year now)%Z ->
  fst (parse_sentence ovf now s p) = Ok r ->
  exists lat lon, LatLon_latitude r = Some lat /\ LatLon_longitude r = Some lon /\
    field_value (latitude_text (fld fields b)) (fld fields a) lat /\
    field_value (longitude_text (fld fields e)) (fld fields c) lon.
Proof.
  intros Hs Hf Hc Hy Hr.
  assert (Hf' : In fff [lit "GGA"; lit "RMC"; lit "GSA"; lit "GLL"; lit "VTG"]).
  { unfold position_fields in Hf. cbn [In] in *. destruct Hf as [E|[E|[E|[]]]]; apply (f_equal fst) in E; cbn [fst] in E; auto. }
  pose proof (gnss_ok ovf now s tt fff fields p r _ Hs (names_system_nav tt) Hf' Hc Hy Hr) as R.
  unfold position_fields in Hf. cbn [In] in Hf.
  destruct R as [d R|d R|d R|d R|d R];
    destruct Hf as [E|[E|[E|[]]]]; try discriminate (f_equal fst E); apply (f_equal snd) in E; cbn [snd] in E;
    injection E as <- <- <- <-; do 2 eexists; (split; [reflexivity|]); (split; [reflexivity|]);
    split; apply R.
Qed.
Print Assumptions c69_gnss_position.

(** Messages of other types have no position to access; the accessors of type 6 say so. (Type 27 has one of its own
    format, see C31.) *)
Theorem c69_no_position ovf now s p tt fff bits t r p' :
  one_fragment s tt fff (armor bits) -> message_type bits t -> position_bits t = None -> t <> 27 ->
  parse_sentence ovf now s p = (Ok r, p') ->
  (forall x, LatLon_latitude r <> Some (Some x) /\ LatLon_longitude r <> Some (Some x)) /\
  (t = 6 -> LatLon_latitude r = Some None /\ LatLon_longitude r = Some None).
Proof.
  intros Hs Ht Hp H27 Hr. rewrite (one_fragment_bits _ _ _ _ _ _ _ Hs) in Hr. unfold message_type in Ht.
  rewrite <- (pick_u64_spec bits 0 6) in Ht by lia. apply (f_equal fst) in Hr. cbn [fst] in Hr.
  assert (C : ais_result r <> None \/ r = PsIncomplete).
  { destruct (dispatch_message_result _ _ _ _ _ _ _ Hr) as [-> |(sts & E & _)]; [now right|left; congruence]. }
  revert Ht Hr. destruct (dispatch_message_case now (lit "!" ++ fff) bits (station_of_talker tt) (str_eqb fff (lit "VDO")) p)
    as [n Hn| | | | | | | | | | |n Hn]; intros Ht; cbn [fst]; intros Hr; subst t; try discriminate Hp; try contradiction.
  - destruct Hn as [-> |[-> | ->]]; discriminate Hp.
  - unfold handle_t5 in Hr. destruct (pick_string bits 70 7); try discriminate. cbn [bind] in Hr.
    destruct (pick_string bits 112 20); try discriminate. cbn [bind] in Hr.
    destruct (pick_eta _ _ _); try discriminate. cbn [bind] in Hr.
    destruct (pick_string _ _ _); try discriminate. injection Hr as <-. split; [split; discriminate|intros [=]].
  - unfold handle_t6 in Hr. injection Hr as <-. split; [split; discriminate|auto].
  - unfold handle_t10 in Hr. injection Hr as <-. split; [split; discriminate|intros [=]].
  - discriminate.
  - unfold handle_t24 in Hr. destruct (_ || _); [|discriminate].
    destruct (t24_fields _ _ _) as [v| |]; try discriminate. unfold t24_store in Hr.
    destruct (pull_vsd _ _) as [[v2|] p2]; cbn [fst] in Hr.
    + destruct (merge v v2); try discriminate. injection Hr as <-. split; [split; discriminate|intros [=]].
    + injection Hr as <-. split; [split; discriminate|intros [=]].
  - discriminate.
Qed.
Print Assumptions c69_no_position.

Example c69_example :
  (exists d, fst (parse_sentence true ex_now (lit "!AIVDM,1,1,,A,15MgK45P3@G?fl0E`JbR0OwT0@MS,0") new_parser) =
     Ok (PsVesselDynamicData d) /\ LatLon_latitude (PsVesselDynamicData d) = Some (vdd_latitude d) /\ vdd_latitude d <> None) /\
  (exists d, fst (parse_sentence true ex_now (lit "$GPGLL,4916.45,N,12311.12,W,225444,A") new_parser) = Ok (PsGll d) /\
     gnss_with (lit "$GPGLL,4916.45,N,12311.12,W,225444,A") (lit "GP") (lit "GLL")
       [lit "4916.45"; lit "N"; lit "12311.12"; lit "W"; lit "225444"; lit "A"] /\
     In (lit "GLL", (0, 1, 2, 3)%nat) position_fields /\ gll_latitude d <> None /\ gll_longitude d <> None).
Proof.
  split; eexists; (split; [vm_compute; reflexivity|]).
  - split; [reflexivity|discriminate].
  - split; [gnss|]. split; [cbn; tauto|]. split; discriminate.
Qed.
