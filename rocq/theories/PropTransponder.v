(** C114: what transponders send is read back. *)
From stdpp Require Import gmap.
From Coq Require Import List NArith ZArith Bool String Reals Lia Lra.
From Verif Require Import Base Str F64 Chrono Types Util AisMod Vdm Gnss Parser
  SpecText SpecResult SpecTime SpecReal SpecMeasure SpecSender SpecState SpecGnss SpecJournal SpecAis SpecTransponder
  StrFacts FrontFacts CallFacts ResultFacts BitFacts VdmFacts LayoutFacts StateFacts RunFacts PropFront PropState PropAis PropMeasure PropSender PropSenderGsv PropJournal.
Import ListNotations.
Open Scope N_scope.

Lemma coordinate_back (na : Z) o : every (fun z => (Z.abs z <= 2 ^ 27)%Z /\ z <> na) o -> both (gives 600000) o (degrees na (coded na o)).
Proof.
  destruct o as [z|]; cbn [every coded both].
  - intros [H N]. destruct (degrees_nearest na z ltac:(lia)) as [[E _]|(_ & x & E & X)]; [contradiction|]. rewrite E.
    destruct (nearest_value 8 _ _ X ltac:(lia) (raw_small z H)) as [_ B]. split; [apply X|].
    rewrite bpow_m45 in B. replace (real_of x * 600000 - IZR z)%R with ((real_of x - IZR z / 600000) * 600000)%R by field.
    rewrite Rabs_mult, (Rabs_pos_eq 600000) by lra. lra.
  - unfold degrees. rewrite Z.eqb_refl. intros _. exact Logic.I.
Qed.

Lemma tenths_back (na : N) o : na < 4096 -> every (fun n => n < na) o -> both (fun n => gives 10 (Z.of_N n)) o (tenths na (coded na o)).
Proof.
  intros Hn. destruct o as [n|]; cbn [every coded both].
  - intros H. destruct (tenths_spec na n) as [[E _]|(_ & x & E & F & _ & B)]; [unfold fits; change (2 ^ 12) with 4096; lia|lia|].
    rewrite E. split; [exact F|]. replace (real_of x * 10 - IZR (Z.of_N n))%R with ((real_of x - IZR (Z.of_N n) / 10) * 10)%R by field.
    rewrite Rabs_mult, (Rabs_pos_eq 10) by lra. assert (/ 10 ^ 12 < / 1000)%R by (apply Rinv_lt_contravar; lra). lra.
  - unfold tenths. rewrite N.eqb_refl. intros _. exact Logic.I.
Qed.

Lemma whole_back (na : N) o : na < 4096 -> every (fun n => n < na) o -> both (fun n => gives 1 (Z.of_N n)) o (whole na (coded na o)).
Proof.
  intros Hn. destruct o as [n|]; cbn [every coded both].
  - intros H. destruct (whole_spec na n) as [[E _]|(_ & x & E & F & B)]; [unfold fits; change (2 ^ 53) with 9007199254740992; lia|lia|].
    rewrite E. split; [exact F|]. rewrite B. replace (IZR (Z.of_N n) * 1 - IZR (Z.of_N n))%R with 0%R by ring. rewrite Rabs_R0. lra.
  - unfold whole. rewrite N.eqb_refl. intros _. exact Logic.I.
Qed.

Lemma available_back (na : N) o : every (fun n => n < na) o -> available na (coded na o) = o.
Proof.
  unfold available. destruct o as [n|]; cbn [every coded]; intros H; [|now rewrite N.eqb_refl].
  destruct (N.eqb_spec n na); [lia|reflexivity].
Qed.

Lemma spot_read x : on_earth x ->
  spot_back x (lat_degrees (coded (91 * 600000)%Z (sp_latitude x))) (lon_degrees (coded (181 * 600000)%Z (sp_longitude x))) (sp_accurate x) /\
  fits_signed 27 (coded (91 * 600000)%Z (sp_latitude x)) /\ fits_signed 28 (coded (181 * 600000)%Z (sp_longitude x)).
Proof.
  intros [Lo La]. split; [split; [|split; [|reflexivity]]|split].
  - apply coordinate_back. destruct (sp_latitude x); cbn in *; [lia|exact Logic.I].
  - apply coordinate_back. destruct (sp_longitude x); cbn in *; [lia|exact Logic.I].
  - unfold fits_signed. destruct (sp_latitude x); cbn in *; lia.
  - unfold fits_signed. destruct (sp_longitude x); cbn in *; lia.
Qed.

Lemma second_fits s : second_sound s -> fits 6 (second_code s).
Proof. unfold fits. change (2 ^ 6) with 64. destruct s; cbn; lia. Qed.
Lemma coded_fits w na o : na < 2 ^ w -> every (fun n => n < na) o -> fits w (coded na o).
Proof. unfold fits. destruct o; cbn; lia. Qed.
Lemma every_impl {A} (P Q : A -> Prop) o : (forall x, P x -> Q x) -> every P o -> every Q o.
Proof. destruct o; cbn; auto. Qed.

Lemma motion_read m : motion_sound m ->
  (both (fun n => gives 10 (Z.of_N n)) (mo_speed m) (tenths 1023 (coded 1023 (mo_speed m))) /\
   both (fun n => gives 10 (Z.of_N n)) (mo_course m) (tenths 3600 (coded 3600 (mo_course m))) /\
   both (fun n => gives 1 (Z.of_N n)) (mo_heading m) (whole 511 (coded 511 (mo_heading m))) /\
   match mo_second m with AtSecond n => second_code (mo_second m) = n | _ => 60 <= second_code (mo_second m) end) /\
  fits 10 (coded 1023 (mo_speed m)) /\ fits 12 (coded 3600 (mo_course m)) /\ fits 9 (coded 511 (mo_heading m)) /\
  fits 6 (second_code (mo_second m)).
Proof.
  intros (S & C & H & T).
  assert (S' : every (fun n => n < 1023) (mo_speed m)) by (revert S; apply every_impl; intros; lia).
  assert (H' : every (fun n => n < 511) (mo_heading m)) by (revert H; apply every_impl; intros; lia).
  split; [split; [|split; [|split]]|split; [|split; [|split]]].
  - now apply tenths_back.
  - now apply tenths_back.
  - now apply whole_back.
  - destruct (mo_second m); cbn; [reflexivity|lia..].
  - now apply coded_fits.
  - now apply coded_fits.
  - now apply coded_fits.
  - now apply second_fits.
Qed.

Lemma state_read s : second_sound s -> positioning_state (second_code s) = system_of s.
Proof.
  unfold positioning_state. destruct s as [n| | | |]; cbn [second_code second_sound system_of]; [|reflexivity..].
  intros H. destruct (N.ltb_spec n 60); [reflexivity|lia].
Qed.

Lemma status_read s : nth (N.to_nat (status_code s)) navigation_statuses NsNotDefined = s /\ fits 4 (status_code s).
Proof. unfold fits. destruct s; split; reflexivity. Qed.
Lemma device_read d : d <> Some PfUndefined -> fix_report (device_code d) = d /\ fits 4 (device_code d).
Proof. unfold fits. destruct d as [[]|]; intros H; split; try reflexivity; now destruct H. Qed.

Lemma turn_read k : every (fun k => (Z.abs k <= 126)%Z) k ->
  turn_direction (coded (-128)%Z k) = option_map side_of_turn k /\ (reported_turn (coded (-128)%Z k) = None <-> k = None) /\
  fits_signed 8 (coded (-128)%Z k).
Proof.
  unfold turn_direction, reported_turn, fits_signed, side_of_turn. destruct k as [k|]; cbn [every coded option_map]; intros H.
  - split; [|split; [|lia]].
    + destruct (Z.eqb_spec k (-128)); [lia|].
      destruct (Z.leb_spec (Z.abs k) 1), (Z.ltb_spec 1 k), (Z.ltb_spec k (-1)); try lia; f_equal; lia.
    + destruct (Z.leb_spec (Z.abs k) 126); [|lia]. split; discriminate.
  - split; [reflexivity|]. split; [|lia]. split; reflexivity.
Qed.

Lemma own_read (own : bool) : str_eqb (if own then lit "VDO" else lit "VDM") (lit "VDO") = own /\
  ((if own then lit "VDO" else lit "VDM") = lit "VDM" \/ (if own then lit "VDO" else lit "VDM") = lit "VDO").
Proof. destruct own; auto. Qed.

Lemma small w v : v < 2 ^ w -> fits w v.
Proof. auto. Qed.

Lemma spelled_text n t : spellable n t -> text_field n t (spelled n t).
Proof.
  intros (L & E & A & S). unfold spelled. split; [rewrite app_length, map_length, repeat_length; lia|].
  split.
  - apply Forall_app. split.
    + apply Forall_map. revert E. apply List.Forall_impl. intros c Hc. unfold encodable in Hc. unfold six_code.
      destruct (N.ltb_spec c 64); lia.
    + apply Forall_forall. intros x Hx. apply List.repeat_spec in Hx. lia.
  - split; [exact E|]. split; [exact A|]. split; [exact S|].
    exists 0%nat, (repeat 0 (n - List.length t)). split; [reflexivity|].
    destruct (n - List.length t)%nat; [now left|right]. eexists. reflexivity.
Qed.


(** Beyond the end of the bits there are zeros: no extension of the name. *)
Lemma window_end n : window [] 0 n = repeat false n.
Proof.
  generalize 0%nat as i. induction n as [|n IH]; intros i; [reflexivity|]. rewrite window_succ. cbn [repeat].
  f_equal; [now destruct i|apply IH].
Qed.

(** Every parser gives back what was meant, and is left as it was. *)
Theorem c114_report ovf p e : entry_sound e ->
  exists r, parse_sentence ovf (re_at e) (snd (entry_call e)) p = (Ok r, p) /\
    received_back (re_own e) (re_station e) (re_news e) r.
Proof.
  destruct e as [now tt station own channel n]. unfold entry_sound, entry_call.
  cbn [re_at re_talker re_station re_own re_channel re_news snd]. intros (Ht & Hp & Hst & Hch & Hn).
  destruct (own_read own) as [Ow Hf].
  assert (W : forall bits, one_fragment (encode_sentence tt (if own then lit "VDO" else lit "VDM") channel bits) tt
                (if own then lit "VDO" else lit "VDM") (armor (bits ++ []))).
  { intros bits. rewrite app_nil_r. now apply encode_sentence_one_fragment. }
  set (fff := if own then lit "VDO" else lit "VDM") in *. clearbody fff.
  destruct n as [kind mmsi status turn x m raim radio|mmsi x m unit display dsc band msg22 assigned raim selector radio
    |mmsi year month day hour minute second x device raim radio|mmsi altitude speed x course second dte assigned raim radio
    |mmsi kind name x bow stern port starboard device second off regional raim virtual assigned|mmsi destination
    |mmsi number destination retransmitted area id data];
    cbn [sendable received_back news_layout spot_layout app] in *.
  - destruct Hn as (K & M & Tu & X & Mo & Ra).
    destruct (spot_read _ X) as (X1 & X2 & X3). destruct (motion_read _ Mo) as (M1 & M2 & M3 & M4 & M5).
    destruct (status_read status) as [S1 S2]. destruct (turn_read _ Tu) as (T1 & T2 & T3).
    eexists. split.
    + eapply c21_class_a_position; [apply W|exact Hst|exact K|..]; first [assumption|exact eq_refl].
    + eexists. split; [reflexivity|]. cbn [vdd_own_vessel vdd_station vdd_ais_type vdd_mmsi vdd_nav_status vdd_rot vdd_rot_direction vdd_sog_knots vdd_high_position_accuracy vdd_latitude
        vdd_longitude vdd_cog vdd_heading_true vdd_timestamp_seconds vdd_positioning_system_meta vdd_raim_flag vdd_radio_status]; unfold motion_back; cbn [vdd_sog_knots vdd_cog vdd_heading_true vdd_timestamp_seconds].
      rewrite S1. repeat (split; [first [exact Ow|exact eq_refl|assumption]|]).
      split; [|split; reflexivity]. apply state_read. apply Mo.
  - destruct Hn as (M & X & Mo & Ra).
    destruct (spot_read _ X) as (X1 & X2 & X3). destruct (motion_read _ Mo) as (M1 & M2 & M3 & M4 & M5).
    eexists. split.
    + eapply c27_class_b_position_partial; [apply W|exact Hst|..]; first [assumption|exact eq_refl].
    + eexists. split; [reflexivity|]. cbn [vdd_own_vessel vdd_station vdd_ais_type vdd_mmsi vdd_nav_status vdd_rot vdd_rot_direction vdd_sog_knots vdd_high_position_accuracy vdd_latitude
        vdd_longitude vdd_cog vdd_heading_true vdd_timestamp_seconds vdd_positioning_system_meta vdd_raim_flag vdd_radio_status]; unfold motion_back; cbn [vdd_sog_knots vdd_cog vdd_heading_true vdd_timestamp_seconds].
      repeat (split; [first [exact Ow|exact eq_refl|assumption]|]). reflexivity.
  - destruct Hn as (M & Y & D & Ti & X & De & Ra).
    destruct (spot_read _ X) as (X1 & X2 & X3). destruct (device_read _ De) as [D1 D2].
    eexists. split.
    + eapply c22_base_station; [apply W|exact Hst|..]; try first [assumption|exact eq_refl]; unfold fits.
      * change (2 ^ 14) with 16384. lia.
      * destruct D as (D & _). change (2 ^ 4) with 16. lia.
      * destruct D as (_ & D & _). change (2 ^ 5) with 32. lia.
      * destruct Ti as (Ti & _). change (2 ^ 5) with 32. lia.
      * destruct Ti as (_ & Ti & _). change (2 ^ 6) with 64. lia.
      * destruct Ti as (_ & _ & Ti). change (2 ^ 6) with 64. lia.
    + eexists. split; [reflexivity|]. cbn [bsr_own_vessel bsr_station bsr_mmsi bsr_timestamp bsr_latitude bsr_longitude bsr_high_position_accuracy bsr_position_fix_type bsr_raim_flag bsr_radio_status].
      repeat (split; [first [exact Ow|exact eq_refl|assumption]|]). reflexivity.
  - destruct Hn as (M & A & S & X & C & Se & Ra).
    destruct (spot_read _ X) as (X1 & X2 & X3).
    assert (S' : every (fun n => n < 1023) speed) by (revert S; apply every_impl; intros; lia).
    assert (A' : every (fun n => n < 4095) altitude) by (revert A; apply every_impl; intros; lia).
    eexists. split.
    + eapply c25_sar_aircraft; [apply W|exact Hst|..]; try first [assumption|exact eq_refl];
        first [now apply coded_fits|now apply second_fits].
    + eexists. split; [reflexivity|]. cbn [sar_own_vessel sar_station sar_mmsi sar_altitude sar_sog_knots sar_latitude sar_longitude sar_high_position_accuracy sar_cog sar_timestamp_seconds
        sar_dte sar_assigned sar_raim_flag sar_radio_status]. rewrite !available_back by assumption.
      repeat (split; [first [exact Ow|exact eq_refl|assumption|now apply tenths_back]|]). reflexivity.
  - destruct Hn as (M & K & Na & X & B1 & B2 & B3 & B4 & De & Se & Re).
    destruct (spot_read _ X) as (X1 & X2 & X3). pose proof (spelled_text _ _ Na) as Na'.
    assert (De' : Some device <> Some PfUndefined) by congruence. destruct (device_read _ De') as [D1 D2].
    assert (D3 : fix_type (device_code (Some device)) = device).
    { revert D1. unfold fix_report. destruct (device_code (Some device) =? 0); intros D1; [discriminate D1|now injection D1]. }
    eexists. split.
    + eapply (c28_aid_to_navigation_partial ovf now _ p tt fff station 0 mmsi kind name (spelled 20 name) _ _ _ _ _ _ _ _ _ _ _ _ _ _ 0 []
        (repeat 0 14) []);
        [apply W|exact Hst|exact Na'|rewrite window_end; exact eq_refl|..];
        try first [assumption|exact eq_refl|now apply second_fits].
      apply (spelled_text 14 []). repeat split; [cbn; lia|constructor|intros []|]. intros u Hu. now destruct u.
    + eexists. split; [reflexivity|].
      cbn [atn_own_vessel atn_station atn_mmsi atn_aid_type atn_name atn_high_position_accuracy atn_latitude atn_longitude
        atn_dimension_to_bow atn_dimension_to_stern atn_dimension_to_port atn_dimension_to_starboard atn_position_fix_type
        atn_timestamp_seconds atn_regional atn_raim_flag atn_virtual_aid_flag atn_assigned_mode_flag].
      rewrite app_nil_r, D3. repeat (split; [first [exact Ow|exact eq_refl|assumption]|]). reflexivity.
  - destruct Hn as (M & De). eexists. split.
    + eapply (c26_utc_inquiry ovf now _ p tt fff station 0 mmsi 0 destination (be_bits 2 0)); try first [assumption|exact eq_refl].
      apply encode_sentence_one_fragment; assumption.
    + eexists. split; [reflexivity|]. cbn [udi_own_vessel udi_station udi_source_mmsi udi_destination_mmsi].
      repeat (split; [first [exact Ow|exact eq_refl]|]). reflexivity.
  - destruct Hn as (M & Nu & De & Ar & Id). eexists. split.
    + eapply (c24_binary_addressed ovf now _ p tt fff station 0 mmsi number destination retransmitted 0 area id data);
        try first [assumption|exact eq_refl].
      match goal with |- one_fragment (encode_sentence _ _ _ ?A) _ _ (armor ?B) => replace B with A end;
        [apply encode_sentence_one_fragment; assumption|].
      unfold layout_bits. cbn [flat_map snd app]. rewrite <- !app_assoc, app_nil_r. reflexivity.
    + eexists. split; [reflexivity|]. cbn [bam_own_vessel bam_station bam_mmsi bam_sequence_number bam_destination_mmsi bam_retransmit_flag bam_dac bam_fid].
      repeat (split; [first [exact Ow|exact eq_refl]|]). reflexivity.
Qed.
Print Assumptions c114_report.

(** A whole log of such reports. *)
Theorem c114_log ovf l p : Forall entry_sound l ->
  Forall2 entry_back l (results ovf (map entry_call l) p) /\ after ovf (map entry_call l) p = p.
Proof.
  intros H. induction H as [|e l He _ [F A]]; [split; [constructor|reflexivity]|].
  destruct (c114_report ovf p e He) as (r & E & R). cbn [map].
  rewrite (surjective_pairing (entry_call e)). change (fst (entry_call e)) with (re_at e).
  rewrite results_cons, after_cons, E. cbn [fst snd]. split; [|exact A].
  constructor; [|exact F]. exists r. auto.
Qed.
Print Assumptions c114_log.

(** What is heard on the bridge of a ship: the journal of its satellite receivers and the log of its AIS
    receiver on one line, in any order. Both are understood in full. *)
Theorem c114_bridge ovf j l m p : Forall in_order j -> Forall entry_sound l -> no_groups p ->
  stream 0 m = journal_calls j -> stream 1 m = map entry_call l -> (forall i c, In (i, c) m -> i = 0 \/ i = 1) ->
  (exists answers, stream_results ovf 0 m p = List.concat answers /\
     Forall2 (fun e a => understood (je_system e) (je_news e) a) j answers) /\
  Forall2 entry_back l (stream_results ovf 1 m p).
Proof.
  intros Hj Hl G H0 H1 H01.
  destruct (c111_journal_among_ais ovf j m p Hj G H0) as [A E]; [|exact H01|].
  - intros c Hc tt fields (Hs & _).
    assert (I1 : In c (map entry_call l)).
    { rewrite <- H1. unfold stream. apply in_map_iff. exists (1, c). split; [reflexivity|].
      apply filter_In. split; [exact Hc|reflexivity]. }
    apply in_map_iff in I1 as (e & <- & He). rewrite List.Forall_forall in Hl. destruct (Hl e He) as (Ht & Hp & _ & Hch & _).
    unfold entry_call in Hs. cbn [snd] in Hs.
    destruct (encode_sentence_one_fragment (re_talker e) (if re_own e then lit "VDO" else lit "VDM") (re_channel e)
      (layout_bits (news_layout (re_news e))) Ht Hp (proj2 (own_read (re_own e))) Hch) as (? & ? & ? & ? & ? & (? & V & _) & _).
    pose proof (sentence_unique _ _ _ V Hs) as X. discriminate X.
  - split; [exact A|]. rewrite E, H1. exact (proj1 (c114_log ovf l p Hl)).
Qed.
Print Assumptions c114_bridge.

(** A ferry, a yacht, a base station and a helicopter, heard together with the journal of C111. *)
Definition ex_log : list radio_entry :=
  [mk_radio_entry ex_now (lit "AI") StMobileStation false (lit "A")
     (ClassA 1 230123250 NsUnderWayUsingEngine (Some (-5)%Z) (mk_spot (Some 14964000%Z) (Some 36096000%Z) true)
        (mk_motion (Some 184) (Some 2245) (Some 224) (AtSecond 17)) false 34017);
   mk_radio_entry ex_now (lit "AI") StMobileStation false (lit "B")
     (ClassB 338087471 (mk_spot (Some (-44443279)%Z) None false) (mk_motion (Some 1) None None NoSecond)
        true false false true false true true true 393222);
   mk_radio_entry ex_now (lit "AB") StBaseStation false []
     (BaseStation 2300049 2024 2 29 23 59 59 (mk_spot None None false) (Some PfSurveyed) true 0);
   mk_radio_entry ex_now (lit "XY") StOther true (lit "A")
     (Aircraft 111232512 (Some 303) (Some 42) (mk_spot (Some (-108000000)%Z) (Some (-54000000)%Z) false) (Some 3599) DeadReckoning
        true false true 4096)].
Definition ex_line : interleaving :=
  let gnss := map (fun c => (0, c)) (journal_calls ex_journal) in
  let ais := map (fun e => (1, entry_call e)) ex_log in
  firstn 2 gnss ++ firstn 3 ais ++ skipn 2 gnss ++ skipn 3 ais.

Lemma ex_log_sound : Forall entry_sound ex_log.
Proof.
  unfold ex_log. repeat (apply List.Forall_cons; [|]); [..|apply List.Forall_nil].
  all: unfold entry_sound; cbn [re_talker re_station re_channel re_news].
  all: (split; [reflexivity|]); (split; [now apply plain_lit_dec|]).
  all: (split; [first [left; vm_compute; tauto|right; split; [vm_compute; intuition discriminate|reflexivity]]|]);
       (split; [first [now apply plain_lit_dec|intros c []]|]).
  all: cbn [sendable]; unfold on_earth, motion_sound, second_sound, valid_date, valid_time;
       cbn [every sp_longitude sp_latitude mo_speed mo_course mo_heading mo_second].
  all: change (2 ^ 30) with 1073741824; change (2 ^ 20) with 1048576; change (2 ^ 19) with 524288.
  1,2,4: repeat split; try lia.
  repeat split; try lia; try discriminate. intros _. right. split; [reflexivity|]. left. split; [now exists 506%Z|]. intros [k Hk]. lia.
Qed.

Example c114_sentences : map (fun e => snd (entry_call e)) ex_log =
  [lit "!AIVDM,1,1,,A,13KMVtPvjpQj:a0RK808iG0R08CQ,0*13";
   lit "!AIVDM,1,1,,B,B52K>;h00Fc>jpe18D3Q3wv4gP06,0*3A";
   lit "!ABVDM,1,1,,,402<HTAvPfoss<tSF0l4Q@702000,0*35";
   lit "!XYVDO,1,1,,A,91b5601;hbC81`1<P6P>3wP24100,0*78"].
Proof. vm_compute. reflexivity. Qed.

Example c114_bridge_example ovf :
  (exists g l v s r, stream_results ovf 0 ex_line new_parser =
     [Ok (PsGga g); Ok PsIncomplete; Ok (PsGsv (map (satellite_entry NavGlonass) ex_seen));
      Ok (PsGll l); Ok (PsVtg v); Ok (PsGsa s); Ok (PsRmc r)]) /\
  (exists a b c d, stream_results ovf 1 ex_line new_parser =
     [Ok (PsVesselDynamicData a); Ok (PsVesselDynamicData b); Ok (PsBaseStationReport c); Ok (PsStandardSarAircraftPositionReport d)] /\
     vdd_nav_status a = NsUnderWayUsingEngine /\ vdd_rot_direction a = Some (-1)%Z /\
     (exists v, vdd_latitude a = Some v /\ gives 600000 36096000 v) /\ vdd_latitude b = None /\
     bsr_timestamp c = Some (mk_datetime 2024 2 29 23 59 59 0) /\ sar_own_vessel d = true /\ sar_altitude d = Some 303).
Proof.
  destruct (c114_bridge ovf ex_journal ex_log ex_line new_parser ex_journal_sound ex_log_sound) as [(answers & E & F) B].
  - intros tt c n _. reflexivity.
  - unfold ex_line. cbv zeta. unfold stream.
    cbn [ex_journal journal_calls ex_log flat_map told map firstn skipn app combine seq List.length je_talker je_news fst snd List.filter N.eqb Pos.eqb].
    exact eq_refl.
  - unfold ex_line. cbv zeta. unfold stream.
    cbn [ex_journal journal_calls ex_log flat_map told map firstn skipn app combine seq List.length je_talker je_news fst snd List.filter N.eqb Pos.eqb].
    exact eq_refl.
  - assert (L : Forall (fun x => fst x = 0 \/ fst x = 1) ex_line).
    { unfold ex_line, ex_journal, journal_calls, ex_log.
      cbn [flat_map told map firstn skipn app combine seq List.length je_talker je_news fst snd].
      repeat (apply List.Forall_cons; [first [left; exact eq_refl|right; exact eq_refl]|]). apply List.Forall_nil. }
    rewrite List.Forall_forall in L. intros i c H. exact (L _ H).
  - split.
    + clear B. unfold ex_journal in F. repeat match goal with H : Forall2 _ _ _ |- _ => inversion H; subst; clear H end.
      cbn [je_system je_news understood] in *.
      repeat match goal with H : exists _, _ /\ _ |- _ => destruct H as (? & -> & ?) end. subst.
      do 5 eexists. rewrite E. exact eq_refl.
    + clear answers E F. unfold ex_log in B. apply Forall2_cons_inv_l in B as (a & B1 & (ra & -> & Ra) & B & ->).
      apply Forall2_cons_inv_l in B as (b & B2 & (rb & -> & Rb) & B & ->).
      apply Forall2_cons_inv_l in B as (c & B3 & (rc & -> & Rc) & B & ->).
      apply Forall2_cons_inv_l in B as (d & B4 & (rd & -> & Rd) & B & ->). apply Forall2_nil_inv_l in B as ->.
      cbn [re_own re_station re_news received_back] in Ra, Rb, Rc, Rd.
      destruct Ra as (a & -> & _ & _ & _ & _ & A1 & A2 & _ & (A3 & _) & _). destruct Rb as (b & -> & _ & _ & _ & _ & (B1 & _) & _).
      destruct Rc as (c & -> & _ & _ & _ & C1 & _). destruct Rd as (d & -> & D1 & _ & _ & D2 & _).
      exists a, b, c, d. split; [reflexivity|]. split; [exact A1|]. split; [exact A2|].
      cbn [sp_latitude both] in A3, B1.
      split; [destruct (vdd_latitude a) as [v|]; [exists v; auto|destruct A3]|].
      split; [destruct (vdd_latitude b); [destruct B1|reflexivity]|]. auto.
Qed.

(** A lightship, somebody who asks for the time, and a message. *)
Definition ex_others : list radio_entry :=
  [mk_radio_entry ex_now (lit "AN") StAidToNavigationStation false (lit "B")
     (Aid 123456789 20 (lit "CHINA ROSE MURPHY") (mk_spot (Some (-73619150)%Z) (Some 28752370%Z) false) 5 5 5 5 PfGPS (AtSecond 50)
        false 165 false true false);
   mk_radio_entry ex_now (lit "AI") StMobileStation false (lit "B") (Inquiry 366972000 3669713);
   mk_radio_entry ex_now (lit "AI") StMobileStation true [] (Addressed 150834090 3 313240222 false 669 11 (repeat true 80))].

Example c114_others_example ovf : exists a b c,
  results ovf (map entry_call ex_others) new_parser = [Ok (PsAidToNavigationReport a); Ok (PsUtcDateInquiry b); Ok (PsBinaryAddressedMessage c)] /\
  atn_name a = lit "CHINA ROSE MURPHY" /\ atn_position_fix_type a = Some PfGPS /\
  (exists v, atn_latitude a = Some v /\ gives 600000 28752370 v) /\ udi_destination_mmsi b = 3669713 /\ bam_dac c = 669.
Proof.
  destruct (c114_log ovf ex_others new_parser) as [B _].
  - unfold ex_others. repeat (apply List.Forall_cons; [|]); [..|apply List.Forall_nil].
    all: unfold entry_sound; cbn [re_talker re_station re_channel re_news].
    all: (split; [reflexivity|]); (split; [now apply plain_lit_dec|]); (split; [left; vm_compute; tauto|]);
         (split; [first [now apply plain_lit_dec|intros c []]|]).
    all: cbn [sendable]; change (2 ^ 30) with 1073741824; unfold on_earth, second_sound; cbn [every sp_longitude sp_latitude].
    2,3: repeat split; lia.
    split; [lia|]. split; [lia|]. split.
    { split; [cbn; lia|]. split; [vm_compute; repeat constructor; discriminate|]. split; [vm_compute; intuition discriminate|].
      intros u Hu. apply (f_equal (fun x => last x 0)) in Hu. rewrite last_last in Hu. discriminate Hu. }
    split; [split; lia|]. repeat (split; [first [lia|discriminate]|]). lia.
  - unfold ex_others in B. apply Forall2_cons_inv_l in B as (a & B1 & (ra & -> & Ra) & B & E).
    apply Forall2_cons_inv_l in B as (b & B2 & (rb & -> & Rb) & B & ->).
    apply Forall2_cons_inv_l in B as (c & B3 & (rc & -> & Rc) & B & ->). apply Forall2_nil_inv_l in B as ->.
    cbn [re_own re_station re_news received_back] in Ra, Rb, Rc.
    destruct Ra as (a & -> & _ & _ & _ & _ & A1 & (A2 & _) & _ & _ & _ & _ & A3 & _). destruct Rb as (b & -> & _ & _ & _ & B4).
    destruct Rc as (c & -> & _ & _ & _ & _ & _ & _ & C1 & _). exists a, b, c. split; [exact E|].
    cbn [sp_latitude both] in A2. split; [exact A1|]. split; [exact A3|].
    split; [destruct (atn_latitude a) as [v|]; [exists v; auto|destruct A2]|]. auto.
Qed.
