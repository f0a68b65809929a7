(** C114: static reports, which need two sentences, are read back as well. *)
From stdpp Require Import gmap.
From Coq Require Import List NArith ZArith Bool String Lia.
From Verif Require Import Base Str F64 Chrono Types Util AisMod Vdm Gnss Parser
  SpecText SpecResult SpecTime SpecReal SpecMeasure SpecSender SpecState SpecGnss SpecJournal SpecMerge SpecAis SpecTransponder SpecVoyage
  StrFacts FrontFacts CallFacts ResultFacts BitFacts VdmFacts LayoutFacts StateFacts RunFacts PropFront PropState PropAis PropStatic PropSender PropSenderGsv
  PropJournal PropTransponder.
Import ListNotations.
Open Scope N_scope.
Local Opaque pick_string pick_u64 pick_i64 pick_eta parse_f64 be_value f64_div f64_mul f64_of_Z f64_of_dec.

Lemma half_is tt fff channel mid k payload : utf8_bytes tt = 2%nat -> plain tt -> fff = lit "VDM" \/ fff = lit "VDO" ->
  plain channel -> mid < 10 -> k = 1 \/ k = 2 -> plain payload ->
  fragment (half_sentence tt fff channel mid k payload) tt fff mid channel k payload.
Proof.
  intros Ht Hp Hf Hc Hm Hk Hpl.
  exists [lit "2"; dec k; dec mid; channel; payload; if k =? 1 then lit "0" else lit "2"], (lit "2"), (dec k), (dec mid).
  split.
  - split; [|split; [discriminate|split; [exact Ht|exact Hf]]].
    unfold half_sentence. cbv zeta.
    eexists. eexists. split; [right; split; [reflexivity|apply nmea_checksum_no_star]|]. split; [now right|].
    split; [discriminate|]. split; [|reflexivity].
    assert (plain fff) by (destruct Hf as [-> | ->]; now apply plain_lit_dec).
    assert (plain (dec k)) by (destruct Hk as [-> | ->]; now apply plain_lit_dec).
    repeat (constructor; try assumption).
    + apply plain_app; [now apply plain_lit_dec|]. now apply plain_app.
    + now apply plain_lit_dec.
    + apply dec_plain.
    + destruct (k =? 1); now apply plain_lit_dec.
  - split; [reflexivity|]. split; [exact (dec_denotes 2)|]. split; [reflexivity|]. split; [apply dec_denotes|].
    split; [exact Hk|]. split; [reflexivity|]. split; [apply dec_denotes|].
    split; [change (2 ^ 64) with 18446744073709551616; lia|]. split; reflexivity.
Qed.

Lemma plain_firstn k s : plain s -> plain (firstn k s).
Proof. intros H. rewrite <- (firstn_skipn k s) in H. exact (proj1 (plain_app_inv _ _ H)). Qed.
Lemma plain_skipn k s : plain s -> plain (skipn k s).
Proof. intros H. rewrite <- (firstn_skipn k s) in H. exact (proj2 (plain_app_inv _ _ H)). Qed.

Lemma kind_read ship : ship < 80 \/ 99 < ship -> reported_ship_type ship = documented_ship_type ship.
Proof.
  intros H. unfold reported_ship_type.
  destruct (N.leb_spec 80 ship), (N.leb_spec ship 99); try reflexivity. lia.
Qed.

Lemma eta_meant now month day hour minute draught : year_in_range (dt_year now) -> valid_date (dt_year now) month day ->
  valid_time hour minute 0 -> draught <= 243 ->
  exists second, eta_report now month day hour minute (draught / 4) (Some (mk_datetime (dt_year now) month day hour minute second 0)).
Proof.
  intros Y D T Dr. pose proof D as (D1 & D2 & _). pose proof T as (T1 & T2 & _).
  assert (Q : draught / 4 < 61) by (apply N.div_lt_upper_bound; lia).
  exists (if draught / 4 =? 60 then 59 else draught / 4).
  apply (eta_some now month day hour minute (draught / 4) month day hour minute); try assumption.
  - lia.
  - destruct (N.eqb_spec month 0); [lia|reflexivity].
  - destruct (N.eqb_spec day 0); [lia|reflexivity].
  - right. right. repeat split; lia.
  - split; [exact T1|]. split; [exact T2|]. destruct (N.eqb_spec (draught / 4) 60); lia.
Qed.

(** A parser that keeps no parts gives back what was meant, and keeps no parts after it either. *)
Theorem c114_static ovf p e : ship_entry_sound e -> no_parts p ->
  ship_back e (results ovf (ship_calls e) p) /\ after ovf (ship_calls e) p = p.
Proof.
  destruct e as [before now tt station own channel n]. unfold ship_entry_sound, ship_calls, ship_back.
  cbn [ht_before ht_at ht_talker ht_station ht_own ht_channel ht_news]. intros (Ht & Hp & Hst & Hch & Hn) [N1 N2].
  destruct (own_read own) as [Ow Hf].
  destruct n as [n|cut mid mmsi version imo call_sign name ship h device month day hour minute draught destination dte
    |a_first mmsi name ship vendor model serial call_sign h].
  - destruct (c114_report ovf p (mk_radio_entry now tt station own channel n)) as (r & E & R); [repeat split; assumption|].
    cbn [sentences_of]. unfold entry_call in E. cbn [re_at re_talker re_own re_channel re_news snd] in E, R.
    rewrite results_cons, after_cons, E. cbn [fst snd]. split; [|reflexivity]. exists r. split; [exact R|reflexivity].
  - cbn [news_sound] in Hn.
    destruct Hn as (Mi & M & Ve & Im & Cs & Na & Sh & (H1 & H2 & H3 & H4) & De & Y & D & T & Dr & Ds).
    destruct (eta_meant now _ _ _ _ _ Y D T Dr) as [second Eta]. destruct (device_read _ De) as [D1 D2].
    cbn [sentences_of hull_layout app].
    pose proof (spelled_text _ _ Cs) as Cs'. pose proof (spelled_text _ _ Na) as Na'. pose proof (spelled_text _ _ Ds) as Ds'.
    pose proof D as (Dm & Dd & _). pose proof T as (Th & Tm & _).
    match goal with |- context [firstn cut (armor ?B)] => set (bits := B) in * end.
    assert (F1 : fragment (half_sentence tt (if own then lit "VDO" else lit "VDM") channel mid 1 (firstn cut (armor bits))) tt
                   (if own then lit "VDO" else lit "VDM") mid channel 1 (firstn cut (armor bits)))
      by (apply half_is; try assumption; [now left|apply plain_firstn, armor_plain]).
    assert (F2 : fragment (half_sentence tt (if own then lit "VDO" else lit "VDM") channel mid 2 (skipn cut (armor bits))) tt
                   (if own then lit "VDO" else lit "VDM") mid channel 2 (skipn cut (armor bits)))
      by (apply half_is; try assumption; [now right|apply plain_skipn, armor_plain]).
    pose proof (c23_voyage_two_sentences_partial ovf before now [] _ _ tt tt _ mid channel 1 2 _ _ p
      0 mmsi version (coded 0 imo) call_sign (spelled 7 call_sign) name (spelled 20 name) ship (hu_bow h) (hu_stern h) (hu_port h) (hu_starboard h)
      (device_code device) month day hour minute draught destination (spelled 20 destination) dte 0 (Some (mk_datetime (dt_year now) month day hour minute second 0)) [] F1 F2) as V.
    cbn [app] in V.
    assert (W : run ovf [(before, half_sentence tt (if own then lit "VDO" else lit "VDM") channel mid 1 (firstn cut (armor bits)));
                         (now, half_sentence tt (if own then lit "VDO" else lit "VDM") channel mid 2 (skipn cut (armor bits)))] p =
      ([Ok PsIncomplete; Ok (PsVesselStaticData (voyage_report AisClassB own mmsi version (coded 0 imo) call_sign name
         ship (hu_bow h) (hu_stern h) (hu_port h) (hu_starboard h) (device_code device)
         (Some (mk_datetime (dt_year now) month day hour minute second 0)) draught destination))], p)).
    { rewrite Ow in V. apply V; clear V; try assumption; try exact eq_refl.
      - discriminate.
      - rewrite app_nil_r. change (1 =? 1) with true. cbv iota. rewrite firstn_skipn. reflexivity.
      - apply N1.
      - constructor.
      - destruct imo as [i|]; cbn [every coded] in *; unfold fits; [apply Im|reflexivity].
      - unfold fits. change (2 ^ 4) with 16. lia.
      - unfold fits. change (2 ^ 5) with 32. lia.
      - unfold fits. change (2 ^ 5) with 32. lia.
      - unfold fits. change (2 ^ 6) with 64. lia.
      - unfold fits. change (2 ^ 8) with 256. lia. }
    unfold results, after. rewrite W. cbn [fst snd]. split; [|reflexivity].
    eexists. split; [|reflexivity]. cbn [news_back]. eexists. split; [reflexivity|]. unfold voyage_report, kind_back, hull_back.
    cbn [vsd_own_vessel vsd_mmsi vsd_ais_version_indicator vsd_imo_number vsd_call_sign vsd_name vsd_ship_type vsd_cargo_type
      vsd_dimension_to_bow vsd_dimension_to_stern vsd_dimension_to_port vsd_dimension_to_starboard vsd_position_fix_type vsd_eta
      vsd_draught10 vsd_destination].
    split; [reflexivity|]. split; [reflexivity|]. split; [reflexivity|].
    split. { destruct imo as [i|]; cbn [every coded] in *; unfold available; [destruct (N.eqb_spec i 0); [lia|reflexivity]|reflexivity]. }
    split; [reflexivity|]. split; [reflexivity|]. split; [split; [apply kind_read|reflexivity]|].
    split; [repeat split|]. split; [exact D1|]. split; [eexists; reflexivity|]. split; reflexivity.
  - cbn [news_sound] in Hn. destruct Hn as (M & Na & Sh & Ve & Mo & Se & Cs & (H1 & H2 & H3 & H4)).
    cbn [sentences_of hull_layout app].
    match goal with |- context [if a_first then [?A; ?B] else _] => set (a := A); set (b := B) end.
    assert (PA : part_a a (if own then lit "VDO" else lit "VDM") mmsi name).
    { exists tt, 0, (spelled 20 name), []. split; [reflexivity|]. split; [exact M|]. split; [now apply spelled_text|].
      split; [right; exists 0%nat; reflexivity|]. rewrite app_nil_r. now apply encode_sentence_one_fragment. }
    assert (PB : part_b b (if own then lit "VDO" else lit "VDM") mmsi ship vendor model serial call_sign (hu_bow h) (hu_stern h) (hu_port h) (hu_starboard h)).
    { exists tt, 0, (spelled 3 vendor), (spelled 7 call_sign), []. split; [reflexivity|]. split; [exact M|]. split; [exact Sh|].
      split; [now apply spelled_text|]. split; [exact Mo|]. split; [exact Se|]. split; [now apply spelled_text|].
      split; [exact H1|]. split; [exact H2|]. split; [exact H3|]. split; [exact H4|].
      rewrite app_nil_r. now apply encode_sentence_one_fragment. }
    assert (W : run ovf (if a_first then [(before, a); (now, b)] else [(before, b); (now, a)]) p =
      ([Ok PsIncomplete; Ok (PsVesselStaticData (class_b_report own mmsi name ship vendor model serial call_sign
          (hu_bow h) (hu_stern h) (hu_port h) (hu_starboard h)))], p)).
    { destruct a_first.
      - pose proof (c29_part_a_then_b ovf before now [] a b _ _ p _ _ _ _ _ _ _ _ _ _ _ PA PB (N2 mmsi)) as V.
        rewrite Ow in V. apply V. exact Logic.I.
      - pose proof (c29_part_b_then_a ovf before now [] b a _ _ p _ _ _ _ _ _ _ _ _ _ _ PB PA (N2 mmsi)) as V.
        rewrite Ow in V. apply V. exact Logic.I. }
    assert (Q : match (if a_first then [a; b] else [b; a]) return history with
                | [s] => [(now, s)] | s1 :: s2 :: _ => [(before, s1); (now, s2)] | [] => [] end =
                if a_first then [(before, a); (now, b)] else [(before, b); (now, a)]) by (destruct a_first; reflexivity).
    rewrite Q. unfold results, after. rewrite W. cbn [fst snd]. split; [|reflexivity].
    eexists. split; [|reflexivity]. cbn [news_back]. eexists. split; [reflexivity|]. unfold class_b_report, kind_back, hull_back.
    cbn [vsd_own_vessel vsd_ais_type vsd_mmsi vsd_call_sign vsd_name vsd_ship_type vsd_cargo_type
      vsd_dimension_to_bow vsd_dimension_to_stern vsd_dimension_to_port vsd_dimension_to_starboard vsd_equipment_vendor_id
      vsd_equipment_model vsd_equipment_serial_number].
    repeat (split; [first [exact eq_refl|split; [apply kind_read|reflexivity]]|]). repeat split.
Qed.
Print Assumptions c114_static.

(** A whole log. *)
Theorem c114_ship_log ovf l p : Forall ship_entry_sound l -> no_parts p ->
  (exists answers, results ovf (flat_map ship_calls l) p = List.concat answers /\ Forall2 ship_back l answers) /\
  after ovf (flat_map ship_calls l) p = p.
Proof.
  intros H N. induction H as [|e l He _ [(answers & E & F) A]]; [split; [exists []; split; [reflexivity|constructor]|reflexivity]|].
  destruct (c114_static ovf p e He N) as [B A0]. cbn [flat_map].
  rewrite results_app, after_app, A0. split; [|exact A].
  exists (results ovf (ship_calls e) p :: answers). split; [cbn [List.concat]; now rewrite E|]. now constructor.
Qed.
Print Assumptions c114_ship_log.

Lemma half_vdm tt fff channel mid k payload tt' fields : fragment (half_sentence tt fff channel mid k payload) tt fff mid channel k payload ->
  ~ gsv_with (half_sentence tt fff channel mid k payload) tt' fields.
Proof.
  intros (? & ? & ? & ? & (V & _) & _) (G & _). pose proof (sentence_unique _ _ _ V G) as X. discriminate X.
Qed.

Lemma ship_calls_vdm e c tt fields : ship_entry_sound e -> In c (ship_calls e) -> ~ gsv_with (snd c) tt fields.
Proof.
  destruct e as [before now tt0 station own channel n]. unfold ship_entry_sound, ship_calls.
  cbn [ht_before ht_at ht_talker ht_station ht_own ht_channel ht_news]. intros (Ht & Hp & Hst & Hch & Hn) Hi.
  destruct (own_read own) as [_ Hf]. set (fff := if own then lit "VDO" else lit "VDM") in *. clearbody fff.
  assert (One : forall bits tt' fields', ~ gsv_with (encode_sentence tt0 fff channel bits) tt' fields').
  { intros bits tt' fields' (G & _).
    destruct (encode_sentence_one_fragment tt0 fff channel bits Ht Hp Hf Hch) as (? & ? & ? & ? & ? & (? & V & _) & _).
    pose proof (sentence_unique _ _ _ V G) as X. discriminate X. }
  destruct n as [n|cut mid mmsi version imo call_sign name ship h device month day hour minute draught destination dte
    |a_first mmsi name ship vendor model serial call_sign h]; cbn [sentences_of] in Hi.
  - destruct Hi as [<-|[]]. cbn [snd]. apply One.
  - cbv zeta in Hi. destruct Hn as (Mi & _). destruct Hi as [<-|[<-|[]]]; cbn [snd]; apply half_vdm, half_is; try assumption.
    + now left.
    + apply plain_firstn, armor_plain.
    + now right.
    + apply plain_skipn, armor_plain.
  - cbv zeta in Hi. destruct a_first; destruct Hi as [<-|[<-|[]]]; cbn [snd]; apply One.
Qed.

(** The log of all these reports and the journal of a GNSS receiver on one line, in any order: sentences of the
    other kind may come between the two sentences of a report, or between those of a group of satellites. *)
Theorem c114_ship_bridge ovf j l m p : Forall in_order j -> Forall ship_entry_sound l -> no_groups p -> no_parts p ->
  stream 0 m = journal_calls j -> stream 1 m = flat_map ship_calls l -> (forall i c, In (i, c) m -> i = 0 \/ i = 1) ->
  (exists answers, stream_results ovf 0 m p = List.concat answers /\
     Forall2 (fun e a => understood (je_system e) (je_news e) a) j answers) /\
  (exists answers, stream_results ovf 1 m p = List.concat answers /\ Forall2 ship_back l answers).
Proof.
  intros Hj Hl G N H0 H1 H01.
  destruct (c111_journal_among_ais ovf j m p Hj G H0) as [A E]; [|exact H01|].
  - intros c Hc tt fields.
    assert (I1 : In c (flat_map ship_calls l)).
    { rewrite <- H1. unfold stream. apply in_map_iff. exists (1, c). split; [reflexivity|].
      apply filter_In. split; [exact Hc|reflexivity]. }
    apply in_flat_map in I1 as (e & He & Hc'). rewrite List.Forall_forall in Hl. exact (ship_calls_vdm e c tt fields (Hl e He) Hc').
  - split; [exact A|]. rewrite E, H1. exact (proj1 (c114_ship_log ovf l p Hl N)).
Qed.
Print Assumptions c114_ship_bridge.

(** A freighter and a yacht tell about themselves. *)
Definition ex_ships : list ship_entry :=
  [mk_ship_entry ex_now ex_now (lit "AI") StMobileStation false (lit "A")
     (Voyage 56 3 351759000 0 (Some 9134270) (lit "3FOF8") (lit "EVER DIADEM") 70 (mk_hull 225 70 1 31) (Some PfGPS) 5 15 14 0 122
        (lit "NEW YORK") false);
   mk_ship_entry ex_now ex_now (lit "AI") StMobileStation false (lit "A")
     (ClassBStatic false 271041815 (lit "PROGUY") 60 (lit "1D0") 12 199796 (lit "TC6163") (mk_hull 0 15 0 5));
   mk_ship_entry ex_now ex_now (lit "AI") StMobileStation true (lit "B")
     (Position (ClassB 338087471 (mk_spot None None false) (mk_motion (Some 1) None None NoSecond)
        true false false true false true true true 393222))].
Example c114_ship_sentences : map snd (flat_map ship_calls ex_ships) =
  [lit "!AIVDM,2,1,3,A,55?MbV02;H;s<HtKP00EHE:0@T4@Dl0000000016L961O5Gf0NSQEp6C,0*6A";
   lit "!AIVDM,2,2,3,A,lRh000000000000,2*41";
   lit "!AIVDM,1,1,,A,H42O55lti4hhhilD3nink000?05,0*70";
   lit "!AIVDM,1,1,,A,H42O55i18tMET00000000000000,0*6F";
   lit "!AIVDO,1,1,,B,B52K>;h00C?8mP=18D3Q3wv4gP06,0*18"].
Proof. vm_compute. reflexivity. Qed.

Lemma ex_ships_sound : Forall ship_entry_sound ex_ships.
Proof.
  unfold ex_ships. repeat (apply List.Forall_cons; [|]); [..|apply List.Forall_nil].
  all: unfold ship_entry_sound; cbn [ht_talker ht_station ht_channel ht_at ht_news].
  all: (split; [reflexivity|]); (split; [now apply plain_lit_dec|]).
  all: (split; [left; vm_compute; tauto|]); (split; [now apply plain_lit_dec|]).
  all: cbn [news_sound].
  3: { cbn [sendable]. unfold on_earth, motion_sound, second_sound.
       cbn [every sp_longitude sp_latitude mo_speed mo_course mo_heading mo_second].
       change (2 ^ 30) with 1073741824; change (2 ^ 19) with 524288. repeat split; lia. }
  all: assert (Sp : forall n t, (Nat.leb (List.length t) n && forallb (fun c => (32 <=? c) && (c <=? 95) && negb (c =? 64)) t && negb (last t 0 =? 32)) = true -> spellable n t).
  1,3: intros n t H; apply andb_true_iff in H as [H H2]; apply andb_true_iff in H as [H H1]; apply Nat.leb_le in H;
    rewrite forallb_forall in H1; split; [exact H|]; split; [|split];
    [ apply List.Forall_forall; intros c Hc; apply H1 in Hc; apply andb_true_iff in Hc as [Hc _]; apply andb_true_iff in Hc as [C1 C2];
      apply N.leb_le in C1, C2; split; assumption
    | intros Hc; apply H1 in Hc; discriminate Hc
    | intros v ->; rewrite last_last in H2; discriminate H2 ].
  - unfold hull_sound, year_in_range, valid_date, valid_time. cbn [every hu_bow hu_stern hu_port hu_starboard].
    change (2 ^ 30) with 1073741824.
    do 13 (split; [first [lia|discriminate|apply Sp; vm_compute; reflexivity|vm_compute; intuition (try discriminate; try lia)]|]).
    apply Sp. vm_compute. reflexivity.
  - unfold hull_sound. cbn [hu_bow hu_stern hu_port hu_starboard].
    change (2 ^ 30) with 1073741824. change (2 ^ 20) with 1048576.
    repeat (split; [first [lia|apply Sp; vm_compute; reflexivity]|]). lia.
Qed.

(** They are heard together with the journal of C111; sentences of the receiver come between the two of the
    freighter. *)
Definition ex_ships_line : interleaving :=
  let gnss := map (fun c => (0, c)) (journal_calls ex_journal) in
  let ais := map (fun c => (1, c)) (flat_map ship_calls ex_ships) in
  firstn 1 ais ++ firstn 2 gnss ++ skipn 1 (firstn 3 ais) ++ skipn 2 gnss ++ skipn 3 ais.

Example c114_ship_bridge_example ovf : exists d1 d2 d3,
  stream_results ovf 1 ex_ships_line new_parser =
    [Ok PsIncomplete; Ok (PsVesselStaticData d1); Ok PsIncomplete; Ok (PsVesselStaticData d2); Ok (PsVesselDynamicData d3)] /\
  vsd_name d1 = Some (lit "EVER DIADEM") /\ vsd_destination d1 = Some (lit "NEW YORK") /\ vsd_imo_number d1 = Some 9134270 /\
  vsd_ship_type d1 = ShCargo /\ vsd_position_fix_type d1 = Some PfGPS /\ vsd_draught10 d1 = Some 122 /\
  vsd_name d2 = Some (lit "PROGUY") /\ vsd_call_sign d2 = Some (lit "TC6163") /\ vsd_equipment_serial_number d2 = Some 199796 /\
  vsd_dimension_to_stern d2 = Some 15 /\ vdd_mmsi d3 = 338087471.
Proof.
  destruct (c114_ship_bridge ovf ex_journal ex_ships ex_ships_line new_parser ex_journal_sound ex_ships_sound) as [_ (answers & E & B)].
  - intros tt c n _. reflexivity.
  - split; [intros fff mid channel n _; reflexivity|intros mmsi; reflexivity].
  - unfold ex_ships_line. cbv zeta. unfold stream.
    cbn [ex_journal journal_calls ex_ships ship_calls sentences_of ht_before ht_at ht_talker ht_own ht_channel ht_news flat_map told map firstn skipn app
      combine seq List.length je_talker je_news fst snd List.filter N.eqb Pos.eqb].
    exact eq_refl.
  - unfold ex_ships_line. cbv zeta. unfold stream.
    cbn [ex_journal journal_calls ex_ships ship_calls sentences_of ht_before ht_at ht_talker ht_own ht_channel ht_news flat_map told map firstn skipn app
      combine seq List.length je_talker je_news fst snd List.filter N.eqb Pos.eqb].
    exact eq_refl.
  - assert (L : Forall (fun x => fst x = 0 \/ fst x = 1) ex_ships_line).
    { unfold ex_ships_line, ex_journal, journal_calls, ex_ships.
      cbn [ship_calls sentences_of ht_before ht_at ht_talker ht_own ht_channel ht_news flat_map told map firstn skipn app combine seq List.length je_talker je_news fst snd].
      repeat (apply List.Forall_cons; [first [left; exact eq_refl|right; exact eq_refl]|]). apply List.Forall_nil. }
    rewrite List.Forall_forall in L. intros i c H. exact (L _ H).
  - unfold ex_ships in B. apply Forall2_cons_inv_l in B as (a1 & B1 & (r1 & R1 & ->) & B & ->).
    apply Forall2_cons_inv_l in B as (a2 & B2 & (r2 & R2 & ->) & B & ->).
    apply Forall2_cons_inv_l in B as (a3 & B3 & (r3 & R3 & ->) & B & ->). apply Forall2_nil_inv_l in B as ->.
    cbn [ht_at ht_own ht_station ht_news news_back received_back] in *.
    destruct R1 as (d1 & -> & _ & _ & _ & A1 & _ & A2 & (A3 & _) & _ & A4 & _ & A5 & A6).
    destruct R2 as (d2 & -> & _ & _ & _ & C1 & _ & _ & _ & C2 & C3 & (_ & C4 & _)).
    destruct R3 as (d3 & -> & _ & _ & _ & D1 & _).
    exists d1, d2, d3. split; [rewrite E; exact eq_refl|].
    split; [exact A2|]. split; [exact A6|]. split; [exact A1|]. split; [rewrite A3; [exact eq_refl|left; reflexivity]|].
    split; [exact A4|]. split; [exact A5|]. split; [exact C1|]. split; [exact C3|]. split; [exact C2|]. split; [exact C4|]. exact D1.
Qed.
