(** C23, C29, C30, C59: static reports, put together from several sentences. *)
From stdpp Require Import gmap.
From Coq Require Import List NArith ZArith Bool String Lia.
From Verif Require Import Base Str F64 Chrono Types Util AisMod Vdm Gnss Parser
  SpecText SpecResult SpecAis SpecTime SpecState SpecMerge StrFacts FrontFacts CallFacts ResultFacts BitFacts VdmFacts
  LayoutFacts StateFacts RunFacts PropFront PropAis PropState.
Import ListNotations.
Open Scope N_scope.
Local Opaque pick_string pick_u64 pick_i64 pick_eta parse_f64.

(** ** C23 *)

(** The report for the values of a type 5 message. The crate reports class B where class A is right. *)
Definition voyage_report (class : AisClass) (own : bool) (mmsi version imo : N) (call_sign name : str)
    (ship bow stern port starboard epfd : N) (eta : option datetime) (draught : N) (destination : str)
    : VesselStaticData := {|
  vsd_own_vessel := own;
  vsd_ais_type := class;
  vsd_mmsi := mmsi;
  vsd_ais_version_indicator := version;
  vsd_imo_number := available 0 imo;
  vsd_call_sign := text_value call_sign;
  vsd_name := text_value name;
  vsd_ship_type := reported_ship_type ship;
  vsd_cargo_type := cargo_type ship;
  vsd_equipment_vendor_id := None;
  vsd_equipment_model := None;
  vsd_equipment_serial_number := None;
  vsd_dimension_to_bow := Some bow;
  vsd_dimension_to_stern := Some stern;
  vsd_dimension_to_port := Some port;
  vsd_dimension_to_starboard := Some starboard;
  vsd_position_fix_type := fix_report epfd;
  vsd_eta := eta;
  vsd_draught10 := Some draught;
  vsd_destination := text_value destination;
  vsd_mothership_mmsi := None |}.

(** The bits of a type 5 message. *)
Definition voyage_bits (repeat mmsi version imo : N) (call_sign name : list N)
    (ship bow stern port starboard epfd month day hour minute draught : N) (destination : list N)
    (dte : bool) (spare : N) : list bool :=
  layout_bits
    [U 6 5; U 2 repeat; U 30 mmsi; U 2 version; U 30 imo; T 7 call_sign; T 20 name; U 8 ship; U 9 bow;
     U 9 stern; U 6 port; U 6 starboard; U 4 epfd; U 4 month; U 5 day; U 5 hour; U 6 minute; U 8 draught;
     T 20 destination; F dte; U 1 spare].

(** Partial: the class is B instead of A, and the "second" of the ETA are draught bits (see C54), so that
    some draughts panic. *)
Theorem c23_voyage_one_sentence_partial ovf now s p tt fff
    repeat mmsi version imo call_sign cs name nm ship bow stern port starboard epfd month day hour minute
    draught destination ds dte spare eta rest :
  one_fragment s tt fff (armor (voyage_bits repeat mmsi version imo cs nm ship bow stern port starboard epfd
    month day hour minute draught ds dte spare ++ rest)) ->
  text_field 7 call_sign cs -> text_field 20 name nm -> text_field 20 destination ds ->
  fits 2 repeat -> fits 30 mmsi -> fits 2 version -> fits 30 imo -> fits 8 ship -> fits 9 bow -> fits 9 stern ->
  fits 6 port -> fits 6 starboard -> fits 4 epfd -> fits 4 month -> fits 5 day -> fits 5 hour ->
  fits 6 minute -> fits 8 draught -> fits 1 spare ->
  eta_report now month day hour minute (draught / 4) eta ->
  parse_sentence ovf now s p =
  (Ok (PsVesselStaticData (voyage_report AisClassB (str_eqb fff (lit "VDO")) mmsi version imo call_sign name
         ship bow stern port starboard epfd eta draught destination)), p).
Proof.
  unfold voyage_bits. intros Hs Hcs Hnm Hds. intros.
  rewrite (message_bits _ _ _ _ _ _ _ _ Hs (names_station_station tt)).
  read_layout.
  match goal with |- context [layout_bits ?L ++ rest] => set (B := layout_bits L ++ rest) in * end.
  assert (Rd : pick_u64 B 294 6 = draught / 4) by (apply (pick_prefix B 294 6 2); [assumption|lia]).
  assert (Re : forall E, @pick_eta E B 274 now = Ok eta).
  { intros E. eapply (eta_value B 274); try eassumption. now apply (fits_div 6 2). }
  unfold dispatch_message. rewrite R. unfold handle_t5. rewrite Re. field_values.
  cbn [bind]. rewrite ship_value, cargo_value by assumption. reflexivity.
Qed.
Print Assumptions c23_voyage_one_sentence_partial.

(** The payload cut in two anywhere, the halves arriving in either order, with calls for other messages
    in between. *)
Theorem c23_voyage_two_sentences_partial ovf now1 now2 h s1 s2 tt1 tt2 fff mid channel n1 n2 x1 x2 p
    repeat mmsi version imo call_sign cs name nm ship bow stern port starboard epfd month day hour minute
    draught destination ds dte spare eta rest :
  fragment s1 tt1 fff mid channel n1 x1 -> fragment s2 tt2 fff mid channel n2 x2 -> n1 <> n2 ->
  (if n1 =? 1 then x1 ++ x2 else x2 ++ x1) =
    armor (voyage_bits repeat mmsi version imo cs nm ship bow stern port starboard epfd
      month day hour minute draught ds dte spare ++ rest) ->
  not_waiting p fff mid channel -> Forall (fun c => unrelated fff mid channel (snd c)) h ->
  text_field 7 call_sign cs -> text_field 20 name nm -> text_field 20 destination ds ->
  fits 2 repeat -> fits 30 mmsi -> fits 2 version -> fits 30 imo -> fits 8 ship -> fits 9 bow -> fits 9 stern ->
  fits 6 port -> fits 6 starboard -> fits 4 epfd -> fits 4 month -> fits 5 day -> fits 5 hour ->
  fits 6 minute -> fits 8 draught -> fits 1 spare ->
  eta_report now2 month day hour minute (draught / 4) eta ->
  run ovf ((now1, s1) :: h ++ [(now2, s2)]) p =
  (Ok PsIncomplete :: results ovf h p ++
   [Ok (PsVesselStaticData (voyage_report AisClassB (str_eqb fff (lit "VDO")) mmsi version imo call_sign name
         ship bow stern port starboard epfd eta draught destination))],
   after ovf h p).
Proof.
  intros H1 H2 Hne Hx Hp Hh. intros.
  pose proof H2 as (fields & _ & _ & _ & (((body & given & _ & _ & (_ & Hpl & _)) & _ & Htt & Hf) & _)).
  apply Forall_inv in Hpl.
  set (bits := voyage_bits repeat mmsi version imo cs nm ship bow stern port starboard epfd
      month day hour minute draught ds dte spare ++ rest) in *.
  assert (Hw : one_fragment (encode_sentence tt2 fff (lit "A") bits) tt2 fff (armor bits)).
  { apply encode_sentence_one_fragment; [exact Htt| |exact Hf|now apply plain_lit_dec].
    apply plain_app_inv in Hpl as [_ Hpl]. now apply plain_app_inv in Hpl as [Hpl _]. }
  rewrite (fragments_step ovf now1 now2 h p p s1 s2 tt1 tt2 fff mid channel x1 x2 n1 n2
    (encode_sentence tt2 fff (lit "A") bits) H1 H2 Hne); try assumption.
  - assert (E : parse_sentence ovf now2 (encode_sentence tt2 fff (lit "A") bits) (after ovf h p) =
      (Ok (PsVesselStaticData (voyage_report AisClassB (str_eqb fff (lit "VDO")) mmsi version imo call_sign name
         ship bow stern port starboard epfd eta draught destination)), after ovf h p))
      by (eapply c23_voyage_one_sentence_partial; eassumption).
    now rewrite E.
  - rewrite <- Hx in Hw. exact Hw.
  - apply stored_kept_none, Hp. eapply fragment_number; eassumption.
  - intros e _. reflexivity.
Qed.
Print Assumptions c23_voyage_two_sentences_partial.

(** Deciding whether concrete codes carry a text. *)
Lemma check_text_field n text spaces junk :
  (Nat.eqb (List.length text + spaces + List.length junk) n &&
   forallb (fun c => (32 <=? c) && (c <=? 95) && negb (c =? 64)) text && negb (last text 0 =? 32) &&
   forallb (fun k => k <? 64) junk && match junk with [] => true | k :: _ => k =? 0 end) = true ->
  text_field n text (map six_code text ++ repeat 32 spaces ++ junk).
Proof.
  intros H. apply andb_true_iff in H as [H Hj]. apply andb_true_iff in H as [H Hb].
  apply andb_true_iff in H as [H Hl]. apply andb_true_iff in H as [Hn Ht].
  rewrite forallb_forall in Ht, Hb.
  assert (He : Forall encodable text).
  { apply Forall_forall. intros c Hc. apply Ht in Hc. unfold encodable. lia. }
  split; [rewrite !app_length, map_length, repeat_length; apply Nat.eqb_eq in Hn; lia|].
  split.
  { apply Forall_app. split; [|apply Forall_app; split].
    - apply Forall_forall. intros k Hk. apply in_map_iff in Hk as (c & <- & Hc).
      rewrite Forall_forall in He. apply He in Hc. unfold encodable in Hc. unfold six_code.
      destruct (N.ltb_spec c 64); lia.
    - apply Forall_forall. intros k Hk. apply repeat_spec in Hk. lia.
    - apply Forall_forall. intros k Hk. apply Hb in Hk. lia. }
  split; [exact He|].
  split; [intros Hi; apply Ht in Hi; lia|].
  split; [intros t ->; rewrite last_last in Hl; discriminate Hl|].
  exists spaces, junk. split; [reflexivity|]. destruct junk as [|k j]; [now left|right].
  apply N.eqb_eq in Hj as ->. now exists j.
Qed.

(** The crate's own test message. *)
Lemma ex_voyage : ex_first_payload ++ ex_second_payload =
  armor (voyage_bits 0 351759000 0 9134270 (map six_code (lit "3FOF8") ++ repeat 32 2 ++ [])
    (map six_code (lit "EVER DIADEM") ++ repeat 32 9 ++ []) 70 225 70 1 31 1 5 15 14 0 122
    (map six_code (lit "NEW YORK") ++ repeat 32 12 ++ []) false 0 ++ [false; false]).
Proof. vm_compute. reflexivity. Qed.

Example c23_example :
  exists d, run true [(ex_now, ex_first); (ex_now, ex_second)] new_parser =
    ([Ok PsIncomplete; Ok (PsVesselStaticData d)], new_parser) /\
    vsd_name d = Some (lit "EVER DIADEM") /\ vsd_mmsi d = 351759000 /\ vsd_draught10 d = Some 122 /\
    vsd_destination d = Some (lit "NEW YORK") /\ vsd_dimension_to_bow d = Some 225 /\
    exists y, vsd_eta d = Some (mk_datetime y 5 15 14 0 30 0).
Proof.
  eexists. split; cycle 1.
  { instantiate (1 := voyage_report AisClassB false 351759000 0 9134270 (lit "3FOF8") (lit "EVER DIADEM") 70 225 70 1 31 1
      (Some (mk_datetime (dt_year ex_now) 5 15 14 0 30 0)) 122 (lit "NEW YORK")).
    do 5 (split; [reflexivity|]). eexists. reflexivity. }
  apply (c23_voyage_two_sentences_partial true ex_now ex_now [] ex_first ex_second (lit "AI") (lit "AI") (lit "VDM")
    1 (lit "A") 1 2 ex_first_payload ex_second_payload new_parser
    0 351759000 0 9134270 (lit "3FOF8") (map six_code (lit "3FOF8") ++ repeat 32 2 ++ [])
    (lit "EVER DIADEM") (map six_code (lit "EVER DIADEM") ++ repeat 32 9 ++ []) 70 225 70 1 31 1 5 15 14 0 122
    (lit "NEW YORK") (map six_code (lit "NEW YORK") ++ repeat 32 12 ++ []) false 0
    (Some (mk_datetime (dt_year ex_now) 5 15 14 0 30 0)) [false; false]);
    try exact ex_first_fragment; try exact ex_second_fragment; try exact ex_voyage; try reflexivity;
    try (apply check_text_field; reflexivity); try (intros X; discriminate X).
  - intros n _. reflexivity.
  - constructor.
  - eapply eta_some; [intros (X & _); discriminate X|reflexivity|reflexivity| | | |].
    + right. right. repeat split; discriminate.
    + unfold year_in_range, ex_now. cbn. lia.
    + unfold valid_date. cbn. lia.
    + unfold valid_time. lia.
Qed.

(** The property also says that the report is one of a class A station. It never is. *)
Theorem c23_class_a_refuted ovf now s p tt fff
    repeat mmsi version imo call_sign cs name nm ship bow stern port starboard epfd month day hour minute
    draught destination ds dte spare eta rest :
  one_fragment s tt fff (armor (voyage_bits repeat mmsi version imo cs nm ship bow stern port starboard epfd
    month day hour minute draught ds dte spare ++ rest)) ->
  text_field 7 call_sign cs -> text_field 20 name nm -> text_field 20 destination ds ->
  fits 2 repeat -> fits 30 mmsi -> fits 2 version -> fits 30 imo -> fits 8 ship -> fits 9 bow -> fits 9 stern ->
  fits 6 port -> fits 6 starboard -> fits 4 epfd -> fits 4 month -> fits 5 day -> fits 5 hour ->
  fits 6 minute -> fits 8 draught -> fits 1 spare ->
  eta_report now month day hour minute (draught / 4) eta ->
  exists d, fst (parse_sentence ovf now s p) = Ok (PsVesselStaticData d) /\ vsd_ais_type d <> AisClassA.
Proof.
  intros. eexists. split; [erewrite c23_voyage_one_sentence_partial by eassumption; reflexivity|].
  cbn. discriminate.
Qed.
Print Assumptions c23_class_a_refuted.

(** The draught is also read as the second of the ETA: the valid draught 24.4 m panics. *)
Theorem c23_draught_refuted :
  exists s, one_fragment s (lit "AI") (lit "VDM") (armor (voyage_bits 0 351759000 0 9134270
      (map six_code (lit "3FOF8") ++ repeat 32 2 ++ []) (map six_code (lit "EVER DIADEM") ++ repeat 32 9 ++ [])
      70 225 70 1 31 1 5 15 14 0 244 (map six_code (lit "NEW YORK") ++ repeat 32 12 ++ []) false 0)) /\
    fst (parse_sentence false ex_now s new_parser) = Panic.
Proof.
  eexists. split; [apply (encode_sentence_one_fragment _ _ (lit "A"));
                   [reflexivity|now apply plain_lit_dec|now left|now apply plain_lit_dec]|].
  vm_compute. reflexivity.
Qed.
Print Assumptions c23_draught_refuted.

(** ** C29 *)

(** What the two parts say. *)
Definition part_a_data (own : bool) (mmsi : N) (name : str) : VesselStaticData := {|
  vsd_own_vessel := own;
  vsd_ais_type := AisClassB;
  vsd_mmsi := mmsi;
  vsd_ais_version_indicator := 0;
  vsd_imo_number := None;
  vsd_call_sign := None;
  vsd_name := text_value name;
  vsd_ship_type := ShNotAvailable;
  vsd_cargo_type := CaUndefined;
  vsd_equipment_vendor_id := None;
  vsd_equipment_model := None;
  vsd_equipment_serial_number := None;
  vsd_dimension_to_bow := None;
  vsd_dimension_to_stern := None;
  vsd_dimension_to_port := None;
  vsd_dimension_to_starboard := None;
  vsd_position_fix_type := None;
  vsd_eta := None;
  vsd_draught10 := None;
  vsd_destination := None;
  vsd_mothership_mmsi := None |}.

(** [name] empty: part B alone. The thirty bits of the dimensions are also reported as the MMSI of a
    mother ship, whatever the MMSI of the vessel. *)
Definition class_b_report (own : bool) (mmsi : N) (name : str) (ship : N) (vendor : str) (model serial : N)
    (call_sign : str) (bow stern port starboard : N) : VesselStaticData := {|
  vsd_own_vessel := own;
  vsd_ais_type := AisClassB;
  vsd_mmsi := mmsi;
  vsd_ais_version_indicator := 0;
  vsd_imo_number := None;
  vsd_call_sign := text_value call_sign;
  vsd_name := text_value name;
  vsd_ship_type := reported_ship_type ship;
  vsd_cargo_type := cargo_type ship;
  vsd_equipment_vendor_id := Some vendor;
  vsd_equipment_model := Some model;
  vsd_equipment_serial_number := Some serial;
  vsd_dimension_to_bow := Some bow;
  vsd_dimension_to_stern := Some stern;
  vsd_dimension_to_port := Some port;
  vsd_dimension_to_starboard := Some starboard;
  vsd_position_fix_type := None;
  vsd_eta := None;
  vsd_draught10 := None;
  vsd_destination := None;
  vsd_mothership_mmsi := Some (bow * 2 ^ 21 + stern * 2 ^ 12 + port * 2 ^ 6 + starboard) |}.

(** The sentence [s] is a part A report: the twenty characters of the name, then the end of the message
    (zero bits may follow) or, after an '@' in the name, anything. *)
Definition part_a (s fff : str) (mmsi : N) (name : str) : Prop :=
  exists tt repeat codes rest, fits 2 repeat /\ fits 30 mmsi /\ text_field 20 name codes /\
    (In 0 codes \/ exists k, rest = List.repeat false k) /\
    one_fragment s tt fff (armor (layout_bits
      [U 6 24; U 2 repeat; U 30 mmsi; U 2 0; T 20 codes] ++ rest)).

(** The sentence [s] is a part B report. *)
Definition part_b (s fff : str) (mmsi ship : N) (vendor : str) (model serial : N)
    (call_sign : str) (bow stern port starboard : N) : Prop :=
  exists tt repeat vc cc rest, fits 2 repeat /\ fits 30 mmsi /\ fits 8 ship /\ text_field 3 vendor vc /\
    fits 4 model /\ fits 20 serial /\ text_field 7 call_sign cc /\ fits 9 bow /\ fits 9 stern /\
    fits 6 port /\ fits 6 starboard /\
    one_fragment s tt fff (armor (layout_bits
      [U 6 24; U 2 repeat; U 30 mmsi; U 2 1; U 8 ship; T 3 vc; U 4 model; U 20 serial; T 7 cc;
       U 9 bow; U 9 stern; U 6 port; U 6 starboard] ++ rest)).

Lemma window_codes_split bv i n m :
  window_codes bv i (n + m) = window_codes bv i n ++ window_codes bv (i + 6 * n) m.
Proof.
  revert i. induction n as [|n IH]; intros i.
  - cbn [Nat.add window_codes app Nat.mul]. now rewrite Nat.add_0_r.
  - cbn [Nat.add window_codes app]. rewrite IH. do 3 f_equal. lia.
Qed.

Lemma be_value_zeros n : be_value (repeat false n) = 0.
Proof.
  induction n as [|n IH]; [reflexivity|]. change (repeat false (S n)) with ([false] ++ repeat false n).
  rewrite be_value_app, IH. cbn. lia.
Qed.

Lemma window_zeros a k i n : (List.length a <= i)%nat -> be_value (window (a ++ repeat false k) i n) = 0.
Proof.
  intros H. replace (window (a ++ repeat false k) i n) with (repeat false n); [apply be_value_zeros|].
  revert i H. induction n as [|n IH]; intros i H; [reflexivity|]. rewrite window_succ. cbn [repeat].
  rewrite app_nth2, nth_repeat by lia. f_equal. apply IH. lia.
Qed.

Lemma text_field_more n text codes more :
  text_field n text codes -> Forall (fun k => k < 64) more -> In 0 codes \/ hd 0 more = 0 ->
  text_field (n + List.length more) text (codes ++ more).
Proof.
  intros (H1 & H2 & H3 & H4 & H5 & spaces & junk & Hc & Hj) Hm H0.
  split; [rewrite app_length; lia|]. split; [apply Forall_app; now split|].
  split; [exact H3|]. split; [exact H4|]. split; [exact H5|].
  exists spaces, (junk ++ more). split; [rewrite Hc; now rewrite <- !app_assoc|].
  destruct Hj as [-> |(j & ->)]; [|right; now exists (j ++ more)].
  cbn [app]. destruct H0 as [H0|H0].
  - exfalso. subst codes. rewrite app_nil_r in H0. apply in_app_or in H0 as [H0|H0].
    + apply in_map_iff in H0 as (c & E & Hi). apply H4. unfold six_code in E.
      rewrite Forall_forall in H3. pose proof (H3 _ Hi) as [A B].
      destruct (N.ltb_spec c 64); [lia|]. now replace 64 with c by lia.
    + apply repeat_spec in H0. discriminate.
  - destruct more as [|k more]; [now left|]. right. exists more. cbn in H0. now subst.
Qed.

Lemma pick_string_text {E} bv i n text :
  text_field n text (window_codes bv i n) -> @pick_string E bv i n = Ok text.
Proof.
  intros H. pose proof H as (Hn & Hb & He & Ha & Ht & spaces & junk & Hc & Hj).
  rewrite pick_string_codes, Hc, code_chars_text by assumption. rewrite code_chars_spaces.
  replace (code_chars junk) with (@nil N).
  - rewrite app_nil_r, trim_end_spaces, trim_end_id by assumption. reflexivity.
  - destruct Hj as [-> |(j & ->)]; reflexivity.
Qed.

Lemma part_a_step ovf now s p fff mmsi name :
  part_a s fff mmsi name ->
  parse_sentence ovf now s p = t24_store (part_a_data (str_eqb fff (lit "VDO")) mmsi name) p.
Proof.
  intros (tt & repeat & codes & rest & Hr & Hm & Ht & Hx & Hs).
  rewrite (message_bits _ _ _ _ _ _ _ _ Hs (names_station_station tt)).
  read_layout.
  assert (Rn : forall E, @pick_string E (layout_bits [U 6 24; U 2 repeat; U 30 mmsi; U 2 0; T 20 codes] ++ rest) 40 120
                         = Ok name).
  { intros E. apply pick_string_text. change 120%nat with (20 + 100)%nat. rewrite window_codes_split.
    assert (Hlen : List.length codes = 20%nat) by apply Ht.
    assert (Hcod : Forall (fun k => k < 64) codes) by apply Ht.
    set (B := layout_bits [U 6 24; U 2 repeat; U 30 mmsi; U 2 0; T 20 codes]) in *.
    assert (Hc : window_codes (B ++ rest) 40 20 = codes).
    { pose proof (window_codes_flat (B ++ rest) 40 codes Hcod) as X. rewrite Hlen in X. apply X.
      exact (layout_window [U 6 24; U 2 repeat; U 30 mmsi; U 2 0; T 20 codes] 4 _ _ 40 rest Hs0 eq_refl eq_refl). }
    rewrite Hc.
    pose proof (window_codes_length (B ++ rest) (40 + 6 * 20) 100) as Hl.
    pose proof (text_field_more 20 name codes (window_codes (B ++ rest) (40 + 6 * 20) 100) Ht) as X.
    rewrite Hl in X. apply X; [apply window_codes_bounded|]. clear X.
    destruct Hx as [Hx|(k & ->)]; [now left|right]. cbn [window_codes hd]. apply window_zeros.
    unfold B. rewrite layout_bits_length by exact Hs0. cbn. lia. }
  unfold dispatch_message. rewrite R. unfold handle_t24. rewrite R2.
  cbn [N.eqb Pos.eqb orb]. unfold t24_fields. rewrite Rn. cbn [bind]. field_values. reflexivity.
Qed.

Lemma pick_join bv i n m a b :
  pick_u64 bv i n = a -> pick_u64 bv (i + n) m = b -> (n + m <= 64)%nat ->
  pick_u64 bv i (n + m) = a * 2 ^ N.of_nat m + b.
Proof.
  intros <- <- H. rewrite !pick_u64_spec by lia. rewrite window_split, be_value_app, window_length. reflexivity.
Qed.

Lemma part_b_step ovf now s p fff mmsi ship vendor model serial call_sign bow stern port starboard :
  part_b s fff mmsi ship vendor model serial call_sign bow stern port starboard ->
  parse_sentence ovf now s p =
  t24_store (class_b_report (str_eqb fff (lit "VDO")) mmsi [] ship vendor model serial call_sign bow stern port starboard) p.
Proof.
  intros (tt & repeat & vc & cc & rest & Hr & Hm & Hsh & Hv & Hmo & Hse & Hc & Hb & Hst & Hp & Hsb & Hs).
  rewrite (message_bits _ _ _ _ _ _ _ _ Hs (names_station_station tt)).
  read_layout.
  match goal with |- context [layout_bits ?L ++ rest] => set (B := layout_bits L ++ rest) in * end.
  assert (Rm : pick_u64 B 132 30 = bow * 2 ^ 21 + stern * 2 ^ 12 + port * 2 ^ 6 + starboard).
  { pose proof (pick_join B 132 9 9 bow stern ltac:(assumption) ltac:(assumption) ltac:(lia)) as J1.
    pose proof (pick_join B 132 18 6 _ port J1 ltac:(assumption) ltac:(lia)) as J2.
    pose proof (pick_join B 132 24 6 _ starboard J2 ltac:(assumption) ltac:(lia)) as J3.
    change (24 + 6)%nat with 30%nat in J3. rewrite J3.
    change (N.of_nat 9) with 9. change (N.of_nat 6) with 6. cbn [N.pow]. lia. }
  assert (Fm : fits 30 (bow * 2 ^ 21 + stern * 2 ^ 12 + port * 2 ^ 6 + starboard)).
  { unfold fits in *. change (2 ^ 9) with 512 in *. change (2 ^ 6) with 64 in *. change (2 ^ 21) with 2097152.
    change (2 ^ 12) with 4096. change (2 ^ 30) with 1073741824. lia. }
  unfold dispatch_message. rewrite R. unfold handle_t24. rewrite R2.
  change (1 =? 0) with false. change (1 =? 1) with true. cbn [orb]. cbv iota.
  unfold t24_fields. rewrite Rm. field_values. cbn [bind].
  rewrite ship_value, cargo_value by assumption. reflexivity.
Qed.

(** Two parts with the same MMSI and anything in between that does not concern this vessel. *)
Lemma two_parts ovf now1 now2 h s1 s2 p mmsi v w d :
  (forall q, parse_sentence ovf now1 s1 q = t24_store v q) ->
  (forall q, parse_sentence ovf now2 s2 q = t24_store w q) ->
  vsd_mmsi v = mmsi -> vsd_mmsi w = mmsi -> merge w v = Ok d ->
  stored p (Vessel mmsi) = None ->
  touches_only ovf (fun e => e <> Vessel mmsi) h p ->
  run ovf ((now1, s1) :: h ++ [(now2, s2)]) p =
  (Ok PsIncomplete :: results ovf h p ++ [Ok (PsVesselStaticData d)], after ovf h p).
Proof.
  intros H1 H2 Hv Hw Hd Hp Hh. rewrite run_split, results_cons, after_cons, results_app, after_app.
  rewrite results_cons, after_cons. cbn [results after run fst snd].
  assert (Hp' : saved_vsds p !! mmsi = None) by (cbn [stored] in Hp; now apply fmap_None in Hp).
  set (p1 := push_vsd mmsi v p).
  assert (E1 : parse_sentence ovf now1 s1 p = (Ok PsIncomplete, p1)).
  { rewrite H1. unfold t24_store, pull_vsd. rewrite Hv, Hp'. unfold p1, push_vsd. cbn [saved_vsds saved_fragments].
    now rewrite delete_notin. }
  rewrite E1. cbn [fst snd].
  assert (A : agree (fun e => e <> Vessel mmsi) p p1).
  { intros [k|m] He; [reflexivity|]. cbn [stored p1 push_vsd saved_vsds].
    unfold p1, push_vsd. cbn [saved_vsds]. rewrite lookup_insert_ne; [reflexivity|congruence]. }
  destruct (touches_only_frame ovf _ h p p1 Hh A) as (R1 & R2 & R3). rewrite <- R1.
  assert (E2 : stored (after ovf h p1) (Vessel mmsi) = Some (inr v)).
  { rewrite (touches_only_writes _ _ _ _ _ R3) by tauto. cbn [stored]. unfold p1, push_vsd. cbn [saved_vsds].
    now rewrite lookup_insert. }
  assert (E2' : saved_vsds (after ovf h p1) !! mmsi = Some v).
  { cbn [stored] in E2. destruct (saved_vsds (after ovf h p1) !! mmsi) as [x|]; cbn in E2; congruence. }
  rewrite H2. unfold t24_store, pull_vsd. rewrite Hw, E2'. rewrite Hd. cbn [map_err bind fst snd].
  f_equal. apply stored_ext. intros [k|m].
  - symmetry. exact (R2 (Text k) ltac:(discriminate)).
  - destruct (N.eq_dec m mmsi) as [-> |Hne].
    + rewrite (touches_only_writes _ _ _ _ (Vessel mmsi) Hh) by tauto. rewrite Hp.
      cbn [stored saved_vsds]. now rewrite lookup_delete.
    + cbn [stored saved_vsds].
      rewrite lookup_delete_ne by congruence. symmetry. exact (R2 (Vessel m) ltac:(congruence)).
Qed.

Theorem c29_part_a_then_b ovf now1 now2 h s1 s2 fff1 fff2 p
    mmsi name ship vendor model serial call_sign bow stern port starboard :
  part_a s1 fff1 mmsi name ->
  part_b s2 fff2 mmsi ship vendor model serial call_sign bow stern port starboard ->
  stored p (Vessel mmsi) = None -> touches_only ovf (fun e => e <> Vessel mmsi) h p ->
  run ovf ((now1, s1) :: h ++ [(now2, s2)]) p =
  (Ok PsIncomplete :: results ovf h p ++
   [Ok (PsVesselStaticData (class_b_report (str_eqb fff2 (lit "VDO")) mmsi name ship vendor model serial
                              call_sign bow stern port starboard))], after ovf h p).
Proof.
  intros H1 H2. eapply two_parts; [intros q; eapply part_a_step; eassumption|intros q; eapply part_b_step; eassumption| | |];
    [reflexivity|reflexivity|].
  unfold merge, class_b_report, part_a_data. cbn. rewrite N.eqb_refl. cbn.
  do 2 f_equal; [now destruct (text_value call_sign)| |];
    [destruct (reported_ship_type ship); reflexivity|destruct (cargo_type ship); reflexivity].
Qed.
Print Assumptions c29_part_a_then_b.

Theorem c29_part_b_then_a ovf now1 now2 h s1 s2 fff1 fff2 p
    mmsi name ship vendor model serial call_sign bow stern port starboard :
  part_b s1 fff1 mmsi ship vendor model serial call_sign bow stern port starboard ->
  part_a s2 fff2 mmsi name ->
  stored p (Vessel mmsi) = None -> touches_only ovf (fun e => e <> Vessel mmsi) h p ->
  run ovf ((now1, s1) :: h ++ [(now2, s2)]) p =
  (Ok PsIncomplete :: results ovf h p ++
   [Ok (PsVesselStaticData (class_b_report (str_eqb fff2 (lit "VDO")) mmsi name ship vendor model serial
                              call_sign bow stern port starboard))], after ovf h p).
Proof.
  intros H1 H2. eapply two_parts; [intros q; eapply part_b_step; eassumption|intros q; eapply part_a_step; eassumption| | |];
    [reflexivity|reflexivity|].
  unfold merge, class_b_report, part_a_data. cbn. rewrite N.eqb_refl. cbn.
  do 2 f_equal. now destruct (text_value name).
Qed.
Print Assumptions c29_part_b_then_a.

(** The crate's own test sentences (src/ais/vdm_t24.rs:225,245). *)
Definition ex_part_a : str := lit "!AIVDM,1,1,,A,H42O55i18tMET00000000000000,2*6D".
Definition ex_part_b : str := lit "!AIVDM,1,1,,A,H42O55lti4hhhilD3nink000?050,0*40".

Lemma ex_part_a_is : part_a ex_part_a (lit "VDM") 271041815 (lit "PROGUY").
Proof.
  exists (lit "AI"), 0, (map six_code (lit "PROGUY") ++ repeat 32 0 ++ repeat 0 14), [false; false].
  split; [reflexivity|]. split; [reflexivity|]. split; [now apply check_text_field|].
  split; [right; now exists 2%nat|].
  apply (check_one_fragment _ _ _ (lit "A") _ [lit "2"]). apply check_vdm; [|reflexivity].
  vm_compute. auto.
Qed.

Lemma ex_part_b_is :
  part_b ex_part_b (lit "VDM") 271041815 60 (lit "1D0") 12 199796 (lit "TC6163") 0 15 0 5.
Proof.
  exists (lit "AI"), 0, (map six_code (lit "1D0") ++ repeat 32 0 ++ []),
    (map six_code (lit "TC6163") ++ repeat 32 0 ++ [0]), (repeat false 6).
  split; [reflexivity|]. split; [reflexivity|]. split; [reflexivity|]. split; [now apply check_text_field|].
  split; [reflexivity|]. split; [reflexivity|]. split; [now apply check_text_field|].
  do 4 (split; [reflexivity|]).
  apply (check_one_fragment _ _ _ (lit "A") _ [lit "0"]). apply check_vdm; [|reflexivity].
  vm_compute. auto.
Qed.

Example c29_example :
  exists d, run true [(ex_now, ex_part_a); (ex_now, ex_part_b)] new_parser =
    ([Ok PsIncomplete; Ok (PsVesselStaticData d)], new_parser) /\
  run true [(ex_now, ex_part_b); (ex_now, ex_part_a)] new_parser =
    ([Ok PsIncomplete; Ok (PsVesselStaticData d)], new_parser) /\
    vsd_name d = Some (lit "PROGUY") /\ vsd_call_sign d = Some (lit "TC6163") /\
    vsd_ship_type d = ShPassenger /\ vsd_dimension_to_stern d = Some 15.
Proof.
  exists (class_b_report false 271041815 (lit "PROGUY") 60 (lit "1D0") 12 199796 (lit "TC6163") 0 15 0 5).
  split; [|split; [|repeat split]].
  - apply (c29_part_a_then_b true ex_now ex_now [] _ _ _ _ new_parser _ _ _ _ _ _ _ _ _ _ _ ex_part_a_is ex_part_b_is);
      [reflexivity|exact Logic.I].
  - apply (c29_part_b_then_a true ex_now ex_now [] _ _ _ _ new_parser _ _ _ _ _ _ _ _ _ _ _ ex_part_b_is ex_part_a_is);
      [reflexivity|exact Logic.I].
Qed.

(** ** C30 *)

(** Two part A reports of a vessel are always taken for a complete report. *)
Theorem c30_both_parts_refuted ovf now1 now2 h s1 s2 fff1 fff2 p mmsi name1 name2 :
  part_a s1 fff1 mmsi name1 -> part_a s2 fff2 mmsi name2 ->
  stored p (Vessel mmsi) = None -> touches_only ovf (fun e => e <> Vessel mmsi) h p ->
  exists d, run ovf ((now1, s1) :: h ++ [(now2, s2)]) p =
    (Ok PsIncomplete :: results ovf h p ++ [Ok (PsVesselStaticData d)], after ovf h p) /\
    vsd_call_sign d = None /\ vsd_ship_type d = ShNotAvailable /\ vsd_dimension_to_bow d = None.
Proof.
  intros H1 H2 Hp Hh. eexists. split.
  - eapply two_parts; [intros q; eapply part_a_step; eassumption|intros q; eapply part_a_step; eassumption| | | | |];
      [reflexivity|reflexivity| |eassumption|eassumption].
    unfold merge, part_a_data. cbn. rewrite N.eqb_refl. reflexivity.
  - repeat split.
Qed.
Print Assumptions c30_both_parts_refuted.

Theorem c30_two_part_b_refuted ovf now1 now2 h s1 s2 fff1 fff2 p
    mmsi ship vendor model serial call_sign bow stern port starboard
    ship' vendor' model' serial' call_sign' bow' stern' port' starboard' :
  part_b s1 fff1 mmsi ship vendor model serial call_sign bow stern port starboard ->
  part_b s2 fff2 mmsi ship' vendor' model' serial' call_sign' bow' stern' port' starboard' ->
  stored p (Vessel mmsi) = None -> touches_only ovf (fun e => e <> Vessel mmsi) h p ->
  exists d, run ovf ((now1, s1) :: h ++ [(now2, s2)]) p =
    (Ok PsIncomplete :: results ovf h p ++ [Ok (PsVesselStaticData d)], after ovf h p) /\
    vsd_name d = None.
Proof.
  intros H1 H2 Hp Hh. eexists. split.
  - eapply two_parts; [intros q; eapply part_b_step; eassumption|intros q; eapply part_b_step; eassumption| | | | |];
      [reflexivity|reflexivity| |eassumption|eassumption].
    unfold merge, class_b_report. cbn. rewrite N.eqb_refl. reflexivity.
  - reflexivity.
Qed.
Print Assumptions c30_two_part_b_refuted.

Example c30_witness :
  map reported_name (results true [(ex_now, ex_part_a); (ex_now, ex_part_a)] new_parser)
  = [None; Some (lit "PROGUY")].
Proof. vm_compute. reflexivity. Qed.

(** A new entry for a vessel comes from a type 24 message that was answered with [Incomplete]. *)
Lemma vessel_stored ovf now s p m x :
  stored p (Vessel m) = None -> stored (snd (parse_sentence ovf now s p)) (Vessel m) = Some x ->
  touches ovf s p (Vessel m) /\ fst (parse_sentence ovf now s p) = Ok PsIncomplete.
Proof.
  assert (D : forall fff payload st q, stored q (Vessel m) = None ->
    stored (snd (decode_payload ovf now fff payload st q)) (Vessel m) = Some x ->
    (exists bits, parse_payload ovf payload = Ok bits /\ be_value (window bits 0 6) = 24 /\
       m = be_value (window bits 8 30)) /\
    fst (decode_payload ovf now fff payload st q) = Ok PsIncomplete).
  { intros fff payload st q Hq.
    destruct (decode_act ovf now fff payload st) as [(r & ->)|(bits & v & E1 & _ & _ & E2 & E3 & _ & ->)];
      [cbn [snd]; congruence|].
    intros Hx. assert (m = vsd_mmsi v) as Em.
    { destruct (N.eq_dec m (vsd_mmsi v)) as [E|Hne]; [exact E|].
      rewrite t24_store_writes in Hx by congruence. congruence. }
    split; [exists bits; rewrite Em; auto|].
    subst m. cbn [stored] in Hq. apply fmap_None in Hq. unfold t24_store, pull_vsd. now rewrite Hq. }
  destruct (sentence_kind ovf now s) as (f & K & ->).
  destruct K as [r|tt fff payload Hs|tt fff mid channel a Hs|tt fff mid channel b Hs|tt c n body given Hs Hb].
  - cbn [snd]. congruence.
  - intros H0 Hx. destruct (D _ _ _ _ H0 Hx) as [(bits & E1 & E2 & ->) R]. split; [|exact R].
    eapply touch_vessel; [apply complete_one; exact Hs|exact E1|exact E2].
  - unfold first_step. destruct (kept p _) as [b|] eqn:E.
    + intros H0 Hx. destruct (D fff (a ++ b) (station_of_talker tt) (without (fragment_key fff mid channel 2) p) H0 Hx)
        as [(bits & E1 & E2 & ->) R]. split; [|exact R].
      eapply touch_vessel; [eapply complete_first; [exact Hs|]|exact E1|exact E2]. now apply stored_kept.
    + cbn [snd]. rewrite stored_push, decide_False by discriminate. congruence.
  - unfold second_step. destruct (kept p _) as [a|] eqn:E.
    + intros H0 Hx. destruct (D fff (a ++ b) (station_of_talker tt) (without (fragment_key fff mid channel 1) p) H0 Hx)
        as [(bits & E1 & E2 & ->) R]. split; [|exact R].
      eapply touch_vessel; [eapply complete_second; [exact Hs|]|exact E1|exact E2]. now apply stored_kept.
    + cbn [snd]. rewrite stored_push, decide_False by discriminate. congruence.
  - cbn [stored]. rewrite gsv_step_vsds. congruence.
Qed.

Lemma vessel_origin ovf h m :
  stored (after ovf h new_parser) (Vessel m) <> None ->
  exists h1 now s h2, h = h1 ++ (now, s) :: h2 /\ touches ovf s (after ovf h1 new_parser) (Vessel m) /\
    fst (parse_sentence ovf now s (after ovf h1 new_parser)) = Ok PsIncomplete.
Proof.
  induction h as [|[now s] h IH] using rev_ind.
  - cbn [after run snd stored new_parser saved_vsds]. now rewrite lookup_empty.
  - rewrite after_app, after_cons. cbn [after run snd]. intros Hx.
    destruct (stored (after ovf h new_parser) (Vessel m)) as [y|] eqn:E.
    + destruct IH as (h1 & now' & s' & h2 & -> & H1 & H2); [discriminate|].
      exists h1, now', s', (h2 ++ [(now, s)]). rewrite <- app_assoc. auto.
    + destruct (stored (snd (parse_sentence ovf now s (after ovf h new_parser))) (Vessel m)) as [x|] eqn:E'; [|congruence].
      destruct (vessel_stored _ _ _ _ _ _ E E') as [H1 H2]. exists h, now, s, []. auto.
Qed.

(** What a call does that completes a payload. *)
Lemma completes_step ovf now s tt fff p payload :
  completes s tt fff p payload ->
  exists q, saved_vsds q = saved_vsds p /\
    parse_sentence ovf now s p = decode_payload ovf now fff payload (station_of_talker tt) q.
Proof.
  intros [pl Hs|mid channel a b Hs Hw|mid channel a b Hs Hw].
  - exists p. split; [reflexivity|]. apply (one_fragment_step _ _ _ _ _ _ _ Hs).
  - exists (without (fragment_key fff mid channel 1) p). split; [reflexivity|].
    rewrite (fragment_vdm_step _ _ _ _ _ _ _ _ _ _ Hs). apply stored_kept in Hw. change (2 =? 1) with false. cbv iota.
    unfold second_step. now rewrite Hw.
  - exists (without (fragment_key fff mid channel 2) p). split; [reflexivity|].
    rewrite (fragment_vdm_step _ _ _ _ _ _ _ _ _ _ Hs). apply stored_kept in Hw. change (1 =? 1) with true. cbv iota.
    unfold first_step. now rewrite Hw.
Qed.

Lemma armor_read ovf bits : exists bits', parse_payload ovf (armor bits) = Ok bits' /\
  forall i n, window bits' i n = window bits i n.
Proof.
  destruct (parse_payload_armor ovf bits) as (k & _ & _ & H). exists (bits ++ repeat false k).
  split; [exact H|]. intros i n. unfold window. apply map_ext. intros j.
  destruct (Nat.lt_ge_cases j (List.length bits)) as [Hj|Hj].
  - now rewrite app_nth1.
  - rewrite app_nth2, nth_repeat by lia. now rewrite nth_overflow.
Qed.

(** What does hold: a report is only returned for a vessel of which an earlier part was answered with
    [Incomplete]. Missing: that the earlier part was the other one. *)
Theorem c30_report_needs_two_sentences_partial ovf h now s tt fff payload d :
  let p := after ovf h new_parser in
  completes s tt fff p payload -> bits_at (payload_bits payload) 0 6 = 24 ->
  fst (parse_sentence ovf now s p) = Ok (PsVesselStaticData d) ->
  vsd_mmsi d = bits_at (payload_bits payload) 8 30 /\
  exists h1 now0 s0 h2, h = h1 ++ (now0, s0) :: h2 /\
    touches ovf s0 (after ovf h1 new_parser) (Vessel (vsd_mmsi d)) /\
    fst (parse_sentence ovf now0 s0 (after ovf h1 new_parser)) = Ok PsIncomplete.
Proof.
  cbv zeta. intros Hc Ht Hr. destruct (completes_step ovf now _ _ _ _ _ Hc) as (q & Hq & Hs).
  rewrite Hs in Hr. unfold decode_payload in Hr.
  destruct (parse_payload ovf payload) as [bits'|e|] eqn:Hp; [|discriminate Hr|discriminate Hr].
  apply parse_payload_readable in Hp as [_ ->]. set (bits' := payload_bits payload) in *.
  assert (Ht' : pick_u64 bits' 0 6 = 24) by (rewrite pick_u64_spec by lia; exact Ht).
  unfold dispatch_message in Hr. rewrite Ht' in Hr. unfold handle_t24 in Hr.
  destruct ((pick_u64 bits' 38 2 =? 0) || (pick_u64 bits' 38 2 =? 1)); [|discriminate Hr].
  destruct (t24_fields bits' _ _) as [v|e|] eqn:Ev; [|discriminate Hr|discriminate Hr].
  destruct (t24_fields_facts _ _ _ _ Ev) as [Hm _].
  unfold t24_store, pull_vsd in Hr. destruct (saved_vsds q !! vsd_mmsi v) as [w|] eqn:Ew; [|discriminate Hr].
  cbn [fst] in Hr. destruct (merge v w) as [d'|e|] eqn:Em; [|discriminate Hr|discriminate Hr].
  cbn [map_err bind] in Hr. injection Hr as <-.
  assert (Hd : vsd_mmsi d' = vsd_mmsi v).
  { unfold merge in Em. repeat (destruct (negb _); [discriminate Em|]). injection Em as <-. reflexivity. }
  rewrite Hd. split; [exact Hm|]. apply vessel_origin. cbn [stored]. rewrite <- Hq, Ew. discriminate.
Qed.
Print Assumptions c30_report_needs_two_sentences_partial.

Example c30_example :
  let p := after true [(ex_now, ex_part_a)] new_parser in
  let bits := layout_bits
    [U 6 24; U 2 0; U 30 271041815; U 2 1; U 8 60; T 3 [49; 4; 48]; U 4 12; U 20 199796;
     T 7 [20; 3; 54; 49; 54; 51; 0]; U 9 0; U 9 15; U 6 0; U 6 5] ++ repeat false 6 in
  completes ex_part_b (lit "AI") (lit "VDM") p (armor bits) /\ bits_at (payload_bits (armor bits)) 0 6 = 24 /\
  exists d, fst (parse_sentence true ex_now ex_part_b p) = Ok (PsVesselStaticData d) /\ vsd_mmsi d = 271041815.
Proof.
  cbv zeta. split; [|split; [vm_compute; reflexivity|eexists; split; vm_compute; reflexivity]].
  apply complete_one. apply (check_one_fragment _ _ _ (lit "A") _ [lit "0"]). apply check_vdm; [|reflexivity].
  vm_compute. auto.
Qed.

(** ** C59 *)

Lemma choose_prefers {A} (f : VesselStaticData -> option A) v w d :
  f d = choose_some (f v) (f w) -> prefers f v w d.
Proof. intros E. unfold prefers. rewrite E. unfold choose_some. destruct (f v); split; congruence. Qed.

(** A whole type 24 message [s] that says [v] (as seen with a parser [q] that knows nothing of the vessel),
    in a reachable state where [w] is pending for the same vessel. *)
Theorem c59_merge_keeps_values ovf now s tt fff payload p q m v w :
  reachable ovf p -> one_fragment s tt fff payload ->
  stored q (Vessel m) = None -> stored (snd (parse_sentence ovf now s q)) (Vessel m) = Some (inr v) ->
  stored p (Vessel m) = Some (inr w) ->
  exists d, fst (parse_sentence ovf now s p) = Ok (PsVesselStaticData d) /\ merged v w d /\
    loses (Vessel m) p (snd (parse_sentence ovf now s p)).
Proof.
  intros Hr Hs Hq Hv Hp. rewrite (one_fragment_step ovf now s q _ _ _ Hs) in Hv.
  rewrite (one_fragment_step ovf now s p _ _ _ Hs).
  pose proof (reachable_vsds_ok _ _ Hr) as Hok.
  destruct (decode_act ovf now fff payload (station_of_talker tt)) as [(r & E)|(bits & v' & _ & _ & _ & _ & _ & Hfr & E)];
    rewrite E in Hv; [cbn [snd] in Hv; congruence|]. rewrite E.
  assert (m = vsd_mmsi v') as ->.
  { destruct (N.eq_dec m (vsd_mmsi v')) as [X|Hne]; [exact X|].
    rewrite t24_store_writes in Hv by congruence. congruence. }
  assert (v' = v) as ->.
  { cbn [stored] in Hq. apply fmap_None in Hq. unfold t24_store, pull_vsd in Hv. rewrite Hq in Hv.
    cbn [snd push_vsd stored saved_vsds] in Hv. unfold push_vsd in Hv. cbn [saved_vsds] in Hv.
    rewrite lookup_insert in Hv. cbn in Hv. congruence. }
  assert (Hw : saved_vsds p !! vsd_mmsi v = Some w).
  { cbn [stored] in Hp. destruct (saved_vsds p !! vsd_mmsi v); cbn in Hp; congruence. }
  destruct (Hok _ _ Hw) as [Hwm Hwf].
  unfold t24_store, pull_vsd. rewrite Hw. cbn [fst snd].
  destruct (merge_fresh v w Hfr Hwf (eq_sym Hwm)) as (d & Ed). rewrite Ed. cbn [map_err bind].
  exists d. split; [reflexivity|]. split.
  - unfold merge in Ed. repeat (destruct (negb _); [discriminate Ed|]). injection Ed as <-.
    unfold merged. cbn [vsd_mmsi vsd_ais_type vsd_own_vessel vsd_ship_type vsd_cargo_type vsd_ais_version_indicator].
    split; [reflexivity|]. split; [congruence|]. split; [apply Hfr|]. split; [reflexivity|]. split; [reflexivity|].
    do 15 (split; [apply choose_prefers; reflexivity|]).
    repeat split; intros X; try rewrite X; try reflexivity;
      [destruct (vsd_ship_type v); congruence|destruct (vsd_cargo_type v); congruence].
  - split.
    + cbn [stored saved_vsds]. now rewrite lookup_delete.
    + intros [k|m] Hne; [reflexivity|]. cbn [stored saved_vsds]. rewrite lookup_delete_ne; [reflexivity|congruence].
Qed.
Print Assumptions c59_merge_keeps_values.

(** In reachable states merging never fails: a part A or B report gives a result. *)
Theorem c59_merge_never_fails ovf now s tt fff p payload :
  reachable ovf p -> completes s tt fff p payload -> readable ovf payload ->
  bits_at (payload_bits payload) 0 6 = 24 -> bits_at (payload_bits payload) 38 2 <= 1 ->
  fst (parse_sentence ovf now s p) = Ok PsIncomplete \/
  exists d, fst (parse_sentence ovf now s p) = Ok (PsVesselStaticData d).
Proof.
  intros Hr Hc Hd Ht Hp. pose proof (reachable_vsds_ok _ _ Hr) as Hok.
  destruct (completes_step ovf now _ _ _ _ _ Hc) as (q & Hq & ->).
  assert (Hqok : vsds_ok q) by (intros m v; rewrite Hq; apply Hok).
  unfold decode_payload. rewrite (proj2 (parse_payload_readable ovf payload _) (conj Hd eq_refl)).
  set (bits' := payload_bits payload) in *.
  unfold dispatch_message. assert (Ht' : pick_u64 bits' 0 6 = 24) by (rewrite pick_u64_spec by lia; exact Ht).
  rewrite Ht'. unfold handle_t24.
  assert (Hp' : pick_u64 bits' 38 2 <= 1) by (rewrite pick_u64_spec by lia; exact Hp).
  assert (E : (pick_u64 bits' 38 2 =? 0) || (pick_u64 bits' 38 2 =? 1) = true) by lia. rewrite E.
  destruct (t24_fields bits' _ _) as [v|e|] eqn:Ev.
  - destruct (t24_fields_facts _ _ _ _ Ev) as [_ Hf]. unfold t24_store, pull_vsd.
    destruct (saved_vsds q !! vsd_mmsi v) as [w|] eqn:Ew; [|now left]. right. cbn [fst].
    destruct (Hqok _ _ Ew) as [Hwm Hwf].
    destruct (merge_fresh v w Hf Hwf (eq_sym Hwm)) as (d & ->). now exists d.
  - exfalso. unfold t24_fields in Ev. rewrite !pick_string_codes in Ev. destruct (_ =? 1); discriminate Ev.
  - exfalso. unfold t24_fields in Ev. rewrite !pick_string_codes in Ev. destruct (_ =? 1); discriminate Ev.
Qed.
Print Assumptions c59_merge_never_fails.

Example c59_example :
  let p := after true [(ex_now, ex_part_a)] new_parser in
  reachable true p /\ (exists w, stored p (Vessel 271041815) = Some (inr w) /\ vsd_name w = Some (lit "PROGUY")) /\
  stored new_parser (Vessel 271041815) = None /\
  exists v, stored (snd (parse_sentence true ex_now ex_part_b new_parser)) (Vessel 271041815) = Some (inr v) /\
    vsd_call_sign v = Some (lit "TC6163").
Proof.
  split; [now exists [(ex_now, ex_part_a)]|]. split; [eexists; split; vm_compute; reflexivity|].
  split; [reflexivity|]. eexists. split; vm_compute; reflexivity.
Qed.
