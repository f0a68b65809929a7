(** C81, continued: equal reports of voyages, aids to navigation and class B static data. *)
From stdpp Require Import gmap.
From Coq Require Import List NArith ZArith Bool String Lia Reals Lra Floats.SpecFloat.
From Flocq Require Import Core.
From Verif Require Import Base Str F64 Chrono Types Util AisMod Vdm Gnss Parser Equality
  SpecText SpecResult SpecAis SpecTime SpecState SpecReal SpecMeasure SpecEq SpecSame SpecSameStatic
  StrFacts FrontFacts CallFacts ResultFacts BitFacts VdmFacts LayoutFacts StateFacts FloatFacts
  PropFront PropBits PropAis PropMeasure PropEq PropState PropStatic PropTables PropSame.
Import ListNotations.
Open Scope N_scope.

Lemma same_ship a b : fits 8 a -> fits 8 b ->
  reported_ship_type a = reported_ship_type b /\ cargo_type a = cargo_type b <-> ship_confused a b.
Proof.
  unfold fits. change (2 ^ 8) with 256. intros Ha Hb.
  assert (C : forallb (fun e => let a := N.of_nat (fst e) in let b := N.of_nat (snd e) in
    Bool.eqb (ShipType_eqb (reported_ship_type a) (reported_ship_type b) && CargoType_eqb (cargo_type a) (cargo_type b))
      ((a =? b) || (((a <? 10) || (100 <=? a)) && ((b <? 10) || (100 <=? b))) ||
       ((70 <=? a) && (a <=? 99) && (70 <=? b) && (b <=? 99) && (a mod 10 =? b mod 10))))
    (list_prod (seq 0 256) (seq 0 256)) = true) by (vm_compute; reflexivity).
  rewrite forallb_forall in C. specialize (C (N.to_nat a, N.to_nat b)). rewrite in_prod_iff, !in_seq in C. specialize (C ltac:(lia)).
  cbn [fst snd] in C. rewrite !N2Nat.id in C. cbv zeta in C. apply Bool.eqb_prop in C.
  pose proof (decides_ShipType (reported_ship_type a) (reported_ship_type b)) as D.
  pose proof (decides_CargoType (cargo_type a) (cargo_type b)) as D'. rewrite <- D, <- D', <- andb_true_iff, C.
  unfold ship_confused, ship_unknown. rewrite !orb_true_iff, !andb_true_iff, !orb_true_iff, !N.eqb_eq, !N.leb_le, !N.ltb_lt. tauto.
Qed.

Lemma same_text a b : text_value a = text_value b <-> a = b.
Proof. split; [|now intros ->]. destruct a, b; cbn; congruence. Qed.

Lemma same_static d e : same_report (PsVesselStaticData d) (PsVesselStaticData e) <-> d = e.
Proof.
  unfold same_report. cbn. split; [intros [E _]; congruence|intros ->; split; [reflexivity|constructor]].
Qed.

Lemma known_arrival now m : clock now -> arrival_known (dt_year now) m ->
  eta_report now (v_month m) (v_day m) (v_hour m) (v_minute m) (v_draught m / 4)
    (Some (mk_datetime (dt_year now) (v_month m) (v_day m) (v_hour m) (v_minute m) (v_draught m / 4) 0)).
Proof.
  intros (Y & _) (D & Hh & Hm & Hd).
  pose proof (draught_second _ Hd). assert (1 <= v_month m /\ 1 <= v_day m) as [M1 D1] by (unfold valid_date in D; lia).
  eapply eta_some; try assumption.
  - intros (X & _). lia.
  - destruct (N.eqb_spec (v_month m) 0); [lia|reflexivity].
  - destruct (N.eqb_spec (v_day m) 0); [lia|reflexivity].
  - right. right. destruct (N.eqb_spec (v_draught m / 4) 60); [lia|]. repeat split; lia.
  - unfold valid_time. lia.
Qed.

(** Voyage reports in one sentence. The station does not show in them. The year of the arrival is that of the
    clock. Missing for the claim: tankers and others are taken for cargo ships. *)
Theorem c81_voyage_partial ovf now1 now2 s1 s2 p1 p2 tt1 tt2 fff1 fff2 m1 m2 bits1 bits2 rest1 rest2 r1 r2 p1' p2' :
  one_fragment s1 tt1 fff1 (armor (bits1 ++ rest1)) -> voyage_layout m1 bits1 -> voyage_fits m1 ->
  clock now1 -> arrival_known (dt_year now1) m1 ->
  one_fragment s2 tt2 fff2 (armor (bits2 ++ rest2)) -> voyage_layout m2 bits2 -> voyage_fits m2 ->
  clock now2 -> arrival_known (dt_year now2) m2 ->
  parse_sentence ovf now1 s1 p1 = (Ok r1, p1') -> parse_sentence ovf now2 s2 p2 = (Ok r2, p2') ->
  ParsedSentence_eqb r1 r2 = true <-> fff1 = fff2 /\ dt_year now1 = dt_year now2 /\ voyage_confused m1 m2.
Proof.
  intros S1 (cs1 & nm1 & ds1 & T1 & T2 & T3 & ->) (A1 & A2 & A3 & A4 & A5 & A6 & A7 & A8 & A9 & A10 & A11 & A12 & A13 & A14 & A15 & A16) C1 K1
    S2 (cs2 & nm2 & ds2 & U1 & U2 & U3 & ->) (B1 & B2 & B3 & B4 & B5 & B6 & B7 & B8 & B9 & B10 & B11 & B12 & B13 & B14 & B15 & B16) C2 K2.
  pose proof (c23_voyage_one_sentence_partial ovf now1 s1 p1 _ _ _ _ _ _ _ _ _ _ _ _ _ _ _ _ _ _ _ _ _ _ _ _ _ _ _
    S1 T1 T2 T3 A1 A2 A3 A4 A5 A6 A7 A8 A9 A10 A11 A12 A13 A14 A15 A16 (known_arrival _ _ C1 K1)) as H1.
  pose proof (c23_voyage_one_sentence_partial ovf now2 s2 p2 _ _ _ _ _ _ _ _ _ _ _ _ _ _ _ _ _ _ _ _ _ _ _ _ _ _ _
    S2 U1 U2 U3 B1 B2 B3 B4 B5 B6 B7 B8 B9 B10 B11 B12 B13 B14 B15 B16 (known_arrival _ _ C2 K2)) as H2.
  same_report_of_calls H1 H2. rewrite same_static.
  unfold voyage_confused. rewrite <- (same_ship _ _ A5 B5), <- (same_device _ _ A10 B10), <- (same_formatter _ _ _ _ _ _ _ _ S1 S2),
    <- (same_available 0 (v_imo m1) (v_imo m2)), <- (same_text (v_call_sign m1)), <- (same_text (v_name m1)), <- (same_text (v_destination m1)).
  unfold voyage_report. clear. split.
  - intros E. injection E. intros. repeat match goal with |- _ /\ _ => split end; assumption || (f_equal; assumption).
  - intros H. split_facts. repeat match goal with H : _ = _ |- _ => rewrite H; clear H end. reflexivity.
Qed.
Print Assumptions c81_voyage_partial.

Lemma same_aid_type a b : fits 5 a -> fits 5 b ->
  nth (N.to_nat a) nav_aid_types NaNotSpecified = nth (N.to_nat b) nav_aid_types NaNotSpecified <-> a = b.
Proof.
  unfold fits. change (2 ^ 5) with 32. intros Ha Hb. split; [|now intros ->]. intros E.
  assert (D : List.NoDup nav_aid_types).
  { unfold nav_aid_types. repeat (constructor; [cbn; intros H; repeat (destruct H as [H|H]; [discriminate H|]); exact H|]). constructor. }
  rewrite (List.NoDup_nth _ NaNotSpecified) in D. apply N2Nat.inj. apply D; [cbn; lia|cbn; lia|exact E].
Qed.

Lemma same_fix_type a b : fits 4 a -> fits 4 b ->
  Some (fix_type a) = Some (fix_type b) <-> a = b \/ (a = 0 \/ 9 <= a) /\ (b = 0 \/ 9 <= b).
Proof.
  unfold fits. change (2 ^ 4) with 16. intros Ha Hb.
  assert (C : forallb (fun e => let a := N.of_nat (fst e) in let b := N.of_nat (snd e) in
    Bool.eqb (PositionFixType_eqb (fix_type a) (fix_type b)) ((a =? b) || (((a =? 0) || (9 <=? a)) && ((b =? 0) || (9 <=? b)))))
    (list_prod (seq 0 16) (seq 0 16)) = true) by (vm_compute; reflexivity).
  rewrite forallb_forall in C. specialize (C (N.to_nat a, N.to_nat b)). rewrite in_prod_iff, !in_seq in C. specialize (C ltac:(lia)).
  cbn [fst snd] in C. rewrite !N2Nat.id in C. cbv zeta in C. apply Bool.eqb_prop in C.
  pose proof (decides_PositionFixType (fix_type a) (fix_type b)) as D. rewrite C in D.
  rewrite orb_true_iff, andb_true_iff, !orb_true_iff, !N.eqb_eq, !N.leb_le in D. rewrite D. split; congruence.
Qed.

Lemma same_aid d e : same_report (PsAidToNavigationReport d) (PsAidToNavigationReport e) <->
  atn_own_vessel d = atn_own_vessel e /\ atn_station d = atn_station e /\ atn_mmsi d = atn_mmsi e /\
  atn_aid_type d = atn_aid_type e /\ atn_name d = atn_name e /\ atn_high_position_accuracy d = atn_high_position_accuracy e /\
  same_attribute (atn_latitude d) (atn_latitude e) /\ same_attribute (atn_longitude d) (atn_longitude e) /\
  atn_dimension_to_bow d = atn_dimension_to_bow e /\ atn_dimension_to_stern d = atn_dimension_to_stern e /\
  atn_dimension_to_port d = atn_dimension_to_port e /\ atn_dimension_to_starboard d = atn_dimension_to_starboard e /\
  atn_position_fix_type d = atn_position_fix_type e /\ atn_timestamp_seconds d = atn_timestamp_seconds e /\
  atn_off_position_indicator d = atn_off_position_indicator e /\ atn_regional d = atn_regional e /\
  atn_raim_flag d = atn_raim_flag e /\ atn_virtual_aid_flag d = atn_virtual_aid_flag e /\
  atn_assigned_mode_flag d = atn_assigned_mode_flag e.
Proof.
  unfold same_report. destruct d, e. cbn. split.
  - intros [E F]. injection E. intros. rewrite !Forall_cons_iff2 in F. intuition congruence.
  - intros H. repeat match goal with H : _ /\ _ |- _ => destruct H end. subst. split; [reflexivity|]. repeat constructor; assumption.
Qed.

(** Reports of aids to navigation. Missing for the claim: the off-position indicator does not show in the
    report. *)
Theorem c81_aid_partial ovf now1 now2 s1 s2 p1 p2 tt1 tt2 fff1 fff2 st1 st2 m1 m2 bits1 bits2 r1 r2 p1' p2' :
  one_fragment s1 tt1 fff1 (armor bits1) -> names_station tt1 st1 -> aid_layout m1 bits1 -> aid_fits m1 ->
  one_fragment s2 tt2 fff2 (armor bits2) -> names_station tt2 st2 -> aid_layout m2 bits2 -> aid_fits m2 ->
  parse_sentence ovf now1 s1 p1 = (Ok r1, p1') -> parse_sentence ovf now2 s2 p2 = (Ok r2, p2') ->
  ParsedSentence_eqb r1 r2 = true <-> st1 = st2 /\ fff1 = fff2 /\ aid_confused m1 m2.
Proof.
  intros S1 N1 (nm1 & mo1 & re1 & T1 & T2 & T3 & ->) (A1 & A2 & A3 & A4 & A5 & A6 & A7 & A8 & A9 & A10 & A11 & A12 & A13)
    S2 N2 (nm2 & mo2 & re2 & U1 & U2 & U3 & ->) (B1 & B2 & B3 & B4 & B5 & B6 & B7 & B8 & B9 & B10 & B11 & B12 & B13).
  pose proof (c28_aid_to_navigation_partial ovf now1 s1 p1 _ _ _ _ _ _ _ _ _ _ _ _ _ _ _ _ _ _ _ _ _ _ _ _ _ _
    S1 N1 T1 T3 T2 A1 A2 A3 A4 A5 A6 A7 A8 A9 A10 A11 A12 A13) as H1.
  pose proof (c28_aid_to_navigation_partial ovf now2 s2 p2 _ _ _ _ _ _ _ _ _ _ _ _ _ _ _ _ _ _ _ _ _ _ _ _ _ _
    S2 N2 U1 U3 U2 B1 B2 B3 B4 B5 B6 B7 B8 B9 B10 B11 B12 B13) as H2.
  same_report_of_calls H1 H2. rewrite same_aid. cbn [atn_own_vessel atn_station atn_mmsi atn_aid_type atn_name atn_high_position_accuracy
    atn_latitude atn_longitude atn_dimension_to_bow atn_dimension_to_stern atn_dimension_to_port atn_dimension_to_starboard
    atn_position_fix_type atn_timestamp_seconds atn_off_position_indicator atn_regional atn_raim_flag atn_virtual_aid_flag
    atn_assigned_mode_flag].
  rewrite (same_formatter _ _ _ _ _ _ _ _ S1 S2), (same_aid_type _ _ A3 B3), (same_fix_type _ _ A10 B10).
  unfold lat_degrees, lon_degrees. rewrite (same_degrees (91 * 600000) _ _ (signed_27 _ A5) (signed_27 _ B5)).
  rewrite (same_degrees (181 * 600000) _ _ (signed_28 _ A4) (signed_28 _ B4)).
  unfold aid_confused. clear. split.
  - intros H. split_facts. repeat (split; [assumption || congruence|]). congruence.
  - intros H. split_facts. repeat (split; [assumption || congruence|]). congruence.
Qed.
Print Assumptions c81_aid_partial.

(** [s1] and then [s2] are the two parts, in either order, of these static data; [fff] is the formatter of the
    second. *)
Definition static_pair (s1 s2 fff : str) (m : static_data) : Prop :=
  exists fff', 
   (part_a s1 fff' (k_mmsi m) (k_name m) /\
    part_b s2 fff (k_mmsi m) (k_ship m) (k_vendor m) (k_model m) (k_serial m) (k_call_sign m) (k_bow m) (k_stern m) (k_port m) (k_starboard m)
    \/
    part_b s1 fff' (k_mmsi m) (k_ship m) (k_vendor m) (k_model m) (k_serial m) (k_call_sign m) (k_bow m) (k_stern m) (k_port m) (k_starboard m) /\
    part_a s2 fff (k_mmsi m) (k_name m)).

Lemma static_pair_report ovf now1 now2 s1 s2 p fff m r q : static_pair s1 s2 fff m -> stored p (Vessel (k_mmsi m)) = None ->
  run ovf [(now1, s1); (now2, s2)] p = ([Ok PsIncomplete; Ok r], q) ->
  r = PsVesselStaticData (class_b_report (str_eqb fff (lit "VDO")) (k_mmsi m) (k_name m) (k_ship m) (k_vendor m) (k_model m) (k_serial m)
    (k_call_sign m) (k_bow m) (k_stern m) (k_port m) (k_starboard m)) /\ fits 8 (k_ship m) /\ (fff = lit "VDM" \/ fff = lit "VDO").
Proof.
  intros (fff' & [[A B]|[B A]]) St R; assert (T : touches_only ovf (fun e => e <> Vessel (k_mmsi m)) [] p) by constructor.
  - pose proof (c29_part_a_then_b ovf now1 now2 [] s1 s2 fff' fff p _ _ _ _ _ _ _ _ _ _ _ A B St T) as E.
    cbn [app] in E. rewrite E in R. cbn [results app run fst] in R.
    apply pair_equal_spec in R as [R _]. injection R as R. split; [now symmetry|].
    destruct B as (? & ? & ? & ? & ? & _ & _ & Hs & _ & _ & _ & _ & _ & _ & _ & _ & (? & ? & ? & ? & ? & (? & V) & _)).
    split; [exact Hs|]. now apply vdm_with_formatter in V.
  - pose proof (c29_part_b_then_a ovf now1 now2 [] s1 s2 fff' fff p _ _ _ _ _ _ _ _ _ _ _ B A St T) as E.
    cbn [app] in E. rewrite E in R. cbn [results app run fst] in R.
    apply pair_equal_spec in R as [R _]. injection R as R. split; [now symmetry|].
    destruct B as (? & ? & ? & ? & ? & _ & _ & Hs & _). destruct A as (? & ? & ? & ? & _ & _ & _ & _ & (? & ? & ? & ? & ? & (? & V) & _)).
    split; [exact Hs|]. now apply vdm_with_formatter in V.
Qed.

(** Class B static data, received in two parts in either order. Missing for the claim: tankers and others are
    taken for cargo ships. *)
Theorem c81_static_partial ovf now1 now2 now3 now4 s1 s2 s3 s4 p1 p2 fff1 fff2 m1 m2 r1 r2 p1' p2' :
  static_pair s1 s2 fff1 m1 -> stored p1 (Vessel (k_mmsi m1)) = None ->
  static_pair s3 s4 fff2 m2 -> stored p2 (Vessel (k_mmsi m2)) = None ->
  run ovf [(now1, s1); (now2, s2)] p1 = ([Ok PsIncomplete; Ok r1], p1') ->
  run ovf [(now3, s3); (now4, s4)] p2 = ([Ok PsIncomplete; Ok r2], p2') ->
  ParsedSentence_eqb r1 r2 = true <-> fff1 = fff2 /\ static_confused m1 m2.
Proof.
  intros S1 P1 S2 P2 R1 R2. destruct (static_pair_report _ _ _ _ _ _ _ _ _ _ S1 P1 R1) as (-> & A & V1).
  destruct (static_pair_report _ _ _ _ _ _ _ _ _ _ S2 P2 R2) as (-> & B & V2).
  rewrite c76_equal_iff, same_static. unfold static_confused. rewrite <- (same_ship _ _ A B), <- (same_text (k_call_sign m1)), <- (same_text (k_name m1)).
  assert (V : str_eqb fff1 (lit "VDO") = str_eqb fff2 (lit "VDO") <-> fff1 = fff2).
  { split; [|now intros ->]. destruct V1 as [-> | ->], V2 as [-> | ->]; intros E; try reflexivity; discriminate E. }
  rewrite <- V. unfold class_b_report. clear. split.
  - intros E. injection E. intros. repeat match goal with |- _ /\ _ => split end; assumption || (f_equal; assumption).
  - intros H. split_facts. repeat match goal with H : _ = _ |- _ => rewrite H; clear H end. reflexivity.
Qed.
Print Assumptions c81_static_partial.

Definition ex_voyage_data (ship draught : N) : voyage_data :=
  {| v_repeat := 0; v_mmsi := 351759000; v_version := 0; v_imo := 9134270; v_call_sign := lit "3FOF8"; v_name := lit "EVER DIADEM";
     v_ship := ship; v_bow := 225; v_stern := 70; v_port := 1; v_starboard := 31; v_device := 1; v_month := 5; v_day := 15; v_hour := 14;
     v_minute := 0; v_draught := draught; v_destination := lit "NEW YORK"; v_dte := false; v_spare := 0 |}.
Definition ex_voyage_bits (ship draught : N) : list bool :=
  layout_bits
    [U 6 5; U 2 0; U 30 351759000; U 2 0; U 30 9134270; T 7 (map six_code (lit "3FOF8") ++ List.repeat 32 2 ++ []);
     T 20 (map six_code (lit "EVER DIADEM") ++ List.repeat 32 9 ++ []); U 8 ship; U 9 225; U 9 70; U 6 1; U 6 31; U 4 1; U 4 5; U 5 15;
     U 5 14; U 6 0; U 8 draught; T 20 (map six_code (lit "NEW YORK") ++ List.repeat 32 12 ++ []); F false; U 1 0].

Lemma ex_voyage_layout ship draught : voyage_layout (ex_voyage_data ship draught) (ex_voyage_bits ship draught).
Proof.
  exists (map six_code (lit "3FOF8") ++ List.repeat 32 2 ++ []), (map six_code (lit "EVER DIADEM") ++ List.repeat 32 9 ++ []),
    (map six_code (lit "NEW YORK") ++ List.repeat 32 12 ++ []).
  do 3 (split; [now apply check_text_field|]). reflexivity.
Qed.

Ltac encoded := apply (encode_sentence_one_fragment _ _ (lit "A")); [reflexivity|now apply plain_lit_dec|now left|now apply plain_lit_dec].

(** A cargo ship and a tanker with equal reports. *)
Theorem c81_voyage_refuted :
  exists s1 s2 bits1 bits2, voyage_layout (ex_voyage_data 70 122) bits1 /\ voyage_layout (ex_voyage_data 80 122) bits2 /\
    one_fragment s1 (lit "AI") (lit "VDM") (armor bits1) /\ one_fragment s2 (lit "AI") (lit "VDM") (armor bits2) /\
    exists r, parse_sentence true ex_now s1 new_parser = (Ok r, new_parser) /\
      parse_sentence true ex_now s2 new_parser = (Ok r, new_parser) /\ ParsedSentence_eqb r r = true.
Proof.
  do 2 eexists. exists (ex_voyage_bits 70 122), (ex_voyage_bits 80 122). split; [apply ex_voyage_layout|]. split; [apply ex_voyage_layout|].
  split; [encoded|]. split; [encoded|].
  eexists. split; [vm_compute; reflexivity|]. split; vm_compute; reflexivity.
Qed.
Print Assumptions c81_voyage_refuted.

(** Draughts of 12.2 and 12.3 metres are told apart. *)
Example c81_voyage_example :
  voyage_fits (ex_voyage_data 70 122) /\ voyage_fits (ex_voyage_data 70 123) /\ clock ex_now /\
  arrival_known (dt_year ex_now) (ex_voyage_data 70 122) /\ arrival_known (dt_year ex_now) (ex_voyage_data 70 123) /\
  exists s1 s2 r1 r2, one_fragment s1 (lit "AI") (lit "VDM") (armor (ex_voyage_bits 70 122 ++ [])) /\
    one_fragment s2 (lit "AI") (lit "VDM") (armor (ex_voyage_bits 70 123 ++ [])) /\
    parse_sentence true ex_now s1 new_parser = (Ok r1, new_parser) /\
    parse_sentence true ex_now s2 new_parser = (Ok r2, new_parser) /\ ParsedSentence_eqb r1 r2 = false.
Proof.
  split; [repeat split|]. split; [repeat split|].
  split; [unfold clock, year_in_range, valid_date, valid_time, ex_now; cbn; lia|].
  split; [unfold arrival_known, valid_date, ex_now; cbn; lia|]. split; [unfold arrival_known, valid_date, ex_now; cbn; lia|].
  do 4 eexists. split; [encoded|]. split; [encoded|]. split; [vm_compute; reflexivity|]. split; [vm_compute; reflexivity|]. vm_compute. reflexivity.
Qed.

Definition ex_aid (off : bool) (lat : Z) : aid :=
  {| n_repeat := 0; n_mmsi := 123456789; n_type := 20; n_name := lit "CHINA ROSE MURPHY EX"; n_accurate := false; n_lon := (-73619155)%Z;
     n_lat := lat; n_bow := 5; n_stern := 5; n_port := 5; n_starboard := 5; n_device := 1; n_second := 50; n_off := off; n_regional := 165;
     n_raim := false; n_virtual := false; n_assigned := false; n_spare := 0; n_more := lit "PRESS ALERT" |}.
Definition ex_aid_bits (off : bool) (lat : Z) : list bool :=
  layout_bits
    [U 6 21; U 2 0; U 30 123456789; U 5 20; T 20 (map six_code (lit "CHINA ROSE MURPHY EX") ++ List.repeat 32 0 ++ []); F false;
     I 28 (-73619155); I 27 lat; U 9 5; U 9 5; U 6 5; U 6 5; U 4 1; U 6 50; F off; U 8 165; F false; F false; F false; U 1 0]
  ++ flat_map (be_bits 6) (map six_code (lit "PRESS ALERT")).

Lemma ex_aid_layout off lat : aid_layout (ex_aid off lat) (ex_aid_bits off lat).
Proof.
  exists (map six_code (lit "CHINA ROSE MURPHY EX") ++ List.repeat 32 0 ++ []), (map six_code (lit "PRESS ALERT") ++ List.repeat 32 0 ++ [0; 0; 0]),
    (flat_map (be_bits 6) (map six_code (lit "PRESS ALERT"))).
  do 2 (split; [now apply check_text_field|]). split; reflexivity.
Qed.

(** An aid on its position and the same one off its position, with equal reports. *)
Theorem c81_aid_refuted :
  exists s1 s2, one_fragment s1 (lit "AI") (lit "VDM") (armor (ex_aid_bits false 28752371)) /\
    one_fragment s2 (lit "AI") (lit "VDM") (armor (ex_aid_bits true 28752371)) /\
    exists r, parse_sentence true ex_now s1 new_parser = (Ok r, new_parser) /\
      parse_sentence true ex_now s2 new_parser = (Ok r, new_parser) /\ ParsedSentence_eqb r r = true.
Proof.
  do 2 eexists. split; [encoded|]. split; [encoded|].
  eexists. split; [vm_compute; reflexivity|]. split; vm_compute; reflexivity.
Qed.
Print Assumptions c81_aid_refuted.

Example c81_aid_example :
  aid_layout (ex_aid false 28752371) (ex_aid_bits false 28752371) /\ aid_layout (ex_aid false 28752372) (ex_aid_bits false 28752372) /\
  aid_fits (ex_aid false 28752371) /\ aid_fits (ex_aid false 28752372) /\ names_station (lit "AI") StMobileStation /\
  exists s1 s2 r1 r2, one_fragment s1 (lit "AI") (lit "VDM") (armor (ex_aid_bits false 28752371)) /\
    one_fragment s2 (lit "AI") (lit "VDM") (armor (ex_aid_bits false 28752372)) /\
    parse_sentence true ex_now s1 new_parser = (Ok r1, new_parser) /\
    parse_sentence true ex_now s2 new_parser = (Ok r2, new_parser) /\ ParsedSentence_eqb r1 r2 = false.
Proof.
  split; [apply ex_aid_layout|]. split; [apply ex_aid_layout|].
  split; [repeat split; intros X; discriminate X|]. split; [repeat split; intros X; discriminate X|]. split; [left; cbn; tauto|].
  do 4 eexists. split; [encoded|]. split; [encoded|]. split; [vm_compute; reflexivity|]. split; [vm_compute; reflexivity|]. vm_compute. reflexivity.
Qed.

Definition ex_static (name : str) (ship : N) : static_data :=
  {| k_mmsi := 271041815; k_name := name; k_ship := ship; k_vendor := lit "1D0"; k_model := 12; k_serial := 199796;
     k_call_sign := lit "TC6163"; k_bow := 0; k_stern := 15; k_port := 0; k_starboard := 5 |}.

(** The crate's test sentences in both orders give equal reports, another ship type gives another report, and a
    cargo ship and a tanker give equal reports. *)
Example c81_static_example :
  static_pair ex_part_a ex_part_b (lit "VDM") (ex_static (lit "PROGUY") 60) /\
  static_pair ex_part_b ex_part_a (lit "VDM") (ex_static (lit "PROGUY") 60) /\
  exists s70 s80 r r70, static_pair ex_part_a s70 (lit "VDM") (ex_static (lit "PROGUY") 70) /\
    static_pair ex_part_a s80 (lit "VDM") (ex_static (lit "PROGUY") 80) /\
    fst (run true [(ex_now, ex_part_a); (ex_now, ex_part_b)] new_parser) = [Ok PsIncomplete; Ok r] /\
    fst (run true [(ex_now, ex_part_b); (ex_now, ex_part_a)] new_parser) = [Ok PsIncomplete; Ok r] /\
    fst (run true [(ex_now, ex_part_a); (ex_now, s70)] new_parser) = [Ok PsIncomplete; Ok r70] /\
    fst (run true [(ex_now, ex_part_a); (ex_now, s80)] new_parser) = [Ok PsIncomplete; Ok r70] /\
    ParsedSentence_eqb r r = true /\ ParsedSentence_eqb r r70 = false /\ ParsedSentence_eqb r70 r70 = true.
Proof.
  assert (B : forall ship, fits 8 ship -> part_b (encode_sentence (lit "AI") (lit "VDM") (lit "A")
    (layout_bits [U 6 24; U 2 0; U 30 271041815; U 2 1; U 8 ship; T 3 (map six_code (lit "1D0") ++ List.repeat 32 0 ++ []);
      U 4 12; U 20 199796; T 7 (map six_code (lit "TC6163") ++ List.repeat 32 0 ++ [0]); U 9 0; U 9 15; U 6 0; U 6 5] ++ List.repeat false 6))
    (lit "VDM") 271041815 ship (lit "1D0") 12 199796 (lit "TC6163") 0 15 0 5).
  { intros ship Hs.
    exists (lit "AI"), 0, (map six_code (lit "1D0") ++ List.repeat 32 0 ++ []),
      (map six_code (lit "TC6163") ++ List.repeat 32 0 ++ [0]), (List.repeat false 6).
    split; [reflexivity|]. split; [reflexivity|]. split; [exact Hs|]. split; [now apply check_text_field|].
    split; [reflexivity|]. split; [reflexivity|]. split; [now apply check_text_field|].
    do 4 (split; [reflexivity|]). encoded. }
  split; [exists (lit "VDM"); left; split; [exact ex_part_a_is|exact ex_part_b_is]|].
  split; [exists (lit "VDM"); right; split; [exact ex_part_b_is|exact ex_part_a_is]|].
  do 4 eexists. split; [exists (lit "VDM"); left; split; [exact ex_part_a_is|apply (B 70); reflexivity]|].
  split; [exists (lit "VDM"); left; split; [exact ex_part_a_is|apply (B 80); reflexivity]|].
  split; [vm_compute; reflexivity|]. split; [vm_compute; reflexivity|]. split; [vm_compute; reflexivity|].
  split; [vm_compute; reflexivity|]. split; [vm_compute; reflexivity|]. split; vm_compute; reflexivity.
Qed.
