(** C81: equal reports mean equal transmissions. *)
From stdpp Require Import gmap.
From Coq Require Import List NArith ZArith Bool String Lia Reals Lra Floats.SpecFloat.
From Flocq Require Import Core.
From Verif Require Import Base Str F64 Chrono Types Util AisMod Vdm Gnss Parser Equality
  SpecText SpecResult SpecAis SpecTime SpecState SpecReal SpecMeasure SpecEq SpecSame
  StrFacts FrontFacts CallFacts ResultFacts BitFacts VdmFacts LayoutFacts StateFacts FloatFacts
  FieldFacts PropFront PropBits PropAis PropMeasure PropEq.
Import ListNotations.
Open Scope N_scope.

Lemma same_number_value x y : same_number x y -> real_of x = real_of y.
Proof. intros []; reflexivity. Qed.

Lemma same_number_refl x : finite x -> same_number x x.
Proof. destruct x; intros []; constructor. Qed.

Lemma same_attribute_refl o : (forall x, o = Some x -> finite x) -> same_attribute o o.
Proof. intros H. destruct o as [x|]; constructor. apply same_number_refl. now apply H. Qed.

Lemma some_value {A} (x y : A) : Some x = Some y -> y = x.
Proof. congruence. Qed.

Lemma same_degrees na a b : (Z.abs a <= 2 ^ 27)%Z -> (Z.abs b <= 2 ^ 27)%Z ->
  same_attribute (degrees na a) (degrees na b) <-> a = b.
Proof.
  intros Ha Hb. split.
  - intros S. destruct (degrees_nearest na a) as [[Ea' Ea]|(Na & x & Ea & Nx)]; [lia| |];
    (destruct (degrees_nearest na b) as [[Eb' Eb]|(Nb & y & Eb & Ny)]; [lia| |]); rewrite Ea, Eb in S; inversion S as [|? ? Sn]; subst; [reflexivity|].
    apply same_number_value in Sn. apply raw_small in Ha, Hb.
    destruct (nearest_value 8 _ _ Nx) as [_ E1]; [lia|exact Ha|]. destruct (nearest_value 8 _ _ Ny) as [_ E2]; [lia|exact Hb|].
    rewrite bpow_m45 in *. rewrite Sn in E1. apply Rabs_le_inv in E1, E2.
    assert (A : (-1 < IZR (a - b) < 1)%R) by (rewrite minus_IZR; lra).
    destruct A as [A1 A2]. apply lt_IZR in A1, A2. lia.
  - intros <-. apply same_attribute_refl. intros x E. unfold degrees in E. destruct (_ =? _)%Z; [discriminate|]. apply some_value in E as ->.
    apply good_div; lia.
Qed.

Lemma same_tenths na a b : fits 12 a -> fits 12 b -> same_attribute (tenths na a) (tenths na b) <-> a = b.
Proof.
  intros Ha Hb. split.
  - intros S. destruct (tenths_spec na a Ha) as [[Ea' Ea]|(Na & x & Ea & _ & _ & Nx)];
    (destruct (tenths_spec na b Hb) as [[Eb' Eb]|(Nb & y & Eb & _ & _ & Ny)]); rewrite Ea, Eb in S; inversion S as [|? ? Sn]; subst; [reflexivity|].
    apply same_number_value in Sn. rewrite Sn in Nx. apply Rabs_le_inv in Nx, Ny.
    assert (A : (-1 < IZR (Z.of_N a - Z.of_N b) < 1)%R).
    { rewrite minus_IZR. assert (L : (/ 10 ^ 12 <= / 100)%R) by (apply Rinv_le_contravar; lra). lra. }
    destruct A as [A1 A2]. apply lt_IZR in A1, A2. lia.
  - intros <-. apply same_attribute_refl. intros x E. unfold tenths in E. destruct (a =? na); [discriminate|]. apply some_value in E as ->.
    apply good_tenths. unfold fits in Ha. change (2 ^ 12) with 4096 in Ha. change (2 ^ 40) with 1099511627776. lia.
Qed.

Lemma same_whole na a b : a < 2 ^ 40 -> b < 2 ^ 40 -> same_attribute (whole na a) (whole na b) <-> a = b.
Proof.
  intros Ha Hb. split.
  - intros S. unfold whole in S. destruct (N.eqb_spec a na), (N.eqb_spec b na); inversion S as [|? ? Sn]; subst; [reflexivity|].
    apply same_number_value in Sn. destruct (f64_of_Z_exact (Z.of_N a)) as (E1 & _); [lia|]. destruct (f64_of_Z_exact (Z.of_N b)) as (E2 & _); [lia|].
    rewrite E1, E2 in Sn. apply eq_IZR in Sn. lia.
  - intros <-. apply same_attribute_refl. intros x E. unfold whole in E. destruct (a =? na); [discriminate|]. apply some_value in E as ->.
    apply good_Z. lia.
Qed.

Lemma same_turn a b : fits_signed 8 a -> fits_signed 8 b ->
  same_attribute (reported_turn a) (reported_turn b) /\ turn_direction a = turn_direction b <-> a = b.
Proof.
  intros Ha Hb. set (entry := fun n => let a := (Z.of_nat n - 128)%Z in (a, (reported_turn a, turn_direction a))).
  set (agree := fun e f : Z * (option f64 * option Z) =>
    Bool.eqb (option_eqb f64_eqb (fst (snd e)) (fst (snd f)) && option_eqb Z.eqb (snd (snd e)) (snd (snd f))) (fst e =? fst f)%Z).
  assert (C : (let t := map entry (seq 0 256) in forallb (fun ef => agree (fst ef) (snd ef)) (list_prod t t)) = true) by (vm_compute; reflexivity).
  cbv zeta in C. rewrite forallb_forall in C. unfold fits_signed in *. change (2 ^ (8 - 1))%Z with 128%Z in *.
  assert (T : forall z, (-128 <= z < 128)%Z -> In (z, (reported_turn z, turn_direction z)) (map entry (seq 0 256))).
  { intros z Hz. apply in_map_iff. exists (Z.to_nat (z + 128)). rewrite in_seq. split; [|lia]. unfold entry.
    rewrite Z2Nat.id by lia. replace (z + 128 - 128)%Z with z by lia. reflexivity. }
  specialize (C ((a, (reported_turn a, turn_direction a)), (b, (reported_turn b, turn_direction b)))). rewrite in_prod_iff in C.
  specialize (C (conj (T a Ha) (T b Hb))). unfold agree in C. cbn [fst snd] in C. apply Bool.eqb_prop in C.
  pose proof (decides_option Z.eqb decides_Z (turn_direction a) (turn_direction b)) as D.
  rewrite <- f64_attribute, <- D, <- andb_true_iff, C. apply Z.eqb_eq.
Qed.

Lemma Forall_cons_iff2 {A B} (R : A -> B -> Prop) a b l k : Forall2 R (a :: l) (b :: k) <-> R a b /\ Forall2 R l k.
Proof. split; [intros H; inversion H; subst; auto|intros []; now constructor]. Qed.

Lemma same_dynamic d e : same_report (PsVesselDynamicData d) (PsVesselDynamicData e) <->
  vdd_own_vessel d = vdd_own_vessel e /\ vdd_station d = vdd_station e /\ vdd_ais_type d = vdd_ais_type e /\
  vdd_mmsi d = vdd_mmsi e /\ vdd_nav_status d = vdd_nav_status e /\ same_attribute (vdd_rot d) (vdd_rot e) /\
  vdd_rot_direction d = vdd_rot_direction e /\ same_attribute (vdd_sog_knots d) (vdd_sog_knots e) /\
  vdd_high_position_accuracy d = vdd_high_position_accuracy e /\ same_attribute (vdd_latitude d) (vdd_latitude e) /\
  same_attribute (vdd_longitude d) (vdd_longitude e) /\ same_attribute (vdd_cog d) (vdd_cog e) /\
  same_attribute (vdd_heading_true d) (vdd_heading_true e) /\ vdd_timestamp_seconds d = vdd_timestamp_seconds e /\
  vdd_positioning_system_meta d = vdd_positioning_system_meta e /\
  vdd_current_gnss_position d = vdd_current_gnss_position e /\ vdd_special_manoeuvre d = vdd_special_manoeuvre e /\
  vdd_raim_flag d = vdd_raim_flag e /\ vdd_class_b_unit_flag d = vdd_class_b_unit_flag e /\
  vdd_class_b_display d = vdd_class_b_display e /\ vdd_class_b_dsc d = vdd_class_b_dsc e /\
  vdd_class_b_band_flag d = vdd_class_b_band_flag e /\ vdd_class_b_msg22_flag d = vdd_class_b_msg22_flag e /\
  vdd_class_b_mode_flag d = vdd_class_b_mode_flag e /\ vdd_class_b_css_flag d = vdd_class_b_css_flag e /\
  vdd_radio_status d = vdd_radio_status e.
Proof.
  unfold same_report. destruct d, e. cbn. split.
  - intros [E F]. injection E. intros. rewrite !Forall_cons_iff2 in F. intuition congruence.
  - intros H. repeat match goal with H : _ /\ _ |- _ => destruct H end. subst. split; [reflexivity|]. repeat constructor; assumption.
Qed.

Lemma same_base d e : same_report (PsBaseStationReport d) (PsBaseStationReport e) <->
  bsr_own_vessel d = bsr_own_vessel e /\ bsr_station d = bsr_station e /\ bsr_mmsi d = bsr_mmsi e /\
  bsr_timestamp d = bsr_timestamp e /\ bsr_high_position_accuracy d = bsr_high_position_accuracy e /\
  same_attribute (bsr_latitude d) (bsr_latitude e) /\ same_attribute (bsr_longitude d) (bsr_longitude e) /\
  bsr_position_fix_type d = bsr_position_fix_type e /\ bsr_raim_flag d = bsr_raim_flag e /\
  bsr_radio_status d = bsr_radio_status e.
Proof.
  unfold same_report. destruct d, e. cbn. split.
  - intros [E F]. injection E. intros. rewrite !Forall_cons_iff2 in F. intuition congruence.
  - intros H. repeat match goal with H : _ /\ _ |- _ => destruct H end. subst. split; [reflexivity|]. repeat constructor; assumption.
Qed.

Lemma same_aircraft d e : same_report (PsStandardSarAircraftPositionReport d) (PsStandardSarAircraftPositionReport e) <->
  sar_own_vessel d = sar_own_vessel e /\ sar_station d = sar_station e /\ sar_mmsi d = sar_mmsi e /\
  sar_altitude d = sar_altitude e /\ sar_sog_knots d = sar_sog_knots e /\
  sar_high_position_accuracy d = sar_high_position_accuracy e /\ same_attribute (sar_latitude d) (sar_latitude e) /\
  same_attribute (sar_longitude d) (sar_longitude e) /\ same_attribute (sar_cog d) (sar_cog e) /\
  sar_timestamp_seconds d = sar_timestamp_seconds e /\ sar_regional d = sar_regional e /\ sar_dte d = sar_dte e /\
  sar_assigned d = sar_assigned e /\ sar_raim_flag d = sar_raim_flag e /\ sar_radio_status d = sar_radio_status e.
Proof.
  unfold same_report. destruct d, e. cbn. split.
  - intros [E F]. injection E. intros. rewrite !Forall_cons_iff2 in F. intuition congruence.
  - intros H. repeat match goal with H : _ /\ _ |- _ => destruct H end. subst. split; [reflexivity|]. repeat constructor; assumption.
Qed.

Lemma same_status a b : fits 4 a -> fits 4 b ->
  nth (N.to_nat a) navigation_statuses NsNotDefined = nth (N.to_nat b) navigation_statuses NsNotDefined <-> a = b.
Proof.
  unfold fits. change (2 ^ 4) with 16. intros Ha Hb. split; [|now intros ->]. intros E.
  assert (D : NoDup navigation_statuses).
  { unfold navigation_statuses. repeat (constructor; [cbn; intros H; repeat (destruct H as [H|H]; [discriminate H|]); exact H|]). constructor. }
  rewrite (NoDup_nth _ NsNotDefined) in D. apply N2Nat.inj. apply D; [cbn; lia|cbn; lia|exact E].
Qed.

Lemma same_manoeuvre a b : reported_manoeuvre a = reported_manoeuvre b <-> (manoeuvre_known a <-> manoeuvre_known b).
Proof.
  unfold reported_manoeuvre, manoeuvre_known. destruct (N.eqb_spec a 1), (N.eqb_spec a 2), (N.eqb_spec b 1), (N.eqb_spec b 2); cbn [orb];
    (split; [intros E; try discriminate E; lia|intros E; try reflexivity; exfalso; lia]).
Qed.

Lemma same_device a b : fits 4 a -> fits 4 b -> fix_report a = fix_report b <-> device_alike a b.
Proof.
  unfold fits. change (2 ^ 4) with 16. intros Ha Hb. unfold device_alike.
  assert (C : forallb (fun e => let a := N.of_nat (fst e) in let b := N.of_nat (snd e) in
    Bool.eqb (option_eqb PositionFixType_eqb (fix_report a) (fix_report b)) ((a =? b) || ((9 <=? a) && (9 <=? b))))
    (list_prod (seq 0 16) (seq 0 16)) = true) by (vm_compute; reflexivity).
  rewrite forallb_forall in C. specialize (C (N.to_nat a, N.to_nat b)). rewrite in_prod_iff, !in_seq in C. specialize (C ltac:(lia)).
  cbn [fst snd] in C. rewrite !N2Nat.id in C. cbv zeta in C. apply Bool.eqb_prop in C.
  pose proof (decides_option _ decides_PositionFixType (fix_report a) (fix_report b)) as D. rewrite <- D, C.
  rewrite orb_true_iff, andb_true_iff, N.eqb_eq, !N.leb_le. reflexivity.
Qed.

Lemma same_formatter s s' tt tt' fff fff' pl pl' : one_fragment s tt fff pl -> one_fragment s' tt' fff' pl' ->
  str_eqb fff (lit "VDO") = str_eqb fff' (lit "VDO") <-> fff = fff'.
Proof.
  intros (? & ? & ? & ? & ? & (? & _ & _ & _ & H) & _) (? & ? & ? & ? & ? & (? & _ & _ & _ & H') & _).
  split; [|now intros ->]. destruct H as [-> | ->], H' as [-> | ->]; intros E; try reflexivity; discriminate E.
Qed.

Lemma signed_28 z : fits_signed 28 z -> (Z.abs z <= 2 ^ 27)%Z.
Proof. unfold fits_signed. change (28 - 1)%Z with 27%Z. lia. Qed.
Lemma signed_27 z : fits_signed 27 z -> (Z.abs z <= 2 ^ 27)%Z.
Proof. unfold fits_signed. change (27 - 1)%Z with 26%Z. change (2 ^ 26)%Z with 67108864%Z. change (2 ^ 27)%Z with 134217728%Z. lia. Qed.
Lemma fits_10_12 a : fits 10 a -> fits 12 a.
Proof. unfold fits. change (2 ^ 10) with 1024. change (2 ^ 12) with 4096. lia. Qed.
Lemma fits_9_40 a : fits 9 a -> a < 2 ^ 40.
Proof. unfold fits. change (2 ^ 9) with 512. change (2 ^ 40) with 1099511627776. lia. Qed.

Lemma ok_value {E A} (x y : A) : @Ok E A x = Ok y -> x = y.
Proof. congruence. Qed.

Ltac split_facts := repeat match goal with H : _ /\ _ |- _ => destruct H end.
Ltac same_report_of_calls H1 H2 :=
  intros R1 R2; rewrite H1 in R1; rewrite H2 in R2; apply pair_equal_spec in R1 as [R1 _], R2 as [R2 _];
  apply ok_value in R1 as <-, R2 as <-; rewrite c76_equal_iff.


(** Class A position reports, messages 1, 2 and 3, of any two stations, with anything after the layout. *)
Theorem c81_class_a ovf now1 now2 s1 s2 p1 p2 tt1 tt2 fff1 fff2 st1 st2 m1 m2 rest1 rest2 r1 r2 p1' p2' :
  one_fragment s1 tt1 fff1 (armor (class_a_bits m1 ++ rest1)) -> names_station tt1 st1 -> class_a_fits m1 ->
  one_fragment s2 tt2 fff2 (armor (class_a_bits m2 ++ rest2)) -> names_station tt2 st2 -> class_a_fits m2 ->
  parse_sentence ovf now1 s1 p1 = (Ok r1, p1') -> parse_sentence ovf now2 s2 p2 = (Ok r2, p2') ->
  ParsedSentence_eqb r1 r2 = true <-> st1 = st2 /\ fff1 = fff2 /\ class_a_alike m1 m2.
Proof.
  intros S1 N1 (A1 & A2 & A3 & A4 & A5 & A6 & A7 & A8 & A9 & A10 & A11 & A12 & A13 & A14)
    S2 N2 (B1 & B2 & B3 & B4 & B5 & B6 & B7 & B8 & B9 & B10 & B11 & B12 & B13 & B14).
  pose proof (c21_class_a_position ovf now1 s1 p1 _ _ _ _ _ _ _ _ _ _ _ _ _ _ _ _ _ _ _ _ S1 N1 A1 A2 A3 A4 A5 A6 A7 A8 A9 A10 A11 A12 A13 A14) as H1.
  pose proof (c21_class_a_position ovf now2 s2 p2 _ _ _ _ _ _ _ _ _ _ _ _ _ _ _ _ _ _ _ _ S2 N2 B1 B2 B3 B4 B5 B6 B7 B8 B9 B10 B11 B12 B13 B14) as H2.
  same_report_of_calls H1 H2. rewrite same_dynamic. cbn [vdd_own_vessel vdd_station vdd_ais_type vdd_mmsi vdd_nav_status vdd_rot vdd_rot_direction
    vdd_sog_knots vdd_high_position_accuracy vdd_latitude vdd_longitude vdd_cog vdd_heading_true vdd_timestamp_seconds
    vdd_positioning_system_meta vdd_current_gnss_position vdd_special_manoeuvre vdd_raim_flag vdd_class_b_unit_flag vdd_class_b_display
    vdd_class_b_dsc vdd_class_b_band_flag vdd_class_b_msg22_flag vdd_class_b_mode_flag vdd_class_b_css_flag vdd_radio_status].
  pose proof (same_turn _ _ A5 B5) as T.
  rewrite (same_formatter _ _ _ _ _ _ _ _ S1 S2), (same_status _ _ A4 B4), (same_tenths 1023 _ _ (fits_10_12 _ A6) (fits_10_12 _ B6)),
    (same_tenths 3600 _ _ A9 B9), (same_whole 511 _ _ (fits_9_40 _ A10) (fits_9_40 _ B10)), same_manoeuvre.
  unfold lat_degrees, lon_degrees. rewrite (same_degrees (91 * 600000) _ _ (signed_27 _ A8) (signed_27 _ B8)).
  rewrite (same_degrees (181 * 600000) _ _ (signed_28 _ A7) (signed_28 _ B7)).
  unfold class_a_alike. clear - T. split.
  - intros H. split_facts. assert (a_turn m1 = a_turn m2) by (apply T; now split).
    repeat (split; [assumption|]). congruence.
  - intros H. split_facts. destruct T as [_ T]. destruct T as [T1 T2]; [assumption|].
    repeat (split; [assumption || reflexivity || congruence|]). congruence.
Qed.
Print Assumptions c81_class_a.

(** Base station reports, message 4. *)
Theorem c81_base_station ovf now1 now2 s1 s2 p1 p2 tt1 tt2 fff1 fff2 st1 st2 m1 m2 rest1 rest2 r1 r2 p1' p2' :
  one_fragment s1 tt1 fff1 (armor (base_bits m1 ++ rest1)) -> names_station tt1 st1 -> base_fits m1 ->
  one_fragment s2 tt2 fff2 (armor (base_bits m2 ++ rest2)) -> names_station tt2 st2 -> base_fits m2 ->
  parse_sentence ovf now1 s1 p1 = (Ok r1, p1') -> parse_sentence ovf now2 s2 p2 = (Ok r2, p2') ->
  ParsedSentence_eqb r1 r2 = true <-> st1 = st2 /\ fff1 = fff2 /\ base_alike m1 m2.
Proof.
  intros S1 N1 (A1 & A2 & A3 & A4 & A5 & A6 & A7 & A8 & A9 & A10 & A11 & A12 & A13 & A14 & A15)
    S2 N2 (B1 & B2 & B3 & B4 & B5 & B6 & B7 & B8 & B9 & B10 & B11 & B12 & B13 & B14 & B15).
  pose proof (c22_base_station ovf now1 s1 p1 _ _ _ _ _ _ _ _ _ _ _ _ _ _ _ _ _ _ _ S1 N1 A1 A2 A3 A4 A5 A6 A7 A8 A9 A10 A11 A12 A13 A14 A15) as H1.
  pose proof (c22_base_station ovf now2 s2 p2 _ _ _ _ _ _ _ _ _ _ _ _ _ _ _ _ _ _ _ S2 N2 B1 B2 B3 B4 B5 B6 B7 B8 B9 B10 B11 B12 B13 B14 B15) as H2.
  same_report_of_calls H1 H2. rewrite same_base. cbn [bsr_own_vessel bsr_station bsr_mmsi bsr_timestamp bsr_high_position_accuracy bsr_latitude
    bsr_longitude bsr_position_fix_type bsr_raim_flag bsr_radio_status].
  rewrite (same_formatter _ _ _ _ _ _ _ _ S1 S2), (same_device _ _ A11 B11).
  unfold lat_degrees, lon_degrees. rewrite (same_degrees (91 * 600000) _ _ (signed_27 _ A10) (signed_27 _ B10)).
  rewrite (same_degrees (181 * 600000) _ _ (signed_28 _ A9) (signed_28 _ B9)).
  unfold base_alike. clear. split.
  - intros H. split_facts. match goal with H : Some _ = Some _ |- _ => injection H as E1 E2 E3 E4 E5 E6 end. apply N2Z.inj in E1.
    repeat (split; [assumption|]). assumption.
  - intros H. split_facts. repeat (split; [assumption || congruence|]). assumption.
Qed.
Print Assumptions c81_base_station.

Lemma same_available na a b : available na a = available na b <-> a = b.
Proof. unfold available. split; [|now intros ->]. destruct (N.eqb_spec a na), (N.eqb_spec b na); congruence. Qed.

Lemma same_negb a b : negb a = negb b <-> a = b.
Proof. now destruct a, b. Qed.

(** Reports of search and rescue aircraft, message 9. *)
Theorem c81_aircraft ovf now1 now2 s1 s2 p1 p2 tt1 tt2 fff1 fff2 st1 st2 m1 m2 rest1 rest2 r1 r2 p1' p2' :
  one_fragment s1 tt1 fff1 (armor (aircraft_bits m1 ++ rest1)) -> names_station tt1 st1 -> aircraft_fits m1 ->
  one_fragment s2 tt2 fff2 (armor (aircraft_bits m2 ++ rest2)) -> names_station tt2 st2 -> aircraft_fits m2 ->
  parse_sentence ovf now1 s1 p1 = (Ok r1, p1') -> parse_sentence ovf now2 s2 p2 = (Ok r2, p2') ->
  ParsedSentence_eqb r1 r2 = true <-> st1 = st2 /\ fff1 = fff2 /\ aircraft_alike m1 m2.
Proof.
  intros S1 N1 (A1 & A2 & A3 & A4 & A5 & A6 & A7 & A8 & A9 & A10 & A11)
    S2 N2 (B1 & B2 & B3 & B4 & B5 & B6 & B7 & B8 & B9 & B10 & B11).
  pose proof (c25_sar_aircraft ovf now1 s1 p1 _ _ _ _ _ _ _ _ _ _ _ _ _ _ _ _ _ _ _ S1 N1 A1 A2 A3 A4 A5 A6 A7 A8 A9 A10 A11) as H1.
  pose proof (c25_sar_aircraft ovf now2 s2 p2 _ _ _ _ _ _ _ _ _ _ _ _ _ _ _ _ _ _ _ S2 N2 B1 B2 B3 B4 B5 B6 B7 B8 B9 B10 B11) as H2.
  same_report_of_calls H1 H2. rewrite same_aircraft. cbn [sar_own_vessel sar_station sar_mmsi sar_altitude sar_sog_knots sar_high_position_accuracy
    sar_latitude sar_longitude sar_cog sar_timestamp_seconds sar_regional sar_dte sar_assigned sar_raim_flag sar_radio_status].
  rewrite (same_formatter _ _ _ _ _ _ _ _ S1 S2), !same_available, same_negb, (same_tenths 3600 _ _ A7 B7).
  unfold lat_degrees, lon_degrees. rewrite (same_degrees (91 * 600000) _ _ (signed_27 _ A6) (signed_27 _ B6)).
  rewrite (same_degrees (181 * 600000) _ _ (signed_28 _ A5) (signed_28 _ B5)).
  unfold aircraft_alike. clear. tauto.
Qed.
Print Assumptions c81_aircraft.

(** Class B position reports, message 18. Missing for the claim: the assigned mode flag, the RAIM flag
    and the communication state selector do not show in the report. *)
Theorem c81_class_b_partial ovf now1 now2 s1 s2 p1 p2 tt1 tt2 fff1 fff2 st1 st2 m1 m2 rest1 rest2 r1 r2 p1' p2' :
  one_fragment s1 tt1 fff1 (armor (class_b_bits m1 ++ rest1)) -> names_station tt1 st1 -> class_b_fits m1 ->
  one_fragment s2 tt2 fff2 (armor (class_b_bits m2 ++ rest2)) -> names_station tt2 st2 -> class_b_fits m2 ->
  parse_sentence ovf now1 s1 p1 = (Ok r1, p1') -> parse_sentence ovf now2 s2 p2 = (Ok r2, p2') ->
  ParsedSentence_eqb r1 r2 = true <-> st1 = st2 /\ fff1 = fff2 /\ class_b_confused m1 m2.
Proof.
  intros S1 N1 (A1 & A2 & A3 & A4 & A5 & A6 & A7 & A8 & A9 & A10 & A11)
    S2 N2 (B1 & B2 & B3 & B4 & B5 & B6 & B7 & B8 & B9 & B10 & B11).
  pose proof (c27_class_b_position_partial ovf now1 s1 p1 _ _ _ _ _ _ _ _ _ _ _ _ _ _ _ _ _ _ _ _ _ _ _ _ S1 N1 A1 A2 A3 A4 A5 A6 A7 A8 A9 A10 A11) as H1.
  pose proof (c27_class_b_position_partial ovf now2 s2 p2 _ _ _ _ _ _ _ _ _ _ _ _ _ _ _ _ _ _ _ _ _ _ _ _ S2 N2 B1 B2 B3 B4 B5 B6 B7 B8 B9 B10 B11) as H2.
  same_report_of_calls H1 H2. rewrite same_dynamic. cbn [vdd_own_vessel vdd_station vdd_ais_type vdd_mmsi vdd_nav_status vdd_rot vdd_rot_direction
    vdd_sog_knots vdd_high_position_accuracy vdd_latitude vdd_longitude vdd_cog vdd_heading_true vdd_timestamp_seconds
    vdd_positioning_system_meta vdd_current_gnss_position vdd_special_manoeuvre vdd_raim_flag vdd_class_b_unit_flag vdd_class_b_display
    vdd_class_b_dsc vdd_class_b_band_flag vdd_class_b_msg22_flag vdd_class_b_mode_flag vdd_class_b_css_flag vdd_radio_status].
  rewrite (same_formatter _ _ _ _ _ _ _ _ S1 S2), (same_tenths 1023 _ _ (fits_10_12 _ A4) (fits_10_12 _ B4)),
    (same_tenths 3600 _ _ A7 B7), (same_whole 511 _ _ (fits_9_40 _ A8) (fits_9_40 _ B8)).
  unfold lat_degrees, lon_degrees. rewrite (same_degrees (91 * 600000) _ _ (signed_27 _ A6) (signed_27 _ B6)).
  rewrite (same_degrees (181 * 600000) _ _ (signed_28 _ A5) (signed_28 _ B5)).
  unfold class_b_confused. clear. split.
  - intros H. split_facts. repeat (split; [congruence|]). congruence.
  - intros H. split_facts. repeat (split; [constructor || congruence|]). congruence.
Qed.
Print Assumptions c81_class_b_partial.

(** Inquiries (message 10) and the head of addressed binary messages (message 6): the report has the two
    stations and, for message 6, sequence number, retransmission flag, area code and function. *)
Theorem c81_inquiry ovf now1 now2 s1 s2 p1 p2 tt1 tt2 fff1 fff2 st1 st2 rep1 rep2 mmsi1 mmsi2 spare1 spare2 dest1 dest2
    rest1 rest2 r1 r2 p1' p2' :
  one_fragment s1 tt1 fff1 (armor (layout_bits [U 6 10; U 2 rep1; U 30 mmsi1; U 2 spare1; U 30 dest1] ++ rest1)) ->
  names_station tt1 st1 -> fits 2 rep1 -> fits 30 mmsi1 -> fits 2 spare1 -> fits 30 dest1 ->
  one_fragment s2 tt2 fff2 (armor (layout_bits [U 6 10; U 2 rep2; U 30 mmsi2; U 2 spare2; U 30 dest2] ++ rest2)) ->
  names_station tt2 st2 -> fits 2 rep2 -> fits 30 mmsi2 -> fits 2 spare2 -> fits 30 dest2 ->
  parse_sentence ovf now1 s1 p1 = (Ok r1, p1') -> parse_sentence ovf now2 s2 p2 = (Ok r2, p2') ->
  ParsedSentence_eqb r1 r2 = true <-> st1 = st2 /\ fff1 = fff2 /\ mmsi1 = mmsi2 /\ dest1 = dest2.
Proof.
  intros S1 N1 A1 A2 A3 A4 S2 N2 B1 B2 B3 B4.
  pose proof (c26_utc_inquiry ovf now1 s1 p1 _ _ _ _ _ _ _ _ S1 N1 A1 A2 A3 A4) as H1.
  pose proof (c26_utc_inquiry ovf now2 s2 p2 _ _ _ _ _ _ _ _ S2 N2 B1 B2 B3 B4) as H2.
  same_report_of_calls H1 H2. pose proof (same_formatter _ _ _ _ _ _ _ _ S1 S2) as Hf. clear - Hf.
  revert Hf. generalize (str_eqb fff1 (lit "VDO")), (str_eqb fff2 (lit "VDO")). intros o1 o2 Hf.
  unfold same_report. cbn. rewrite <- Hf. split.
  - intros [E _]. injection E as E1 E2 E3 E4. auto.
  - intros (-> & -> & -> & ->). split; [reflexivity|constructor].
Qed.
Print Assumptions c81_inquiry.

Theorem c81_binary_addressed ovf now1 now2 s1 s2 p1 p2 tt1 tt2 fff1 fff2 st1 st2 rep1 rep2 mmsi1 mmsi2 seq1 seq2 dest1 dest2
    again1 again2 spare1 spare2 dac1 dac2 fid1 fid2 data1 data2 r1 r2 p1' p2' :
  one_fragment s1 tt1 fff1 (armor (layout_bits [U 6 6; U 2 rep1; U 30 mmsi1; U 2 seq1; U 30 dest1; F again1; U 1 spare1; U 10 dac1; U 6 fid1]
    ++ data1)) ->
  names_station tt1 st1 -> fits 2 rep1 -> fits 30 mmsi1 -> fits 2 seq1 -> fits 30 dest1 -> fits 1 spare1 -> fits 10 dac1 -> fits 6 fid1 ->
  one_fragment s2 tt2 fff2 (armor (layout_bits [U 6 6; U 2 rep2; U 30 mmsi2; U 2 seq2; U 30 dest2; F again2; U 1 spare2; U 10 dac2; U 6 fid2]
    ++ data2)) ->
  names_station tt2 st2 -> fits 2 rep2 -> fits 30 mmsi2 -> fits 2 seq2 -> fits 30 dest2 -> fits 1 spare2 -> fits 10 dac2 -> fits 6 fid2 ->
  parse_sentence ovf now1 s1 p1 = (Ok r1, p1') -> parse_sentence ovf now2 s2 p2 = (Ok r2, p2') ->
  ParsedSentence_eqb r1 r2 = true <->
  st1 = st2 /\ fff1 = fff2 /\ mmsi1 = mmsi2 /\ seq1 = seq2 /\ dest1 = dest2 /\ again1 = again2 /\ dac1 = dac2 /\ fid1 = fid2.
Proof.
  intros S1 N1 A1 A2 A3 A4 A5 A6 A7 S2 N2 B1 B2 B3 B4 B5 B6 B7.
  pose proof (c24_binary_addressed ovf now1 s1 p1 _ _ _ _ _ _ _ _ _ _ _ _ S1 N1 A1 A2 A3 A4 A5 A6 A7) as H1.
  pose proof (c24_binary_addressed ovf now2 s2 p2 _ _ _ _ _ _ _ _ _ _ _ _ S2 N2 B1 B2 B3 B4 B5 B6 B7) as H2.
  same_report_of_calls H1 H2. pose proof (same_formatter _ _ _ _ _ _ _ _ S1 S2) as Hf. clear - Hf.
  revert Hf. generalize (str_eqb fff1 (lit "VDO")), (str_eqb fff2 (lit "VDO")). intros o1 o2 Hf.
  unfold same_report. cbn. rewrite <- Hf. split.
  - intros [E _]. injection E as E1 E2 E3 E4 E5 E6 E7 E8. repeat (split; [assumption|]). assumption.
  - intros (-> & -> & -> & -> & -> & -> & -> & ->). split; [reflexivity|constructor].
Qed.
Print Assumptions c81_binary_addressed.

Definition ex_class_b (mode raim : bool) : class_b :=
  {| c_repeat := 0; c_mmsi := 338087471; c_spare := 0; c_speed := 1; c_accurate := false; c_lon := (-44443279)%Z; c_lat := 24410724%Z;
     c_course := 796; c_heading := 511; c_second := 49; c_spare2 := 0; c_unit := true; c_display := false; c_dsc := true; c_band := true;
     c_msg22 := true; c_mode := mode; c_raim := raim; c_selector := true; c_radio := 393222 |}.

(** Whether RAIM is in use and whether the unit is in assigned mode does not show in the report, though
    the report has attributes for both. *)
Theorem c81_class_b_refuted :
  exists s1 s2, one_fragment s1 (lit "AI") (lit "VDM") (armor (class_b_bits (ex_class_b false false))) /\
    one_fragment s2 (lit "AI") (lit "VDM") (armor (class_b_bits (ex_class_b true true))) /\
    class_b_fits (ex_class_b false false) /\ class_b_fits (ex_class_b true true) /\
    exists r, parse_sentence true ex_now s1 new_parser = (Ok r, new_parser) /\
      parse_sentence true ex_now s2 new_parser = (Ok r, new_parser) /\ ParsedSentence_eqb r r = true.
Proof.
  eexists. eexists.
  split; [apply (encode_sentence_one_fragment _ _ (lit "A")); [reflexivity|now apply plain_lit_dec|now left|now apply plain_lit_dec]|].
  split; [apply (encode_sentence_one_fragment _ _ (lit "A")); [reflexivity|now apply plain_lit_dec|now left|now apply plain_lit_dec]|].
  split; [repeat (split; try reflexivity; try (intros X; discriminate X))|]. split; [repeat (split; try reflexivity; try (intros X; discriminate X))|].
  eexists. split; [vm_compute; reflexivity|]. split; vm_compute; reflexivity.
Qed.
Print Assumptions c81_class_b_refuted.

Lemma same_some x y : same_attribute (Some x) (Some y) -> same_number x y.
Proof. intros H. now inversion H. Qed.

Lemma same_long a b : (Z.abs a <= 2 ^ 17)%Z -> (Z.abs b <= 2 ^ 17)%Z ->
  same_attribute (if (a =? 181000)%Z then None else Some (f64_div (f64_of_Z a) (f64_of_Z 600)))
    (if (b =? 181000)%Z then None else Some (f64_div (f64_of_Z b) (f64_of_Z 600))) <-> a = b.
Proof.
  intros Ha Hb. change (2 ^ 17)%Z with 131072%Z in *.
  destruct (Z.eqb_spec a 181000); [lia|]. destruct (Z.eqb_spec b 181000); [lia|]. split.
  - intros S. apply same_some, same_number_value in S as Sn.
    assert (V : forall z, (Z.abs z <= 131072)%Z ->
      (Rabs (real_of (f64_div (f64_of_Z z) (f64_of_Z 600)) - IZR z / 600) <= bpow radix2 (8 - 53))%R).
    { intros z Hz. destruct (f64_of_Z_exact z ltac:(lia)) as (Er & Fr & Pr & Nr).
      destruct (f64_of_Z_exact 600 ltac:(lia)) as (E6 & F6 & P6 & N6).
      assert (B : (Rabs (IZR z / 600) <= bpow radix2 8)%R).
      { apply IZR_le in Hz. rewrite abs_IZR in Hz. unfold Rdiv. rewrite Rabs_mult, (Rabs_pos_eq (/ 600)) by lra.
        rewrite <- (IZR_Zpower radix2 8) by lia. change (Zpower radix2 8) with 256%Z. pose proof (Rabs_pos (IZR z)). lra. }
      destruct (f64_div_nearest (f64_of_Z z) (f64_of_Z 600) Fr F6) as [Nn _].
      { rewrite E6. apply not_0_IZR. discriminate. }
      { rewrite Er, E6. apply (rnd_in_range 8); [lia|exact B]. }
      rewrite Er, E6 in Nn. now destruct (nearest_value 8 _ _ Nn ltac:(lia) B) as [_ E]. }
    pose proof (V a Ha) as E1. pose proof (V b Hb) as E2. rewrite Sn in E1. apply Rabs_le_inv in E1, E2.
    rewrite bpow_m45 in *.
    assert (A : (-1 < IZR (a - b) < 1)%R) by (rewrite minus_IZR; lra).
    destruct A as [A1 A2]. apply lt_IZR in A1, A2. lia.
  - intros <-. apply same_attribute_refl. intros x E. apply some_value in E as ->. apply good_div; lia.
Qed.

Lemma same_long_course a : a < 2 ^ 17 -> same_attribute (tenths 91000 a) (tenths 91000 a).
Proof.
  intros H. apply same_attribute_refl. intros x E. unfold tenths in E. destruct (a =? 91000); [discriminate|]. apply some_value in E as ->.
  apply good_tenths. change (2 ^ 17) with 131072 in H. change (2 ^ 40) with 1099511627776. lia.
Qed.

Lemma twos_17 z : fits_signed 17 z -> twos 17 z < 2 ^ 17.
Proof. intros H. unfold twos. apply N2Z.inj_lt. rewrite Z2N.id by (apply Z.mod_pos_bound; lia). apply Z.mod_pos_bound. lia. Qed.

(** Long range reports, message 27: speed, course and the status of the position do not show in the report; everything
    else does, though latitude and longitude are exchanged. Missing for the claim: those three. *)
Theorem c81_long_range_partial ovf now1 now2 s1 s2 p1 p2 tt1 tt2 fff1 fff2 st1 st2 m1 m2 rest1 rest2 r1 r2 p1' p2' :
  one_fragment s1 tt1 fff1 (armor (long_range_bits m1 ++ rest1)) -> names_station tt1 st1 -> long_range_fits m1 ->
  one_fragment s2 tt2 fff2 (armor (long_range_bits m2 ++ rest2)) -> names_station tt2 st2 -> long_range_fits m2 ->
  parse_sentence ovf now1 s1 p1 = (Ok r1, p1') -> parse_sentence ovf now2 s2 p2 = (Ok r2, p2') ->
  ParsedSentence_eqb r1 r2 = true <-> st1 = st2 /\ fff1 = fff2 /\ long_range_confused m1 m2.
Proof.
  intros S1 N1 (A1 & A2 & A3 & A4 & A5 & A6 & A7 & A8) S2 N2 (B1 & B2 & B3 & B4 & B5 & B6 & B7 & B8).
  pose proof (c31_long_range_partial ovf now1 s1 p1 _ _ _ _ _ _ _ _ _ _ _ _ _ _ _ S1 N1 A1 A2 A3 A4 A5 A6 A7 A8) as H1.
  pose proof (c31_long_range_partial ovf now2 s2 p2 _ _ _ _ _ _ _ _ _ _ _ _ _ _ _ S2 N2 B1 B2 B3 B4 B5 B6 B7 B8) as H2.
  same_report_of_calls H1 H2. rewrite same_dynamic. cbn [vdd_own_vessel vdd_station vdd_ais_type vdd_mmsi vdd_nav_status vdd_rot vdd_rot_direction
    vdd_sog_knots vdd_high_position_accuracy vdd_latitude vdd_longitude vdd_cog vdd_heading_true vdd_timestamp_seconds
    vdd_positioning_system_meta vdd_current_gnss_position vdd_special_manoeuvre vdd_raim_flag vdd_class_b_unit_flag vdd_class_b_display
    vdd_class_b_dsc vdd_class_b_band_flag vdd_class_b_msg22_flag vdd_class_b_mode_flag vdd_class_b_css_flag vdd_radio_status].
  rewrite (same_formatter _ _ _ _ _ _ _ _ S1 S2), (same_status _ _ A3 B3).
  assert (Q : forall n z, (1 <= n <= 18)%Z -> fits_signed n z -> (Z.abs z <= 2 ^ 17)%Z).
  { intros n z Hn F. unfold fits_signed in F. assert (2 ^ (n - 1) <= 2 ^ 17)%Z by (apply Z.pow_le_mono_r; lia). lia. }
  rewrite (same_long _ _ (Q 18%Z _ ltac:(lia) A4) (Q 18%Z _ ltac:(lia) B4)), (same_long _ _ (Q 17%Z _ ltac:(lia) A5) (Q 17%Z _ ltac:(lia) B5)).
  unfold long_range_confused. pose proof (twos_17 _ A5) as T. clear - T. split.
  - intros H. split_facts. repeat (split; [assumption|]). assumption.
  - intros (-> & -> & -> & -> & -> & -> & -> & Ela). rewrite <- Ela. repeat (split; [solve [reflexivity|constructor]|]).
    split.
    { assert (D : twos 17 (l_lat m1) / 2 ^ 11 < 2 ^ 40).
      { apply N.div_lt_upper_bound; [discriminate|]. eapply N.lt_trans; [exact T|reflexivity]. }
      now apply same_whole. }
    repeat (split; [solve [reflexivity]|]). split; [now apply same_long_course|]. repeat (split; [solve [reflexivity|constructor]|]). reflexivity.
Qed.
Print Assumptions c81_long_range_partial.

(** Long range reports with different speed and course that give equal reports. *)
Theorem c81_long_range_refuted :
  exists s1 s2, one_fragment s1 (lit "AI") (lit "VDM") (armor (layout_bits
      [U 6 27; U 2 1; U 30 206914217; F false; F false; U 4 2; I 18 82214; I 17 2904; U 6 57; U 9 167; F false; U 1 0])) /\
    one_fragment s2 (lit "AI") (lit "VDM") (armor (layout_bits
      [U 6 27; U 2 1; U 30 206914217; F false; F false; U 4 2; I 18 82214; I 17 2904; U 6 3; U 9 200; F false; U 1 0])) /\
    exists r, parse_sentence true ex_now s1 new_parser = (Ok r, new_parser) /\
      parse_sentence true ex_now s2 new_parser = (Ok r, new_parser) /\ ParsedSentence_eqb r r = true.
Proof.
  eexists. eexists.
  split; [apply (encode_sentence_one_fragment _ _ (lit "A")); [reflexivity|now apply plain_lit_dec|now left|now apply plain_lit_dec]|].
  split; [apply (encode_sentence_one_fragment _ _ (lit "A")); [reflexivity|now apply plain_lit_dec|now left|now apply plain_lit_dec]|].
  eexists. split; [vm_compute; reflexivity|]. split; vm_compute; reflexivity.
Qed.
Print Assumptions c81_long_range_refuted.

Definition ex_long (lon : Z) (speed course : N) : long_range :=
  {| l_repeat := 1; l_mmsi := 206914217; l_accurate := false; l_raim := false; l_status := 2; l_lon := lon; l_lat := 2904%Z;
     l_speed := speed; l_course := course; l_gnss := false; l_spare := 0 |}.

(** Two messages as in [c81_long_range_refuted], and one with another longitude, which does make a difference. *)
Example c81_long_range_example :
  long_range_fits (ex_long 82214 57 167) /\ long_range_fits (ex_long 82214 3 200) /\ long_range_fits (ex_long 82215 57 167) /\
  long_range_confused (ex_long 82214 57 167) (ex_long 82214 3 200) /\
  ~ long_range_confused (ex_long 82214 57 167) (ex_long 82215 57 167) /\
  exists s1 s2 r1 r2, one_fragment s1 (lit "AI") (lit "VDM") (armor (long_range_bits (ex_long 82214 57 167) ++ [])) /\
    one_fragment s2 (lit "AI") (lit "VDM") (armor (long_range_bits (ex_long 82215 57 167) ++ [])) /\
    parse_sentence true ex_now s1 new_parser = (Ok r1, new_parser) /\ parse_sentence true ex_now s2 new_parser = (Ok r2, new_parser) /\
    ParsedSentence_eqb r1 r2 = false.
Proof.
  assert (F : forall lon speed course, fits_signed 18 lon -> fits 6 speed -> fits 9 course -> long_range_fits (ex_long lon speed course)).
  { intros lon speed course Hl Hs Hc. repeat (split; [assumption || reflexivity || (split; [intros X; discriminate X|reflexivity])|]). reflexivity. }
  split; [apply F; reflexivity || (split; [intros X; discriminate X|reflexivity])|].
  split; [apply F; reflexivity || (split; [intros X; discriminate X|reflexivity])|].
  split; [apply F; reflexivity || (split; [intros X; discriminate X|reflexivity])|].
  split; [repeat split|]. split; [intros (_ & _ & _ & _ & H & _); discriminate H|].
  do 4 eexists.
  split; [apply (encode_sentence_one_fragment _ _ (lit "A")); [reflexivity|now apply plain_lit_dec|now left|now apply plain_lit_dec]|].
  split; [apply (encode_sentence_one_fragment _ _ (lit "A")); [reflexivity|now apply plain_lit_dec|now left|now apply plain_lit_dec]|].
  split; [vm_compute; reflexivity|]. split; [vm_compute; reflexivity|]. vm_compute. reflexivity.
Qed.

Definition ex_class_a (type lat manoeuvre : N) : class_a :=
  {| a_type := type; a_repeat := 0; a_mmsi := 371798000; a_status := 0; a_turn := (-127)%Z; a_speed := 123; a_accurate := true;
     a_lon := (-74037230)%Z; a_lat := Z.of_N lat; a_course := 2240; a_heading := 215; a_second := 33; a_manoeuvre := manoeuvre; a_spare := 0;
     a_raim := false; a_radio := 34017 |}.

(** The crate's test message, the same as message type 3 with another manoeuvre code, and the position a
    ten-thousandth of a minute further north: the first two reports are equal, the third differs. *)
Example c81_example :
  class_a_fits (ex_class_a 1 29028980 0) /\ class_a_fits (ex_class_a 3 29028980 3) /\ class_a_fits (ex_class_a 1 29028981 0) /\
  class_a_alike (ex_class_a 1 29028980 0) (ex_class_a 3 29028980 3) /\
  exists s r s' r' s'' r'',
    s = lit "!AIVDM,1,1,,A,15RTgt0PAso;90TKcjM8h6g208CQ,0*4A" /\
    one_fragment s (lit "AI") (lit "VDM") (armor (class_a_bits (ex_class_a 1 29028980 0))) /\
    one_fragment s' (lit "AI") (lit "VDM") (armor (class_a_bits (ex_class_a 3 29028980 3))) /\
    one_fragment s'' (lit "AI") (lit "VDM") (armor (class_a_bits (ex_class_a 1 29028981 0))) /\
    parse_sentence true ex_now s new_parser = (Ok r, new_parser) /\ parse_sentence true ex_now s' new_parser = (Ok r', new_parser) /\
    parse_sentence true ex_now s'' new_parser = (Ok r'', new_parser) /\
    ParsedSentence_eqb r r' = true /\ ParsedSentence_eqb r r'' = false.
Proof.
  split; [repeat (split; try (cbn; tauto); try reflexivity; try (intros X; discriminate X))|].
  split; [repeat (split; try (cbn; tauto); try reflexivity; try (intros X; discriminate X))|].
  split; [repeat (split; try (cbn; tauto); try reflexivity; try (intros X; discriminate X))|].
  split; [repeat (split; try reflexivity); intros [X|X]; discriminate X|].
  do 6 eexists. split; [reflexivity|].
  split; [apply (check_one_fragment _ _ _ (lit "A") _ [lit "0"]); apply check_vdm; [|reflexivity]; vm_compute; auto|].
  split; [apply (encode_sentence_one_fragment _ _ (lit "A")); [reflexivity|now apply plain_lit_dec|now left|now apply plain_lit_dec]|].
  split; [apply (encode_sentence_one_fragment _ _ (lit "A")); [reflexivity|now apply plain_lit_dec|now left|now apply plain_lit_dec]|].
  split; [vm_compute; reflexivity|]. split; [vm_compute; reflexivity|]. split; [vm_compute; reflexivity|]. split; vm_compute; reflexivity.
Qed.
