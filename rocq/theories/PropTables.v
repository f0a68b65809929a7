(** C52, C53, C54: countries, ship types and arrival times in static reports. *)
From stdpp Require Import gmap.
From Coq Require Import List NArith ZArith Bool String Lia.
From Verif Require Import Base Str F64 Chrono Types Util AisMod Vdm Gnss Parser
  SpecText SpecResult SpecAis SpecTime SpecState SpecCountry StrFacts FrontFacts CallFacts ResultFacts BitFacts
  VdmFacts LayoutFacts StateFacts RunFacts PropFront PropAis PropState PropStatic.
Import ListNotations.
Open Scope N_scope.
Local Opaque pick_string pick_u64 pick_i64 pick_eta parse_f64.

(** ** C52 *)

Lemma assoc_mid_in k t v : assoc_mid k t = Some v -> In (k, v) t.
Proof.
  induction t as [|[k' v'] t IH]; cbn; [discriminate|]. destruct (N.eqb_spec k k') as [<-|].
  - intros [= ->]. now left.
  - intros H. right. auto.
Qed.

Lemma assoc_mid_none k t : assoc_mid k t = None -> ~ In k (map fst t).
Proof.
  induction t as [|[k' v'] t IH]; cbn; [tauto|]. destruct (N.eqb_spec k k') as [<-|]; [discriminate|].
  intros H [E|Hi]; [congruence|]. now apply IH.
Qed.

Lemma mid_of mmsi mid : ship_mmsi mmsi mid -> mmsi / 1000000 = mid.
Proof.
  intros (ship & Hs & ->). rewrite N.div_add_l by discriminate. rewrite N.div_small by exact Hs. lia.
Qed.

Definition allocated_in (mid : N) (c : string) : bool :=
  existsb (fun '(c', _, mids) => String.eqb c' c && existsb (N.eqb mid) mids) flag_states.

Lemma allocated_in_spec mid c : allocated_in mid c = true -> allocated mid (lit c).
Proof.
  unfold allocated_in. intros H. apply existsb_exists in H as ([[c' n] mids] & Hi & H).
  apply andb_true_iff in H as [Hc Hm]. apply String.eqb_eq in Hc as ->.
  apply existsb_exists in Hm as (m & Hm & Em). apply N.eqb_eq in Em as <-. now exists c, n, mids.
Qed.

(** The MIDs for which the crate has another country than the ITU. *)
Definition wrong_mids : list N := [445; 660; 676].

Lemma table_allocated :
  forallb (fun '(m, c) => existsb (N.eqb m) wrong_mids || allocated_in m c) mid_table = true.
Proof. vm_compute. reflexivity. Qed.

Lemma states_listed :
  forallb (fun '(_, _, mids) => forallb (fun m => existsb (N.eqb m) (map fst mid_table)) mids) flag_states = true.
Proof. vm_compute. reflexivity. Qed.

Lemma mids_allocated :
  forallb (fun m => existsb (fun '(_, _, mids) => existsb (N.eqb m) mids) flag_states) (map fst mid_table) = true.
Proof. vm_compute. reflexivity. Qed.

Lemma codes_upper :
  forallb (fun '(_, c) => match lit c with [a; b] => (65 <=? a) && (a <=? 90) && (65 <=? b) && (b <=? 90) | _ => false end)
    mid_table = true.
Proof. vm_compute. reflexivity. Qed.

(** The country the ITU has given the digits to (one of them if it is several), except for three MIDs. *)
Theorem c52_country_partial d mid code :
  ship_mmsi (vsd_mmsi d) mid -> country d = Some code -> ~ In mid [445; 660; 676] ->
  allocated mid code.
Proof.
  intros Hm H Hw. unfold country, mid_country in H. rewrite (mid_of _ _ Hm) in H.
  destruct (assoc_mid mid mid_table) as [c|] eqn:E; [|discriminate]. injection H as <-.
  apply assoc_mid_in in E. pose proof table_allocated as T. rewrite forallb_forall in T.
  specialize (T _ E). apply orb_true_iff in T as [T|T]; [|now apply allocated_in_spec].
  apply existsb_exists in T as (x & Hx & Ex). apply N.eqb_eq in Ex as <-. contradiction.
Qed.
Print Assumptions c52_country_partial.

Theorem c52_none_for_unallocated d mid :
  ship_mmsi (vsd_mmsi d) mid ->
  (country d = None <-> forall code, ~ allocated mid code).
Proof.
  intros Hm. unfold country, mid_country. rewrite (mid_of _ _ Hm).
  destruct (assoc_mid mid mid_table) as [c|] eqn:E; cbn [option_map].
  - split; [discriminate|]. intros H. exfalso. apply assoc_mid_in, (in_map fst) in E. cbn [fst] in E.
    pose proof mids_allocated as T. rewrite forallb_forall in T. specialize (T _ E).
    apply existsb_exists in T as ([[c' n] mids] & Hi & T). apply existsb_exists in T as (m & Hin & Em).
    apply N.eqb_eq in Em as <-. apply (H (lit c')). now exists c', n, mids.
  - split; [|reflexivity]. intros _ code (c & n & mids & Hi & Hin & _).
    pose proof states_listed as T. rewrite forallb_forall in T. specialize (T _ Hi). cbn beta iota in T.
    rewrite forallb_forall in T. specialize (T _ Hin). apply existsb_exists in T as (m & Hl & Em).
    apply N.eqb_eq in Em as <-. now apply assoc_mid_none in E.
Qed.
Print Assumptions c52_none_for_unallocated.

Theorem c52_letters d code : country d = Some code -> country_code code.
Proof.
  unfold country, mid_country. destruct (assoc_mid _ mid_table) as [c|] eqn:E; [|discriminate]. intros [= <-].
  apply assoc_mid_in in E. pose proof codes_upper as T. rewrite forallb_forall in T. specialize (T _ E).
  cbn beta iota in T. destruct (lit c) as [|a [|b [|? ?]]]; try discriminate T. exists a, b. split; [reflexivity|]. lia.
Qed.
Print Assumptions c52_letters.

Theorem c52_only_the_mid d1 d2 mid :
  ship_mmsi (vsd_mmsi d1) mid -> ship_mmsi (vsd_mmsi d2) mid -> country d1 = country d2.
Proof. intros H1 H2. unfold country, mid_country. now rewrite (mid_of _ _ H1), (mid_of _ _ H2). Qed.
Print Assumptions c52_only_the_mid.

(** North Korea, Réunion and the Democratic Republic of the Congo come out as other countries. *)
Theorem c52_other_countries_refuted d mid :
  ship_mmsi (vsd_mmsi d) mid -> In mid [445; 660; 676] ->
  exists code, country d = Some code /\ ~ allocated mid code.
Proof.
  intros Hm Hi. unfold country, mid_country. rewrite (mid_of _ _ Hm). clear Hm.
  assert (N : forall c, allocated_in mid c = false -> ~ allocated mid (lit c)).
  { intros c Hc (c' & n & mids & Hin & Hmid & E).
    assert (c' = c) as ->.
    { revert E. unfold lit. clear. revert c'. induction c as [|a c IH]; intros [|b c']; cbn; try discriminate; auto.
      intros [= E1 E2]. f_equal; [|now apply IH]. apply (f_equal Ascii.ascii_of_N) in E1.
      now rewrite !Ascii.ascii_N_embedding in E1. }
    assert (allocated_in mid c = true) as X; [|congruence].
    unfold allocated_in. apply existsb_exists. exists (c, n, mids). split; [exact Hin|].
    rewrite String.eqb_refl. cbn [andb]. apply existsb_exists. exists mid. split; [exact Hmid|apply N.eqb_refl]. }
  destruct Hi as [<-|[<-|[<-|[]]]]; eexists; (split; [vm_compute; reflexivity|]).
  - apply (N "KR"%string). vm_compute. reflexivity.
  - apply (N "TF"%string). vm_compute. reflexivity.
  - apply (N "CG"%string). vm_compute. reflexivity.
Qed.
Print Assumptions c52_other_countries_refuted.

(** The vessels of the crate's own test sentences: a Turkish and a Finnish one; a coast station has no country. *)
Example c52_example :
  let d := part_a_data false 271041815 (lit "PROGUY") in
  country d = Some (lit "TR") /\ allocated 271 (lit "TR") /\ ship_mmsi (vsd_mmsi d) 271 /\
  country (part_a_data false 230123250 []) = Some (lit "FI") /\ allocated 230 (lit "FI") /\
  country (part_a_data false 002301000 []) = None /\ (forall code, ~ allocated 2 code).
Proof.
  cbv zeta. split; [vm_compute; reflexivity|]. split; [now apply (allocated_in_spec _ "TR")|].
  split; [now exists 41815|]. split; [vm_compute; reflexivity|]. split; [now apply (allocated_in_spec _ "FI")|].
  split; [vm_compute; reflexivity|].
  apply (c52_none_for_unallocated (part_a_data false 002301000 []) 2); [now exists 301000|vm_compute; reflexivity].
Qed.

(** ** C53 *)

(** The sentence [s] is a type 5 message with these values (and any others). *)
Definition voyage (s fff : str) (mmsi ship month day hour minute draught : N) : Prop :=
  exists tt repeat version imo call_sign cs name nm bow stern port starboard epfd destination ds dte spare rest,
    text_field 7 call_sign cs /\ text_field 20 name nm /\ text_field 20 destination ds /\
    fits 2 repeat /\ fits 30 mmsi /\ fits 2 version /\ fits 30 imo /\ fits 8 ship /\ fits 9 bow /\ fits 9 stern /\
    fits 6 port /\ fits 6 starboard /\ fits 4 epfd /\ fits 4 month /\ fits 5 day /\ fits 5 hour /\
    fits 6 minute /\ fits 8 draught /\ fits 1 spare /\
    one_fragment s tt fff (armor (voyage_bits repeat mmsi version imo cs nm ship bow stern port starboard epfd
      month day hour minute draught ds dte spare ++ rest)).

Local Transparent pick_eta.
(** Turning the model of the ETA around: it panics unless there is an [eta_report]. *)
Lemma eta_cases {E} bv i now month day hour minute sec :
  pick_u64 bv i 4 = month -> pick_u64 bv (i + 4) 5 = day -> pick_u64 bv (i + 9) 5 = hour ->
  pick_u64 bv (i + 14) 6 = minute -> pick_u64 bv (i + 20) 6 = sec ->
  fits 4 month -> fits 5 day -> fits 5 hour -> fits 6 minute -> fits 6 sec ->
  (exists eta, @pick_eta E bv i now = Ok eta /\ eta_report now month day hour minute sec eta) \/
  (@pick_eta E bv i now = Panic /\ forall eta, ~ eta_report now month day hour minute sec eta).
Proof.
  intros E1 E2 E3 E4 E5 F1 F2 F3 F4 F5.
  assert (V : forall eta, eta_report now month day hour minute sec eta -> @pick_eta E bv i now = Ok eta)
    by (intros eta H; eapply eta_value; eassumption).
  destruct (@pick_eta E bv i now) as [eta|e|] eqn:P.
  3: { right. split; [reflexivity|]. intros eta H. now specialize (V eta H). }
  2: { exfalso. revert P. unfold pick_eta. cbv zeta. destruct (_ && _); [discriminate|].
       destruct (_ =? 24); destruct (_ =? 60);
       match goal with |- context [@ymd_and_hms E ?y ?m ?d ?h ?mi ?s] =>
         destruct (@ymd_and_hms_cases E y m d h mi s) as [(-> & _)|(-> & _)] end; cbn [bind]; try discriminate;
       destruct (dt_leb _ _); discriminate. }
  left. exists eta. split; [reflexivity|]. clear V. revert P. unfold pick_eta. cbv zeta.
  replace (i + 4 + 5)%nat with (i + 9)%nat by lia. replace (i + 9 + 5)%nat with (i + 14)%nat by lia.
  replace (i + 14 + 6)%nat with (i + 20)%nat by lia.
  rewrite E1, E2, E3, E4, E5.
  rewrite (small_u32 4 month F1), (small_u32 5 day F2), (small_u32 5 hour F3), (small_u32 6 minute F4),
    (small_u32 6 sec F5) by lia.
  destruct (_ && _) eqn:Na.
  { intros [= <-]. apply andb_true_iff in Na as [Na N5]. apply andb_true_iff in Na as [Na N4].
    apply andb_true_iff in Na as [Na N3]. apply andb_true_iff in Na as [N1 N2].
    apply N.eqb_eq in N1, N2, N3, N4, N5. now constructor. }
  assert (Hna : ~ (month = 0 /\ day = 0 /\ hour = 24 /\ minute = 60 /\ sec = 60)).
  { intros (-> & -> & -> & -> & ->). discriminate Na. }
  clear Na.
  set (T := fun h mi s => hour = 24 /\ h = 23 /\ mi = 59 /\ s = 59 \/
     hour <> 24 /\ minute = 60 /\ h = hour /\ mi = 59 /\ s = 59 \/
     hour <> 24 /\ minute <> 60 /\ h = hour /\ mi = minute /\ s = if sec =? 60 then 59 else sec).
  assert (K : forall h mi s, T h mi s ->
    (let! this_year_eta := ymd_and_hms (dt_year now) (if month =? 0 then dt_month now else month)
                             (if day =? 0 then dt_day now else day) h mi s in
     let! next_year_eta := ymd_and_hms (dt_year now) (if month =? 0 then dt_month now else month)
                             (if day =? 0 then dt_day now else day) h mi s in
     if dt_leb now this_year_eta then Ok (Some this_year_eta) else Ok (Some next_year_eta)) = @Ok E _ eta ->
    eta_report now month day hour minute sec eta).
  { intros h mi s Ht P. set (mo := if month =? 0 then _ else _) in P. set (d := if day =? 0 then _ else _) in P.
    destruct (@ymd_and_hms_cases E (dt_year now) mo d h mi s) as [(R & Y & D & H)|(R & _)]; rewrite R in P; cbn [bind] in P;
      [|discriminate].
    assert (eta = Some (mk_datetime (dt_year now) mo d h mi s 0)) as -> by (destruct (dt_leb _ _); congruence).
    now apply (eta_some now month day hour minute sec mo d h mi s). }
  unfold T in K.
  destruct (N.eqb_spec hour 24) as [Eh|Eh].
  - change (59 =? 60) with false. cbv iota beta. intros P. apply (K 23 59 59); [tauto|exact P].
  - destruct (N.eqb_spec minute 60) as [Em|Em].
    + change (59 =? 60) with false. cbv iota beta. intros P. apply (K hour 59 59); [tauto|exact P].
    + intros P. apply (K hour minute (if sec =? 60 then 59 else sec)); [tauto|exact P].
Qed.

Local Opaque pick_eta.

(** Everything the crate makes of ship type and ETA. *)
Lemma voyage_cases ovf now s p fff mmsi ship month day hour minute draught :
  voyage s fff mmsi ship month day hour minute draught ->
  (exists d, parse_sentence ovf now s p = (Ok (PsVesselStaticData d), p) /\ vsd_mmsi d = mmsi /\
     vsd_ship_type d = reported_ship_type ship /\ vsd_cargo_type d = cargo_type ship /\
     eta_report now month day hour minute (draught / 4) (vsd_eta d)) \/
  (fst (parse_sentence ovf now s p) = Panic /\ forall eta, ~ eta_report now month day hour minute (draught / 4) eta).
Proof.
  intros (tt & repeat & version & imo & call_sign & cs & name & nm & bow & stern & port & starboard & epfd &
    destination & ds & dte & spare & rest & Hcs & Hnm & Hds & H). decompose [and] H. clear H.
  assert (C : (exists eta, eta_report now month day hour minute (draught / 4) eta) \/
              (forall eta, ~ eta_report now month day hour minute (draught / 4) eta) /\
              fst (parse_sentence ovf now s p) = Panic).
  { match goal with O : one_fragment _ _ _ _ |- _ =>
      rewrite (message_bits _ _ _ _ _ _ _ _ O (names_station_station tt)) end.
    unfold voyage_bits. read_layout.
    match goal with |- context [layout_bits ?L ++ rest] => set (B := layout_bits L ++ rest) in * end.
    assert (Rd : pick_u64 B 294 6 = draught / 4) by (apply (pick_prefix B 294 6 2); [assumption|lia]).
    destruct (@eta_cases ParseError B 274 now month day hour minute (draught / 4)) as [(eta & _ & Ht)|(Pn & Ht)];
      try assumption; [now apply (fits_div 6 2)|left; now exists eta|right].
    split; [exact Ht|]. unfold dispatch_message. rewrite R. unfold handle_t5. rewrite Pn.
    destruct (pick_string B 70 7) as [x|e|] eqn:P1; [|exfalso|reflexivity].
    2: { revert P1. Local Transparent pick_string. unfold pick_string. destruct (pick_chars _ _ _); discriminate. }
    cbn [bind].
    destruct (pick_string B 112 20) as [y|e|] eqn:P2; [reflexivity|exfalso|reflexivity].
    revert P2. unfold pick_string. destruct (pick_chars _ _ _); discriminate. }
  Local Opaque pick_string.
  destruct C as [(eta & Heta)|(Hn & Hp)]; [left|now right].
  eexists. split; [eapply c23_voyage_one_sentence_partial; eassumption|].
  cbn [voyage_report vsd_mmsi vsd_ship_type vsd_cargo_type vsd_eta]. auto.
Qed.

Lemma reported_documented code : ~ (80 <= code <= 99) -> reported_ship_type code = documented_ship_type code.
Proof.
  intros H. unfold reported_ship_type. destruct (N.leb_spec 80 code), (N.leb_spec code 99); cbn [andb]; lia || reflexivity.
Qed.

Theorem c53_voyage_partial ovf now s p fff mmsi ship month day hour minute draught d :
  voyage s fff mmsi ship month day hour minute draught ->
  fst (parse_sentence ovf now s p) = Ok (PsVesselStaticData d) ->
  vsd_cargo_type d = cargo_type ship /\
  (~ (80 <= ship <= 99) -> vsd_ship_type d = documented_ship_type ship).
Proof.
  intros H R. destruct (voyage_cases ovf now s p _ _ _ _ _ _ _ _ H) as [(d' & E & _ & T & C & _)|(E & _)];
    rewrite E in R; [|discriminate]. cbn [fst] in R. injection R as <-.
  split; [exact C|]. intros Hs. now rewrite T, reported_documented.
Qed.
Print Assumptions c53_voyage_partial.

Theorem c53_voyage_refuted ovf now s p fff mmsi ship month day hour minute draught d :
  voyage s fff mmsi ship month day hour minute draught -> 80 <= ship <= 99 ->
  fst (parse_sentence ovf now s p) = Ok (PsVesselStaticData d) ->
  vsd_ship_type d = ShCargo /\ vsd_ship_type d <> documented_ship_type ship.
Proof.
  intros H Hs R. destruct (voyage_cases ovf now s p _ _ _ _ _ _ _ _ H) as [(d' & E & _ & T & _)|(E & _)];
    rewrite E in R; [|discriminate]. cbn [fst] in R. injection R as <-. rewrite T.
  assert (X : reported_ship_type ship = ShCargo).
  { unfold reported_ship_type. destruct (N.leb_spec 80 ship), (N.leb_spec ship 99); cbn [andb]; lia || reflexivity. }
  rewrite X. split; [reflexivity|]. unfold documented_ship_type.
  assert (ship / 10 = 8 \/ ship / 10 = 9) as [-> | ->]; [|discriminate|discriminate].
  assert (8 <= ship / 10) by (apply N.div_le_lower_bound; lia).
  assert (ship / 10 < 10) by (apply N.div_lt_upper_bound; lia). lia.
Qed.
Print Assumptions c53_voyage_refuted.

(** The same for class B vessels, part B of whose reports has the code. *)
Theorem c53_class_b_partial ovf now1 now2 h s1 s2 fff1 fff2 p
    mmsi name ship vendor model serial call_sign bow stern port starboard :
  part_a s1 fff1 mmsi name ->
  part_b s2 fff2 mmsi ship vendor model serial call_sign bow stern port starboard ->
  stored p (Vessel mmsi) = None -> touches_only ovf (fun e => e <> Vessel mmsi) h p ->
  exists d, results ovf ((now1, s1) :: h ++ [(now2, s2)]) p =
    Ok PsIncomplete :: results ovf h p ++ [Ok (PsVesselStaticData d)] /\
    vsd_cargo_type d = cargo_type ship /\
    (~ (80 <= ship <= 99) -> vsd_ship_type d = documented_ship_type ship).
Proof.
  intros H1 H2 H3 H4. eexists. split.
  - unfold results. now rewrite (c29_part_a_then_b ovf now1 now2 h s1 s2 fff1 fff2 p mmsi name ship vendor model serial
      call_sign bow stern port starboard H1 H2 H3 H4).
  - cbn [class_b_report vsd_cargo_type vsd_ship_type]. split; [reflexivity|]. apply reported_documented.
Qed.
Print Assumptions c53_class_b_partial.

(** The crate's own test vessel in one sentence, with any ship type, ETA and draught. *)
Definition ex_voyage_sentence (ship month day hour minute draught : N) : str :=
  encode_sentence (lit "AI") (lit "VDM") (lit "A") (voyage_bits 0 351759000 0 9134270
    (map six_code (lit "3FOF8") ++ repeat 32 2 ++ []) (map six_code (lit "EVER DIADEM") ++ repeat 32 9 ++ [])
    ship 225 70 1 31 1 month day hour minute draught (map six_code (lit "NEW YORK") ++ repeat 32 12 ++ []) false 0).

Lemma ex_voyage_is ship month day hour minute draught :
  fits 8 ship -> fits 4 month -> fits 5 day -> fits 5 hour -> fits 6 minute -> fits 8 draught ->
  voyage (ex_voyage_sentence ship month day hour minute draught) (lit "VDM") 351759000 ship month day hour minute draught.
Proof.
  intros. exists (lit "AI"), 0, 0, 9134270, (lit "3FOF8"), (map six_code (lit "3FOF8") ++ repeat 32 2 ++ []),
    (lit "EVER DIADEM"), (map six_code (lit "EVER DIADEM") ++ repeat 32 9 ++ []), 225, 70, 1, 31, 1,
    (lit "NEW YORK"), (map six_code (lit "NEW YORK") ++ repeat 32 12 ++ []), false, 0, [].
  do 3 (split; [apply check_text_field; reflexivity|]).
  repeat match goal with |- _ /\ _ => split; [first [assumption|reflexivity]|] end.
  rewrite app_nil_r. apply (encode_sentence_one_fragment _ _ (lit "A"));
    [reflexivity|now apply plain_lit_dec|now left|now apply plain_lit_dec].
Qed.

Example c53_example :
  exists d, fst (parse_sentence true ex_now (ex_voyage_sentence 71 5 15 14 0 122) new_parser) =
    Ok (PsVesselStaticData d) /\ vsd_ship_type d = ShCargo /\ vsd_cargo_type d = CaHazardousCategoryA /\
  exists d', fst (parse_sentence true ex_now (ex_voyage_sentence 89 5 15 14 0 122) new_parser) =
    Ok (PsVesselStaticData d') /\ vsd_ship_type d' = ShCargo /\ vsd_cargo_type d' = CaReserved9.
Proof.
  eexists. split; [vm_compute; reflexivity|]. split; [reflexivity|]. split; [reflexivity|].
  eexists. split; [vm_compute; reflexivity|]. split; reflexivity.
Qed.

(** ** C54 *)

(** [a] is earlier than [b]. *)
Definition earlier (a b : datetime) : Prop :=
  (dt_year a < dt_year b)%Z \/ dt_year a = dt_year b /\
  (dt_month a < dt_month b \/ dt_month a = dt_month b /\
  (dt_day a < dt_day b \/ dt_day a = dt_day b /\
  (dt_hour a < dt_hour b \/ dt_hour a = dt_hour b /\
  (dt_minute a < dt_minute b \/ dt_minute a = dt_minute b /\
  (dt_second a < dt_second b \/ dt_second a = dt_second b /\ dt_nano a < dt_nano b))))).

(** A full minute with this month, day, hour and minute. *)
Definition minute_of (month day hour minute : N) (t : datetime) : Prop :=
  valid_date (dt_year t) (dt_month t) (dt_day t) /\ valid_time (dt_hour t) (dt_minute t) (dt_second t) /\
  dt_month t = month /\ dt_day t = day /\ dt_hour t = hour /\ dt_minute t = minute /\ dt_second t = 0 /\ dt_nano t = 0.

(** The first one that is not before [now]. *)
Definition next_moment (now : datetime) (month day hour minute : N) (t : datetime) : Prop :=
  minute_of month day hour minute t /\ ~ earlier t now /\
  forall t', minute_of month day hour minute t' -> earlier t' t -> earlier t' now.

(** What the crate does, for all values: panic, or report as described by [eta_report]. *)
Theorem c54_eta ovf now s p fff mmsi ship month day hour minute draught :
  voyage s fff mmsi ship month day hour minute draught ->
  (fst (parse_sentence ovf now s p) = Panic <->
   forall eta, ~ eta_report now month day hour minute (draught / 4) eta) /\
  (forall eta, eta_report now month day hour minute (draught / 4) eta <->
   exists d, fst (parse_sentence ovf now s p) = Ok (PsVesselStaticData d) /\ vsd_eta d = eta).
Proof.
  intros H. destruct (voyage_cases ovf now s p _ _ _ _ _ _ _ _ H) as [(d & E & _ & _ & _ & T)|(E & T)]; rewrite E; cbn [fst].
  - split; [split; [discriminate|]; intros N; now destruct (N _ T)|].
    intros eta. split.
    + intros He. exists d. split; [reflexivity|]. destruct T as [T1 T2 T3 T4 T5|mo dy hh mi sc T0 -> -> T1 T2 T3 T4].
      * now destruct He as [|mo' d' h' mi' s' U0 _ _ _]; [|exfalso; tauto].
      * destruct He as [|mo' d' h' mi' s' U0 -> -> U1 U2 U3 U4]; [exfalso; tauto|].
        destruct T1 as [(T1 & -> & -> & ->)|[(T1 & T5 & -> & -> & ->)|(T1 & T5 & -> & -> & ->)]],
          U1 as [(U1 & -> & -> & ->)|[(U1 & U5 & -> & -> & ->)|(U1 & U5 & -> & -> & ->)]]; (reflexivity || contradiction).
    + intros (d' & [= <-] & <-). exact T.
  - split; [tauto|]. intros eta. split; [intros He; now destruct (T eta)|]. intros (d & [=] & _).
Qed.
Print Assumptions c54_eta.

(** No ETA exactly if nothing is available and the draught is 24.0 to 24.3 m. *)
Theorem c54_none_partial ovf now s p fff mmsi ship month day hour minute draught d :
  voyage s fff mmsi ship month day hour minute draught ->
  fst (parse_sentence ovf now s p) = Ok (PsVesselStaticData d) ->
  (vsd_eta d = None <->
   month = 0 /\ day = 0 /\ hour = 24 /\ minute = 60 /\ 240 <= draught <= 243).
Proof.
  intros H R. destruct (voyage_cases ovf now s p _ _ _ _ _ _ _ _ H) as [(d' & E & _ & _ & _ & T)|(E & _)];
    rewrite E in R; [|discriminate]. cbn [fst] in R. injection R as <-.
  assert (X : draught / 4 = 60 <-> 240 <= draught <= 243).
  { pose proof (N.div_mod draught 4 ltac:(discriminate)). pose proof (N.mod_lt draught 4 ltac:(discriminate)). lia. }
  destruct T as [T1 T2 T3 T4 T5|mo dy hh mi sc T0 T1 T2 T3 T4 T5 T6].
  - split; [intros _; intuition|reflexivity].
  - split; [discriminate|]. intros (-> & -> & -> & -> & Hd). exfalso. apply T0. rewrite X. auto.
Qed.
Print Assumptions c54_none_partial.

(** An ETA with nothing available: the last second of today, unless the draught is 24.0 m or more. *)
Theorem c54_not_available_refuted ovf now s p fff mmsi ship draught :
  voyage s fff mmsi ship 0 0 24 60 draught -> clock now -> draught < 240 ->
  exists d, fst (parse_sentence ovf now s p) = Ok (PsVesselStaticData d) /\
    vsd_eta d = Some (mk_datetime (dt_year now) (dt_month now) (dt_day now) 23 59 59 0).
Proof.
  intros H (Y & D & _ & _) Hd. apply (c54_eta ovf now s p _ _ _ _ _ _ _ _ H).
  eapply eta_some; try reflexivity; try assumption.
  - intros (_ & _ & _ & _ & X). pose proof (N.div_mod draught 4 ltac:(discriminate)). lia.
  - left. repeat split.
  - unfold valid_time. lia.
Qed.
Print Assumptions c54_not_available_refuted.

Lemma draught_second draught : draught < 240 -> draught / 4 < 60.
Proof. intros H. apply N.div_lt_upper_bound; lia. Qed.

Lemma available_eta ovf now s p fff mmsi ship month day hour minute draught :
  voyage s fff mmsi ship month day hour minute draught -> clock now ->
  valid_date (dt_year now) month day -> hour < 24 -> minute < 60 -> draught < 240 ->
  exists d, fst (parse_sentence ovf now s p) = Ok (PsVesselStaticData d) /\
    vsd_eta d = Some (mk_datetime (dt_year now) month day hour minute (draught / 4) 0).
Proof.
  intros H (Y & _) D Hh Hm Hd. apply (c54_eta ovf now s p _ _ _ _ _ _ _ _ H).
  pose proof (draught_second _ Hd). assert (1 <= month /\ 1 <= day) as [M1 D1] by (unfold valid_date in D; lia).
  eapply eta_some; try assumption.
  - intros (X & _). lia.
  - destruct (N.eqb_spec month 0); [lia|reflexivity].
  - destruct (N.eqb_spec day 0); [lia|reflexivity].
  - right. right. destruct (N.eqb_spec (draught / 4) 60); [lia|]. repeat split; lia.
  - unfold valid_time. lia.
Qed.

(** A moment that is still to come this year is right up to the second, which comes from the draught. *)
Theorem c54_this_year_partial ovf now s p fff mmsi ship month day hour minute draught :
  voyage s fff mmsi ship month day hour minute draught -> clock now ->
  valid_date (dt_year now) month day -> hour < 24 -> minute < 60 -> draught < 240 ->
  ~ earlier (mk_datetime (dt_year now) month day hour minute 0 0) now ->
  exists d t, fst (parse_sentence ovf now s p) = Ok (PsVesselStaticData d) /\
    vsd_eta d = Some (mk_datetime (dt_year t) (dt_month t) (dt_day t) (dt_hour t) (dt_minute t) (draught / 4) 0) /\
    next_moment now month day hour minute t.
Proof.
  intros H C D Hh Hm Hd He.
  destruct (available_eta ovf now s p _ _ _ _ _ _ _ _ H C D Hh Hm Hd) as (d & R & E).
  exists d, (mk_datetime (dt_year now) month day hour minute 0 0). split; [exact R|]. split; [exact E|].
  split; [|split; [exact He|]].
  - split; [exact D|]. unfold valid_time. cbn. lia.
  - intros t (_ & _ & E1 & E2 & E3 & E4 & E5 & E6). unfold earlier. cbn. lia.
Qed.
Print Assumptions c54_this_year_partial.

(** A moment that has passed this year is reported as the past one, not as next year's. *)
Theorem c54_past_refuted ovf now s p fff mmsi ship month day hour minute draught :
  voyage s fff mmsi ship month day hour minute draught -> clock now ->
  valid_date (dt_year now) month day -> hour < 24 -> minute < 60 -> draught < 240 ->
  earlier (mk_datetime (dt_year now) month day hour minute 59 999999999) now ->
  exists d t, fst (parse_sentence ovf now s p) = Ok (PsVesselStaticData d) /\ vsd_eta d = Some t /\
    earlier t now /\ forall t', next_moment now month day hour minute t' -> t <> t'.
Proof.
  intros H C D Hh Hm Hd He.
  destruct (available_eta ovf now s p _ _ _ _ _ _ _ _ H C D Hh Hm Hd) as (d & R & E).
  pose proof (draught_second _ Hd).
  exists d, (mk_datetime (dt_year now) month day hour minute (draught / 4) 0). split; [exact R|]. split; [exact E|].
  assert (X : earlier (mk_datetime (dt_year now) month day hour minute (draught / 4) 0) now).
  { unfold earlier in *. cbn in *. lia. }
  split; [exact X|]. intros t' (_ & N & _) <-. contradiction.
Qed.
Print Assumptions c54_past_refuted.

(** ETA 15 May 14:00 seen in June and (right but for the second) in April; no ETA. *)
Example c54_example :
  let june := mk_datetime 2020 6 1 0 0 0 0 in let april := mk_datetime 2020 4 1 0 0 0 0 in
  clock june /\ earlier (mk_datetime 2020 5 15 14 0 59 999999999) june /\
  ~ earlier (mk_datetime 2020 5 15 14 0 0 0) april /\
  (exists d, fst (parse_sentence true june (ex_voyage_sentence 70 5 15 14 0 122) new_parser) =
     Ok (PsVesselStaticData d) /\ vsd_eta d = Some (mk_datetime 2020 5 15 14 0 30 0)) /\
  (exists d, fst (parse_sentence true april (ex_voyage_sentence 70 5 15 14 0 122) new_parser) =
     Ok (PsVesselStaticData d) /\ vsd_eta d = Some (mk_datetime 2020 5 15 14 0 30 0)) /\
  (exists d, fst (parse_sentence true april (ex_voyage_sentence 70 0 0 24 60 122) new_parser) =
     Ok (PsVesselStaticData d) /\ vsd_eta d = Some (mk_datetime 2020 4 1 23 59 59 0)) /\
  (exists d, fst (parse_sentence true april (ex_voyage_sentence 70 0 0 24 60 242) new_parser) =
     Ok (PsVesselStaticData d) /\ vsd_eta d = None) /\
  fst (parse_sentence true april (ex_voyage_sentence 70 5 15 14 0 244) new_parser) = Panic.
Proof.
  cbv zeta. split.
  { repeat split; cbn; try lia; unfold year_in_range; cbn; try lia; discriminate. }
  split; [unfold earlier; cbn; lia|]. split; [unfold earlier; cbn; lia|].
  do 4 (split; [eexists; split; [vm_compute; reflexivity|reflexivity]|]). vm_compute. reflexivity.
Qed.
