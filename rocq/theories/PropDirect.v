(** The handlers of the crate called directly do what [parse_sentence] does (C98). *)
From Coq Require Import List NArith ZArith Bool String Lia.
From Verif Require Import Base Str F64 Chrono Types Util AisMod Vdm Gnss Parser
  SpecText SpecResult SpecAis SpecFields SpecMeasure SpecDirect
  StrFacts FrontFacts CallFacts ResultFacts BitFacts VdmFacts LayoutFacts FieldFacts PropFront PropAis PropFields.
Import ListNotations.
Open Scope N_scope.

(** ** AIS handlers read no bit of the message type *)

Section after_type.
  Context (a b : list bool) (H : same_after_type a b).

  Lemma after_loop i n r : (6 <= i)%nat -> pick_loop a i n r = pick_loop b i n r.
  Proof.
    revert i r. induction n as [|n IH]; intros i r Hi; cbn [pick_loop]; [reflexivity|].
    rewrite (H i Hi). apply IH. lia.
  Qed.

  Lemma after_u64 i n : (6 <= i)%nat -> pick_u64 a i n = pick_u64 b i n.
  Proof. intros Hi. now apply after_loop. Qed.

  Lemma after_i64 i n : (6 <= i)%nat -> pick_i64 a i n = pick_i64 b i n.
  Proof. intros Hi. unfold pick_i64. now rewrite (after_loop i n 0 Hi). Qed.

  Lemma after_chars i n : (6 <= i)%nat -> pick_chars a i n = pick_chars b i n.
  Proof.
    revert i. induction n as [|n IH]; intros i Hi; cbn [pick_chars]; [reflexivity|].
    rewrite (after_u64 i 6 Hi), IH by lia. reflexivity.
  Qed.

  Lemma after_string {E} i n : (6 <= i)%nat -> @pick_string E a i n = pick_string b i n.
  Proof. intros Hi. unfold pick_string. now rewrite (after_chars i n Hi). Qed.

  Lemma after_eta {E} i now : (6 <= i)%nat -> @pick_eta E a i now = pick_eta b i now.
  Proof. intros Hi. unfold pick_eta. now rewrite !after_u64 by lia. Qed.

  Lemma after_handler now t h st own p : ais_handler now t = Some h -> h a st own p = h b st own p.
  Proof.
    assert (Hf : forall i, (6 <= i)%nat -> pick_flag a i = pick_flag b i)
      by (intros i Hi; unfold pick_flag; now rewrite after_u64).
    assert (Hla : forall i, (6 <= i)%nat -> latitude_at a i = latitude_at b i)
      by (intros; unfold latitude_at, coord; now rewrite after_i64).
    assert (Hlo : forall i, (6 <= i)%nat -> longitude_at a i = longitude_at b i)
      by (intros; unfold longitude_at, coord; now rewrite after_i64).
    assert (Hco : forall i n s c, (6 <= i)%nat -> coord a i n s c = coord b i n s c)
      by (intros; unfold coord; now rewrite after_i64).
    assert (Hso : forall i, (6 <= i)%nat -> sog_at a i = sog_at b i)
      by (intros; unfold sog_at; now rewrite after_u64).
    assert (Hcg : forall i, (6 <= i)%nat -> cog_at a i = cog_at b i)
      by (intros; unfold cog_at; now rewrite after_u64).
    assert (Hhd : forall i, (6 <= i)%nat -> heading_at a i = heading_at b i)
      by (intros; unfold heading_at; now rewrite after_u64).
    assert (Hpf : forall i, (6 <= i)%nat -> position_fix_at a i = position_fix_at b i)
      by (intros; unfold position_fix_at; now rewrite after_u64).
    assert (E1 : handle_t1t2t3 a st own = handle_t1t2t3 b st own).
    { unfold handle_t1t2t3.
      now rewrite !after_u64, !after_i64, !Hf, !Hla, !Hlo, !Hso, !Hcg, !Hhd by lia. }
    assert (E4 : handle_t4 a st own = handle_t4 b st own).
    { unfold handle_t4. now rewrite !after_u64, !Hf, !Hla, !Hlo, !Hpf by lia. }
    assert (E5 : handle_t5 now a st own = handle_t5 now b st own).
    { unfold handle_t5. now rewrite !after_u64, !after_string, !after_eta, !Hpf by lia. }
    assert (E6 : handle_t6 a st own = handle_t6 b st own).
    { unfold handle_t6. now rewrite !after_u64, !Hf by lia. }
    assert (E9 : handle_t9 a st own = handle_t9 b st own).
    { unfold handle_t9. now rewrite !after_u64, !Hf, !Hla, !Hlo, !Hcg by lia. }
    assert (E10 : handle_t10 a st own = handle_t10 b st own).
    { unfold handle_t10. now rewrite !after_u64 by lia. }
    assert (E18 : handle_t18 a st own = handle_t18 b st own).
    { unfold handle_t18. now rewrite !after_u64, !Hf, !Hla, !Hlo, !Hso, !Hcg, !Hhd by lia. }
    assert (E21 : handle_t21 a st own = handle_t21 b st own).
    { unfold handle_t21. now rewrite !after_string, !after_u64, !Hf, !Hla, !Hlo by lia. }
    assert (E24 : handle_t24 a st p own = handle_t24 b st p own).
    { unfold handle_t24, t24_fields. now rewrite !after_string, !after_u64 by lia. }
    assert (E27 : handle_t27 a st own = handle_t27 b st own).
    { unfold handle_t27. now rewrite !after_u64, !Hf, !Hco by lia. }
    intros Hh. unfold ais_handler in Hh.
    repeat match type of Hh with
    | (match ?n with _ => _ end) = _ => destruct n; try discriminate Hh
    end; injection Hh as <-; cbv beta;
      first [exact E24|rewrite E1; reflexivity|rewrite E4; reflexivity|rewrite E5; reflexivity
            |rewrite E6; reflexivity|rewrite E9; reflexivity|rewrite E10; reflexivity|rewrite E18; reflexivity
            |reflexivity|rewrite E21; reflexivity|rewrite E27; reflexivity].
  Qed.
End after_type.

(** [parse_sentence] on a message of a type calls the handler of the type. *)
Lemma handler_called now t h tag bits st own p : ais_handler now t = Some h -> message_type bits t ->
  dispatch_message now tag bits st own p = h bits st own p.
Proof.
  intros Hh Ht. unfold message_type in Ht. rewrite <- pick_u64_spec in Ht by lia.
  pose proof (dispatch_message_case now tag bits st own p) as D. rewrite Ht in D.
  clear Ht. revert Hh.
  destruct D as [n Hn| | | | | | | | | | |n Hn]; intros Hh; try (injection Hh as <-; reflexivity).
  - destruct Hn as [->|[->| ->]]; injection Hh as <-; reflexivity.
  - exfalso. apply Hn. unfold ais_handler in Hh.
    repeat match type of Hh with
    | (match ?n with _ => _ end) = _ => destruct n; try discriminate Hh
    end; cbn [In]; lia.
Qed.

(** The talker of a station type. *)
Definition talker_of (st : Station) : str :=
  match st with
  | StBaseStation => lit "AB" | StDependentAisBaseStation => lit "AD" | StMobileStation => lit "AI"
  | StAidToNavigationStation => lit "AN" | StAisReceivingStation => lit "AR"
  | StLimitedBaseStation => lit "AS" | StAisTransmittingStation => lit "AT"
  | StRepeaterStation => lit "AX" | StOther => lit "XX"
  end.

Lemma talker_of_names st : names_station (talker_of st) st.
Proof.
  destruct st; try (left; cbn; tauto). right. split; [|reflexivity].
  intros Hin. apply in_map_iff in Hin as [x [E Hin]]. cbn in Hin.
  decompose [or] Hin; subst; try discriminate; tauto.
Qed.

(** A handler called directly gives what [parse_sentence] gives for any sentence with a message of
    its type, the same bits after the type, and the same station and own-vessel flag. *)
Theorem c98_ais ovf now t h bits st own p s tt fff bits' :
  ais_handler now t = Some h -> one_fragment s tt fff (armor bits') -> names_station tt st ->
  (own = true <-> fff = lit "VDO") -> message_type bits' t -> same_after_type bits bits' ->
  h bits st own p = parse_sentence ovf now s p.
Proof.
  intros Hh Hs Hn Ho Ht Hb. rewrite (message_bits ovf now s p tt fff bits' st Hs Hn).
  rewrite (handler_called now t h _ bits' st _ p Hh Ht).
  replace (str_eqb fff (lit "VDO")) with own; [now apply (after_handler bits bits' Hb now t)|].
  destruct (str_eqb_spec fff (lit "VDO")) as [E|E]; destruct own; try reflexivity.
  - now apply Ho in E.
  - exfalso. apply E. now apply Ho.
Qed.
Print Assumptions c98_ais.

(** There always is such a sentence: every direct call is a call of [parse_sentence]. *)
Theorem c98_ais_sentence now t h bits st own : ais_handler now t = Some h ->
  exists s tt fff bits', one_fragment s tt fff (armor bits') /\ names_station tt st /\
    (own = true <-> fff = lit "VDO") /\ message_type bits' t /\ same_after_type bits bits' /\
    forall ovf p, h bits st own p = parse_sentence ovf now s p.
Proof.
  intros Hh.
  assert (Lt : t < 64).
  { unfold ais_handler in Hh.
    repeat match type of Hh with
    | (match ?n with _ => _ end) = _ => destruct n; try discriminate Hh
    end; reflexivity. }
  set (bits' := be_bits 6 t ++ skipn 6 bits). set (fff := if own then lit "VDO" else lit "VDM").
  assert (Hs : one_fragment (encode_sentence (talker_of st) fff (lit "A") bits') (talker_of st) fff (armor bits')).
  { apply encode_sentence_one_fragment; [now destruct st|destruct st; now apply plain_lit_dec
      |unfold fff; destruct own; auto|now apply plain_lit_dec]. }
  assert (Ho : own = true <-> fff = lit "VDO") by (unfold fff; destruct own; split; (reflexivity || discriminate)).
  assert (Ht : message_type bits' t).
  { unfold message_type, bits'. rewrite window_app_l by (rewrite be_bits_length; lia).
    replace (window (be_bits 6 t) 0 6) with (be_bits 6 t).
    - rewrite be_value_bits. now apply N.mod_small.
    - rewrite <- (window_all (be_bits 6 t)) at 1. now rewrite be_bits_length. }
  assert (Hb : same_after_type bits bits').
  { intros i Hi. unfold bits'. rewrite app_nth2 by (rewrite be_bits_length; lia). rewrite be_bits_length.
    rewrite <- (firstn_skipn 6 bits) at 1. destruct (Nat.le_gt_cases (List.length bits) 6) as [L|L].
    - rewrite firstn_all2, skipn_all2 by lia. rewrite app_nil_r. cbn [nth].
      rewrite nth_overflow by lia. now destruct (i - 6)%nat.
    - rewrite app_nth2; rewrite firstn_length_le by lia; [reflexivity|lia]. }
  exists (encode_sentence (talker_of st) fff (lit "A") bits'), (talker_of st), fff, bits'.
  repeat (split; [first [exact Hs|apply talker_of_names|exact Ho|exact Ht|exact Hb]|]).
  intros ovf p. exact (c98_ais ovf now t h bits st own p _ _ fff bits' Hh Hs (talker_of_names st) Ho Ht Hb).
Qed.
Print Assumptions c98_ais_sentence.

(** ** GNSS handlers read no sentence type *)

Lemma same_fields_field f0 g0 a b i : same_fields a b ->
  field (f0 :: a) (S i) = field (g0 :: b) (S i).
Proof. intros H. exact (H i). Qed.

Lemma gsa_prns_same a b nums : (forall i, In i nums -> field a i = field b i) ->
  gsa_prns a nums = gsa_prns b nums.
Proof.
  induction nums as [|i nums IH]; intros H; cbn [gsa_prns]; [reflexivity|].
  unfold number, pick_number_field. rewrite (H i) by now left.
  rewrite IH by (intros; apply H; now right). reflexivity.
Qed.

Lemma handler_fields now fff h a b nav f0 g0 fa fb : gnss_handler now fff h ->
  has_fields a (f0 :: fa) -> has_fields b (g0 :: fb) -> same_fields fa fb -> h a nav = h b nav.
Proof.
  intros Hh Ha Hb H. apply has_fields_split in Ha, Hb. symmetry in Ha, Hb.
  pose proof (fun i => same_fields_field f0 g0 fa fb i H) as F.
  assert (N : forall A (q : str -> option A) i, number q (f0 :: fa) (S i) = number q (g0 :: fb) (S i))
    by (intros; unfold number, pick_number_field; now rewrite F).
  assert (L : forall A (q : str -> option A) i,
    number_lenient q (f0 :: fa) (S i) = number_lenient q (g0 :: fb) (S i))
    by (intros; unfold number_lenient, pick_number_field; now rewrite F).
  destruct Hh.
  - unfold handle_gga. rewrite Ha, Hb. cbv zeta. now rewrite !F, !N.
  - unfold handle_rmc, rmc_variation_field. rewrite Ha, Hb. cbv zeta. now rewrite !F, !N.
  - unfold handle_gsa. rewrite Ha, Hb. cbv zeta.
    rewrite (gsa_prns_same (f0 :: fa) (g0 :: fb)).
    + now rewrite !F, !N.
    + intros i Hi. apply in_seq in Hi. destruct i; [lia|]. apply F.
  - unfold handle_vtg. rewrite Ha, Hb. cbv zeta. now rewrite !F, !L.
  - unfold handle_gll. rewrite Ha, Hb. cbv zeta. now rewrite !F.
Qed.

Lemma handler_plain now fff h body nav : gnss_handler now fff h -> plain_gnss now body nav fff (h body nav).
Proof. intros []; constructor. Qed.

(** A handler called directly gives what [parse_sentence] gives for any sentence of its type with the
    same fields after the type and the same navigation system; what stands before the first comma of
    the text does not matter. *)
Theorem c98_gnss ovf now fff h text first rest nav p s tt fields :
  gnss_handler now fff h -> has_fields text (first :: rest) ->
  gnss_with s tt fff fields -> names_system tt nav -> same_fields rest fields ->
  parse_sentence ovf now s p = (h text nav, p).
Proof.
  intros Hh Hx Hs Hn Hf.
  destruct (gnss_with_body s tt fff fields Hs (gnss_with_plain _ _ _ _ Hs)) as (body & given & _ & _ & Hb & D).
  apply (D ovf now p). apply eq_sym in Hb. apply has_fields_split in Hb.
  rewrite (names_system_unique _ _ _ Hn (names_system_nav tt)).
  rewrite (handler_fields now fff h text body (nav_of_talker tt) _ _ rest fields Hh Hx Hb Hf).
  now apply handler_plain.
Qed.
Print Assumptions c98_gnss.

(** The talker of a navigation system. *)
Definition talker_of_system (n : NavigationSystem) : str :=
  match n with
  | NavCombination => lit "GN" | NavGps => lit "GP" | NavGlonass => lit "GL" | NavGalileo => lit "GA"
  | NavBeidou => lit "BD" | NavNavic => lit "GI" | NavQzss => lit "QZ" | NavOther => lit "XX"
  end.

Lemma talker_of_system_names n : names_system (talker_of_system n) n.
Proof.
  destruct n; try (left; cbn; tauto). right. split; [|reflexivity].
  intros Hin. apply in_map_iff in Hin as [x [E Hin]]. cbn in Hin.
  decompose [or] Hin; subst; try discriminate; tauto.
Qed.

(** There always is such a sentence, whatever the text given to the handler is. *)
Theorem c98_gnss_sentence now fff h text nav : gnss_handler now fff h ->
  exists s tt first rest fields, has_fields text (first :: rest) /\ gnss_with s tt fff fields /\
    names_system tt nav /\ same_fields rest fields /\
    forall ovf p, parse_sentence ovf now s p = (h text nav, p).
Proof.
  intros Hh.
  assert (Hx : has_fields text (split_on 44 text)) by now apply has_fields_split.
  destruct (split_on 44 text) as [|first rest]; [now destruct Hx as [H _]|].
  set (fields := match rest with [] => [[]] | _ => rest end). set (tt := talker_of_system nav).
  assert (Hf : same_fields rest fields).
  { unfold fields. destruct rest; [|easy]. intros i. unfold fld. destruct i as [|[|i]]; reflexivity. }
  assert (Hfp : List.Forall plain fields).
  { destruct Hx as (_ & Hp & _). inversion Hp as [|? ? _ Hr]; subst. unfold fields. destruct rest; [|exact Hr].
    constructor; [now intros []|constructor]. }
  set (body := join ((lit "$" ++ tt ++ fff) :: fields)).
  assert (Hs : gnss_with (body ++ lit "*" ++ nmea_checksum body) tt fff fields).
  { apply check_gnss.
    - exists body, (nmea_checksum body).
      split; [right; split; [reflexivity|apply nmea_checksum_no_star]|]. split; [now right|].
      split; [discriminate|]. split; [|reflexivity]. constructor; [|exact Hfp].
      unfold tt. destruct nav, Hh; now apply plain_lit_dec.
    - unfold fields. now destruct rest.
    - now destruct nav. }
  exists (body ++ lit "*" ++ nmea_checksum body), tt, first, rest, fields.
  split; [exact Hx|]. split; [exact Hs|]. split; [apply talker_of_system_names|]. split; [exact Hf|].
  intros ovf p. exact (c98_gnss ovf now fff h text first rest nav p _ tt fields Hh Hx Hs (talker_of_system_names nav) Hf).
Qed.
Print Assumptions c98_gnss_sentence.

(** A satellite sentence given to its handler directly is treated as [parse_sentence] treats it, on
    the same parser. *)
Theorem c98_satellites ovf now text nav p s given tt fields :
  has_body s text given -> checksum_ok text given ->
  has_fields text ((lit "$" ++ tt ++ lit "GSV") :: fields) -> fields <> [] -> utf8_bytes tt = 2%nat ->
  names_system tt nav ->
  handle_gsv ovf text nav p = parse_sentence ovf now s p.
Proof.
  intros Hb Hc Hf Hne Hl Hn.
  pose proof (proj1 (proj2 Hf)) as Hp. apply Forall_inv in Hp.
  apply plain_app_inv in Hp as [_ Hp]. apply plain_app_inv in Hp as [Hp _].
  pose proof (proj2 (proj2 Hf)) as Hj. rewrite join_cons in Hj by exact Hne.
  rewrite <- byte_len_spec in Hl.
  rewrite (parse_gsv ovf now s p text given tt (join fields) Hb Hc Hj Hp Hl).
  now rewrite (names_system_unique _ _ _ Hn (names_system_nav tt)).
Qed.
Print Assumptions c98_satellites.

(** The public constructors on every byte and every text: codes outside the tables of the standard
    give the value for 'not defined'. *)
Theorem c98_constructors raw text : raw < 256 ->
  NavigationStatus_new raw = nth (N.to_nat raw) navigation_statuses NsNotDefined /\
  PositionFixType_new raw = fix_type raw /\
  GgaQualityIndicator_new raw = quality (Some raw) /\
  ShipType_new raw = reported_ship_type raw /\ CargoType_new raw = cargo_type raw /\
  (forall m, FaaMode_new text = Ok m <-> word faa_modes text m) /\
  (forall e, FaaMode_new text = Err e <->
     e = lit "Unrecognized FAA information value: " ++ text /\ forall m, ~ word faa_modes text m) /\
  FaaMode_new text <> Panic.
Proof.
  intros H. assert (F : forall m, FaaMode_new text = Ok m <-> word faa_modes text m).
  { intros m. transitivity (ok_value (FaaMode_new text) = Some m).
    { destruct (FaaMode_new text); cbn; split; intros [=]; congruence. }
    rewrite faa_mode_means. split.
    + intros W. inversion W; assumption.
    + intros W. constructor; [|exact W]. intros ->. cbn in W. decompose [or] W; try discriminate; tauto. }
  split; [|split; [|split; [|split; [|split; [|split; [exact F|split]]]]]].
  - revert raw H. apply (sweep_eq NavigationStatus_beq 256); [exact internal_NavigationStatus_dec_bl|reflexivity].
  - revert raw H. apply (sweep_eq PositionFixType_beq 256); [exact internal_PositionFixType_dec_bl|reflexivity].
  - exact (quality_model (Some raw)).
  - now apply ship_value.
  - now apply cargo_value.
  - intros e. assert (X : forall e, FaaMode_new text = Err e -> e = lit "Unrecognized FAA information value: " ++ text).
    { unfold FaaMode_new. repeat (destruct (str_eqb text _); [discriminate|]). now intros e' [= <-]. }
    split.
    + intros E. split; [now apply X|]. intros m W. apply F in W. congruence.
    + intros [-> W]. destruct (FaaMode_new text) as [m|e'|] eqn:E.
      * exfalso. now apply (W m), F.
      * now rewrite (X e').
      * exfalso. revert E. unfold FaaMode_new. repeat (destruct (str_eqb text _); [discriminate|]). discriminate.
  - unfold FaaMode_new. repeat (destruct (str_eqb text _); [discriminate|]). discriminate.
Qed.
Print Assumptions c98_constructors.

(** A UTC inquiry whose type bits are all zero, given to the handler of type 10 as if an own vessel
    behind a repeater had sent it. *)
Example c98_ais_example :
  let bits := be_bits 6 0 ++ be_bits 2 0 ++ be_bits 30 366814480 ++ be_bits 2 0 ++ be_bits 30 366832740 ++ be_bits 2 0 in
  exists h s bits' d, ais_handler ex_now 10 = Some h /\
    one_fragment s (lit "AX") (lit "VDO") (armor bits') /\ names_station (lit "AX") StRepeaterStation /\
    message_type bits' 10 /\ same_after_type bits bits' /\ ~ message_type bits 10 /\
    h bits StRepeaterStation true new_parser = (Ok (PsUtcDateInquiry d), new_parser) /\
    parse_sentence true ex_now s new_parser = (Ok (PsUtcDateInquiry d), new_parser) /\
    udi_source_mmsi d = 366814480 /\ udi_destination_mmsi d = 366832740.
Proof.
  cbv zeta. set (bits := be_bits 6 0 ++ _).
  exists (fun bits st own p => (handle_t10 bits st own, p)),
    (encode_sentence (lit "AX") (lit "VDO") (lit "A") (be_bits 6 10 ++ skipn 6 bits)),
    (be_bits 6 10 ++ skipn 6 bits). eexists.
  split; [reflexivity|].
  split; [apply encode_sentence_one_fragment; [reflexivity|now apply plain_lit_dec|now right|now apply plain_lit_dec]|].
  split; [left; cbn; tauto|]. split; [vm_compute; reflexivity|].
  split; [intros i Hi; do 6 (destruct i as [|i]; [lia|]); vm_compute; reflexivity|].
  split; [vm_compute; discriminate|]. split; [vm_compute; reflexivity|]. split; [vm_compute; reflexivity|].
  split; reflexivity.
Qed.

(** A text that is no sentence at all, given to the handler of GLL sentences. *)
Example c98_gnss_example :
  let text := lit "a*b,4916.45,N,12311.12,W,225444,A,D" in
  exists s fields d, gnss_with s (lit "GA") (lit "GLL") fields /\ names_system (lit "GA") NavGalileo /\
    has_fields text (lit "a*b" :: fields) /\
    parse_sentence true ex_now s new_parser = (Ok (PsGll d), new_parser) /\
    handle_gll ex_now text NavGalileo = Ok (PsGll d) /\ gll_faa_mode d = Some FaaDifferential /\
    fst (parse_sentence true ex_now text new_parser) <> Ok (PsGll d).
Proof.
  cbv zeta. exists (lit "$GAGLL,4916.45,N,12311.12,W,225444,A,D"),
    [lit "4916.45"; lit "N"; lit "12311.12"; lit "W"; lit "225444"; lit "A"; lit "D"]. eexists.
  split; [gnss|]. split; [left; cbn; tauto|].
  split; [apply has_fields_split; reflexivity|]. split; [vm_compute; reflexivity|].
  split; [vm_compute; reflexivity|]. split; [reflexivity|]. vm_compute. discriminate.
Qed.

(** The first sentence of a group of satellites, given to the handler directly. *)
Example c98_satellites_example :
  let text := lit "$GPGSV,3,1,11,03,03,111,00,04,15,270,00" in
  exists fields p', has_body text text [] /\ checksum_ok text [] /\
    has_fields text ((lit "$" ++ lit "GP" ++ lit "GSV") :: fields) /\ fields <> [] /\
    names_system (lit "GP") NavGps /\
    handle_gsv true text NavGps new_parser = (Ok PsIncomplete, p') /\ p' <> new_parser.
Proof.
  cbv zeta. eexists. eexists. split; [left; split; [|split; reflexivity]|].
  { cbn. intros H. repeat (destruct H as [H|H]; [discriminate H|]). exact H. }
  split; [now left|]. split; [apply has_fields_split; vm_compute; reflexivity|].
  split; [discriminate|]. split; [left; cbn; tauto|]. split; [vm_compute; reflexivity|].
  intros E. apply (f_equal (contains_key (lit "$GPGSV,3,1"))) in E. vm_compute in E. discriminate E.
Qed.

Example c98_constructors_example :
  16 < 256 /\ NavigationStatus_new 16 = NsNotDefined /\ PositionFixType_new 15 = PfUndefined /\
  GgaQualityIndicator_new 9 = QInvalid /\ ShipType_new 85 = ShCargo /\ FaaMode_new (lit "S") = Err (lit "Unrecognized FAA information value: S").
Proof. repeat split. Qed.
