(** C01-C07 (sentence types): checksum, routing, unsupported sentences. *)
From Coq Require Import List NArith ZArith Bool String Lia.
From Verif Require Import Base Str F64 Chrono Types Util AisMod Vdm Gnss Parser
  SpecText SpecResult StrFacts FrontFacts CallFacts ResultFacts.
Import ListNotations.
Open Scope N_scope.

(** Concrete inputs for the examples. *)
Definition ex_now : datetime := mk_datetime 2021 3 14 15 9 26 535.
Definition ex_gsa : str := lit "$GPGSA,A,3,04,05,,09,12,,,24,,,,,2.5,1.3,2.1".

(** ** C01 *)

Theorem c01_wrong_checksum_rejected ovf now s p calculated given :
  fst (parse_sentence ovf now s p) = Err (CorruptedSentence calculated given) <->
  exists body, s = body ++ lit "*" ++ given /\ ~ In 42 given /\ given <> [] /\
    calculated = nmea_checksum body /\ given <> calculated.
Proof.
  split.
  - intros H. apply parse_corrupted in H as (body & Hb & Hc & ->). exists body.
    destruct Hb as [(_ & _ & ->)|(-> & Hg)]; [destruct Hc; now left|].
    repeat split; auto; intros E; apply Hc; [now left|now right].
  - intros (b & -> & Hg & Hn & -> & Hd). rewrite (parse_sentence_bad _ _ _ _ b given).
    + reflexivity.
    + right. auto.
    + intros [->| ->]; congruence.
Qed.
Print Assumptions c01_wrong_checksum_rejected.

Theorem c01_wrong_checksum_keeps_state ovf now s p calculated given :
  fst (parse_sentence ovf now s p) = Err (CorruptedSentence calculated given) ->
  snd (parse_sentence ovf now s p) = p.
Proof.
  intros H. apply parse_corrupted in H as (body & Hb & Hc & _).
  now rewrite (parse_sentence_bad _ _ _ _ _ _ Hb Hc).
Qed.
Print Assumptions c01_wrong_checksum_keeps_state.

Example c01_example :
  fst (parse_sentence true ex_now (ex_gsa ++ lit "*38") new_parser)
  = Err (CorruptedSentence (lit "39") (lit "38")) /\
  nmea_checksum ex_gsa = lit "39".
Proof. split; vm_compute; reflexivity. Qed.

(** ** C02 *)

Theorem c02_checksum_optional ovf now body p :
  ~ In 42 body ->
  parse_sentence ovf now (body ++ lit "*" ++ nmea_checksum body) p = parse_sentence ovf now body p /\
  parse_sentence ovf now (body ++ lit "*") p = parse_sentence ovf now body p.
Proof.
  intros Hn. rewrite (parse_sentence_ok _ _ body p body []); [|left; auto|now left].
  split.
  - apply (parse_sentence_ok _ _ _ _ _ (nmea_checksum body)).
    + right. split; [reflexivity|]. apply nmea_checksum_no_star.
    + now right.
  - apply (parse_sentence_ok _ _ _ _ _ []).
    + right. split; [reflexivity|]. intros [].
    + now left.
Qed.
Print Assumptions c02_checksum_optional.

Example c02_example :
  ~ In 42 ex_gsa /\ exists d, fst (parse_sentence true ex_now ex_gsa new_parser) = Ok (PsGsa d).
Proof.
  split.
  - intros H. assert (E : existsb (N.eqb 42) ex_gsa = true) by (apply existsb_exists; exists 42; auto).
    vm_compute in E. discriminate.
  - eexists. vm_compute. reflexivity.
Qed.

(** ** C03 *)

Lemma xor_all_middle a c b : xor_all (a ++ c :: b) = N.lxor c (xor_all (a ++ b)).
Proof.
  induction a as [|x a IH]; cbn [xor_all fold_right app]; [reflexivity|].
  fold (xor_all (a ++ c :: b)). fold (xor_all (a ++ b)). rewrite IH.
  rewrite <- !N.lxor_assoc. now rewrite (N.lxor_comm x c).
Qed.

Lemma checksum_one_char f a c c' b :
  c mod 256 <> c' mod 256 -> nmea_checksum (f :: a ++ c :: b) <> nmea_checksum (f :: a ++ c' :: b).
Proof.
  intros Hd He. unfold nmea_checksum in He. cbn [tl] in He.
  apply two_hex_inj in He; try apply xor_all_lt, mod_list_lt.
  rewrite !map_app in He. cbn [map] in He. rewrite !xor_all_middle in He.
  apply Hd. apply (f_equal (fun x => N.lxor x (xor_all (map (fun c => c mod 256) a ++ map (fun c => c mod 256) b)))) in He.
  rewrite !N.lxor_assoc, !N.lxor_nilpotent, !N.lxor_0_r in He. exact He.
Qed.

(** A character replaced by one that differs modulo 256 (any different ASCII character, see the
    corollary) is detected, whatever the rest of the sentence is. *)
Theorem c03_damaged_character_detected ovf now p first before c c' after :
  c mod 256 <> c' mod 256 ->
  let sent := first :: before ++ c :: after in
  let damaged := first :: before ++ c' :: after in
  parse_sentence ovf now (damaged ++ lit "*" ++ nmea_checksum sent) p =
  (Err (CorruptedSentence (nmea_checksum damaged) (nmea_checksum sent)), p).
Proof.
  intros Hd sent damaged. apply parse_sentence_bad.
  - right. split; [reflexivity|]. apply nmea_checksum_no_star.
  - intros [H|H]; [discriminate|]. revert H. now apply checksum_one_char.
Qed.
Print Assumptions c03_damaged_character_detected.

Theorem c03_damaged_ascii_detected ovf now p first before c c' after :
  c < 128 -> c' < 128 -> c <> c' ->
  fst (parse_sentence ovf now
         ((first :: before ++ c' :: after) ++ lit "*" ++ nmea_checksum (first :: before ++ c :: after)) p)
  = Err (CorruptedSentence (nmea_checksum (first :: before ++ c' :: after))
                           (nmea_checksum (first :: before ++ c :: after))).
Proof.
  intros H1 H2 H3. now rewrite c03_damaged_character_detected by (rewrite !N.mod_small; lia).
Qed.
Print Assumptions c03_damaged_ascii_detected.

Example c03_example : 51 < 128 /\ 50 < 128 /\ 51 <> 50 /\
  fst (parse_sentence true ex_now (lit "$GPGSA,A,2,04*" ++ nmea_checksum (lit "$GPGSA,A,3,04")) new_parser)
  = Err (CorruptedSentence (lit "19") (lit "18")).
Proof. repeat split; vm_compute; congruence. Qed.

(** What the checksum cannot see: exchanging two characters, changing the first character, or adding a
    multiple of 256 to a code point never gives a corrupted sentence. *)
Theorem c03_blind_exchange ovf now p first a x b y c calculated given :
  fst (parse_sentence ovf now
         ((first :: a ++ y :: b ++ x :: c) ++ lit "*" ++ nmea_checksum (first :: a ++ x :: b ++ y :: c)) p)
  <> Err (CorruptedSentence calculated given).
Proof.
  intros H. apply parse_corrupted in H as (body & Hb & Hc & _).
  assert (Hb' : has_body ((first :: a ++ y :: b ++ x :: c) ++ lit "*" ++
                   nmea_checksum (first :: a ++ x :: b ++ y :: c))
                  (first :: a ++ y :: b ++ x :: c) (nmea_checksum (first :: a ++ x :: b ++ y :: c))).
  { right. split; [reflexivity|]. apply nmea_checksum_no_star. }
  destruct (has_body_unique _ _ _ _ _ Hb Hb') as [-> ->]. apply Hc. right.
  unfold nmea_checksum. cbn [tl]. f_equal. rewrite !map_app. cbn [map]. rewrite !map_app. cbn [map].
  rewrite !xor_all_middle. rewrite !app_assoc, !xor_all_middle, <- !N.lxor_assoc.
  now rewrite (N.lxor_comm (x mod 256)).
Qed.
Print Assumptions c03_blind_exchange.

Theorem c03_blind_first_character ovf now p first first' rest calculated given :
  fst (parse_sentence ovf now ((first' :: rest) ++ lit "*" ++ nmea_checksum (first :: rest)) p)
  <> Err (CorruptedSentence calculated given).
Proof.
  intros H. apply parse_corrupted in H as (body & Hb & Hc & _).
  assert (Hb' : has_body ((first' :: rest) ++ lit "*" ++ nmea_checksum (first :: rest))
                  (first' :: rest) (nmea_checksum (first :: rest))).
  { right. split; [reflexivity|]. apply nmea_checksum_no_star. }
  destruct (has_body_unique _ _ _ _ _ Hb Hb') as [-> ->]. apply Hc. now right.
Qed.
Print Assumptions c03_blind_first_character.

Example c03_blind_example :
  exists d, fst (parse_sentence true ex_now
    (lit "$GPGSA,A,3,40*" ++ nmea_checksum (lit "$GPGSA,A,3,04")) new_parser) = Ok (PsGsa d) /\
    gsa_prn_numbers d = [40].
Proof. eexists. vm_compute. split; reflexivity. Qed.

(** ** C61: damage to the checksum digits themselves *)

(** Any other checksum text without '*' is rejected... *)
Theorem c61_damaged_checksum_detected ovf now p body given :
  ~ In 42 given -> given <> [] -> given <> nmea_checksum body ->
  parse_sentence ovf now (body ++ lit "*" ++ given) p =
  (Err (CorruptedSentence (nmea_checksum body) given), p).
Proof.
  intros H1 H2 H3. apply parse_sentence_bad.
  - right. auto.
  - intros [H|H]; congruence.
Qed.
Print Assumptions c61_damaged_checksum_detected.

(** ... so lower-case digits, one or three digits, and a line end after the checksum are rejected too;
    but if the last checksum digit is itself damaged into '*', the damage goes unnoticed. *)
Theorem c61_checksum_digit_star_refuted :
  exists body d1 d2, nmea_checksum body = [d1; d2] /\ d2 <> 42 /\
    exists r, fst (parse_sentence true ex_now (body ++ lit "*" ++ [d1; 42]) new_parser) = Ok r.
Proof.
  exists (lit "!AIVDM,1,1,,A,15RTgt0PAso;90TKcjM8h6g208CQ,0"), 52, 65. split; [reflexivity|]. split; [discriminate|].
  eexists. vm_compute. reflexivity.
Qed.
Print Assumptions c61_checksum_digit_star_refuted.

Example c61_example :
  fst (parse_sentence true ex_now (ex_gsa ++ lit "*39" ++ [13; 10]) new_parser)
  = Err (CorruptedSentence (lit "39") (lit "39" ++ [13; 10])).
Proof. vm_compute. reflexivity. Qed.

(** ** C04 *)

Theorem c04_no_comma_invalid ovf now s p body given :
  has_body s body given -> checksum_ok body given -> ~ In 44 body ->
  parse_sentence ovf now s p = (Err (InvalidSentence (lit "Invalid NMEA sentence: " ++ body)), p).
Proof.
  intros Hb Hc Hn. rewrite (parse_sentence_ok _ _ _ _ _ _ Hb Hc), parse_body_type.
  apply before_first_none in Hn. now rewrite Hn.
Qed.
Print Assumptions c04_no_comma_invalid.

Example c04_example :
  has_body (lit "$GPGSA*42") (lit "$GPGSA") (lit "42") /\
  checksum_ok (lit "$GPGSA") (nmea_checksum (lit "$GPGSA")) /\ ~ In 44 (lit "$GPGSA") /\
  fst (parse_sentence true ex_now (lit "") new_parser)
  = Err (InvalidSentence (lit "Invalid NMEA sentence: ")).
Proof.
  split; [|split; [now right|split; [|reflexivity]]].
  - right. split; [reflexivity|]. cbn. intuition discriminate.
  - cbn. intuition discriminate.
Qed.

(** ** C05 *)

Theorem c05_gnss_result_routed ovf now s p r fff sources :
  fst (parse_sentence ovf now s p) = Ok r -> gnss_result r = Some (fff, sources) ->
  exists body given tt rest, has_body s body given /\ checksum_ok body given /\
    body = lit "$" ++ tt ++ fff ++ lit "," ++ rest /\ utf8_bytes tt = 2%nat /\
    Forall (names_system tt) sources.
Proof.
  intros Hr Hg.
  destruct (parse_call ovf now s p)
    as [| | |body given tt f rest r0 Hb Hc Hbody Hp Ht Hpl|body given tt rest Hb Hc Hbody Hp Ht
       |body given tt f rest Hb Hc Hbody Hp Ht Hf|]; cbn [fst] in Hr; try discriminate.
  - subst r0. pose proof (plain_gnss_result _ _ _ _ _ Hpl) as E. rewrite E in Hg.
    injection Hg as <- <-. exists body, given, tt, rest. rewrite <- byte_len_spec.
    repeat split; auto; [now rewrite Hbody, <- !app_assoc|].
    constructor; [apply names_system_nav|constructor].
  - apply handle_gsv_result in Hr as [->|(ds & -> & Hds)]; [discriminate|].
    injection Hg as <- <-. exists body, given, tt, rest. rewrite <- byte_len_spec.
    repeat split; auto; [now rewrite Hbody, <- !app_assoc|].
    apply Forall_forall. intros n Hn. apply in_map_iff in Hn as (d & <- & Hd).
    rewrite Forall_forall in Hds. rewrite (Hds d Hd). apply names_system_nav.
  - apply handle_vdm_result in Hr as [->|(sts & Ha & _)]; [discriminate|].
    destruct r; discriminate.
Qed.
Print Assumptions c05_gnss_result_routed.

Theorem c05_gnss_sentence_routed ovf now s p body given tt fff rest r :
  has_body s body given -> checksum_ok body given ->
  body = lit "$" ++ tt ++ fff ++ lit "," ++ rest -> utf8_bytes tt = 2%nat -> ~ In 44 tt ->
  In fff gnss_formatters ->
  fst (parse_sentence ovf now s p) = Ok r ->
  (exists sources, gnss_result r = Some (fff, sources) /\ Forall (names_system tt) sources) \/
  (fff = lit "GSV" /\ r = PsIncomplete).
Proof.
  intros Hb Hc Hbody Ht Hn Hin Hr. rewrite <- byte_len_spec in Ht.
  assert (Hbody' : body = (lit "$" ++ tt ++ fff) ++ lit "," ++ rest) by now rewrite Hbody, <- !app_assoc.
  destruct (str_eqb_spec fff (lit "GSV")) as [->|Hg].
  - rewrite (parse_gsv _ _ _ _ _ _ _ _ Hb Hc Hbody' Hn Ht) in Hr.
    apply handle_gsv_result in Hr as [->|(ds & -> & Hds)]; [now right|]. left.
    exists (map gsv_source ds). split; [reflexivity|].
    apply Forall_forall. intros n Hi. apply in_map_iff in Hi as (d & <- & Hd).
    rewrite Forall_forall in Hds. rewrite (Hds d Hd). apply names_system_nav.
  - left. assert (Hpl : exists o, plain_gnss now body (nav_of_talker tt) fff o).
    { unfold gnss_formatters in Hin. cbn [In] in Hin.
      destruct Hin as [<-|[<-|[<-|[<-|[<-|[<-|[]]]]]]]; try (now destruct Hg); eexists; constructor. }
    destruct Hpl as (o & Hpl). rewrite (parse_plain _ _ _ _ _ _ _ _ _ _ Hb Hc Hbody' Hn Ht Hpl) in Hr.
    cbn [fst] in Hr. subst o. exists [nav_of_talker tt]. split; [eapply plain_gnss_result; eassumption|].
    constructor; [apply names_system_nav|constructor].
Qed.
Print Assumptions c05_gnss_sentence_routed.

Example c05_example :
  exists d, fst (parse_sentence true ex_now (lit "$GLVTG,1.5,T,,M,5.5,N,10.1,K,A") new_parser)
  = Ok (PsVtg d) /\ vtg_source d = NavGlonass /\ names_system (lit "GL") NavGlonass /\
  names_system (lit "QQ") NavOther.
Proof.
  eexists. split; [vm_compute; reflexivity|]. split; [reflexivity|]. split.
  - left. cbn. tauto.
  - right. split; [|reflexivity]. cbn. intuition discriminate.
Qed.

(** ** C06 *)

Theorem c06_station_and_own_vessel ovf now s p r own stations :
  fst (parse_sentence ovf now s p) = Ok r -> ais_result r = Some (own, stations) ->
  exists body given tt fff rest, has_body s body given /\ checksum_ok body given /\
    body = lit "!" ++ tt ++ fff ++ lit "," ++ rest /\ utf8_bytes tt = 2%nat /\
    (fff = lit "VDM" /\ own = false \/ fff = lit "VDO" /\ own = true) /\
    Forall (names_station tt) stations.
Proof.
  intros Hr Hg.
  destruct (parse_call ovf now s p)
    as [| | |body given tt f rest r0 Hb Hc Hbody Hp Ht Hpl|body given tt rest Hb Hc Hbody Hp Ht
       |body given tt f rest Hb Hc Hbody Hp Ht Hf|]; cbn [fst] in Hr; try discriminate.
  - subst r0. pose proof (plain_gnss_result _ _ _ _ _ Hpl) as E. destruct r; discriminate.
  - apply handle_gsv_result in Hr as [->|(ds & -> & Hds)]; discriminate.
  - apply handle_vdm_result in Hr as [->|(sts & Ha & Hs)]; [discriminate|].
    rewrite Ha in Hg. injection Hg as <- <-. exists body, given, tt, f, rest.
    rewrite <- byte_len_spec. repeat split; auto.
    + now rewrite Hbody, <- !app_assoc.
    + destruct Hf as [-> | ->]; [left|right]; split; reflexivity.
    + apply Forall_forall. intros n Hn. rewrite Forall_forall in Hs. rewrite <- (Hs n Hn).
      apply names_station_station.
Qed.
Print Assumptions c06_station_and_own_vessel.

Example c06_example :
  exists d, fst (parse_sentence true ex_now (lit "!ABVDO,1,1,,A,15MgK45P3@G?fl0E`JbR0OwT0@MS,0") new_parser)
  = Ok (PsVesselDynamicData d) /\ vdd_own_vessel d = true /\ vdd_station d = StBaseStation /\
  names_station (lit "AB") StBaseStation.
Proof.
  eexists. split; [vm_compute; reflexivity|]. repeat split. left. cbn. tauto.
Qed.

(** ** C07, sentence types *)

(** The error names the type; the wording depends on whether the crate knows the formatter. *)
Definition unsupported_error (t : str) : ParseError :=
  UnsupportedSentenceType
    ((if existsb (fun f => str_eqb t (lit "$" ++ f)) undecoded_formatters
      then lit "Unimplemented NMEA sentence: " else lit "Unsupported sentence type: ") ++ t).

Lemma unhandled_error t : UnsupportedSentenceType (unhandled_message t) = unsupported_error t.
Proof.
  unfold unsupported_error, unhandled_message. f_equal.
  assert (E : existsb (str_eqb t) unimplemented_types =
              existsb (fun f => str_eqb t (lit "$" ++ f)) undecoded_formatters).
  { apply eq_true_iff_eq. rewrite !existsb_exists. split.
    - intros (x & Hx & Ht). apply str_eqb_eq in Ht. subst x. unfold unimplemented_types in Hx.
      cbn [In] in Hx.
      repeat match goal with H : _ \/ _ |- _ => destruct H as [<-|H] end; try destruct Hx;
      match goal with |- context [str_eqb ?l _] => exists (tl l) end; (split; [cbn; tauto|reflexivity]).
    - intros (x & Hx & Ht). apply str_eqb_eq in Ht. subst t. unfold undecoded_formatters in Hx.
      exists (lit "$" ++ x). split; [|apply str_eqb_refl]. cbn [In] in Hx.
      repeat match goal with H : _ \/ _ |- _ => destruct H as [<-|H] end; try destruct Hx;
      cbn; tauto. }
  rewrite E. match goal with |- context [if ?b then _ else _] => now destruct b end.
Qed.

(** A six-byte type outside the supported formatters is reported without its talker. *)
Theorem c07_unsupported_formatter ovf now s p body given mark tt fff rest :
  has_body s body given -> checksum_ok body given ->
  body = mark ++ tt ++ fff ++ lit "," ++ rest -> ~ In 44 (tt ++ fff) ->
  utf8_bytes tt = 2%nat -> utf8_bytes fff = 3%nat ->
  mark = lit "$" /\ ~ In fff gnss_formatters \/ mark = lit "!" /\ ~ In fff ais_formatters ->
  parse_sentence ovf now s p = (Err (unsupported_error (mark ++ fff)), p).
Proof.
  rewrite <- !byte_len_spec. intros Hb Hc Hbody Hn Ht Hf Hm. rewrite <- unhandled_error.
  apply (parse_unsupported _ _ _ _ body given (mark ++ tt ++ fff) rest
           (if str_eqb mark (lit "$") then Some (nav_of_talker tt) else None)
           (if str_eqb mark (lit "!") then Some (station_of_talker tt) else None)); auto.
  - now rewrite Hbody, <- !app_assoc.
  - apply plain_app; [|exact Hn]. destruct Hm as [[-> _]|[-> _]]; now apply plain_lit_dec.
  - destruct Hm as [[-> _]|[-> _]]; [apply RGnss|apply RAis]; assumption.
  - destruct Hm as [[-> Hm]|[-> Hm]]; intros Hi; apply Hm; unfold handled_types in Hi; cbn [In] in Hi;
      repeat match goal with H : _ \/ _ |- _ => destruct H as [H|H] end; try discriminate; try tauto;
      injection Hi as <-; cbn; tauto.
Qed.
Print Assumptions c07_unsupported_formatter.

(** A longer type, and a type starting with any other ASCII character, is reported as it is. *)
Theorem c07_unsupported_type ovf now s p body given t rest :
  has_body s body given -> checksum_ok body given ->
  body = t ++ lit "," ++ rest -> ~ In 44 t ->
  (exists mark tt more, t = mark ++ tt ++ more /\ (mark = lit "$" \/ mark = lit "!") /\
     utf8_bytes tt = 2%nat /\ (3 < utf8_bytes more)%nat) \/
  (exists c r, t = c :: r /\ c < 128 /\ c <> 36 /\ c <> 33) ->
  parse_sentence ovf now s p = (Err (unsupported_error t), p).
Proof.
  intros Hb Hc Hbody Hn Hk. rewrite <- unhandled_error.
  assert (Hlong : forall t' : str, (6 < byte_len t')%nat -> ~ In t' handled_types).
  { intros t' Hl Hi. unfold handled_types in Hi. cbn [In] in Hi.
    repeat match goal with H : _ \/ _ |- _ => destruct H as [<-|H] end; try tauto;
      cbv in Hl; lia. }
  destruct Hk as [(mark & tt & more & -> & Hm & Ht & Hl)|(c & r & -> & H1 & H2 & H3)].
  - rewrite <- byte_len_spec in Ht, Hl.
    apply (parse_unsupported _ _ _ _ body given (mark ++ tt ++ more) rest
             (if str_eqb mark (lit "$") then Some (nav_of_talker tt) else None)
             (if str_eqb mark (lit "!") then Some (station_of_talker tt) else None)); auto.
    + destruct Hm as [-> | ->]; [apply RLongGnss|apply RLongAis]; assumption.
    + apply Hlong. destruct Hm as [-> | ->]; rewrite !byte_len_app, Ht;
        [change (byte_len (lit "$")) with 1%nat|change (byte_len (lit "!")) with 1%nat]; lia.
  - apply (parse_unsupported _ _ _ _ body given (c :: r) rest None None); auto.
    + now apply ROther.
    + intros Hi. unfold handled_types in Hi. cbn [In] in Hi.
      repeat match goal with H : _ \/ _ |- _ => destruct H as [H|H] end; try tauto;
        apply (f_equal (hd 0)) in Hi; vm_compute in Hi; congruence.
Qed.
Print Assumptions c07_unsupported_type.

Example c07_example :
  fst (parse_sentence true ex_now (lit "$GPZDA,160012.71,11,03,2004,-1,00") new_parser)
  = Err (unsupported_error (lit "$ZDA")) /\
  unsupported_error (lit "$ZDA") = UnsupportedSentenceType (lit "Unimplemented NMEA sentence: $ZDA") /\
  fst (parse_sentence true ex_now (lit "!AIABM,1,1,0") new_parser)
  = Err (UnsupportedSentenceType (lit "Unsupported sentence type: !ABM")) /\
  fst (parse_sentence true ex_now (lit "$PGRMZA,1") new_parser)
  = Err (UnsupportedSentenceType (lit "Unsupported sentence type: $PGRMZA")).
Proof. repeat split; vm_compute; reflexivity. Qed.
