(** Every call of [parse_sentence] is one of a few kinds. *)
From Coq Require Import List NArith ZArith Bool String Lia.
From Verif Require Import Base Str F64 Chrono Types Util AisMod Vdm Gnss Parser SpecText StrFacts FrontFacts.
Import ListNotations.
Open Scope N_scope.

(** The handlers that do not touch the parser, by formatter. *)
Inductive plain_gnss (now : datetime) (body : str) (nav : NavigationSystem)
  : str -> outcome ParseError ParsedSentence -> Prop :=
| PGga : plain_gnss now body nav (lit "GGA") (handle_gga now body nav)
| PRmc : plain_gnss now body nav (lit "RMC") (handle_rmc now body nav)
| PGsa : plain_gnss now body nav (lit "GSA") (handle_gsa body nav)
| PVtg : plain_gnss now body nav (lit "VTG") (handle_vtg body nav)
| PGll : plain_gnss now body nav (lit "GLL") (handle_gll now body nav).

(** The sentence types with a handler, after shortening. *)
Definition handled_types : list str :=
  [lit "$GGA"; lit "$RMC"; lit "$GSA"; lit "$GSV"; lit "$VTG"; lit "$GLL"; lit "!VDM"; lit "!VDO"].

(** The message for a type without handler. *)
Definition unhandled_message (t : str) : str :=
  if existsb (str_eqb t) unimplemented_types then lit "Unimplemented NMEA sentence: " ++ t
  else lit "Unsupported sentence type: " ++ t.

(** [dispatch_sentence], by cases. *)
Inductive dispatched (ovf : bool) (now : datetime) (body : str) (nav : option NavigationSystem)
    (st : option Station) (p : NmeaParser)
    : str -> outcome ParseError ParsedSentence * NmeaParser -> Prop :=
| DPlain fff r : plain_gnss now body (unwrap_or nav NavOther) fff r ->
    dispatched ovf now body nav st p (lit "$" ++ fff) (r, p)
| DGsv : dispatched ovf now body nav st p (lit "$GSV") (handle_gsv ovf body (unwrap_or nav NavOther) p)
| DVdm t : t = lit "!VDM" \/ t = lit "!VDO" ->
    dispatched ovf now body nav st p t (handle_vdm ovf now t body st p)
| DUnsupported t : ~ In t handled_types ->
    dispatched ovf now body nav st p t (Err (UnsupportedSentenceType (unhandled_message t)), p).

Lemma dispatch_dispatched ovf now t body nav st p :
  dispatched ovf now body nav st p t (dispatch_sentence ovf now t body nav st p).
Proof.
  unfold dispatch_sentence.
  destruct (str_eqb_spec t (lit "$GGA")) as [->|H1]; [apply (DPlain _ _ _ _ _ _ (lit "GGA")), PGga|].
  destruct (str_eqb_spec t (lit "$RMC")) as [->|H2]; [apply (DPlain _ _ _ _ _ _ (lit "RMC")), PRmc|].
  destruct (str_eqb_spec t (lit "$GSA")) as [->|H3]; [apply (DPlain _ _ _ _ _ _ (lit "GSA")), PGsa|].
  destruct (str_eqb_spec t (lit "$GSV")) as [->|H4]; [apply DGsv|].
  destruct (str_eqb_spec t (lit "$VTG")) as [->|H5]; [apply (DPlain _ _ _ _ _ _ (lit "VTG")), PVtg|].
  destruct (str_eqb_spec t (lit "$GLL")) as [->|H6]; [apply (DPlain _ _ _ _ _ _ (lit "GLL")), PGll|].
  assert (HN : t <> lit "!VDM" -> t <> lit "!VDO" -> ~ In t handled_types).
  { intros H7 H8. unfold handled_types. cbn [In]. intuition congruence. }
  destruct (existsb (str_eqb t) unimplemented_types) eqn:E.
  - pose proof (DUnsupported ovf now body nav st p t) as D. unfold unhandled_message in D.
    rewrite E in D. apply D. apply HN; intros ->; discriminate.
  - destruct (str_eqb_spec t (lit "!VDM")) as [->|H7]; [apply DVdm; now left|].
    destruct (str_eqb_spec t (lit "!VDO")) as [->|H8]; [apply DVdm; now right|].
    cbn [orb].
    pose proof (DUnsupported ovf now body nav st p t) as D. unfold unhandled_message in D.
    rewrite E in D. apply D. now apply HN.
Qed.

(** A whole call, by cases. *)
Inductive call (ovf : bool) (now : datetime) (s : str) (p : NmeaParser)
    : outcome ParseError ParsedSentence * NmeaParser -> Prop :=
| CCorrupted body given : has_body s body given -> ~ checksum_ok body given ->
    call ovf now s p (Err (CorruptedSentence (nmea_checksum body) given), p)
| CNoComma body given : has_body s body given -> checksum_ok body given -> plain body ->
    call ovf now s p (Err (InvalidSentence (lit "Invalid NMEA sentence: " ++ body)), p)
| CBadType body given t rest : has_body s body given -> checksum_ok body given ->
    body = t ++ lit "," ++ rest -> plain t -> parse_type t = None ->
    call ovf now s p (Panic, p)
| CPlain body given tt fff rest r : has_body s body given -> checksum_ok body given ->
    body = (lit "$" ++ tt ++ fff) ++ lit "," ++ rest -> plain tt -> byte_len tt = 2%nat ->
    plain_gnss now body (nav_of_talker tt) fff r ->
    call ovf now s p (r, p)
| CGsv body given tt rest : has_body s body given -> checksum_ok body given ->
    body = (lit "$" ++ tt ++ lit "GSV") ++ lit "," ++ rest -> plain tt -> byte_len tt = 2%nat ->
    call ovf now s p (handle_gsv ovf body (nav_of_talker tt) p)
| CVdm body given tt fff rest : has_body s body given -> checksum_ok body given ->
    body = (lit "!" ++ tt ++ fff) ++ lit "," ++ rest -> plain tt -> byte_len tt = 2%nat ->
    fff = lit "VDM" \/ fff = lit "VDO" ->
    call ovf now s p (handle_vdm ovf now (lit "!" ++ fff) body (Some (station_of_talker tt)) p)
| CUnsupported body given t rest nav st t2 : has_body s body given -> checksum_ok body given ->
    body = t ++ lit "," ++ rest -> plain t -> recognized t nav st t2 -> ~ In t2 handled_types ->
    call ovf now s p (Err (UnsupportedSentenceType (unhandled_message t2)), p).

Lemma plain_app_inv a b : plain (a ++ b) -> plain a /\ plain b.
Proof. unfold plain. intros H. split; intros Hi; apply H, in_or_app; tauto. Qed.

Lemma plain_gnss_len now body nav fff r : plain_gnss now body nav fff r -> byte_len fff = 3%nat.
Proof. destruct 1; reflexivity. Qed.

Lemma parse_call ovf now s p : call ovf now s p (parse_sentence ovf now s p).
Proof.
  destruct (has_body_total s) as (body & given & Hb).
  destruct (checksum_ok_dec body given) as [Hc|Hc].
  2:{ rewrite (parse_sentence_bad _ _ _ _ _ _ Hb Hc). now apply CCorrupted. }
  rewrite (parse_sentence_ok _ _ _ _ _ _ Hb Hc), parse_body_type.
  destruct (before_first 44 body) as [t|] eqn:Ef.
  2:{ apply before_first_none in Ef. now apply (CNoComma _ _ _ _ body given). }
  apply before_first_some in Ef as (Hp & rest & Hbody).
  destruct (parse_type t) as [[[nav st] t2]|] eqn:Et.
  2:{ now apply (CBadType _ _ _ _ body given t rest). }
  apply parse_type_recognized in Et.
  pose proof (dispatch_dispatched ovf now t2 body nav st p) as D.
  revert D. generalize (dispatch_sentence ovf now t2 body nav st p). intros r D.
  destruct D as [fff r Hr| |t2 Ht|t2 Hn].
  - pose proof (recognized_gnss _ _ _ _ Et (plain_gnss_len _ _ _ _ _ Hr)) as (tt & Htt & -> & -> & ->).
    apply plain_app_inv in Hp as [_ Hp]. apply plain_app_inv in Hp as [Hp _].
    now apply (CPlain _ _ _ _ body given tt fff rest).
  - pose proof (recognized_gnss _ _ _ (lit "GSV") Et eq_refl) as (tt & Htt & -> & -> & ->).
    apply plain_app_inv in Hp as [_ Hp]. apply plain_app_inv in Hp as [Hp _].
    now apply (CGsv _ _ _ _ body given tt rest).
  - assert (Hf : exists fff, t2 = lit "!" ++ fff /\ (fff = lit "VDM" \/ fff = lit "VDO")).
    { destruct Ht as [-> | ->]; [exists (lit "VDM")|exists (lit "VDO")]; auto. }
    destruct Hf as (fff & -> & Hf).
    assert (Hl : byte_len fff = 3%nat) by (destruct Hf as [-> | ->]; reflexivity).
    pose proof (recognized_ais _ _ _ _ Et Hl) as (tt & Htt & -> & -> & ->).
    apply plain_app_inv in Hp as [_ Hp]. apply plain_app_inv in Hp as [Hp _].
    now apply (CVdm _ _ _ _ body given tt fff rest).
  - now apply (CUnsupported _ _ _ _ body given t rest nav st).
Qed.

(** The call for a sentence of known shape. *)

Lemma plain_lit_dec f : existsb (N.eqb 44) f = false -> plain f.
Proof.
  intros H Hin. assert (existsb (N.eqb 44) f = true); [|congruence].
  apply existsb_exists. now exists 44.
Qed.

Lemma plain_app a b : plain a -> plain b -> plain (a ++ b).
Proof. intros Ha Hb Hi. apply in_app_or in Hi. destruct Hi; [apply Ha|apply Hb]; assumption. Qed.

Lemma parse_recognized ovf now s p body given t rest nav st t2 :
  has_body s body given -> checksum_ok body given -> body = t ++ lit "," ++ rest -> plain t ->
  recognized t nav st t2 ->
  parse_sentence ovf now s p = dispatch_sentence ovf now t2 body nav st p.
Proof.
  intros Hb Hc Hbody Hp Hr. rewrite (parse_sentence_ok _ _ _ _ _ _ Hb Hc), parse_body_type.
  rewrite Hbody. change (lit "," ++ rest) with (44 :: rest).
  rewrite before_first_app by exact Hp.
  apply parse_type_recognized in Hr. now rewrite Hr.
Qed.

Lemma parse_plain ovf now s p body given tt fff rest r :
  has_body s body given -> checksum_ok body given ->
  body = (lit "$" ++ tt ++ fff) ++ lit "," ++ rest -> plain tt -> byte_len tt = 2%nat ->
  plain_gnss now body (nav_of_talker tt) fff r ->
  parse_sentence ovf now s p = (r, p).
Proof.
  intros Hb Hc Hbody Hp Ht Hr.
  eapply eq_trans; [eapply (parse_recognized ovf now s p body given (lit "$" ++ tt ++ fff) rest _ _ _ Hb Hc Hbody);
    [|apply RGnss; [exact Ht|eapply plain_gnss_len; eassumption]]|].
  - repeat apply plain_app; [now apply plain_lit_dec|exact Hp|].
    destruct Hr; now apply plain_lit_dec.
  - destruct Hr; reflexivity.
Qed.

Lemma parse_gsv ovf now s p body given tt rest :
  has_body s body given -> checksum_ok body given ->
  body = (lit "$" ++ tt ++ lit "GSV") ++ lit "," ++ rest -> plain tt -> byte_len tt = 2%nat ->
  parse_sentence ovf now s p = handle_gsv ovf body (nav_of_talker tt) p.
Proof.
  intros Hb Hc Hbody Hp Ht.
  eapply eq_trans; [eapply (parse_recognized ovf now s p body given (lit "$" ++ tt ++ lit "GSV") rest _ _ _ Hb Hc Hbody);
    [|apply RGnss; [exact Ht|reflexivity]]|].
  - repeat apply plain_app; [now apply plain_lit_dec|exact Hp|now apply plain_lit_dec].
  - reflexivity.
Qed.

Lemma parse_vdm ovf now s p body given tt fff rest :
  has_body s body given -> checksum_ok body given ->
  body = (lit "!" ++ tt ++ fff) ++ lit "," ++ rest -> plain tt -> byte_len tt = 2%nat ->
  fff = lit "VDM" \/ fff = lit "VDO" ->
  parse_sentence ovf now s p =
  handle_vdm ovf now (lit "!" ++ fff) body (Some (station_of_talker tt)) p.
Proof.
  intros Hb Hc Hbody Hp Ht Hf.
  eapply eq_trans; [eapply (parse_recognized ovf now s p body given (lit "!" ++ tt ++ fff) rest _ _ _ Hb Hc Hbody);
    [|apply RAis; [exact Ht|destruct Hf as [-> | ->]; reflexivity]]|].
  - repeat apply plain_app; [now apply plain_lit_dec|exact Hp|].
    destruct Hf as [-> | ->]; now apply plain_lit_dec.
  - destruct Hf as [-> | ->]; reflexivity.
Qed.

Lemma parse_unsupported ovf now s p body given t rest nav st t2 :
  has_body s body given -> checksum_ok body given -> body = t ++ lit "," ++ rest -> plain t ->
  recognized t nav st t2 -> ~ In t2 handled_types ->
  parse_sentence ovf now s p = (Err (UnsupportedSentenceType (unhandled_message t2)), p).
Proof.
  intros Hb Hc Hbody Hp Hr Hn. rewrite (parse_recognized _ _ _ _ _ _ _ _ _ _ _ Hb Hc Hbody Hp Hr).
  destruct (dispatch_dispatched ovf now t2 body nav st p) as [fff r D| |t2 Ht|t2 _];
    try reflexivity; exfalso; apply Hn; unfold handled_types.
  - destruct D; cbn; tauto.
  - cbn; tauto.
  - destruct Ht as [-> | ->]; cbn; tauto.
Qed.

Lemma parse_bad_type ovf now s p body given t rest :
  has_body s body given -> checksum_ok body given -> body = t ++ lit "," ++ rest -> plain t ->
  parse_type t = None -> parse_sentence ovf now s p = (Panic, p).
Proof.
  intros Hb Hc Hbody Hp Hr. rewrite (parse_sentence_ok _ _ _ _ _ _ Hb Hc), parse_body_type.
  rewrite Hbody. change (lit "," ++ rest) with (44 :: rest).
  rewrite before_first_app by exact Hp. now rewrite Hr.
Qed.
