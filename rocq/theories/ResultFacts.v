(** Which results the handlers produce. *)
From Coq Require Import List NArith ZArith Bool String Lia.
From Verif Require Import Base Str F64 Chrono Types Util AisMod Vdm Gnss Parser
  SpecText SpecResult StrFacts FrontFacts CallFacts.
Import ListNotations.
Open Scope N_scope.
Local Opaque pick_string pick_u64 pick_i64 pick_eta parse_f64.

(** Split an equation [bind .. (bind ..) = Ok x]. *)
Ltac inv_binds H :=
  repeat match type of H with
  | bind ?m _ = Ok _ =>
    let E := fresh "E" in destruct m eqn:E; cbn [bind] in H; [|discriminate H|discriminate H]
  end.

Lemma names_system_nav tt : names_system tt (nav_of_talker tt).
Proof.
  unfold names_system, nav_of_talker, gnss_talkers.
  repeat match goal with
  | |- context [if str_eqb tt ?l then _ else _] =>
    destruct (str_eqb_spec tt l) as [->|?]; [left; cbn; tauto|]
  end.
  right. split; [|reflexivity]. cbn [map fst In]. intuition congruence.
Qed.

Lemma names_system_unique tt a b : names_system tt a -> names_system tt b -> a = b.
Proof.
  assert (Hnd : forall n m, In (tt, n) gnss_talkers -> In (tt, m) gnss_talkers -> n = m).
  { intros n m Hn Hm. unfold gnss_talkers in *. cbn [In] in *.
    repeat match goal with H : _ \/ _ |- _ => destruct H as [H|H] end; try tauto;
      injection Hn as <- <-; apply pair_equal_spec in Hm as [Hl <-]; (reflexivity || discriminate Hl). }
  unfold names_system. intros [Ha|[Ha ->]] [Hb|[Hb ->]]; eauto.
  - exfalso. apply Hb. apply in_map_iff. now exists (tt, a).
  - exfalso. apply Ha. apply in_map_iff. now exists (tt, b).
Qed.

Lemma names_station_station tt : names_station tt (station_of_talker tt).
Proof.
  unfold names_station, station_of_talker, ais_talkers.
  repeat match goal with
  | |- context [if str_eqb tt ?l then _ else _] =>
    destruct (str_eqb_spec tt l) as [->|?]; [left; cbn; tauto|]
  end.
  right. split; [|reflexivity]. cbn [map fst In]. intuition congruence.
Qed.

Lemma plain_gnss_result now body nav fff x :
  plain_gnss now body nav fff (Ok x) -> gnss_result x = Some (fff, [nav]).
Proof.
  intros H. inversion H as [H1 H2|H1 H2|H1 H2|H1 H2|H1 H2]; clear H; subst fff.
  - unfold handle_gga in H2. inv_binds H2. now injection H2 as <-.
  - unfold handle_rmc in H2. inv_binds H2. now injection H2 as <-.
  - unfold handle_gsa in H2. inv_binds H2. now injection H2 as <-.
  - reflexivity.
  - unfold handle_gll in H2. inv_binds H2. now injection H2 as <-.
Qed.

Lemma gsv_blocks_source nav s : Forall (fun d => gsv_source d = nav) (gsv_blocks nav s).
Proof.
  apply Forall_forall. intros d Hd. unfold gsv_blocks in Hd. apply in_flat_map in Hd.
  destruct Hd as (j & _ & Hd). destruct (number_lenient _ _ _); [|destruct Hd].
  destruct Hd as [<-|[]]. reflexivity.
Qed.

Lemma gsv_collect_source nav t c range p :
  Forall (fun d => gsv_source d = nav) (fst (gsv_collect nav t c range p)).
Proof.
  revert p. induction range as [|i range IH]; intros p; cbn [gsv_collect]; [constructor|].
  destruct (pull_string (make_gsv_key t c i) p) as [o p1].
  specialize (IH p1). destruct (gsv_collect nav t c range p1) as [v p2]. cbn [fst] in *.
  apply Forall_app. split; [|assumption]. destruct o; [apply gsv_blocks_source|constructor].
Qed.

Lemma handle_gsv_result ovf body nav p x :
  fst (handle_gsv ovf body nav p) = Ok x ->
  x = PsIncomplete \/ exists ds, x = PsGsv ds /\ Forall (fun d => gsv_source d = nav) ds.
Proof.
  unfold handle_gsv.
  destruct (number parse_u32 (split_on 44 body) 1) as [c| |]; [|discriminate|discriminate].
  destruct (number parse_u32 (split_on 44 body) 2) as [n| |]; [|discriminate|discriminate].
  destruct (gsv_range _ _) as [range|]; [|discriminate].
  match goal with |- context [if ?b then _ else _] => destruct b end.
  - match goal with |- context [gsv_collect ?a ?b ?c ?d ?e] =>
      pose proof (gsv_collect_source a b c d e) as Hs; destruct (gsv_collect a b c d e) as [v p2] end.
    cbn [fst] in *. intros [= <-]. right. now exists v.
  - cbn [fst]. intros [= <-]. now left.
Qed.

(** An AIS result carries [own] and [st]. *)
Definition ais_tagged (own : bool) (st : Station) (x : ParsedSentence) : Prop :=
  x = PsIncomplete \/ exists sts, ais_result x = Some (own, sts) /\ Forall (eq st) sts.

Lemma ais_tagged_intro own st x sts :
  ais_result x = Some (own, sts) -> Forall (eq st) sts -> ais_tagged own st x.
Proof. intros H1 H2. right. now exists sts. Qed.

Lemma merge_own a b m : merge a b = Ok m -> vsd_own_vessel m = vsd_own_vessel a.
Proof.
  unfold merge.
  repeat match goal with |- context [if ?b then _ else _] => destruct b; [discriminate|] end.
  now intros [= <-].
Qed.

Lemma handle_t24_result bv st p own x :
  fst (handle_t24 bv st p own) = Ok x -> ais_tagged own st x.
Proof.
  unfold handle_t24. destruct ((pick_u64 bv 38 2 =? 0) || (pick_u64 bv 38 2 =? 1)); [|discriminate].
  destruct (t24_fields bv own _) as [vsd| |] eqn:E; [|discriminate|discriminate].
  assert (Ho : vsd_own_vessel vsd = own).
  { unfold t24_fields in E. inv_binds E. injection E as <-. reflexivity. }
  unfold t24_store. destruct (pull_vsd (vsd_mmsi vsd) p) as [[vsd2|] p'].
  - cbn [fst]. intros H. destruct (merge vsd vsd2) as [m| |] eqn:Em; try discriminate H.
    cbn in H. injection H as <-. apply merge_own in Em. rewrite <- Ho, <- Em.
    eapply ais_tagged_intro; [reflexivity|constructor].
  - intros [= <-]. now left.
Qed.

(** [dispatch_message], by cases. *)
Inductive message_case (now : datetime) (t : str) (bv : bitvec) (st : Station) (own : bool) (p : NmeaParser)
    : N -> outcome ParseError ParsedSentence * NmeaParser -> Prop :=
| M1 n : n = 1 \/ n = 2 \/ n = 3 -> message_case now t bv st own p n (handle_t1t2t3 bv st own, p)
| M4 : message_case now t bv st own p 4 (handle_t4 bv st own, p)
| M5 : message_case now t bv st own p 5 (handle_t5 now bv st own, p)
| M6 : message_case now t bv st own p 6 (handle_t6 bv st own, p)
| M9 : message_case now t bv st own p 9 (handle_t9 bv st own, p)
| M10 : message_case now t bv st own p 10 (handle_t10 bv st own, p)
| M18 : message_case now t bv st own p 18 (handle_t18 bv st own, p)
| M19 : message_case now t bv st own p 19 (handle_t19 bv st own, p)
| M21 : message_case now t bv st own p 21 (handle_t21 bv st own, p)
| M24 : message_case now t bv st own p 24 (handle_t24 bv st p own)
| M27 : message_case now t bv st own p 27 (handle_t27 bv st own, p)
| MOther n : ~ In n [1; 2; 3; 4; 5; 6; 9; 10; 18; 19; 21; 24; 27] ->
    message_case now t bv st own p n (unsupported_message t n, p).

Lemma dispatch_message_case now t bv st own p :
  message_case now t bv st own p (pick_u64 bv 0 6) (dispatch_message now t bv st own p).
Proof.
  unfold dispatch_message. cbv zeta. generalize (pick_u64 bv 0 6). intros n.
  pose proof (MOther now t bv st own p n) as HO. cbn [In] in HO.
  destruct n as [|q]; [apply HO; lia|].
  destruct q as [q|q|]; [| |apply M1; lia];
  (destruct q as [q|q|]; [| |first [apply M1; lia|apply HO; lia]]);
  (destruct q as [q|q|]; [| |first [apply M4|apply M5|apply M6|apply HO; lia]]);
  (destruct q as [q|q|]; [| |first [apply M9|apply M10|apply HO; lia]]);
  (destruct q as [q|q|];
   [apply HO; lia|apply HO; lia|first [apply M18|apply M19|apply M21|apply M24|apply M27|apply HO; lia]]).
Qed.

Lemma dispatch_message_result now t bv st own p x :
  fst (dispatch_message now t bv st own p) = Ok x -> ais_tagged own st x.
Proof.
  destruct (dispatch_message_case now t bv st own p) as [n Hn| | | | | | | | | | |n Hn];
    cbn [fst]; intros H.
  - unfold handle_t1t2t3 in H. injection H as <-.
    eapply ais_tagged_intro; [reflexivity|repeat constructor].
  - unfold handle_t4 in H. inv_binds H. injection H as <-.
    eapply ais_tagged_intro; [reflexivity|repeat constructor].
  - unfold handle_t5 in H. inv_binds H. injection H as <-.
    eapply ais_tagged_intro; [reflexivity|repeat constructor].
  - unfold handle_t6 in H. injection H as <-.
    eapply ais_tagged_intro; [reflexivity|repeat constructor].
  - unfold handle_t9 in H. injection H as <-.
    eapply ais_tagged_intro; [reflexivity|repeat constructor].
  - unfold handle_t10 in H. injection H as <-.
    eapply ais_tagged_intro; [reflexivity|repeat constructor].
  - unfold handle_t18 in H. injection H as <-.
    eapply ais_tagged_intro; [reflexivity|repeat constructor].
  - discriminate H.
  - unfold handle_t21 in H. inv_binds H. injection H as <-.
    eapply ais_tagged_intro; [reflexivity|repeat constructor].
  - eapply handle_t24_result; eassumption.
  - unfold handle_t27 in H. injection H as <-.
    eapply ais_tagged_intro; [reflexivity|repeat constructor].
  - discriminate H.
Qed.

Lemma handle_vdm_result ovf now t body st p x :
  fst (handle_vdm ovf now t body st p) = Ok x ->
  ais_tagged (str_eqb t (lit "!VDO")) (unwrap_or st StOther) x.
Proof.
  unfold handle_vdm. destruct (vdm_scan _ _ _) as [f| |]; [|discriminate|discriminate].
  destruct (vdm_payload t f p) as [[payload|] p'].
  - destruct (parse_payload ovf payload) as [bv| |].
    + apply dispatch_message_result.
    + intros [= <-]. now left.
    + discriminate.
  - intros [= <-]. now left.
Qed.

(** Handlers never report a corrupted sentence. *)
Definition not_corrupted {A} (m : outcome ParseError A) : Prop :=
  forall c g, m <> Err (CorruptedSentence c g).

Lemma nc_bind {A B} (m : outcome ParseError A) (f : A -> outcome ParseError B) :
  not_corrupted m -> (forall a, not_corrupted (f a)) -> not_corrupted (bind m f).
Proof.
  intros Hm Hf c g. destruct m as [a|e|]; cbn [bind].
  - apply Hf.
  - intros [= ->]. now apply (Hm c g).
  - discriminate.
Qed.

Lemma nc_ok {A} (a : A) : not_corrupted (Ok a). Proof. discriminate. Qed.
Lemma nc_panic {A} : not_corrupted (@Panic ParseError A). Proof. discriminate. Qed.
Lemma nc_invalid {A} e : not_corrupted (@Err ParseError A (InvalidSentence e)). Proof. discriminate. Qed.
Lemma nc_unsupported {A} e : not_corrupted (@Err ParseError A (UnsupportedSentenceType e)).
Proof. discriminate. Qed.

Lemma nc_map_err {A} (m : outcome str A) : not_corrupted (map_err InvalidSentence m).
Proof. destruct m; discriminate. Qed.

Lemma nc_ok_opt {E A} (m : outcome E A) : not_corrupted (ok_opt m).
Proof. destruct m; discriminate. Qed.

Lemma nc_number {A} (parse : str -> option A) split num : not_corrupted (number parse split num).
Proof. apply nc_map_err. Qed.

Lemma nc_ymd_and_hms y m d h mi s : not_corrupted (ymd_and_hms y m d h mi s).
Proof. unfold ymd_and_hms. destruct (valid_ymd y m d), (valid_hms h mi s); discriminate. Qed.

Local Transparent pick_string pick_eta.
Lemma nc_pick_string bv i n : not_corrupted (pick_string bv i n).
Proof. unfold pick_string. destruct (pick_chars bv i n); discriminate. Qed.

Lemma nc_pick_eta bv i now : not_corrupted (pick_eta bv i now).
Proof.
  unfold pick_eta. cbv zeta.
  match goal with |- context [if ?b then Ok None else _] => destruct b end; [apply nc_ok|].
  destruct (_ =? 24); destruct (_ =? 60);
  (apply nc_bind; [apply nc_ymd_and_hms|intros a];
  apply nc_bind; [apply nc_ymd_and_hms|intros b];
  destruct (dt_leb now a); apply nc_ok).
Qed.
Local Opaque pick_string pick_eta.

Lemma nc_rmc_status s : not_corrupted (rmc_status s).
Proof.
  unfold rmc_status. repeat match goal with |- context [if ?b then _ else _] => destruct b end;
    discriminate.
Qed.

Lemma nc_gsa_mode1 s : not_corrupted (gsa_mode1 s).
Proof.
  unfold gsa_mode1. repeat match goal with |- context [if ?b then _ else _] => destruct b end;
    discriminate.
Qed.

Lemma nc_gsa_mode2 s : not_corrupted (gsa_mode2 s).
Proof.
  unfold gsa_mode2. repeat match goal with |- context [if ?b then _ else _] => destruct b end;
    discriminate.
Qed.

Lemma nc_rmc_variation split : not_corrupted (rmc_variation_field split).
Proof.
  unfold rmc_variation_field. apply nc_bind; [apply nc_number|]. intros [v|]; [|apply nc_ok].
  repeat match goal with |- context [if ?b then _ else _] => destruct b end; discriminate.
Qed.

Lemma nc_gsa_prns split nums : not_corrupted (gsa_prns split nums).
Proof.
  induction nums as [|i nums IH]; cbn [gsa_prns]; [apply nc_ok|].
  match goal with |- context [if ?b then _ else _] => destruct b end; [|assumption].
  apply nc_bind; [apply nc_number|]. intros v. apply nc_bind; [assumption|]. intros w. apply nc_ok.
Qed.

Ltac nc :=
  repeat match goal with
  | |- not_corrupted (bind _ _) => apply nc_bind; [|intro]
  | |- not_corrupted (map_err _ _) => apply nc_map_err
  | |- not_corrupted (ok_opt _) => apply nc_ok_opt
  | |- not_corrupted (number _ _ _) => apply nc_number
  | |- not_corrupted (Ok _) => apply nc_ok
  | |- not_corrupted (ymd_and_hms _ _ _ _ _ _) => apply nc_ymd_and_hms
  | |- not_corrupted (pick_string _ _ _) => apply nc_pick_string
  | |- not_corrupted (pick_eta _ _ _) => apply nc_pick_eta
  | |- not_corrupted (rmc_status _) => apply nc_rmc_status
  | |- not_corrupted (rmc_variation_field _) => apply nc_rmc_variation
  | |- not_corrupted (gsa_mode1 _) => apply nc_gsa_mode1
  | |- not_corrupted (gsa_mode2 _) => apply nc_gsa_mode2
  | |- not_corrupted (gsa_prns _ _) => apply nc_gsa_prns
  end.

Lemma plain_gnss_nc now body nav fff r : plain_gnss now body nav fff r -> not_corrupted r.
Proof.
  destruct 1.
  - unfold handle_gga. nc.
  - unfold handle_rmc. nc.
  - unfold handle_gsa. nc.
  - unfold handle_vtg. nc.
  - unfold handle_gll. nc.
Qed.

Lemma handle_gsv_nc ovf body nav p : not_corrupted (fst (handle_gsv ovf body nav p)).
Proof.
  unfold handle_gsv.
  pose proof (nc_number parse_u32 (split_on 44 body) 1) as H1.
  pose proof (nc_number parse_u32 (split_on 44 body) 2) as H2.
  destruct (number parse_u32 (split_on 44 body) 1) as [c|e|].
  2:{ intros a b [= ->]. now apply (H1 a b). }
  2:{ discriminate. }
  destruct (number parse_u32 (split_on 44 body) 2) as [n|e|].
  2:{ intros a b [= ->]. now apply (H2 a b). }
  2:{ discriminate. }
  destruct (gsv_range _ _) as [range|]; [|discriminate].
  match goal with |- context [if ?b then _ else _] => destruct b end; [|discriminate].
  match goal with |- context [gsv_collect ?a ?b ?c ?d ?e] => destruct (gsv_collect a b c d e) end.
  discriminate.
Qed.

Lemma t24_fields_nc bv own b : not_corrupted (t24_fields bv own b).
Proof. unfold t24_fields. destruct b; nc. Qed.

Lemma handle_t24_nc bv st p own : not_corrupted (fst (handle_t24 bv st p own)).
Proof.
  unfold handle_t24. match goal with |- context [if ?b then _ else _] => destruct b end; [|discriminate].
  pose proof (t24_fields_nc bv own (pick_u64 bv 38 2 =? 1)) as Hf.
  destruct (t24_fields bv own _) as [vsd|e|].
  - unfold t24_store. destruct (pull_vsd _ _) as [[v2|] p']; cbn [fst]; nc.
  - intros c g [= ->]. now apply (Hf c g).
  - discriminate.
Qed.

Lemma dispatch_message_nc now t bv st own p : not_corrupted (fst (dispatch_message now t bv st own p)).
Proof.
  destruct (dispatch_message_case now t bv st own p) as [n Hn| | | | | | | | | | |n Hn]; cbn [fst].
  - apply nc_ok.
  - unfold handle_t4. nc.
  - unfold handle_t5. nc.
  - apply nc_ok.
  - apply nc_ok.
  - apply nc_ok.
  - apply nc_ok.
  - apply nc_unsupported.
  - unfold handle_t21. nc.
  - apply handle_t24_nc.
  - apply nc_ok.
  - apply nc_unsupported.
Qed.

Lemma vdm_scan_nc num f split : not_corrupted (vdm_scan num f split).
Proof.
  revert num f. induction split as [|s split IH]; intros num f; cbn [vdm_scan]; [apply nc_ok|].
  do 6 (destruct num as [|num];
        [first [apply IH|destruct (parse_u8 s); [apply IH|apply nc_invalid]]|]).
  apply IH.
Qed.

Lemma handle_vdm_nc ovf now t body st p : not_corrupted (fst (handle_vdm ovf now t body st p)).
Proof.
  unfold handle_vdm. pose proof (vdm_scan_nc 0 vdm_start (split_on 44 body)) as Hs.
  destruct (vdm_scan _ _ _) as [f|e|]; [|intros c g [= ->]; now apply (Hs c g)|discriminate].
  destruct (vdm_payload t f p) as [[payload|] p']; [|discriminate].
  destruct (parse_payload ovf payload); [apply dispatch_message_nc|discriminate|discriminate].
Qed.

(** A corrupted sentence is reported only by the checksum comparison. *)
Lemma parse_corrupted ovf now s p c g :
  fst (parse_sentence ovf now s p) = Err (CorruptedSentence c g) ->
  exists body, has_body s body g /\ ~ checksum_ok body g /\ c = nmea_checksum body.
Proof.
  destruct (parse_call ovf now s p); cbn [fst]; intros He.
  - injection He as <- <-. eauto.
  - discriminate.
  - discriminate.
  - exfalso. eapply plain_gnss_nc; eassumption.
  - exfalso. eapply handle_gsv_nc; eassumption.
  - exfalso. eapply handle_vdm_nc; eassumption.
  - discriminate.
Qed.
