(** C70-C72: ranges of the numbers and texts in AIS reports. *)
From stdpp Require Import gmap.
From Coq Require Import List NArith ZArith Bool String Lia.
From Verif Require Import Base Str F64 Chrono Types Util AisMod Vdm Gnss Parser
  SpecText SpecResult SpecAis SpecState SpecPanic SpecRange StrFacts FrontFacts CallFacts ResultFacts BitFacts VdmFacts LayoutFacts
  StateFacts RunFacts PropFront PropBits PropState PropStatic PropPanic PropHist.
Import ListNotations.
Open Scope N_scope.

Local Opaque pick_string pick_u64 pick_i64.

(** Reports other than those of type 24 do not depend on the state; those of type 24 are merged from
    two parts. So a property [P] that the other handlers guarantee and that merging brings about for
    parts with the property [S], which all parts have, holds of all reports. *)
Lemma reports_from_parts (P : ParsedSentence -> Prop) (S : VesselStaticData -> Prop) ovf :
  P PsIncomplete ->
  (forall r, ais_result r = None -> P r) ->
  (forall bits own st r, handle_t1t2t3 bits st own = Ok r -> P r) ->
  (forall bits own st r, handle_t4 bits st own = Ok r -> P r) ->
  (forall now bits own st r, handle_t5 now bits st own = Ok r -> P r) ->
  (forall bits own st r, handle_t6 bits st own = Ok r -> P r) ->
  (forall bits own st r, handle_t9 bits st own = Ok r -> P r) ->
  (forall bits own st r, handle_t10 bits st own = Ok r -> P r) ->
  (forall bits own st r, handle_t18 bits st own = Ok r -> P r) ->
  (forall bits own st r, handle_t21 bits st own = Ok r -> P r) ->
  (forall bits own st r, handle_t27 bits st own = Ok r -> P r) ->
  (forall bits own b v, t24_fields bits own b = Ok v -> S v) ->
  (forall v w d, S v -> S w -> merge v w = Ok d -> P (PsVesselStaticData d)) ->
  forall now s p r, reachable ovf p -> fst (parse_sentence ovf now s p) = Ok r -> P r.
Proof.
  intros P0 Pg P1 P4 P5 P6 P9 P10 P18 P21 P27 P24 Pm.
  set (I := fun p : NmeaParser => forall m v, saved_vsds p !! m = Some v -> S v).
  assert (D : forall now fff payload st q, I q -> I (snd (decode_payload ovf now fff payload st q))).
  { intros now fff payload st q Hq.
    destruct (decode_act ovf now fff payload st) as [(r & ->)|(bits & v & _ & Hv & _ & _ & _ & _ & ->)]; [exact Hq|].
    intros m w. unfold t24_store, pull_vsd. destruct (saved_vsds q !! vsd_mmsi v) as [x|]; cbn [snd push_vsd saved_vsds].
    - intros H. apply lookup_delete_Some in H as [_ H]. now apply Hq in H.
    - intros H. apply lookup_insert_Some in H as [[<- <-]|[_ H]]; [eapply P24; exact Hv|].
      apply lookup_delete_Some in H as [_ H]. now apply Hq in H. }
  assert (Inv : forall p, reachable ovf p -> I p).
  { intros p. apply reachable_invariant.
    - intros now s q H. destruct (sentence_kind ovf now s) as (f & K & ->).
      destruct K as [r|tt fff payload Hs|tt fff mid channel a Hs|tt fff mid channel b Hs|tt c n body given Hs Hb].
      + exact H.
      + now apply D.
      + unfold first_step. destruct (kept q _); [now apply D|exact H].
      + unfold second_step. destruct (kept q _); [now apply D|exact H].
      + unfold I. now rewrite gsv_step_vsds.
    - intros m v H. cbn in H. now rewrite lookup_empty in H. }
  intros now s p r Hr H. destruct (ais_result r) as [x|] eqn:Ha; [|now apply Pg].
  destruct (report_completes ovf now s p r H) as (tt & fff & payload & C); [congruence|].
  destruct (completes_step ovf now _ _ _ _ _ C) as (q & Hq & E). rewrite E in H.
  assert (Iq : I q) by (unfold I; rewrite Hq; now apply Inv).
  unfold decode_payload in H. destruct (parse_payload ovf payload) as [bits|e|]; [|injection H as <-; exact P0|discriminate].
  revert H. destruct (dispatch_message_case now (lit "!" ++ fff) bits (station_of_talker tt) (str_eqb fff (lit "VDO")) q)
    as [n Hn| | | | | | | | | | |n Hn]; intros H; cbn [fst] in H; try discriminate H;
    [now apply P1 in H|now apply P4 in H|now apply P5 in H|now apply P6 in H|now apply P9 in H|now apply P10 in H
    |now apply P18 in H|now apply P21 in H| |now apply P27 in H].
  unfold handle_t24 in H. destruct (_ || _); [|discriminate].
  destruct (t24_fields _ _ _) as [v| |] eqn:Ev; try discriminate. unfold t24_store, pull_vsd in H.
  destruct (saved_vsds q !! vsd_mmsi v) as [w|] eqn:Ew; cbn [fst] in H; [|now injection H as <-].
  destruct (merge v w) as [d| |] eqn:Em; try discriminate. injection H as <-.
  eapply Pm; [eapply P24; exact Ev|eapply Iq; exact Ew|exact Em].
Qed.

Lemma reports_have (P : ParsedSentence -> Prop) ovf :
  P PsIncomplete ->
  (forall r, ais_result r = None -> P r) ->
  (forall bits own st r, handle_t1t2t3 bits st own = Ok r -> P r) ->
  (forall bits own st r, handle_t4 bits st own = Ok r -> P r) ->
  (forall now bits own st r, handle_t5 now bits st own = Ok r -> P r) ->
  (forall bits own st r, handle_t6 bits st own = Ok r -> P r) ->
  (forall bits own st r, handle_t9 bits st own = Ok r -> P r) ->
  (forall bits own st r, handle_t10 bits st own = Ok r -> P r) ->
  (forall bits own st r, handle_t18 bits st own = Ok r -> P r) ->
  (forall bits own st r, handle_t21 bits st own = Ok r -> P r) ->
  (forall bits own st r, handle_t27 bits st own = Ok r -> P r) ->
  (forall bits own b v, t24_fields bits own b = Ok v -> P (PsVesselStaticData v)) ->
  (forall v w d, P (PsVesselStaticData v) -> P (PsVesselStaticData w) -> merge v w = Ok d -> P (PsVesselStaticData d)) ->
  forall now s p r, reachable ovf p -> fst (parse_sentence ovf now s p) = Ok r -> P r.
Proof.
  intros. eapply (reports_from_parts P (fun v => P (PsVesselStaticData v)) ovf); eassumption.
Qed.

(** ** C70 *)

Lemma pick_lt bv i n : (n <= 64)%nat -> pick_u64 bv i n < 2 ^ N.of_nat n.
Proof.
  intros H. rewrite pick_u64_spec by exact H. pose proof (be_value_lt (window bv i n)) as L.
  now rewrite window_length in L.
Qed.

Lemma as_u8_lt x m : x < m -> as_u8 x < m.
Proof. intros H. unfold as_u8. eapply N.le_lt_trans; [apply N.mod_le; discriminate|exact H]. Qed.
Lemma as_u16_lt x m : x < m -> as_u16 x < m.
Proof. intros H. unfold as_u16. eapply N.le_lt_trans; [apply N.mod_le; discriminate|exact H]. Qed.
Lemma as_u32_lt x m : x < m -> as_u32 x < m.
Proof. intros H. unfold as_u32. eapply N.le_lt_trans; [apply N.mod_le; discriminate|exact H]. Qed.

Definition fits_in (x : N * N) : Prop := snd x < 2 ^ fst x.

Ltac pick_fits :=
  unfold fits_in; cbn [fst snd];
  first [apply as_u8_lt | apply as_u16_lt | apply as_u32_lt | idtac];
  match goal with |- pick_u64 ?b ?i ?n < _ => exact (pick_lt b i n ltac:(lia)) | _ => reflexivity end.

Ltac merge_fields H := unfold merge in H; repeat (destruct (negb _); [discriminate H|]); injection H as <-.

Lemma present_choose {A} (f : A -> N * N) (a b : option A) :
  Forall fits_in (map f (present a)) -> Forall fits_in (map f (present b)) ->
  Forall fits_in (map f (present (choose_some a b))).
Proof. destruct a; cbn [choose_some]; auto. Qed.

(** Every whole number in a report fits into the bits documented for it. *)
Theorem c70_numbers_fit ovf now s p r w v :
  reachable ovf p -> fst (parse_sentence ovf now s p) = Ok r -> In (w, v) (numbers r) -> v < 2 ^ w.
Proof.
  intros Hr H. assert (F : Forall fits_in (numbers r)); [|rewrite Forall_forall in F; intros I; exact (F _ I)].
  revert Hr H. apply (reports_have (fun r => Forall fits_in (numbers r)) ovf); clear.
  - constructor.
  - intros [] E; try discriminate E; constructor.
  - intros bits own st r H. injection H as <-. cbn. repeat constructor; pick_fits.
  - intros bits own st r H. unfold handle_t4 in H. inv_binds H. injection H as <-. cbn. repeat constructor; pick_fits.
  - intros now bits own st r H. unfold handle_t5 in H. inv_binds H. injection H as <-. cbn [numbers vsd_mmsi vsd_ais_version_indicator
      vsd_imo_number vsd_equipment_model vsd_equipment_serial_number vsd_dimension_to_bow vsd_dimension_to_stern
      vsd_dimension_to_port vsd_dimension_to_starboard vsd_draught10 vsd_mothership_mmsi present map app].
    repeat (constructor; [pick_fits|]). destruct (_ =? 0); cbn; repeat constructor; pick_fits.
  - intros bits own st r H. injection H as <-. cbn. repeat constructor; pick_fits.
  - intros bits own st r H. injection H as <-. cbn [numbers sar_mmsi sar_altitude sar_sog_knots sar_timestamp_seconds sar_regional
      sar_radio_status app].
    constructor; [pick_fits|]. apply Forall_app. split; [destruct (negb _); cbn; repeat constructor; pick_fits|].
    apply Forall_app. split; [destruct (negb _); cbn; repeat constructor; pick_fits|]. repeat constructor; pick_fits.
  - intros bits own st r H. injection H as <-. cbn. repeat constructor; pick_fits.
  - intros bits own st r H. injection H as <-. cbn. repeat constructor; pick_fits.
  - intros bits own st r H. unfold handle_t21 in H. inv_binds H. injection H as <-. cbn. repeat constructor; pick_fits.
  - intros bits own st r H. injection H as <-. cbn. repeat constructor; pick_fits.
  - intros bits own b v H. unfold t24_fields in H. inv_binds H. injection H as <-. destruct b; cbn; repeat constructor; pick_fits.
  - intros v w d Hv Hw H. merge_fields H. cbn [numbers app vsd_mmsi vsd_ais_version_indicator
      vsd_imo_number vsd_equipment_model vsd_equipment_serial_number vsd_dimension_to_bow vsd_dimension_to_stern
      vsd_dimension_to_port vsd_dimension_to_starboard vsd_draught10 vsd_mothership_mmsi] in *.
    apply Forall_cons_iff in Hv as [V1 Hv]. apply Forall_cons_iff in Hv as [V2 Hv].
    apply Forall_cons_iff in Hw as [_ Hw]. apply Forall_cons_iff in Hw as [_ Hw].
    constructor; [exact V1|]. constructor; [exact V2|].
    repeat (apply Forall_app in Hv as [X Hv]; apply Forall_app in Hw as [Y Hw]; apply Forall_app; split;
      [now apply present_choose|clear X Y]).
    now apply present_choose.
Qed.
Print Assumptions c70_numbers_fit.

Example c70_example :
  let p := after true [(ex_now, ex_part_a)] new_parser in
  reachable true p /\ exists d, fst (parse_sentence true ex_now ex_part_b p) = Ok (PsVesselStaticData d) /\
    In (30, 271041815) (numbers (PsVesselStaticData d)) /\ In (20, 199796) (numbers (PsVesselStaticData d)).
Proof.
  cbv zeta. split; [now exists [(ex_now, ex_part_a)]|]. eexists. split; [vm_compute; reflexivity|].
  cbn; tauto.
Qed.

(** ** C71 *)

Definition text_fits (x : nat * str) : Prop := (List.length (snd x) <= fst x)%nat /\ six_bit_text (snd x).

Lemma pick_string_fits {E} bv i n t : @pick_string E bv i n = Ok t -> text_fits (n, t).
Proof.
  intros H. destruct (@pick_string_range E bv i n) as (u & Hu & L & F & A & S). assert (t = u) as -> by congruence.
  repeat split; assumption.
Qed.

Lemma text_fits_app n m s t : text_fits (n, s) -> text_fits (m, t) -> text_fits ((n + m)%nat, s ++ t).
Proof.
  intros (L & F & A & S) (L' & F' & A' & S'). cbn [fst snd] in *. split; [cbn [fst snd]; rewrite app_length; lia|].
  split; [now apply Forall_app|]. cbn [snd]. split; [rewrite in_app_iff; tauto|]. intros u Hu.
  destruct t as [|c t0]; [rewrite app_nil_r in Hu; now apply (S u)|].
  destruct (@exists_last N (c :: t0)) as (v & x & E); [discriminate|]. rewrite E, app_assoc in Hu.
  apply app_inj_tail in Hu as [_ ->]. now apply (S' v).
Qed.

Lemma non_empty_fits n t : text_fits (n, t) -> Forall text_fits (map (pair n) (present (non_empty t))).
Proof. destruct t; cbn [non_empty present map]; intros H; [constructor|]. constructor; [exact H|constructor]. Qed.

Lemma present_choose_text n (a b : option str) :
  Forall text_fits (map (pair n) (present a)) -> Forall text_fits (map (pair n) (present b)) ->
  Forall text_fits (map (pair n) (present (choose_some a b))).
Proof. destruct a; cbn [choose_some]; auto. Qed.

Lemma texts_fit ovf now s p r :
  reachable ovf p -> fst (parse_sentence ovf now s p) = Ok r -> Forall text_fits (texts 120 r).
Proof.
  intros Hr H. revert Hr H. apply (reports_have (fun r => Forall text_fits (texts 120 r)) ovf); clear.
  - constructor.
  - intros [] E; try discriminate E; constructor.
  - intros bits own st r H. injection H as <-. constructor.
  - intros bits own st r H. unfold handle_t4 in H. inv_binds H. injection H as <-. constructor.
  - intros now bits own st r H. unfold handle_t5 in H.
    destruct (pick_string bits 70 7) as [a| |] eqn:E1; cbn [bind] in H; try discriminate H.
    destruct (pick_string bits 112 20) as [b| |] eqn:E2; cbn [bind] in H; try discriminate H.
    destruct (pick_eta _ _ _); cbn [bind] in H; try discriminate H.
    destruct (pick_string bits 302 20) as [c| |] eqn:E3; cbn [bind] in H; try discriminate H.
    injection H as <-. cbn [texts vsd_call_sign vsd_name vsd_equipment_vendor_id vsd_destination].
    apply pick_string_fits in E1, E2, E3.
    repeat (apply Forall_app; split); try apply non_empty_fits; auto; [|constructor].
    destruct E2 as [L E2]. split; [cbn in L |- *; lia|exact E2].
  - intros bits own st r H. injection H as <-. constructor.
  - intros bits own st r H. injection H as <-. constructor.
  - intros bits own st r H. injection H as <-. constructor.
  - intros bits own st r H. injection H as <-. constructor.
  - intros bits own st r H. unfold handle_t21 in H.
    destruct (pick_string bits 43 20) as [a| |] eqn:E1; cbn [bind] in H; try discriminate H.
    destruct (pick_string bits 272 14) as [b| |] eqn:E2; cbn [bind] in H; try discriminate H.
    injection H as <-. cbn [texts atn_name]. constructor; [|constructor].
    apply pick_string_fits in E1, E2. exact (text_fits_app 20 14 _ _ E1 E2).
  - intros bits own st r H. injection H as <-. constructor.
  - intros bits own b v H. unfold t24_fields in H. destruct b.
    + destruct (pick_string bits 90 7) as [a| |] eqn:E1; cbn [bind] in H; try discriminate H.
      destruct (pick_string bits 48 3) as [c| |] eqn:E2; cbn [bind] in H; try discriminate H.
      injection H as <-. cbn [texts vsd_call_sign vsd_name vsd_equipment_vendor_id vsd_destination present map app].
      apply pick_string_fits in E1, E2. apply Forall_app. split; [now apply non_empty_fits|]. constructor; [exact E2|constructor].
    + cbn [bind] in H. destruct (pick_string bits 40 120) as [a| |] eqn:E1; cbn [bind] in H; try discriminate H.
      injection H as <-. cbn [texts vsd_call_sign vsd_name vsd_equipment_vendor_id vsd_destination present map app].
      apply pick_string_fits in E1. rewrite app_nil_r. now apply non_empty_fits.
  - intros v w d Hv Hw H. merge_fields H. cbn [texts vsd_call_sign vsd_name vsd_equipment_vendor_id vsd_destination] in *.
    repeat (apply Forall_app in Hv as [X Hv]; apply Forall_app in Hw as [Y Hw]; apply Forall_app; split;
      [now apply present_choose_text|clear X Y]).
    now apply present_choose_text.
Qed.

(** Partial: the name of a class B vessel may be longer than the documented 20 characters. *)
Theorem c71_texts_partial ovf now s p r n t :
  reachable ovf p -> fst (parse_sentence ovf now s p) = Ok r -> In (n, t) (texts 120 r) ->
  (List.length t <= n)%nat /\ six_bit_text t.
Proof.
  intros Hr H I. pose proof (texts_fit _ _ _ _ _ Hr H) as F. rewrite Forall_forall in F. exact (F _ I).
Qed.
Print Assumptions c71_texts_partial.

(** Voyage reports alone keep to the 20 characters. *)
Theorem c71_voyage_name ovf now s p tt fff payload r n t :
  completes s tt fff p payload -> bits_at (payload_bits payload) 0 6 = 5 ->
  fst (parse_sentence ovf now s p) = Ok r -> In (n, t) (texts 20 r) -> (List.length t <= n)%nat /\ six_bit_text t.
Proof.
  intros C T H I. destruct (completes_step ovf now _ _ _ _ _ C) as (q & _ & E). rewrite E in H. unfold decode_payload in H.
  destruct (parse_payload ovf payload) as [bits|e|] eqn:Hb; [|injection H as <-; destruct I|discriminate].
  apply payload_bits_model in Hb. rewrite <- Hb in T. unfold bits_at in T.
  unfold dispatch_message in H. rewrite pick_u64_spec in H by lia. rewrite T in H. cbn [fst] in H.
  unfold handle_t5 in H.
  destruct (pick_string bits 70 7) as [a| |] eqn:E1; cbn [bind] in H; try discriminate H.
  destruct (pick_string bits 112 20) as [b| |] eqn:E2; cbn [bind] in H; try discriminate H.
  destruct (pick_eta _ _ _); cbn [bind] in H; try discriminate H.
  destruct (pick_string bits 302 20) as [c| |] eqn:E3; cbn [bind] in H; try discriminate H.
  injection H as <-. cbn [texts vsd_call_sign vsd_name vsd_equipment_vendor_id vsd_destination] in I.
  apply pick_string_fits in E1, E2, E3.
  assert (F : Forall text_fits (map (pair 7%nat) (present (non_empty a)) ++ map (pair 20%nat) (present (non_empty b)) ++
              map (pair 3%nat) (present None) ++ map (pair 20%nat) (present (non_empty c)))).
  { repeat (apply Forall_app; split); try apply non_empty_fits; auto; constructor. }
  rewrite Forall_forall in F. exact (F _ I).
Qed.
Print Assumptions c71_voyage_name.

(** Texts that may be left out are never empty. *)
Theorem c71_texts_not_empty ovf now s p r t :
  reachable ovf p -> fst (parse_sentence ovf now s p) = Ok r -> In t (optional_texts r) -> t <> [].
Proof.
  intros Hr H. assert (F : Forall (fun t => t <> []) (optional_texts r)); [|rewrite Forall_forall in F; intros X; exact (F _ X)].
  assert (N0 : forall t, Forall (fun t : str => t <> []) (present (non_empty t))).
  { intros [|c u]; cbn [non_empty present]; repeat constructor. discriminate. }
  revert Hr H. apply (reports_have (fun r => Forall (fun t => t <> []) (optional_texts r)) ovf); clear - N0.
  - constructor.
  - intros [] E; try discriminate E; constructor.
  - intros bits own st r H. injection H as <-. constructor.
  - intros bits own st r H. unfold handle_t4 in H. inv_binds H. injection H as <-. constructor.
  - intros now bits own st r H. unfold handle_t5 in H. inv_binds H. injection H as <-.
    cbn [optional_texts vsd_call_sign vsd_name vsd_destination]. repeat (apply Forall_app; split); apply N0.
  - intros bits own st r H. injection H as <-. constructor.
  - intros bits own st r H. injection H as <-. constructor.
  - intros bits own st r H. injection H as <-. constructor.
  - intros bits own st r H. injection H as <-. constructor.
  - intros bits own st r H. unfold handle_t21 in H. inv_binds H. injection H as <-. constructor.
  - intros bits own st r H. injection H as <-. constructor.
  - intros bits own b v H. unfold t24_fields in H. inv_binds H. injection H as <-.
    cbn [optional_texts vsd_call_sign vsd_name vsd_destination present].
    destruct b; cbn [present app]; repeat (apply Forall_app; split); auto.
  - intros v w d Hv Hw H. merge_fields H. cbn [optional_texts vsd_call_sign vsd_name vsd_destination] in *.
    assert (C : forall a b, Forall (fun t : str => t <> []) (present a) -> Forall (fun t : str => t <> []) (present b) ->
      Forall (fun t : str => t <> []) (present (choose_some a b))) by (intros [] b; cbn [choose_some]; auto).
    repeat (apply Forall_app in Hv as [X Hv]; apply Forall_app in Hw as [Y Hw]; apply Forall_app; split;
      [now apply C|clear X Y]).
    now apply C.
Qed.
Print Assumptions c71_texts_not_empty.

(** A class B vessel with a name of 31 characters. *)
Definition ex_long_name : str :=
  encode_sentence (lit "AI") (lit "VDM") (lit "A")
    (layout_bits [U 6 24; U 2 0; U 30 271041815; U 2 0; T 31 (map six_code (lit "PROGUY PROGUY PROGUY PROGUY PRO"))]).

Theorem c71_name_length_refuted :
  exists s1 s2 d t, results true [(ex_now, s1); (ex_now, s2)] new_parser = [Ok PsIncomplete; Ok (PsVesselStaticData d)] /\
    In (20%nat, t) (texts 20 (PsVesselStaticData d)) /\ (20 < List.length t)%nat.
Proof.
  exists ex_long_name, ex_part_b. eexists _, (lit "PROGUY PROGUY PROGUY PROGUY PRO").
  split; [vm_compute; reflexivity|]. split; [cbn; tauto|]. vm_compute. repeat constructor.
Qed.
Print Assumptions c71_name_length_refuted.

Example c71_example :
  (let p := after true [(ex_now, ex_part_a)] new_parser in
   reachable true p /\ exists d, fst (parse_sentence true ex_now ex_part_b p) = Ok (PsVesselStaticData d) /\
     In (7%nat, lit "TC6163") (texts 120 (PsVesselStaticData d)) /\ In (lit "PROGUY") (optional_texts (PsVesselStaticData d))) /\
  exists s payload d, completes s (lit "AI") (lit "VDM") new_parser payload /\ bits_at (payload_bits payload) 0 6 = 5 /\
    fst (parse_sentence true ex_now s new_parser) = Ok (PsVesselStaticData d) /\
    In (20%nat, lit "EVER DIADEM") (texts 20 (PsVesselStaticData d)).
Proof.
  split.
  - split; [now exists [(ex_now, ex_part_a)]|]. eexists. split; [vm_compute; reflexivity|]. split; cbn; tauto.
  - eexists (encode_sentence _ _ _ _), (armor _). eexists. split.
    + apply complete_one. apply (encode_sentence_one_fragment _ _ (lit "A") (voyage_bits 0 351759000 0 9134270
        (map six_code (lit "3FOF8") ++ repeat 32 2 ++ []) (map six_code (lit "EVER DIADEM") ++ repeat 32 9 ++ [])
        70 225 70 1 31 1 5 15 14 0 122 (map six_code (lit "NEW YORK") ++ repeat 32 12 ++ []) false 0));
        [reflexivity|now apply plain_lit_dec|now left|now apply plain_lit_dec].
    + split; [vm_compute; reflexivity|]. split; [vm_compute; reflexivity|]. cbn; tauto.
Qed.

(** ** C72 *)

(** An IMO number, when present, is not 0. Partial: it can be above 999999999 (see below). *)
Theorem c72_imo_partial ovf now s p d n :
  reachable ovf p -> fst (parse_sentence ovf now s p) = Ok (PsVesselStaticData d) -> vsd_imo_number d = Some n ->
  1 <= n < 2 ^ 30.
Proof.
  intros Hr H Hn. split.
  - set (P := fun r => match r with PsVesselStaticData d => vsd_imo_number d <> Some 0 | _ => True end).
    assert (P (PsVesselStaticData d)) as X; [|unfold P in X; destruct n; [congruence|lia]].
    revert Hr H. apply (reports_have P ovf); clear; unfold P.
    + exact Logic.I.
    + now intros [].
    + intros bits own st r H. injection H as <-. exact Logic.I.
    + intros bits own st r H. unfold handle_t4 in H. inv_binds H. injection H as <-. exact Logic.I.
    + intros now bits own st r H. unfold handle_t5 in H. inv_binds H. injection H as <-. cbn [vsd_imo_number].
      destruct (N.eqb_spec (as_u32 (pick_u64 bits 40 30)) 0); congruence.
    + intros bits own st r H. injection H as <-. exact Logic.I.
    + intros bits own st r H. injection H as <-. exact Logic.I.
    + intros bits own st r H. injection H as <-. exact Logic.I.
    + intros bits own st r H. injection H as <-. exact Logic.I.
    + intros bits own st r H. unfold handle_t21 in H. inv_binds H. injection H as <-. exact Logic.I.
    + intros bits own st r H. injection H as <-. exact Logic.I.
    + intros bits own b v H. unfold t24_fields in H. inv_binds H. injection H as <-. discriminate.
    + intros v w d Hv Hw H. merge_fields H. cbn [vsd_imo_number]. now destruct (vsd_imo_number v).
  - apply (c70_numbers_fit _ _ _ _ _ _ _ Hr H). unfold numbers. rewrite Hn. rewrite !in_app_iff. cbn. tauto.
Qed.
Print Assumptions c72_imo_partial.

(** "IMO number (1-999999999)", "draught (1-255)": the largest 30-bit number and draught 0, which stands
    for "not available", are reported. *)
Theorem c72_documented_ranges_refuted :
  exists s d, parse_sentence true ex_now s new_parser = (Ok (PsVesselStaticData d), new_parser) /\
    vsd_imo_number d = Some 1073741823 /\ vsd_draught10 d = Some 0.
Proof.
  exists (encode_sentence (lit "AI") (lit "VDM") (lit "A") (voyage_bits 0 351759000 0 1073741823
    (map six_code (lit "3FOF8") ++ repeat 32 2 ++ []) (map six_code (lit "EVER DIADEM") ++ repeat 32 9 ++ [])
    70 225 70 1 31 1 5 15 14 0 0 (map six_code (lit "NEW YORK") ++ repeat 32 12 ++ []) false 0)).
  eexists. split; [vm_compute; reflexivity|]. split; reflexivity.
Qed.
Print Assumptions c72_documented_ranges_refuted.

Example c72_example :
  exists d, reachable true new_parser /\
    fst (parse_sentence true ex_now (encode_sentence (lit "AI") (lit "VDM") (lit "A") (voyage_bits 0 351759000 0 9134270
    (map six_code (lit "3FOF8") ++ repeat 32 2 ++ []) (map six_code (lit "EVER DIADEM") ++ repeat 32 9 ++ [])
    70 225 70 1 31 1 5 15 14 0 122 (map six_code (lit "NEW YORK") ++ repeat 32 12 ++ []) false 0)) new_parser) =
    Ok (PsVesselStaticData d) /\ vsd_imo_number d = Some 9134270.
Proof. eexists. split; [now exists []|]. split; [vm_compute; reflexivity|reflexivity]. Qed.
