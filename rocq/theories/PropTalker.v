(** C91: who sent a sentence shows in the fields for that only. *)
From stdpp Require Import gmap.
From Coq Require Import List NArith ZArith Bool String Lia.
From Verif Require Import Base Str F64 Chrono Types Util AisMod Vdm Gnss Parser
  SpecText SpecResult SpecAis SpecTime SpecFields SpecState SpecTalker StrFacts FrontFacts CallFacts ResultFacts BitFacts
  VdmFacts StateFacts FieldFacts PropFront PropState PropGsv PropFields.
Import ListNotations.
Open Scope N_scope.

Local Opaque pick_string pick_u64 pick_i64 pick_eta parse_f64 be_value.

(** ** AIS *)

Lemma dispatch_both (P : outcome ParseError ParsedSentence * NmeaParser -> outcome ParseError ParsedSentence * NmeaParser -> Prop)
    now t t' bv st st' own own' p p' :
  P (handle_t1t2t3 bv st own, p) (handle_t1t2t3 bv st' own', p') ->
  P (handle_t4 bv st own, p) (handle_t4 bv st' own', p') ->
  P (handle_t5 now bv st own, p) (handle_t5 now bv st' own', p') ->
  P (handle_t6 bv st own, p) (handle_t6 bv st' own', p') ->
  P (handle_t9 bv st own, p) (handle_t9 bv st' own', p') ->
  P (handle_t10 bv st own, p) (handle_t10 bv st' own', p') ->
  P (handle_t18 bv st own, p) (handle_t18 bv st' own', p') ->
  P (handle_t19 bv st own, p) (handle_t19 bv st' own', p') ->
  P (handle_t21 bv st own, p) (handle_t21 bv st' own', p') ->
  P (handle_t24 bv st p own) (handle_t24 bv st' p' own') ->
  P (handle_t27 bv st own, p) (handle_t27 bv st' own', p') ->
  (forall n, P (unsupported_message t n, p) (unsupported_message t' n, p')) ->
  P (dispatch_message now t bv st own p) (dispatch_message now t' bv st' own' p').
Proof.
  intros H1 H4 H5 H6 H9 H10 H18 H19 H21 H24 H27 HO. unfold dispatch_message. cbv zeta. generalize (pick_u64 bv 0 6). intros n.
  destruct n as [|q]; [apply HO|].
  do 5 (destruct q as [q|q|]; [| |first [assumption|apply HO]]); first [assumption|apply HO].
Qed.

Section Renaming.
  Context (g f : str -> str).

  Definition same_vessels (p p' : NmeaParser) : Prop :=
    forall m, option_map VesselStaticData_unmarked (saved_vsds p !! m) = option_map VesselStaticData_unmarked (saved_vsds p' !! m).

  (** The same part of a GSV group, but for the type at the start. *)
  Definition same_part (o o' : option str) : Prop :=
    match o, o' with
    | None, None => True
    | Some b, Some b' => exists h h' fields, split_on 44 b = h :: fields /\ split_on 44 b' = h' :: fields
    | _, _ => False
    end.

  Definition same_texts (p p' : NmeaParser) : Prop :=
    (forall fff mid channel n, fff = lit "VDM" \/ fff = lit "VDO" -> f fff = lit "VDM" \/ f fff = lit "VDO" ->
       kept p (fragment_key fff mid channel n) = kept p' (fragment_key (f fff) mid channel n)) /\
    (forall tt c n, plain tt -> plain (g tt) -> same_part (kept p (gsv_key tt c n)) (kept p' (gsv_key (g tt) c n))).

  Definition same_state (p p' : NmeaParser) : Prop := same_texts p p' /\ same_vessels p p'.
  Definition same_call (c c' : outcome ParseError ParsedSentence * NmeaParser) : Prop :=
    same_apart f (fst c) (fst c') /\ same_state (snd c) (snd c').

  Lemma same_call_intro r r' p p' : same_apart f r r' -> same_state p p' -> same_call (r, p) (r', p').
  Proof. intros H1 H2. now split. Qed.

  Lemma vsd_fields a b : VesselStaticData_unmarked a = VesselStaticData_unmarked b ->
    b = {| vsd_own_vessel := vsd_own_vessel b; vsd_ais_type := vsd_ais_type a; vsd_mmsi := vsd_mmsi a;
     vsd_ais_version_indicator := vsd_ais_version_indicator a; vsd_imo_number := vsd_imo_number a;
     vsd_call_sign := vsd_call_sign a; vsd_name := vsd_name a; vsd_ship_type := vsd_ship_type a;
     vsd_cargo_type := vsd_cargo_type a; vsd_equipment_vendor_id := vsd_equipment_vendor_id a;
     vsd_equipment_model := vsd_equipment_model a;
     vsd_equipment_serial_number := vsd_equipment_serial_number a;
     vsd_dimension_to_bow := vsd_dimension_to_bow a; vsd_dimension_to_stern := vsd_dimension_to_stern a;
     vsd_dimension_to_port := vsd_dimension_to_port a;
     vsd_dimension_to_starboard := vsd_dimension_to_starboard a;
     vsd_position_fix_type := vsd_position_fix_type a; vsd_eta := vsd_eta a;
     vsd_draught10 := vsd_draught10 a; vsd_destination := vsd_destination a;
     vsd_mothership_mmsi := vsd_mothership_mmsi a |}.
  Proof. destruct a, b. unfold VesselStaticData_unmarked. cbn. intros E. injection E. intros. subst. reflexivity. Qed.

  Lemma merge_both a a' b b' : VesselStaticData_unmarked a = VesselStaticData_unmarked a' ->
    VesselStaticData_unmarked b = VesselStaticData_unmarked b' ->
    same_apart f (let! m := map_err InvalidSentence (merge a b) in Ok (PsVesselStaticData m))
                 (let! m := map_err InvalidSentence (merge a' b') in Ok (PsVesselStaticData m)).
  Proof.
    intros Ha Hb. apply vsd_fields in Ha, Hb. rewrite Ha, Hb. clear. unfold merge.
    cbn [vsd_ais_type vsd_mmsi vsd_imo_number vsd_ais_version_indicator].
    destruct (negb _); [apply apart_error|]. destruct (negb _); [apply apart_error|].
    destruct (negb _); [apply apart_error|]. destruct (negb _); [apply apart_error|]. apply apart_report. reflexivity.
  Qed.

  Lemma t24_both bv st st' own own' p p' : same_state p p' -> same_call (handle_t24 bv st p own) (handle_t24 bv st' p' own').
  Proof.
    intros [T V]. unfold handle_t24.
    destruct (_ || _); [|apply same_call_intro; [apply apart_error|now split]].
    set (pb := pick_u64 bv 38 2 =? 1). unfold t24_fields.
    destruct (if pb then pick_string bv 90 7 else Ok []) as [cs|e|]; cbn [bind];
      [|apply same_call_intro; [apply apart_error|now split]|apply same_call_intro; [apply apart_panic|now split]].
    destruct (if pb then Ok [] else pick_string bv 40 120) as [name|e|]; cbn [bind];
      [|apply same_call_intro; [apply apart_error|now split]|apply same_call_intro; [apply apart_panic|now split]].
    destruct (if pb then pick_string bv 48 3 else Ok []) as [vendor|e|]; cbn [bind];
      [|apply same_call_intro; [apply apart_error|now split]|apply same_call_intro; [apply apart_panic|now split]].
    cbv zeta.
    match goal with |- same_call (t24_store ?a p) (t24_store ?b p') =>
      assert (E : VesselStaticData_unmarked a = VesselStaticData_unmarked b) by reflexivity;
      assert (Em : vsd_mmsi a = vsd_mmsi b) by reflexivity; set (v := a) in *; set (w := b) in * end.
    clearbody v w. unfold t24_store, pull_vsd. rewrite <- Em. pose proof (V (vsd_mmsi v)) as M.
    destruct (saved_vsds p !! vsd_mmsi v) as [x|], (saved_vsds p' !! vsd_mmsi v) as [y|]; try discriminate M.
    - cbn [option_map] in M. apply (inj Some) in M. apply same_call_intro; [now apply merge_both|]. split; [exact T|].
      intros m. cbn [saved_vsds]. destruct (decide (m = vsd_mmsi v)) as [-> |N]; [now rewrite !lookup_delete|].
      rewrite !lookup_delete_ne by congruence. apply V.
    - apply same_call_intro; [now apply apart_report|]. split; [exact T|].
      intros m. cbn [push_vsd saved_vsds]. destruct (decide (m = vsd_mmsi v)) as [-> |N]; [now rewrite !lookup_insert; cbn; f_equal|].
      rewrite !lookup_insert_ne, !lookup_delete_ne by congruence. apply V.
  Qed.

  Lemma decode_both ovf now fff payload st st' p p' : same_state p p' ->
    same_call (decode_payload ovf now fff payload st p) (decode_payload ovf now (f fff) payload st' p').
  Proof.
    intros S. unfold decode_payload. destruct (parse_payload ovf payload) as [bv|e|].
    2: apply same_call_intro; [now apply apart_report|exact S].
    2: apply same_call_intro; [apply apart_panic|exact S].
    apply dispatch_both; try (apply same_call_intro; [|exact S]).
    - apply apart_report. reflexivity.
    - unfold handle_t4. destruct (ymd_and_hms _ _ _ _ _ _) as [ts|e|]; cbn [bind]; [apply apart_report; reflexivity|apply apart_error|apply apart_panic].
    - unfold handle_t5. cbv zeta.
      destruct (pick_string bv 70 7) as [x|e|]; cbn [bind]; [|apply apart_error|apply apart_panic].
      destruct (pick_string bv 112 20) as [y|e|]; cbn [bind]; [|apply apart_error|apply apart_panic].
      destruct (pick_eta bv 274 now) as [z|e|]; cbn [bind]; [|apply apart_error|apply apart_panic].
      destruct (pick_string bv 302 20) as [w|e|]; cbn [bind]; [|apply apart_error|apply apart_panic].
      apply apart_report. reflexivity.
    - apply apart_report. reflexivity.
    - apply apart_report. reflexivity.
    - apply apart_report. reflexivity.
    - apply apart_report. reflexivity.
    - apply apart_error.
    - unfold handle_t21.
      destruct (pick_string bv 43 20) as [x|e|]; cbn [bind]; [|apply apart_error|apply apart_panic].
      destruct (pick_string bv 272 14) as [y|e|]; cbn [bind]; [|apply apart_error|apply apart_panic].
      apply apart_report. reflexivity.
    - now apply t24_both.
    - apply apart_report. reflexivity.
    - intros n. apply same_call_intro; [|exact S]. exact (apart_no_decoder f fff (dec n)).
  Qed.

  Context (Hf : distinct_names f) (Hg : distinct_names g).

  (** Storing or removing the same text under both names. *)
  Lemma fragment_alter (fff : str) (mid : N) (channel : str) (n : N) (h h' : gmap str str -> gmap str str) (o : option str) (p p' : NmeaParser) :
    fff = lit "VDM" \/ fff = lit "VDO" -> f fff = lit "VDM" \/ f fff = lit "VDO" ->
    (forall (m : gmap str str) (k : str), h m !! k = if decide (k = fragment_key fff mid channel n) then o else m !! k) ->
    (forall (m : gmap str str) (k : str), h' m !! k = if decide (k = fragment_key (f fff) mid channel n) then o else m !! k) ->
    same_state p p' ->
    same_state (mk_parser (h (saved_fragments p)) (saved_vsds p)) (mk_parser (h' (saved_fragments p')) (saved_vsds p')).
  Proof.
    intros F F' H H' [[T1 T2] V]. split; [|exact V]. split.
    - intros fff' mid' channel' n' G G'. unfold kept. cbn [saved_fragments]. rewrite H, H'.
      destruct (decide (fragment_key fff' mid' channel' n' = fragment_key fff mid channel n)) as [E|N].
      + apply fragment_key_inj in E as (-> & -> & -> & ->); auto. now rewrite decide_True.
      + rewrite decide_False; [now apply T1|]. intros E. apply fragment_key_inj in E as (E & -> & -> & ->); auto.
        apply Hf in E. subst fff'. now apply N.
    - intros tt c k P P'. unfold kept. cbn [saved_fragments]. rewrite H, H'.
      rewrite !decide_False by (intros E; first [now apply fragment_key_gsv_key in E|symmetry in E; now apply fragment_key_gsv_key in E]).
      now apply T2.
  Qed.

  Lemma gsv_alter (tt : str) (c n : N) (h h' : gmap str str -> gmap str str) (o o' : option str) (p p' : NmeaParser) :
    plain tt -> plain (g tt) -> same_part o o' ->
    (forall (m : gmap str str) (k : str), h m !! k = if decide (k = gsv_key tt c n) then o else m !! k) ->
    (forall (m : gmap str str) (k : str), h' m !! k = if decide (k = gsv_key (g tt) c n) then o' else m !! k) ->
    same_state p p' ->
    same_state (mk_parser (h (saved_fragments p)) (saved_vsds p)) (mk_parser (h' (saved_fragments p')) (saved_vsds p')).
  Proof.
    intros P P' O H H' [[T1 T2] V]. split; [|exact V]. split.
    - intros fff mid channel k G G'. unfold kept. cbn [saved_fragments]. rewrite H, H'.
      rewrite !decide_False by (intros E; first [now apply fragment_key_gsv_key in E|symmetry in E; now apply fragment_key_gsv_key in E]).
      now apply T1.
    - intros tt' c' n' Q Q'. unfold kept. cbn [saved_fragments]. rewrite H, H'.
      destruct (decide (gsv_key tt' c' n' = gsv_key tt c n)) as [E|N].
      + apply gsv_key_inj in E as (-> & -> & ->); auto. now rewrite decide_True.
      + rewrite decide_False; [now apply T2|]. intros E. apply gsv_key_inj in E as (E & -> & ->); auto.
        apply Hg in E. subst tt'. now apply N.
  Qed.

  Lemma ais_both ovf now s s' tt tt' fff fields p p' : vdm_with s tt fff fields -> vdm_with s' tt' (f fff) fields ->
    same_state p p' -> same_call (parse_sentence ovf now s p) (parse_sentence ovf now s' p').
  Proof.
    intros H H' S. pose proof (vdm_with_formatter _ _ _ _ H) as F. pose proof (vdm_with_formatter _ _ _ _ H') as F'.
    rewrite (vdm_with_step ovf now _ p _ _ _ H), (vdm_with_step ovf now _ p' _ _ _ H'). cbn [vdm_scan].
    destruct (vdm_scan 1 vdm_start fields) as [v|e|];
      [|apply same_call_intro; [apply apart_error|exact S]|apply same_call_intro; [apply apart_panic|exact S]].
    unfold vdm_payload. destruct (N.eqb_spec (vf_count v) 1) as [E1|E1]; [now apply decode_both|].
    assert (W : same_call (Ok PsIncomplete, p) (Ok PsIncomplete, p')) by (apply same_call_intro; [now apply apart_report|exact S]).
    destruct (N.eqb_spec (vf_count v) 2) as [E2|E2]; [rewrite E2|exact W].
    destruct (vf_id v) as [mid|]; [|exact W]. cbv zeta. rewrite !fragment_key_model. unfold pull_string.
    assert (L : forall n, saved_fragments p !! fragment_key fff mid (unwrap_or (vf_channel v) []) n
                        = saved_fragments p' !! fragment_key (f fff) mid (unwrap_or (vf_channel v) []) n)
      by (intros n; now apply (proj1 (proj1 S))).
    assert (D : forall n q q', same_state q q' ->
      same_state (without (fragment_key fff mid (unwrap_or (vf_channel v) []) n) q)
                 (without (fragment_key (f fff) mid (unwrap_or (vf_channel v) []) n) q')).
    { intros n q q' Q. apply (fragment_alter fff mid (unwrap_or (vf_channel v) []) n (delete _) (delete _) None); auto.
      - intros m k. destruct (decide _) as [-> |N]; [apply lookup_delete|apply lookup_delete_ne; congruence].
      - intros m k. destruct (decide _) as [-> |N]; [apply lookup_delete|apply lookup_delete_ne; congruence]. }
    assert (I : forall n a q q', same_state q q' ->
      same_state (push_string (fragment_key fff mid (unwrap_or (vf_channel v) []) n) a q)
                 (push_string (fragment_key (f fff) mid (unwrap_or (vf_channel v) []) n) a q')).
    { intros n a q q' Q. apply (fragment_alter fff mid (unwrap_or (vf_channel v) []) n (insert _ a) (insert _ a) (Some a)); auto.
      - intros m k. destruct (decide _) as [-> |N]; [apply lookup_insert|apply lookup_insert_ne; congruence].
      - intros m k. destruct (decide _) as [-> |N]; [apply lookup_insert|apply lookup_insert_ne; congruence]. }
    destruct (vf_number v =? 1).
    - rewrite <- L. specialize (D 2 p p' S). unfold without in D.
      destruct (saved_fragments p !! _) as [b|]; [now apply decode_both|]. apply same_call_intro; [now apply apart_report|now apply I].
    - destruct (vf_number v =? 2); [|exact W]. rewrite <- L. specialize (D 1 p p' S). unfold without in D.
      destruct (saved_fragments p !! _) as [b|]; [now apply decode_both|]. apply same_call_intro; [now apply apart_report|now apply I].
  Qed.

  (** ** GNSS *)

  Lemma number_both {A} (parse : str -> option A) h h' fs i : number parse (h :: fs) (S i) = number parse (h' :: fs) (S i).
  Proof. reflexivity. Qed.
  Lemma lenient_both {A} (parse : str -> option A) h h' fs i : number_lenient parse (h :: fs) (S i) = number_lenient parse (h' :: fs) (S i).
  Proof. reflexivity. Qed.
  Lemma field_both h h' fs i : field (h :: fs) (S i) = field (h' :: fs) (S i).
  Proof. reflexivity. Qed.

  Lemma blocks_both nav nav' b b' h h' fs : split_on 44 b = h :: fs -> split_on 44 b' = h' :: fs ->
    map GsvData_unmarked (gsv_blocks nav b) = map GsvData_unmarked (gsv_blocks nav' b').
  Proof.
    intros E E'. unfold gsv_blocks. rewrite E, E'. cbv zeta. induction (seq 0 4) as [|j l IH]; [reflexivity|].
    cbn [flat_map]. rewrite !map_app, IH. f_equal.
    change (4 + 4 * j + 0)%nat with (S (3 + 4 * j + 0)). change (4 + 4 * j + 1)%nat with (S (3 + 4 * j + 1)).
    change (4 + 4 * j + 2)%nat with (S (3 + 4 * j + 2)). change (4 + 4 * j + 3)%nat with (S (3 + 4 * j + 3)).
    rewrite !(lenient_both _ h' h). destruct (number_lenient _ _ _); reflexivity.
  Qed.

  Lemma prns_both h h' fs nums : Forall (fun i => (1 <= i)%nat) nums -> gsa_prns (h :: fs) nums = gsa_prns (h' :: fs) nums.
  Proof.
    induction 1 as [|i nums Hi _ IH]; [reflexivity|]. destruct i as [|i]; [lia|]. cbn [gsa_prns].
    rewrite (field_both h h'), (number_both _ h h'), IH. reflexivity.
  Qed.

  Lemma plain_both now fff nav nav' b b' h h' fs r : split_on 44 b = h :: fs -> split_on 44 b' = h' :: fs ->
    plain_gnss now b nav fff r -> exists r', plain_gnss now b' nav' fff r' /\ same_apart f r r'.
  Proof.
    intros E E' P. destruct P; (eexists; split; [constructor|]).
    - unfold handle_gga. rewrite E, E'. cbv zeta. unfold number, pick_number_field, field. cbn [nth].
      repeat match goal with |- same_apart _ (bind ?m _) (bind ?m _) => destruct m; cbn [bind]; [|apply apart_error|apply apart_panic] end.
      apply apart_report. reflexivity.
    - unfold handle_rmc. rewrite E, E'. cbv zeta. unfold rmc_variation_field, number, pick_number_field, field. cbn [nth].
      repeat match goal with |- same_apart _ (bind ?m _) (bind ?m _) => destruct m; cbn [bind]; [|apply apart_error|apply apart_panic] end.
      apply apart_report. reflexivity.
    - unfold handle_gsa. rewrite E, E'. cbv zeta. rewrite (prns_both h' h) by (apply List.Forall_forall; intros i Hi; apply in_seq in Hi; lia).
      unfold number, pick_number_field, field. cbn [nth].
      repeat match goal with |- same_apart _ (bind ?m _) (bind ?m _) => destruct m; cbn [bind]; [|apply apart_error|apply apart_panic] end.
      apply apart_report. reflexivity.
    - unfold handle_vtg. rewrite E, E'. apply apart_report. reflexivity.
    - unfold handle_gll. rewrite E, E'. cbv zeta. unfold field. cbn [nth].
      repeat match goal with |- same_apart _ (bind ?m _) (bind ?m _) => destruct m; cbn [bind]; [|apply apart_error|apply apart_panic] end.
      apply apart_report. reflexivity.
  Qed.

  Lemma gsv_delete_both tt c n p p' : plain tt -> plain (g tt) -> same_state p p' ->
    same_state (without (gsv_key tt c n) p) (without (gsv_key (g tt) c n) p').
  Proof.
    intros P P' S. apply (gsv_alter tt c n (delete _) (delete _) None None); auto; [exact Logic.I|..].
    - intros m k. destruct (decide _) as [-> |N]; [apply lookup_delete|apply lookup_delete_ne; congruence].
    - intros m k. destruct (decide _) as [-> |N]; [apply lookup_delete|apply lookup_delete_ne; congruence].
  Qed.

  Lemma collect_both nav nav' tt c range p p' : plain tt -> plain (g tt) -> same_state p p' ->
    let r := gsv_collect nav (lit "$" ++ tt ++ lit "GSV") c range p in
    let r' := gsv_collect nav' (lit "$" ++ g tt ++ lit "GSV") c range p' in
    map GsvData_unmarked (fst r) = map GsvData_unmarked (fst r') /\ same_state (snd r) (snd r').
  Proof.
    intros P P'. revert p p'. induction range as [|i range IH]; intros p p' S; [now split|]. cbn [gsv_collect].
    unfold pull_string. rewrite !gsv_key_model.
    pose proof (proj2 (proj1 S) tt c i P P') as L. unfold kept in L.
    specialize (IH _ _ (gsv_delete_both tt c i _ _ P P' S)). unfold without in IH.
    destruct (gsv_collect nav _ c range _) as [v q], (gsv_collect nav' _ c range _) as [v' q']. cbn [fst snd] in *.
    destruct IH as [IH1 IH2]. split; [|exact IH2]. rewrite !map_app, IH1. f_equal.
    destruct (saved_fragments p !! _) as [b|], (saved_fragments p' !! _) as [b'|]; try contradiction; [|reflexivity].
    destruct L as (h & h' & fs & E & E'). now apply (blocks_both _ _ _ _ h h' fs).
  Qed.

  Lemma found_both tt c range p p' : plain tt -> plain (g tt) -> same_state p p' ->
    gsv_found (lit "$" ++ tt ++ lit "GSV") c range p = gsv_found (lit "$" ++ g tt ++ lit "GSV") c range p'.
  Proof.
    intros P P' S. rewrite !gsv_found_spec. f_equal. f_equal. apply List.filter_ext. intros i.
    pose proof (proj2 (proj1 S) tt c i P P') as L. unfold kept in L.
    destruct (saved_fragments p !! _), (saved_fragments p' !! _); try contradiction; reflexivity.
  Qed.

  Lemma gsv_both ovf nav nav' tt b b' fs p p' : plain tt -> plain (g tt) ->
    split_on 44 b = (lit "$" ++ tt ++ lit "GSV") :: fs -> split_on 44 b' = (lit "$" ++ g tt ++ lit "GSV") :: fs ->
    same_state p p' -> same_call (handle_gsv ovf b nav p) (handle_gsv ovf b' nav' p').
  Proof.
    intros P P' E E' S. unfold handle_gsv. rewrite E, E'. cbv zeta. unfold number, pick_number_field, field. cbn [nth].
    match goal with |- context [map_err InvalidSentence ?m] => destruct (map_err InvalidSentence m) as [oc|e|] end;
      [|apply same_call_intro; [apply apart_error|exact S]|apply same_call_intro; [apply apart_panic|exact S]].
    match goal with |- context [map_err InvalidSentence ?m] => destruct (map_err InvalidSentence m) as [on|e|] end;
      [|apply same_call_intro; [apply apart_error|exact S]|apply same_call_intro; [apply apart_panic|exact S]].
    rewrite !gsv_key_model.
    assert (Q : same_state (push_string (gsv_key tt (unwrap_or oc 0) (unwrap_or on 0)) b p)
                           (push_string (gsv_key (g tt) (unwrap_or oc 0) (unwrap_or on 0)) b' p')).
    { apply (gsv_alter tt (unwrap_or oc 0) (unwrap_or on 0) (insert _ b) (insert _ b') (Some b) (Some b')); auto.
      - do 3 eexists. split; [exact E|exact E'].
      - intros m k. destruct (decide _) as [-> |N]; [apply lookup_insert|apply lookup_insert_ne; congruence].
      - intros m k. destruct (decide _) as [-> |N]; [apply lookup_insert|apply lookup_insert_ne; congruence]. }
    destruct (gsv_range ovf _) as [range|]; [|apply same_call_intro; [apply apart_panic|exact Q]].
    rewrite (found_both _ _ _ _ _ P P' Q). destruct (_ =? _); [|apply same_call_intro; [now apply apart_report|exact Q]].
    pose proof (collect_both nav nav' tt (unwrap_or oc 0) range _ _ P P' Q) as C. cbv zeta in C.
    destruct (gsv_collect nav _ _ _ _) as [v q], (gsv_collect nav' _ _ _ _) as [v' q']. destruct C as [C1 C2].
    apply same_call_intro; [|exact C2]. apply apart_report. cbn [unmarked]. f_equal. exact C1.
  Qed.

  Lemma call_both ovf now s s' p p' : resent g f s s' -> same_state p p' ->
    same_call (parse_sentence ovf now s p) (parse_sentence ovf now s' p').
  Proof.
    intros R S. destruct R as [tt tt' fff fields H H'|tt fff fields F H H'|E NV NG].
    - eapply ais_both; eassumption.
    - pose proof (gnss_with_plain _ _ _ _ H) as P. pose proof (gnss_with_plain _ _ _ _ H') as P'.
      assert (K : fff = lit "GSV" \/ In fff [lit "GGA"; lit "RMC"; lit "GSA"; lit "VTG"; lit "GLL"]).
      { destruct F as [F|[F|[F|[F|[F|[F|[]]]]]]]; [right|right|right|right|right|left]; cbn; auto 9. }
      destruct K as [-> |K].
      + assert (G : forall s tt p, gnss_with s tt (lit "GSV") fields -> plain tt ->
          exists body, split_on 44 body = (lit "$" ++ tt ++ lit "GSV") :: fields /\
                       parse_sentence ovf now s p = handle_gsv ovf body (nav_of_talker tt) p).
        { clear. intros s tt p ((body & given & Hb & Hok & Hf) & Hne & Ht) Hp. exists body.
          apply has_fields_split in Hf. split; [now symmetry|].
          pose proof (proj2 (has_fields_split body _) Hf) as (_ & _ & Hj).
          rewrite join_cons in Hj by exact Hne. rewrite <- byte_len_spec in Ht.
          exact (parse_gsv ovf now s p body given tt _ Hb Hok Hj Hp Ht). }
        destruct (G s tt p H P) as (b & E & ->). destruct (G s' (g tt) p' H' P') as (b' & E' & ->).
        now apply (gsv_both _ _ _ tt b b' fields).
      + destruct (gnss_with_body _ _ _ _ H P) as (b & given & _ & _ & E & B).
        destruct (gnss_with_body _ _ _ _ H' P') as (b' & given' & _ & _ & E' & B').
        assert (X : exists r, plain_gnss now b (nav_of_talker tt) fff r)
          by (destruct K as [<-|[<-|[<-|[<-|[<-|[]]]]]]; eexists; constructor).
        destruct X as (r & X). destruct (plain_both now fff _ (nav_of_talker (g tt)) b b' _ _ _ r E E' X) as (r' & X' & A).
        rewrite (B ovf now p r X), (B' ovf now p' r' X'). now apply same_call_intro.
    - subst s'. destruct (sentence_kind ovf now s) as (k & K & Hk). rewrite !Hk.
      destruct K as [r|tt fff payload Hs|tt fff mid channel a Hs|tt fff mid channel b Hs|tt c n body given Hs Hb].
      + apply same_call_intro; [|exact S]. destruct r as [x|e|]; [now apply apart_report|apply apart_error|apply apart_panic].
      + exfalso. destruct Hs as (? & ? & ? & ? & ? & (? & Hs) & _). eapply NV, Hs.
      + exfalso. destruct Hs as (? & ? & ? & ? & Hs & _). eapply NV, Hs.
      + exfalso. destruct Hs as (? & ? & ? & ? & Hs & _). eapply NV, Hs.
      + exfalso. destruct Hs as (? & Hs & _). eapply NG, Hs.
  Qed.

  Lemma run_both ovf h h' : resent_all g f h h' -> forall p p', same_state p p' ->
    Forall2 (same_apart f) (results ovf h p) (results ovf h' p') /\ same_state (after ovf h p) (after ovf h' p').
  Proof.
    unfold results, after. induction 1 as [|[now s] [now' s'] h h' [En R] _ IH]; intros p p' S; [now split; [constructor|]|].
    cbn [fst snd] in *. subst now'. cbn [run]. pose proof (call_both ovf now s s' p p' R S) as [C1 C2].
    destruct (parse_sentence ovf now s p) as [r q], (parse_sentence ovf now s' p') as [r' q']. cbn [fst snd] in *.
    specialize (IH q q' C2). destruct (run ovf h q) as [rs q2], (run ovf h' q') as [rs' q2']. cbn [fst snd] in *.
    destruct IH as [I1 I2]. split; [now constructor|exact I2].
  Qed.
End Renaming.

(** Two histories in which the same contents came from others give results that are the same apart from
    [own_vessel], [station] and [source], call by call. *)
Theorem c91_resent g f ovf h h' :
  distinct_names g -> distinct_names f -> resent_all g f h h' ->
  Forall2 (same_apart f) (results ovf h new_parser) (results ovf h' new_parser).
Proof.
  intros Hg Hf R. apply (run_both g f Hf Hg ovf h h' R). split; [|intros m; reflexivity].
  split; intros; unfold kept, new_parser; cbn [saved_fragments]; rewrite !lookup_empty; [reflexivity|exact Logic.I].
Qed.
Print Assumptions c91_resent.

(** With the formatters kept, the talker of AIS sentences has no influence on the memory at all, and errors
    are equal. *)
Theorem c91_talker ovf now s s' tt tt' fff fields p :
  vdm_with s tt fff fields -> vdm_with s' tt' fff fields ->
  snd (parse_sentence ovf now s' p) = snd (parse_sentence ovf now s p) /\
  (forall e, fst (parse_sentence ovf now s p) = Err e <-> fst (parse_sentence ovf now s' p) = Err e) /\
  same_apart (fun x => x) (fst (parse_sentence ovf now s p)) (fst (parse_sentence ovf now s' p)).
Proof.
  intros H H'. assert (A : same_apart (fun x => x) (fst (parse_sentence ovf now s p)) (fst (parse_sentence ovf now s' p))).
  { eapply (ais_both (fun x => x) (fun x => x)); [intros a b E; exact E|exact H|exact H'|].
    split; [|intros m; reflexivity]. split; [reflexivity|]. intros t c n _ _. unfold same_part.
    destruct (kept p _) as [b|]; [|exact Logic.I]. destruct (split_on 44 b) as [|x l] eqn:E; [|now exists x, x, l].
    now destruct (split_on_nonempty 44 b). }
  split; [|split; [|exact A]].
  - rewrite (vdm_with_step ovf now _ p _ _ _ H), (vdm_with_step ovf now _ p _ _ _ H'). cbn [vdm_scan].
    destruct (vdm_scan 1 vdm_start fields) as [v|e|]; [|reflexivity|reflexivity].
    destruct (vdm_payload _ _ _) as [[pl|] q]; [|reflexivity]. unfold decode_payload.
    destruct (parse_payload ovf pl) as [bv|e|]; [|reflexivity|reflexivity].
    apply (dispatch_both (fun c c' => snd c = snd c')); reflexivity.
  - intros e. split; intros E; rewrite E in A; inversion A; reflexivity.
Qed.
Print Assumptions c91_talker.

(** A group of satellites of GPS and a message in two fragments, and the same from GLONASS and as own vessel. *)
Definition ex_swap (fff : str) : str :=
  if str_eqb fff (lit "VDM") then lit "VDO" else if str_eqb fff (lit "VDO") then lit "VDM" else fff.
Definition ex_other (tt : str) : str :=
  if str_eqb tt (lit "GP") then lit "GL" else if str_eqb tt (lit "GL") then lit "GP" else tt.
Definition marks (r : outcome ParseError ParsedSentence) : list NavigationSystem * list bool :=
  match r with
  | Ok (PsGsv l) => (map gsv_source l, [])
  | Ok (PsVesselStaticData d) => ([], [vsd_own_vessel d])
  | _ => ([], [])
  end.

Definition ex_resent (start s : str) : str := start ++ skipn (List.length start) (fst (split_checksum s)).

Example c91_example :
  let h := [(ex_now, ex_gsv3); (ex_now, ex_first); (ex_now, ex_gsv1); (ex_now, ex_gsv2); (ex_now, ex_second)] in
  let h' := [(ex_now, ex_resent (lit "$GLGSV") ex_gsv3); (ex_now, ex_resent (lit "!BSVDO") ex_first); (ex_now, ex_resent (lit "$GLGSV") ex_gsv1);
             (ex_now, ex_resent (lit "$GLGSV") ex_gsv2); (ex_now, ex_resent (lit "!AIVDO") ex_second)] in
  distinct_names ex_other /\ distinct_names ex_swap /\ resent_all ex_other ex_swap h h' /\
  map marks (results true h new_parser) = [([], []); ([], []); ([], []); (List.repeat NavGps 11, []); ([], [false])] /\
  map marks (results true h' new_parser) = [([], []); ([], []); ([], []); (List.repeat NavGlonass 11, []); ([], [true])] /\
  map reported_name (results true h' new_parser) = [None; None; None; None; Some (lit "EVER DIADEM")].
Proof.
  cbv zeta. split; [|split; [|split; [|split; [|split]; vm_compute; reflexivity]]].
  - intros a b. unfold ex_other. destruct (str_eqb_spec a (lit "GP")), (str_eqb_spec b (lit "GP")), (str_eqb_spec a (lit "GL")), (str_eqb_spec b (lit "GL")); congruence.
  - intros a b. unfold ex_swap.
    destruct (str_eqb_spec a (lit "VDM")), (str_eqb_spec b (lit "VDM")), (str_eqb_spec a (lit "VDO")), (str_eqb_spec b (lit "VDO")); congruence.
  - assert (A : forall s start tt', vdm_with s (lit "AI") (lit "VDM") (tl (split_on 44 (fst (split_checksum s)))) ->
      vdm_with (ex_resent start s) tt' (lit "VDO") (tl (split_on 44 (fst (split_checksum s)))) ->
      resent ex_other ex_swap s (ex_resent start s)) by (intros s start tt' H1 H2; exact (resent_ais _ _ _ _ (lit "AI") tt' (lit "VDM") _ H1 H2)).
    assert (G : forall s start, gnss_with s (lit "GP") (lit "GSV") (tl (split_on 44 (fst (split_checksum s)))) ->
      gnss_with (ex_resent start s) (lit "GL") (lit "GSV") (tl (split_on 44 (fst (split_checksum s)))) ->
      resent ex_other ex_swap s (ex_resent start s))
      by (intros s start H1 H2; refine (resent_gnss _ _ _ _ (lit "GP") (lit "GSV") _ _ H1 H2); cbn; auto 9).
    unfold resent_all. repeat (apply Forall2_cons; [split; [reflexivity|]; cbn [snd]|]); [..|apply Forall2_nil; exact Logic.I].
    + apply G; gnss.
    + eapply (A _ _ (lit "BS")); (apply check_vdm; [vm_compute; split; reflexivity|reflexivity]).
    + apply G; gnss.
    + apply G; gnss.
    + eapply (A _ _ (lit "AI")); (apply check_vdm; [vm_compute; split; reflexivity|reflexivity]).
Qed.
