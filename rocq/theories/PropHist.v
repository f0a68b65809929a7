(** C65, C66: where pending entries and reports come from; repeated sentences. *)
From stdpp Require Import gmap.
From Coq Require Import List NArith ZArith Bool String Lia.
From Verif Require Import Base Str F64 Chrono Types Util AisMod Vdm Gnss Parser
  SpecText SpecResult SpecAis SpecTime SpecState SpecGnss SpecReal SpecFields SpecPanic SpecHist
  StrFacts FrontFacts CallFacts ResultFacts BitFacts VdmFacts LayoutFacts StateFacts RunFacts FieldFacts
  PropFront PropAis PropState PropStatic PropGsv PropFields PropTables PropPanic SpecEnv PropEnv.
Import ListNotations.
Open Scope N_scope.
Local Opaque pick_string pick_u64 pick_i64 pick_eta parse_f64.

Lemma pick_bits_at bits i n : (n <= 64)%nat -> pick_u64 bits i n = bits_at bits i n.
Proof. intros H. now rewrite pick_u64_spec by lia. Qed.

Lemma str_eqb_vdo fff : str_eqb fff (lit "VDO") = true <-> fff = lit "VDO".
Proof. apply str_eqb_eq. Qed.

Lemma t24_fields_record fff bits v :
  bits_at bits 0 6 = 24 -> pick_u64 bits 38 2 = 0 \/ pick_u64 bits 38 2 = 1 ->
  t24_fields bits (str_eqb fff (lit "VDO")) (pick_u64 bits 38 2 =? 1) = Ok v ->
  part_record fff bits v.
Proof.
  intros Ht Hp H. destruct (t24_fields_facts _ _ _ _ H) as [Hm _]. unfold part_record.
  split; [exact Ht|]. split; [exact Hm|].
  rewrite <- (pick_bits_at bits 38 2) by lia.
  destruct Hp as [Hp|Hp]; rewrite Hp in H |- *; cbn [N.eqb Pos.eqb] in H; unfold t24_fields in H; inv_binds H;
    injection H as <-; cbn; rewrite str_eqb_vdo; tauto.
Qed.

Lemma decode_brings ovf now fff payload tt s p q e v :
  completes s tt fff p payload -> (forall m, stored q (Vessel m) = stored p (Vessel m)) ->
  stored (snd (decode_payload ovf now fff payload (station_of_talker tt) q)) e = Some v ->
  stored q e = Some v \/ brings s p e v.
Proof.
  intros C Hq. destruct (decode_act ovf now fff payload (station_of_talker tt))
    as [(r & ->)|(bits & d & H1 & H2 & H3 & H4 & H5 & _ & ->)]; [now left|].
  unfold t24_store, pull_vsd. destruct (saved_vsds q !! vsd_mmsi d) as [w|] eqn:E; cbn [snd]; intros H.
  - left. destruct e as [k|m]; [exact H|]. cbn [stored saved_vsds] in H |- *.
    destruct (decide (m = vsd_mmsi d)) as [-> |N]; [now rewrite lookup_delete in H|].
    now rewrite lookup_delete_ne in H by congruence.
  - destruct e as [k|m]; [now left|]. cbn [stored push_vsd saved_vsds] in H |- *.
    destruct (decide (m = vsd_mmsi d)) as [-> |N].
    + rewrite lookup_insert in H. cbn in H. injection H as <-. right. apply (bring_part s p tt fff payload d C).
      * pose proof (payload_bits_model _ _ _ H1) as Eb. subst bits. now apply t24_fields_record.
      * specialize (Hq (vsd_mmsi d)). rewrite <- Hq. unfold stored. now rewrite E.
    + left. now rewrite lookup_insert_ne, lookup_delete_ne in H by congruence.
Qed.

Lemma stored_push k x p e : stored (push_string k x p) e = if decide (e = Text k) then Some (inl x) else stored p e.
Proof.
  destruct e as [k'|m]; cbn [stored push_string saved_fragments saved_vsds].
  - destruct (decide (Text k' = Text k)) as [E|E].
    + injection E as ->. now rewrite lookup_insert.
    + rewrite lookup_insert_ne; [reflexivity|congruence].
  - destruct (decide (Vessel m = Text k)); [discriminate|reflexivity].
Qed.

Lemma collect_keeps nav t c range p e v :
  stored (snd (gsv_collect nav t c range p)) e = Some v -> stored p e = Some v.
Proof.
  revert p. induction range as [|i range IH]; intros p; cbn [gsv_collect]; [auto|].
  unfold pull_string.
  match goal with |- context [gsv_collect ?a ?b ?c ?d ?e] => specialize (IH e); destruct (gsv_collect a b c d e) as [l p2] end.
  cbn [snd] in *. intros H. apply IH in H. destruct e as [k|m]; [|exact H]. cbn [stored saved_fragments] in *.
  destruct (decide (make_gsv_key t c i = k)) as [E|N]; [subst k; now rewrite lookup_delete in H|].
  now rewrite lookup_delete_ne in H by exact N.
Qed.

(** An entry after a call was there before or is brought by the sentence. *)
Lemma call_brings ovf now s p e v :
  stored (snd (parse_sentence ovf now s p)) e = Some v -> stored p e = Some v \/ brings s p e v.
Proof.
  destruct (sentence_kind ovf now s) as (f & K & ->).
  destruct K as [r _|tt fff payload F|tt fff mid channel a F|tt fff mid channel b F|tt c n body given G B].
  - now left.
  - apply (decode_brings ovf now fff payload tt s p p); [now apply complete_one|reflexivity].
  - unfold first_step. destruct (kept p _) as [b|] eqn:E; intros H.
    + assert (C : completes s tt fff p (a ++ b)) by (eapply complete_first; [exact F|now apply stored_kept]).
      eapply decode_brings in H; [|exact C|reflexivity]. destruct H as [H|H]; [left|now right].
      rewrite stored_without in H. now destruct (decide _).
    + cbn [snd] in H. rewrite stored_push in H. destruct (decide _) as [-> |N]; [|now left].
      injection H as <-. right. apply (bring_half s p tt); [exact F|].
      change (3 - 1) with 2. intros x X. apply stored_kept in X. congruence.
  - unfold second_step. destruct (kept p _) as [a|] eqn:E; intros H.
    + assert (C : completes s tt fff p (a ++ b)) by (eapply complete_second; [exact F|now apply stored_kept]).
      eapply decode_brings in H; [|exact C|reflexivity]. destruct H as [H|H]; [left|now right].
      rewrite stored_without in H. now destruct (decide _).
    + cbn [snd] in H. rewrite stored_push in H. destruct (decide _) as [-> |N]; [|now left].
      injection H as <-. right. apply (bring_half s p tt); [exact F|].
      change (3 - 2) with 1. intros x X. apply stored_kept in X. congruence.
  - intros H.
    assert (X : stored (push_string (gsv_key tt c n) body p) e = Some v).
    { unfold gsv_step in H. destruct (gsv_range ovf c) as [range|]; [|exact H].
      destruct (_ =? c); [|exact H].
      match type of H with context [gsv_collect ?a ?b ?c ?d ?e] =>
        pose proof (collect_keeps a b c d e) as W; destruct (gsv_collect a b c d e) as [l p2] end.
      now apply W. }
    rewrite stored_push in X. destruct (decide _) as [-> |N]; [|now left].
    injection X as <-. right. eapply bring_gsv; eassumption.
Qed.

(** ** C65 *)

(** Everything pending was brought by some earlier sentence and was there ever since. *)
Theorem c65_pending_was_received ovf h e v :
  stored (after ovf h new_parser) e = Some v ->
  exists h1 now s h2, h = h1 ++ (now, s) :: h2 /\ brings s (after ovf h1 new_parser) e v /\
    forall g g', h2 = g ++ g' -> stored (after ovf (h1 ++ (now, s) :: g) new_parser) e = Some v.
Proof.
  induction h as [|[now s] h IH] using rev_ind.
  - destruct e; cbn; now rewrite lookup_empty.
  - intros H. pose proof H as H0. rewrite after_app, after_cons in H. cbn [after run snd] in H.
    apply call_brings in H as [H|H].
    + destruct (IH H) as (h1 & now1 & s1 & h2 & -> & B & P).
      exists h1, now1, s1, (h2 ++ [(now, s)]). rewrite <- app_assoc. split; [reflexivity|]. split; [exact B|].
      intros g g' E. destruct g' as [|x g'] using rev_ind.
      * rewrite app_nil_r in E. subst g. rewrite <- app_assoc in H0. exact H0.
      * clear IHg'. rewrite app_assoc in E. apply app_inj_tail in E as [-> _]. now apply (P g g').
    + exists h, now, s, []. split; [reflexivity|]. split; [exact H|]. intros g g' E.
      symmetry in E. apply app_eq_nil in E as [-> ->]. exact H0.
Qed.
Print Assumptions c65_pending_was_received.

(** The sentence of an AIS report completes a payload. *)
Lemma report_completes ovf now s p r :
  fst (parse_sentence ovf now s p) = Ok r -> ais_result r <> None ->
  exists tt fff payload, completes s tt fff p payload.
Proof.
  intros Hr Ha.
  assert (exists tt fff fields, vdm_with s tt fff fields) as (tt & fff & fields & V).
  { destruct (parse_call ovf now s p)
      as [| | |body given tt f rest r0 Hb Hc Hbody Hp Ht Hpl|body given tt rest Hb Hc Hbody Hp Ht
         |body given tt f rest Hb Hc Hbody Hp Ht Hf|]; cbn [fst] in Hr; try discriminate.
    - exfalso. subst r0. pose proof (plain_gnss_result _ _ _ _ _ Hpl) as X. destruct r; try (apply Ha; reflexivity); discriminate X.
    - exfalso. apply Ha. apply handle_gsv_result in Hr as [->|(ds & -> & Hds)]; reflexivity.
    - exists tt, f, (split_on 44 rest).
      split; [|split; [apply split_on_nonempty|split; [now rewrite <- byte_len_spec|exact Hf]]].
      eapply sentence_of; try eassumption. repeat apply plain_app; [now apply plain_lit_dec|exact Hp|].
      destruct Hf as [-> | ->]; now apply plain_lit_dec. }
  destruct (vdm_kind ovf now s tt fff fields V) as (f & K & Ef).
  rewrite Ef in Hr. destruct K as [r' Q|tt' fff' payload F|tt' fff' mid channel a F|tt' fff' mid channel b F|tt' c n body' given' G B].
  - cbn [fst] in Hr. destruct (Q eq_refl) as [X|[e X]]; rewrite X in Hr; [|discriminate]. injection Hr as <-. now destruct (Ha eq_refl).
  - eexists _, _, _. apply complete_one. exact F.
  - unfold first_step in Hr. destruct (kept p _) as [b|] eqn:K; [|injection Hr as <-; now destruct (Ha eq_refl)].
    exists tt', fff', (a ++ b). eapply complete_first; [exact F|]. now apply stored_kept.
  - unfold second_step in Hr. destruct (kept p _) as [a|] eqn:K; [|injection Hr as <-; now destruct (Ha eq_refl)].
    exists tt', fff', (a ++ b). eapply complete_second; [exact F|]. now apply stored_kept.
  - exfalso. destruct G as (fields' & G & _). eapply vdm_not_gsv; eassumption.
Qed.

Lemma text_inj a b : Text a = Text b -> a = b.
Proof. congruence. Qed.

Lemma waiting_received ovf h fff mid channel n x :
  n = 1 \/ n = 2 -> fff = lit "VDM" \/ fff = lit "VDO" ->
  waiting (after ovf h new_parser) fff mid channel n x ->
  exists now' s' tt', In (now', s') h /\ fragment s' tt' fff mid channel n x.
Proof.
  intros Hn Hf W. destruct (c65_pending_was_received _ _ _ _ W) as (h1 & now' & s' & h2 & -> & B & _).
  remember (Text (fragment_key fff mid channel n)) as e eqn:Ee. remember (inl x) as v eqn:Ev.
  destruct B as [tt fff' mid' channel' n' payload F _|tt c k body given G B|]; [| |discriminate].
  - apply text_inj in Ee. injection Ev as ->.
    apply fragment_key_inj in Ee as (-> & -> & -> & ->); [|now apply fragment_formatter in F|exact Hf].
    exists now', s', tt. split; [apply in_or_app; right; now left|exact F].
  - apply text_inj in Ee. symmetry in Ee. now apply fragment_key_gsv_key in Ee.
Qed.

(** Every AIS report is decoded from the payload of its sentence, or from that and the payload of the
    other half of the same message, received earlier. *)
Theorem c65_report_was_received ovf h now s r :
  let p := after ovf h new_parser in
  fst (parse_sentence ovf now s p) = Ok r -> ais_result r <> None ->
  exists tt fff payload, completes s tt fff p payload /\
    (one_fragment s tt fff payload \/
     exists mid channel a b now' s' tt', In (now', s') h /\ payload = a ++ b /\
       (fragment s tt fff mid channel 1 a /\ fragment s' tt' fff mid channel 2 b \/
        fragment s tt fff mid channel 2 b /\ fragment s' tt' fff mid channel 1 a)).
Proof.
  cbv zeta. intros Hr Ha. destruct (report_completes _ _ _ _ _ Hr Ha) as (tt & fff & payload & C).
  exists tt, fff, payload. split; [exact C|].
  destruct C as [payload F|mid channel a b F W|mid channel a b F W]; [now left|right..].
  - apply waiting_received in W as (now' & s' & tt' & I & G); [|now left|now apply fragment_formatter in F].
    exists mid, channel, a, b, now', s', tt'. auto.
  - apply waiting_received in W as (now' & s' & tt' & I & G); [|now right|now apply fragment_formatter in F].
    exists mid, channel, a, b, now', s', tt'. auto.
Qed.
Print Assumptions c65_report_was_received.

Lemma filter_all {A} (f : A -> bool) l :
  List.length (List.filter f l) = List.length l -> forall x, In x l -> f x = true.
Proof.
  induction l as [|y l IH]; intros H x; [intros []|]. cbn [List.filter] in H.
  assert (L : (List.length (List.filter f l) <= List.length l)%nat) 
    by (clear; induction l as [|z l IH]; cbn; [lia|destruct (f z); cbn; lia]).
  destruct (f y) eqn:E; cbn [List.length] in H; [|lia].
  intros [<- |Hx]; [exact E|]. apply IH; [lia|exact Hx].
Qed.

(** A group of satellites is put together from the messages 1 to [c] of one group, all received. *)
Theorem c65_satellites_were_received ovf h now s l :
  fst (parse_sentence ovf now s (after ovf h new_parser)) = Ok (PsGsv l) ->
  exists tt nav c n ls, gsv_part s tt c n /\ names_system tt nav /\ l = List.concat ls /\
    Forall2 (fun i li => exists now' s' fields, In (now', s') (h ++ [(now, s)]) /\
               gsv_message s' tt c i fields /\ satellites nav fields li) (numbers_to c) ls.
Proof.
  set (p := after ovf h new_parser). intros Hr.
  assert (exists tt fields, gsv_with s tt fields) as (tt & fields & V).
  { destruct (parse_call ovf now s p)
      as [| | |body given tt f rest r0 Hb Hc Hbody Hp Ht Hpl|body given tt rest Hb Hc Hbody Hp Ht
         |body given tt f rest Hb Hc Hbody Hp Ht Hf|]; cbn [fst] in Hr; try discriminate.
    - exfalso. subst r0. pose proof (plain_gnss_result _ _ _ _ _ Hpl) as X. cbn in X. injection X as X _.
      destruct Hpl; discriminate X.
    - exists tt, (split_on 44 rest). split; [|split; [apply split_on_nonempty|now rewrite <- byte_len_spec]].
      eapply sentence_of; try eassumption. now apply gsv_type_plain.
    - exfalso. apply handle_vdm_result in Hr as [X|(sts & X & _)]; discriminate X. }
  destruct (gsv_kind ovf now s tt fields V) as (f & K & Ef). pose proof (Ef p) as Ep.
  pose proof (gsv_with_plain _ _ _ V) as Pl.
  rewrite Ef in Hr. destruct K as [r' Q|tt' fff payload F|tt' fff mid channel a F|tt' fff mid channel b F|tt' c n body given G B].
  1: { cbn [fst] in Hr. destruct (Q eq_refl) as [X|[e X]]; rewrite X in Hr; discriminate. }
  1: { exfalso. destruct F as (? & ? & ? & ? & ? & (more & F) & _). eapply vdm_not_gsv; eassumption. }
  1: { exfalso. destruct F as (? & ? & ? & ? & F & _). eapply vdm_not_gsv; eassumption. }
  1: { exfalso. destruct F as (? & ? & ? & ? & F & _). eapply vdm_not_gsv; eassumption. }
  assert (tt' = tt) as -> by (destruct G as (? & G & _); now destruct (gsv_with_unique _ _ _ _ _ G V)).
  exists tt, (nav_of_talker tt), c, n. unfold gsv_step in Hr.
  set (p1 := push_string (gsv_key tt c n) body p) in *.
  assert (R : exists range, gsv_range ovf c = Some range /\ (range = numbers_to c \/ range = [] /\ c = u32_max)).
  { unfold gsv_range in Hr |- *. destruct (N.ltb_spec c u32_max) as [Hl|Hl]; [eauto|].
    destruct ovf; [discriminate|]. exists []. split; [reflexivity|]. right. split; [reflexivity|].
    destruct G as (fs & _ & Gc & _). assert (c < 2 ^ 32) by (destruct Gc as [[_ ->]|[_ Gc]]; [reflexivity|exact Gc]).
    change (2 ^ 32) with 4294967296 in *. change u32_max with 4294967295 in *. lia. }
  destruct R as (range & R & R'). rewrite R in Hr. rewrite gsv_found_spec in Hr.
  destruct (N.eqb_spec (N.of_nat (List.length (List.filter (fun i => match saved_fragments p1 !! gsv_key tt c i with Some _ => true | None => false end) range))) c)
    as [Hc|Hc]; [|discriminate].
  destruct R' as [-> |[-> ->]]; [|discriminate Hc].
  pose proof (gsv_collect_reads (nav_of_talker tt) tt c (numbers_to c) p1 Pl (numbers_to_nodup c)) as C.
  destruct (gsv_collect _ _ c (numbers_to c) p1) as [v p2]. cbn [fst] in Hr, C. injection Hr as <-. subst v.
  assert (All : forall i, In i (numbers_to c) -> exists b, kept p1 (gsv_key tt c i) = Some b).
  { intros i Hi. pose proof (filter_all (fun i => match saved_fragments p1 !! gsv_key tt c i with Some _ => true | None => false end)
      (numbers_to c)) as X. rewrite numbers_to_length in X. specialize (X ltac:(lia) i Hi). cbv beta in X.
    unfold kept. destruct (saved_fragments p1 !! gsv_key tt c i) as [b|]; [eauto|discriminate]. }
  exists (map (fun i => match kept p1 (gsv_key tt c i) with Some b => gsv_blocks (nav_of_talker tt) b | None => [] end) (numbers_to c)).
  split; [exact G|]. split; [apply names_system_nav|]. split; [now rewrite flat_map_concat_map|].
  assert (Each : forall i b, kept p1 (gsv_key tt c i) = Some b -> exists now' s' fields,
     In (now', s') (h ++ [(now, s)]) /\ gsv_message s' tt c i fields /\ satellites (nav_of_talker tt) fields (gsv_blocks (nav_of_talker tt) b)).
  { intros i b E.
    assert (X : exists now' s' given', In (now', s') (h ++ [(now, s)]) /\ gsv_part s' tt c i /\ has_body s' b given').
    { unfold p1 in E. rewrite kept_push in E. destruct (decide _) as [D|D].
      - injection E as <-. apply gsv_key_inj in D as (_ & _ & ->); [|exact Pl|exact Pl].
        exists now, s, given. split; [apply in_or_app; right; now left|]. now split.
      - apply stored_kept in E. destruct (c65_pending_was_received _ _ _ _ E) as (h1 & now' & s' & h2 & Eh & Br & _).
        remember (Text (gsv_key tt c i)) as e eqn:Ee. remember (inl b) as w eqn:Ew.
        destruct Br as [tt' fff' mid' channel' n' payload F _|tt' c' k body' given' G' B'|]; [| |discriminate].
        + apply text_inj in Ee. now apply fragment_key_gsv_key in Ee.
        + apply text_inj in Ee. injection Ew as <-.
          apply gsv_key_inj in Ee as (-> & -> & ->); [|destruct G' as (? & G' & _); now apply gsv_with_plain in G'|exact Pl].
          exists now', s', given'. split; [rewrite Eh; apply in_or_app; left; apply in_or_app; right; now left|]. now split. }
    destruct X as (now' & s' & given' & Hin & (fs & G1 & G2 & G3) & Hb).
    exists now', s', fs. split; [exact Hin|]. assert (M : gsv_message s' tt c i fs) by (split; [exact G1|now split]).
    split; [exact M|]. pose proof (gsv_message_blocks _ _ _ _ _ (nav_of_talker tt) M) as S.
    destruct G1 as ((b' & g' & Hb' & _ & _ & _ & J) & _ & _). destruct (has_body_unique _ _ _ _ _ Hb Hb') as [-> _].
    rewrite J. exact S. }
  clear - All Each. induction (numbers_to c) as [|i r IH]; [constructor|]. cbn [map]. constructor.
  - destruct (All i (or_introl eq_refl)) as [b E]. rewrite E. now apply Each.
  - apply IH. intros j Hj. apply All. now right.
Qed.
Print Assumptions c65_satellites_were_received.

(** The two halves of the static report of the crate's tests: the first is pending, then both make the
    report. *)
Example c65_example :
  let h := [(ex_now, ex_first)] in
  stored (after true h new_parser) (Text (fragment_key (lit "VDM") 1 (lit "A") 1)) = Some (inl ex_first_payload) /\
  exists r, fst (parse_sentence true ex_now ex_second (after true h new_parser)) = Ok r /\ ais_result r <> None.
Proof.
  cbv zeta. split; [vm_compute; reflexivity|]. eexists. split; [vm_compute; reflexivity|discriminate].
Qed.

Example c65_example_gsv :
  exists l, fst (parse_sentence true ex_now (lit "$GPGSV,2,2,08,17,05,131,43")
    (after true [(ex_now, lit "$GPGSV,2,1,08,01,40,083,46")] new_parser)) = Ok (PsGsv l) /\ List.length l = 2%nat.
Proof. eexists. split; vm_compute; reflexivity. Qed.

(** ** C66: repeated sentences *)

Lemma decide_incomplete (o : outcome ParseError ParsedSentence) : o = Ok PsIncomplete \/ o <> Ok PsIncomplete.
Proof. destruct o as [[]| |]; (now left) || (right; discriminate). Qed.

Lemma push_same k x p : kept p k = Some x -> push_string k x p = p.
Proof. intros H. destruct p as [f v]. unfold push_string. cbn. now rewrite insert_id. Qed.

(** A sentence answered with [Incomplete] may be received again: nothing changes. Missing: the parts of
    type 24 messages, the only completed payloads answered with [Incomplete]. *)
Theorem c66_repeated_partial ovf now now' s p :
  fst (parse_sentence ovf now s p) = Ok PsIncomplete ->
  (forall tt fff payload, ~ completes s tt fff p payload) ->
  let p' := snd (parse_sentence ovf now s p) in
  parse_sentence ovf now' s p' = (Ok PsIncomplete, p').
Proof.
  cbv zeta. intros Hr Hc.
  assert (E : forall q, parse_sentence ovf now' s q = parse_sentence ovf now s q \/ fst (parse_sentence ovf now s q) <> Ok PsIncomplete).
  { intros q. destruct (parse_sentence ovf now s q) as [o q'] eqn:X. destruct (decide_incomplete o) as [-> |H]; [left|now right].
    rewrite <- X. apply (c64_clock_irrelevant ovf now now' s q PsIncomplete); [now rewrite X|intros H; exact H]. }
  destruct (sentence_kind ovf now s) as (f & K & Ef).
  assert (Y : parse_sentence ovf now s (snd (parse_sentence ovf now s p)) = (Ok PsIncomplete, snd (parse_sentence ovf now s p))).
  { rewrite !Ef in *.
    destruct K as [r _|tt fff payload F|tt fff mid channel a F|tt fff mid channel b F|tt c n body given G B].
    - cbn [fst snd] in *. now rewrite Hr.
    - exfalso. apply (Hc tt fff payload). now apply complete_one.
    - unfold first_step in *. destruct (kept p (fragment_key fff mid channel 2)) as [b|] eqn:K.
      + exfalso. apply (Hc tt fff (a ++ b)). eapply complete_first; [exact F|]. now apply stored_kept.
      + cbn [snd]. rewrite kept_push. destruct (decide _) as [D|D].
        { exfalso. apply fragment_key_inj in D as (_ & _ & _ & D); [discriminate D|eapply fragment_formatter; exact F..]. }
        rewrite K. f_equal. apply push_same. rewrite kept_push. now destruct (decide _).
    - unfold second_step in *. destruct (kept p (fragment_key fff mid channel 1)) as [a|] eqn:K.
      + exfalso. apply (Hc tt fff (a ++ b)). eapply complete_second; [exact F|]. now apply stored_kept.
      + cbn [snd]. rewrite kept_push. destruct (decide _) as [D|D].
        { exfalso. apply fragment_key_inj in D as (_ & _ & _ & D); [discriminate D|eapply fragment_formatter; exact F..]. }
        rewrite K. f_equal. apply push_same. rewrite kept_push. now destruct (decide _).
    - unfold gsv_step in *. destruct (gsv_range ovf c) as [range|]; [|discriminate].
      set (p1 := push_string (gsv_key tt c n) body p) in *.
      destruct (gsv_found _ c range p1 =? c) eqn:Ec.
      + destruct (gsv_collect _ _ c range p1). discriminate.
      + cbn [snd]. assert (P : push_string (gsv_key tt c n) body p1 = p1).
        { apply push_same. unfold p1. rewrite kept_push. now destruct (decide _). }
        rewrite P, Ec. reflexivity. }
  destruct (E (snd (parse_sentence ovf now s p))) as [-> |X]; [exact Y|]. rewrite Y in X. now destruct X.
Qed.
Print Assumptions c66_repeated_partial.

(** A part A of a type 24 message received twice is a complete report. *)
Theorem c66_repeated_refuted :
  exists s, fst (parse_sentence false ex_now s new_parser) = Ok PsIncomplete /\
    exists d, fst (parse_sentence false ex_now s (snd (parse_sentence false ex_now s new_parser))) = Ok (PsVesselStaticData d).
Proof.
  exists ex_part_a. split; [vm_compute; reflexivity|]. eexists. vm_compute. reflexivity.
Qed.
Print Assumptions c66_repeated_refuted.

Example c66_example :
  fst (parse_sentence true ex_now ex_first new_parser) = Ok PsIncomplete /\
  (forall tt fff payload, ~ completes ex_first tt fff new_parser payload) /\
  snd (parse_sentence true ex_now ex_first new_parser) <> new_parser.
Proof.
  split; [vm_compute; reflexivity|]. split.
  - intros tt fff payload [pl F|mid channel a b F W|mid channel a b F W].
    + destruct F as (c & n & i & ch & k & (more & F) & D & _).
      destruct ex_first_fragment as (fields & c' & n' & i' & F' & N & D' & _).
      destruct (vdm_with_unique _ _ _ _ _ _ _ F F') as (_ & _ & <-). cbn in N. injection N as <-.
      pose proof (denotes_unique _ _ _ D D'). discriminate.
    + apply stored_kept in W. discriminate W.
    + apply stored_kept in W. discriminate W.
  - vm_compute. discriminate.
Qed.

(** ** C15 *)

(** What holds of "fragments of different talkers are never combined": the two halves of a report are
    halves 1 and 2 of a message with the same formatter, number and channel. *)
Theorem c15_same_message_partial ovf h now s r tt fff mid channel n part :
  fst (parse_sentence ovf now s (after ovf h new_parser)) = Ok r -> ais_result r <> None ->
  fragment s tt fff mid channel n part ->
  exists now' s' tt' other, In (now', s') h /\ fragment s' tt' fff mid channel (3 - n) other.
Proof.
  intros Hr Ha F. destruct (c65_report_was_received _ _ _ _ _ Hr Ha) as (tt0 & fff0 & payload & _ & [O|X]).
  - exfalso. destruct O as (c & k & i & ch & j & (more & O) & D & _).
    destruct F as (fields & c' & k' & i' & F' & N & D' & _).
    destruct (vdm_with_unique _ _ _ _ _ _ _ O F') as (_ & _ & <-). cbn in N. injection N as <-.
    pose proof (denotes_unique _ _ _ D D'). discriminate.
  - destruct X as (mid0 & ch0 & a & b & now' & s' & tt' & I & _ & [[G G']|[G G']]);
      destruct (fragment_unique _ _ _ _ _ _ _ _ _ _ _ _ _ F G) as (<- & <- & <- & <- & -> & <-); eauto 10.
Qed.
Print Assumptions c15_same_message_partial.

Lemma satellites_source nav fields l : satellites nav fields l -> forall x, In x l -> gsv_source x = nav.
Proof.
  intros (l0 & l1 & l2 & l3 & -> & H0 & H1 & H2 & H3) x Hx.
  assert (A : forall a b c d k, satellite nav a b c d k -> In x k -> gsv_source x = nav)
    by (intros a b c d k S I; destruct S; [destruct I as [<-|[]]; reflexivity|destruct I]).
  apply in_app_or in Hx as [Hx|Hx]; [exact (A _ _ _ _ _ H0 Hx)|].
  apply in_app_or in Hx as [Hx|Hx]; [exact (A _ _ _ _ _ H1 Hx)|].
  apply in_app_or in Hx as [Hx|Hx]; [exact (A _ _ _ _ _ H2 Hx)|exact (A _ _ _ _ _ H3 Hx)].
Qed.

(** Satellite data of different talkers are kept apart. *)
Theorem c15_satellites_one_talker ovf h now s l tt c n :
  fst (parse_sentence ovf now s (after ovf h new_parser)) = Ok (PsGsv l) -> gsv_part s tt c n ->
  forall x, In x l -> exists now' s' i fields l', In (now', s') (h ++ [(now, s)]) /\
    gsv_message s' tt c i fields /\ names_system tt (gsv_source x) /\ satellites (gsv_source x) fields l' /\ In x l'.
Proof.
  intros Hr G x Hx. destruct (c65_satellites_were_received _ _ _ _ _ Hr) as (tt0 & nav & c0 & n0 & ls & G0 & Hn & -> & HF).
  destruct (gsv_part_unique _ _ _ _ _ _ _ G G0) as (<- & <- & <-).
  apply in_concat in Hx as (li & Hli & Hx). clear Hr G G0.
  induction HF as [|i li' is ls' (now' & s' & fields & I & M & S) HF IH]; [destruct Hli|].
  destruct Hli as [->|Hli]; [|now apply IH]. pose proof (satellites_source _ _ _ S x Hx) as E.
  exists now', s', i, fields, li. rewrite E. auto.
Qed.
Print Assumptions c15_satellites_one_talker.

Example c15_example :
  let h := [(ex_now, ex_first)] in
  (exists r, fst (parse_sentence true ex_now ex_second (after true h new_parser)) = Ok r /\ ais_result r <> None) /\
  fragment ex_second (lit "AI") (lit "VDM") 1 (lit "A") 2 ex_second_payload.
Proof.
  split; [|exact ex_second_fragment]. eexists. split; [vm_compute; reflexivity|]. vm_compute. discriminate.
Qed.
