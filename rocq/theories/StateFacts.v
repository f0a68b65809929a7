(** Facts about the parser's memory: which entries a call reads and writes. *)
From stdpp Require Import gmap.
From Coq Require Import List NArith ZArith Bool String Lia.
From Verif Require Import Base Str F64 Chrono Types Util AisMod Vdm Gnss Parser
  SpecText SpecResult SpecAis SpecState StrFacts FrontFacts CallFacts ResultFacts BitFacts VdmFacts.
Import ListNotations.
Open Scope N_scope.
Local Opaque pick_string pick_u64 pick_i64 pick_eta parse_f64.

(** ** Keys *)

Lemma bits_at_value b i n : be_value (window b i n) = bits_at b i n.
Proof. reflexivity. Qed.

Lemma touch_vessel ovf s p tt fff payload bits :
  completes s tt fff p payload -> parse_payload ovf payload = Ok bits ->
  be_value (window bits 0 6) = 24 -> touches ovf s p (Vessel (be_value (window bits 8 30))).
Proof.
  intros H E Ht. apply parse_payload_readable in E as [R ->].
  rewrite bits_at_value in *. exact (touch_static ovf s p tt fff payload H R Ht).
Qed.

Lemma comma_inj a b a' b' : plain a -> plain a' -> a ++ 44 :: b = a' ++ 44 :: b' -> a = a' /\ b = b'.
Proof.
  revert a'. induction a as [|x a IH]; intros [|y a'] Ha Ha' H; cbn [app] in H.
  - now injection H.
  - injection H as <- _. exfalso. apply Ha'. now left.
  - injection H as -> _. exfalso. apply Ha. now left.
  - injection H as <- H. apply IH in H as [-> ->]; [auto| |].
    + intros X. apply Ha. now right.
    + intros X. apply Ha'. now right.
Qed.

Lemma fragment_key_model fff mid channel n :
  make_fragment_key (lit "!" ++ fff) mid 2 n channel = fragment_key fff mid channel n.
Proof. unfold make_fragment_key, fragment_key. cbn [join]. reflexivity. Qed.

Lemma gsv_key_model tt c n : make_gsv_key (lit "$" ++ tt ++ lit "GSV") c n = gsv_key tt c n.
Proof. unfold make_gsv_key, gsv_key. cbn [join]. reflexivity. Qed.

Lemma formatter_plain fff : fff = lit "VDM" \/ fff = lit "VDO" -> plain (lit "!" ++ fff).
Proof. intros [-> | ->]; now apply plain_lit_dec. Qed.

Lemma fragment_key_inj fff mid channel n fff' mid' channel' n' :
  fff = lit "VDM" \/ fff = lit "VDO" -> fff' = lit "VDM" \/ fff' = lit "VDO" ->
  fragment_key fff mid channel n = fragment_key fff' mid' channel' n' ->
  fff = fff' /\ mid = mid' /\ channel = channel' /\ n = n'.
Proof.
  intros Hf Hf' H. unfold fragment_key in H. cbn [join] in H.
  apply formatter_plain in Hf, Hf'.
  apply comma_inj in H as [H1 H]; [|assumption|assumption].
  apply comma_inj in H as [_ H]; [|now apply plain_lit_dec|now apply plain_lit_dec].
  apply comma_inj in H as [H2 H]; [|apply dec_plain|apply dec_plain].
  apply comma_inj in H as [H3 H]; [|apply dec_plain|apply dec_plain].
  apply dec_inj in H2, H3. apply app_inv_head in H1. auto.
Qed.

Lemma gsv_type_plain tt : plain tt -> plain (lit "$" ++ tt ++ lit "GSV").
Proof. intros H. repeat apply plain_app; [now apply plain_lit_dec|exact H|now apply plain_lit_dec]. Qed.

Lemma gsv_key_inj tt c n tt' c' n' :
  plain tt -> plain tt' -> gsv_key tt c n = gsv_key tt' c' n' -> tt = tt' /\ c = c' /\ n = n'.
Proof.
  intros Hf Hf' H. unfold gsv_key in H. cbn [join] in H. apply gsv_type_plain in Hf, Hf'.
  apply comma_inj in H as [H1 H]; [|assumption|assumption].
  apply comma_inj in H as [H2 H3]; [|apply dec_plain|apply dec_plain].
  apply dec_inj in H2, H3. apply app_inv_head, app_inv_tail in H1. auto.
Qed.

Lemma fragment_key_gsv_key fff mid channel n tt c k : fragment_key fff mid channel n <> gsv_key tt c k.
Proof. unfold fragment_key, gsv_key. cbn [join]. intros H. discriminate H. Qed.

(** ** Sentences *)

Lemma sentence_unique s fs gs : sentence s fs -> sentence s gs -> fs = gs.
Proof.
  intros (b & g & Hb & _ & Hf) (b' & g' & Hb' & _ & Hg).
  destruct (has_body_unique _ _ _ _ _ Hb Hb') as [<- <-].
  apply has_fields_split in Hf, Hg. congruence.
Qed.

Lemma vdm_with_unique s tt fff fields tt' fff' fields' :
  vdm_with s tt fff fields -> vdm_with s tt' fff' fields' -> tt = tt' /\ fff = fff' /\ fields = fields'.
Proof.
  intros (H & _ & _ & Hf) (H' & _ & _ & Hf'). pose proof (sentence_unique _ _ _ H H') as E.
  injection E as E ->. assert (List.length fff = List.length fff') as El.
  { destruct Hf as [-> | ->], Hf' as [-> | ->]; reflexivity. }
  apply app_inj_2 in E as [-> ->]; auto.
Qed.

Lemma gsv_with_unique s tt fields tt' fields' :
  gsv_with s tt fields -> gsv_with s tt' fields' -> tt = tt' /\ fields = fields'.
Proof.
  intros (H & _) (H' & _). pose proof (sentence_unique _ _ _ H H') as E.
  injection E as E ->. apply app_inv_tail in E. auto.
Qed.

Lemma vdm_not_gsv s tt fff fields tt' fields' : vdm_with s tt fff fields -> gsv_with s tt' fields' -> False.
Proof.
  intros (H & _) (H' & _). pose proof (sentence_unique _ _ _ H H') as E. discriminate E.
Qed.

Lemma gsv_with_plain s tt fields : gsv_with s tt fields -> plain tt.
Proof.
  intros ((b & g & _ & _ & (_ & Hp & _)) & _). apply Forall_inv in Hp.
  apply plain_app_inv in Hp as [_ Hp]. now apply plain_app_inv in Hp as [Hp _].
Qed.

Lemma fragment_formatter s tt fff mid channel n payload :
  fragment s tt fff mid channel n payload -> fff = lit "VDM" \/ fff = lit "VDO".
Proof. intros (fields & _ & _ & _ & H & _). eapply vdm_with_formatter; eassumption. Qed.

Lemma fragment_number s tt fff mid channel n payload :
  fragment s tt fff mid channel n payload -> n = 1 \/ n = 2.
Proof. intros (? & ? & ? & ? & H). tauto. Qed.

Lemma fragment_unique s tt fff mid channel n payload tt' fff' mid' channel' n' payload' :
  fragment s tt fff mid channel n payload -> fragment s tt' fff' mid' channel' n' payload' ->
  tt = tt' /\ fff = fff' /\ mid = mid' /\ channel = channel' /\ n = n' /\ payload = payload'.
Proof.
  intros (fs & ct & nt & it & H0 & H1 & H2 & H3 & H4 & _ & H5 & H6 & _ & H7 & H8)
    (fs' & ct' & nt' & it' & G0 & G1 & G2 & G3 & G4 & _ & G5 & G6 & _ & G7 & G8).
  destruct (vdm_with_unique _ _ _ _ _ _ _ H0 G0) as (-> & -> & ->).
  assert (nt = nt') as -> by congruence. assert (it = it') as -> by congruence.
  rewrite (denotes_unique _ _ _ H4 G4), (denotes_unique _ _ _ H6 G6), H7, H8, <- G7, <- G8. repeat split.
Qed.

Lemma count_field_unique f v w : count_field f v -> count_field f w -> v = w.
Proof.
  intros [[-> ->]|[H _]] [[E ->]|[G _]]; try reflexivity.
  - destruct G as (ds & [E|E] & [Hn _] & _); [now rewrite <- E in Hn|discriminate].
  - rewrite E in H. destruct H as (ds & [E'|E'] & [Hn _] & _); [now rewrite <- E' in Hn|discriminate].
  - eapply denotes_unique; eassumption.
Qed.

Lemma gsv_part_unique s tt c n tt' c' n' :
  gsv_part s tt c n -> gsv_part s tt' c' n' -> tt = tt' /\ c = c' /\ n = n'.
Proof.
  intros (f & H & H1 & H2) (f' & G & G1 & G2).
  destruct (gsv_with_unique _ _ _ _ _ H G) as [-> ->].
  rewrite (count_field_unique _ _ _ H1 G1), (count_field_unique _ _ _ H2 G2). auto.
Qed.

Lemma fragment_not_gsv s tt fff mid channel n payload tt' c k :
  fragment s tt fff mid channel n payload -> gsv_part s tt' c k -> False.
Proof. intros (f & _ & _ & _ & H & _) (g & G & _). eapply vdm_not_gsv; eassumption. Qed.

(** ** What a call does, as a function of the state *)

Definition without (k : str) (p : NmeaParser) : NmeaParser :=
  mk_parser (delete k (saved_fragments p)) (saved_vsds p).

(** The stored text of a key. *)
Definition kept (p : NmeaParser) (k : str) : option str := saved_fragments p !! k.

Definition first_step ovf now tt fff mid channel a (p : NmeaParser) :=
  match kept p (fragment_key fff mid channel 2) with
  | Some b => decode_payload ovf now fff (a ++ b) (station_of_talker tt)
                (without (fragment_key fff mid channel 2) p)
  | None => (Ok PsIncomplete, push_string (fragment_key fff mid channel 1) a p)
  end.

Definition second_step ovf now tt fff mid channel b (p : NmeaParser) :=
  match kept p (fragment_key fff mid channel 1) with
  | Some a => decode_payload ovf now fff (a ++ b) (station_of_talker tt)
                (without (fragment_key fff mid channel 1) p)
  | None => (Ok PsIncomplete, push_string (fragment_key fff mid channel 2) b p)
  end.

Definition gsv_step (ovf : bool) (tt : str) (c n : N) (body : str) (p : NmeaParser)
    : outcome ParseError ParsedSentence * NmeaParser :=
  let p1 := push_string (gsv_key tt c n) body p in
  match gsv_range ovf c with
  | None => (Panic, p1)
  | Some range =>
    if gsv_found (lit "$" ++ tt ++ lit "GSV") c range p1 =? c then
      let '(v, p2) := gsv_collect (nav_of_talker tt) (lit "$" ++ tt ++ lit "GSV") c range p1 in
      (Ok (PsGsv v), p2)
    else (Ok PsIncomplete, p1)
  end.

(** No report and no panic. *)
Definition quiet (r : outcome ParseError ParsedSentence) : Prop := r = Ok PsIncomplete \/ exists e, r = Err e.

(** With [safe], whatever just returns is quiet. *)
Inductive kind (safe : bool) (ovf : bool) (now : datetime) (s : str)
    : (NmeaParser -> outcome ParseError ParsedSentence * NmeaParser) -> Prop :=
| KReturn r : (safe = true -> quiet r) -> kind safe ovf now s (fun p => (r, p))
| KDecode tt fff payload : one_fragment s tt fff payload ->
    kind safe ovf now s (decode_payload ovf now fff payload (station_of_talker tt))
| KFirst tt fff mid channel a : fragment s tt fff mid channel 1 a ->
    kind safe ovf now s (first_step ovf now tt fff mid channel a)
| KSecond tt fff mid channel b : fragment s tt fff mid channel 2 b ->
    kind safe ovf now s (second_step ovf now tt fff mid channel b)
| KGsv tt c n body given : gsv_part s tt c n -> has_body s body given ->
    kind safe ovf now s (gsv_step ovf tt c n body).

Lemma without_none k p : saved_fragments p !! k = None -> without k p = p.
Proof. intros H. destruct p as [f v]. unfold without. cbn in *. now rewrite delete_notin. Qed.

Lemma parse_u8_some f c : parse_u8 f = Some c -> denotes f c /\ c <= 255.
Proof. intros H. apply parse_uint_spec in H. exact H. Qed.

Lemma decode_empty ovf now fff st p :
  decode_payload ovf now fff [] st p = (unsupported_message (lit "!" ++ fff) 0, p).
Proof. reflexivity. Qed.

Lemma vdm_kind ovf now s tt fff fields :
  vdm_with s tt fff fields ->
  exists f, kind true ovf now s f /\ forall p, parse_sentence ovf now s p = f p.
Proof.
  intros Hs. pose proof Hs as (_ & Hne & _).
  assert (Hst : forall p, parse_sentence ovf now s p = _)
    by (intros p; apply (vdm_with_step ovf now s p _ _ _ Hs)).
  destruct fields as [|count more]; [congruence|]. clear Hne.
  rewrite (vdm_scan_fields _ (count :: more) count eq_refl) in Hst.
  destruct (parse_u8 count) as [c|] eqn:Ec.
  2:{ eexists; (split; [|exact Hst]); apply KReturn; intros _; unfold quiet; eauto. }
  apply parse_u8_some in Ec as [Ec Ec'].
  assert (exists n, (forall p, parse_sentence ovf now s p =
    match vdm_payload (lit "!" ++ fff) (scan_of (count :: more) c n) p with
    | (None, p') => (Ok PsIncomplete, p')
    | (Some pl, p') => decode_payload ovf now fff pl (station_of_talker tt) p'
    end) /\ (nth_error more 0 = None /\ n = 0 \/
             exists number, nth_error more 0 = Some number /\ denotes number n /\ n <= 255)
   \/ exists r, quiet r /\ forall p, parse_sentence ovf now s p = (r, p)) as (n & [[Hst2 Hn]|(r & Hnp & Hr)]).
  { change (nth_error (count :: more) 1) with (nth_error more 0) in Hst. destruct (nth_error more 0) as [number|] eqn:En.
    - destruct (parse_u8 number) as [n|] eqn:En'.
      + apply parse_u8_some in En' as [Hn Hn']. exists n. left. split; [exact Hst|]. right. eauto.
      + exists 0. right. eexists. split; [|exact Hst]. unfold quiet; eauto.
    - exists 0. left. split; [exact Hst|]. now left. }
  2:{ exists (fun p => (r, p)). split; [now apply KReturn|exact Hr]. }
  clear Hst. unfold vdm_payload in Hst2.
  cbn [scan_of vf_count vf_number vf_id vf_channel vf_payload] in Hst2.
  destruct (N.eqb_spec c 1) as [-> |C1].
  { (* one fragment *)
    destruct more as [|number [|id [|channel [|payload more]]]].
    1-4: (exists (fun p => (unsupported_message (lit "!" ++ fff) 0, p));
          split; [apply KReturn; intros _; right; eexists; reflexivity|]; intros p; rewrite Hst2; apply decode_empty).
    exists (decode_payload ovf now fff payload (station_of_talker tt)). split; [|exact Hst2].
    destruct Hn as [[Hn _]|(nb & Hn & Hn1 & Hn2)]; [discriminate|].
    injection Hn as ->. apply KDecode. exists count, nb, id, channel, n.
    split; [now exists more|auto]. }
  destruct (N.eqb_spec c 2) as [-> |C2].
  2:{ eexists; (split; [|exact Hst2]); apply KReturn; intros _; unfold quiet; eauto. }
  change (nth_error (count :: more) 2) with (nth_error more 1) in Hst2.
  change (nth_error (count :: more) 3) with (nth_error more 2) in Hst2.
  destruct (nth_error more 1) as [id|] eqn:Ei.
  2:{ eexists; (split; [|exact Hst2]); apply KReturn; intros _; unfold quiet; eauto. }
  destruct (parse_uint u64_max id) as [mid|] eqn:Em.
  2:{ eexists; (split; [|exact Hst2]); apply KReturn; intros _; unfold quiet; eauto. }
  apply parse_uint_spec in Em as [Em Em']. unfold u64_max in Em'.
  assert (Hch : unwrap_or (nth_error more 2) [] = nth 3 (count :: more) []).
  { cbn [nth]. destruct (nth_error more 2) as [x|] eqn:E; cbn [unwrap_or].
    - symmetry. now apply nth_error_nth.
    - symmetry. apply nth_overflow. now apply nth_error_None. }
  rewrite Hch, !fragment_key_model in Hst2.
  assert (Hfr : n = 1 \/ n = 2 ->
    fragment s tt fff mid (nth 3 (count :: more) []) n (nth 4 (count :: more) [])).
  { intros Hn12. destruct Hn as [[_ ->]|(nb & Hn & Hn1 & Hn2)]; [lia|].
    exists (count :: more), count, nb, id. split; [exact Hs|]. repeat (split; [assumption || reflexivity|]). split; [lia|]. now split. }
  destruct (N.eqb_spec n 1) as [-> |N1].
  { eexists. split; [apply KFirst; apply Hfr; now left|]. intros p. rewrite Hst2.
    unfold pull_string, first_step. fold (without (fragment_key fff mid (nth 3 (count :: more) []) 2) p).
    change (saved_fragments p !! ?k) with (kept p k).
    destruct (kept p _) eqn:Eq; [reflexivity|].
    now rewrite without_none. }
  destruct (N.eqb_spec n 2) as [-> |N2].
  { eexists. split; [apply KSecond; apply Hfr; now right|]. intros p. rewrite Hst2.
    unfold pull_string, second_step. fold (without (fragment_key fff mid (nth 3 (count :: more) []) 1) p).
    change (saved_fragments p !! ?k) with (kept p k).
    destruct (kept p _) eqn:Eq; [reflexivity|].
    now rewrite without_none. }
  eexists; (split; [|exact Hst2]); apply KReturn; intros _; unfold quiet; eauto.
Qed.

Lemma number_u32_field split i :
  match number parse_u32 split i with
  | Ok o => count_field (field split i) (unwrap_or o 0)
  | _ => True
  end.
Proof.
  unfold number, pick_number_field. rewrite str_eqb_nil_r. destruct (field split i) as [|c f] eqn:E.
  - cbn. now left.
  - cbn [negb map_err]. destruct (parse_u32 (c :: f)) as [v|] eqn:Ev; cbn [map_err]; [|exact Logic.I].
    apply parse_uint_spec in Ev as [Ev Ev']. right. split; [exact Ev|]. cbn [unwrap_or].
    unfold u32_max in Ev'. lia.
Qed.

Lemma number_no_panic {A} (parse : str -> option A) split i : number parse split i <> Panic.
Proof.
  unfold number, pick_number_field. destruct (negb _); [|discriminate]. now destruct (parse _).
Qed.

Lemma gsv_kind ovf now s tt fields :
  gsv_with s tt fields ->
  exists f, kind true ovf now s f /\ forall p, parse_sentence ovf now s p = f p.
Proof.
  intros Hs. pose proof Hs as ((body & given & Hb & Hc & Hf) & Hne & Ht).
  pose proof (gsv_with_plain _ _ _ Hs) as Hp.
  apply has_fields_split in Hf. symmetry in Hf.
  pose proof (proj2 (has_fields_split body _) (eq_sym Hf)) as (_ & _ & Hj).
  rewrite join_cons in Hj by exact Hne.
  rewrite <- byte_len_spec in Ht.
  assert (Hst : forall p, parse_sentence ovf now s p = handle_gsv ovf body (nav_of_talker tt) p)
    by (intros p; exact (parse_gsv ovf now s p body given tt _ Hb Hc Hj Hp Ht)).
  unfold handle_gsv in Hst. rewrite Hf in Hst. cbn [field nth] in Hst.
  pose proof (number_u32_field ((lit "$" ++ tt ++ lit "GSV") :: fields) 1) as H1.
  pose proof (number_u32_field ((lit "$" ++ tt ++ lit "GSV") :: fields) 2) as H2.
  pose proof (number_no_panic parse_u32 ((lit "$" ++ tt ++ lit "GSV") :: fields) 1) as P1.
  destruct (number parse_u32 _ 1) as [oc|e|]; [| |congruence].
  2: eexists; (split; [|exact Hst]); apply KReturn; intros _; unfold quiet; eauto.
  pose proof (number_no_panic parse_u32 ((lit "$" ++ tt ++ lit "GSV") :: fields) 2) as P2.
  destruct (number parse_u32 _ 2) as [on|e|]; [| |congruence].
  2: eexists; (split; [|exact Hst]); apply KReturn; intros _; unfold quiet; eauto.
  exists (gsv_step ovf tt (unwrap_or oc 0) (unwrap_or on 0) body). split.
  - apply KGsv with given; [|exact Hb]. exists fields. cbn [field nth] in H1, H2. auto.
  - intros p. rewrite Hst. cbv zeta. rewrite gsv_key_model. unfold gsv_step.
    destruct (gsv_range ovf (unwrap_or oc 0)); reflexivity.
Qed.

Lemma sentence_of body s given t rest : has_body s body given -> checksum_ok body given ->
  body = t ++ lit "," ++ rest -> plain t -> sentence s (t :: split_on 44 rest).
Proof.
  intros Hb Hc Hbody Hp. exists body, given. split; [exact Hb|]. split; [exact Hc|].
  apply has_fields_split. rewrite Hbody. symmetry. now apply split_on_app.
Qed.

Lemma kind_unsafe ovf now s :
  (exists f, kind true ovf now s f /\ forall p, parse_sentence ovf now s p = f p) ->
  exists f, kind false ovf now s f /\ forall p, parse_sentence ovf now s p = f p.
Proof.
  intros (f & K & H). exists f. split; [|exact H].
  destruct K; [apply KReturn; discriminate|now apply KDecode|now apply KFirst|now apply KSecond|eapply KGsv; eassumption].
Qed.

Lemma sentence_kind ovf now s : exists f, kind false ovf now s f /\ forall p, parse_sentence ovf now s p = f p.
Proof.
  pose proof (parse_call ovf now s new_parser) as C.
  remember (parse_sentence ovf now s new_parser) as r eqn:Er.
  destruct C as [body given Hb Hc|body given Hb Hc Hp|body given t rest Hb Hc Hbody Hp Ht
    |body given tt fff rest r Hb Hc Hbody Hp Ht Hr|body given tt rest Hb Hc Hbody Hp Ht
    |body given tt fff rest Hb Hc Hbody Hp Ht Hf|body given t rest nav st t2 Hb Hc Hbody Hp Hr Hn].
  - eexists. split; [apply KReturn; intros X; discriminate X|]. intros p. now rewrite (parse_sentence_bad _ _ _ _ _ _ Hb Hc).
  - eexists. split; [apply KReturn; intros X; discriminate X|]. intros p. rewrite (parse_sentence_ok _ _ _ _ _ _ Hb Hc), parse_body_type.
    now rewrite (proj2 (before_first_none _ _) Hp).
  - eexists. split; [apply KReturn; intros X; discriminate X|]. intros p. exact (parse_bad_type ovf now s p _ _ _ _ Hb Hc Hbody Hp Ht).
  - exists (fun p => (r, p)). split; [apply KReturn; intros X; discriminate X|]. intros p. exact (parse_plain ovf now s p _ _ _ _ _ _ Hb Hc Hbody Hp Ht Hr).
  - apply kind_unsafe, (gsv_kind ovf now s tt (split_on 44 rest)). split; [|split; [apply split_on_nonempty|now rewrite <- byte_len_spec]].
    eapply sentence_of; try eassumption. now apply gsv_type_plain.
  - apply kind_unsafe, (vdm_kind ovf now s tt fff (split_on 44 rest)).
    split; [|split; [apply split_on_nonempty|split; [now rewrite <- byte_len_spec|exact Hf]]].
    eapply sentence_of; try eassumption. repeat apply plain_app; [now apply plain_lit_dec|exact Hp|].
    destruct Hf as [-> | ->]; now apply plain_lit_dec.
  - eexists. split; [apply KReturn; intros X; discriminate X|]. intros p.
    exact (parse_unsupported ovf now s p _ _ _ _ _ _ _ Hb Hc Hbody Hp Hr Hn).
Qed.

(** ** Decoding a complete payload *)

Definition fresh_part (v : VesselStaticData) : Prop :=
  vsd_ais_type v = AisClassB /\ vsd_ais_version_indicator v = 0 /\ vsd_imo_number v = None.

Lemma pick_mmsi_small bits i : as_u32 (pick_u64 bits i 30) = be_value (window bits i 30).
Proof.
  rewrite pick_u64_spec by lia. unfold as_u32. apply N.mod_small.
  pose proof (be_value_lt (window bits i 30)) as H. rewrite window_length in H.
  change (2 ^ N.of_nat 30) with 1073741824 in H. lia.
Qed.

Lemma t24_fields_facts bits own b v :
  t24_fields bits own b = Ok v -> vsd_mmsi v = be_value (window bits 8 30) /\ fresh_part v.
Proof.
  unfold t24_fields. intros H. inv_binds H. injection H as <-.
  cbn [vsd_mmsi]. split; [apply pick_mmsi_small|repeat split].
Qed.

Lemma dispatch_act now t bits st own :
  (exists r, forall p, dispatch_message now t bits st own p = (r, p)) \/
  (exists v, t24_fields bits own (pick_u64 bits 38 2 =? 1) = Ok v /\
     (pick_u64 bits 38 2 = 0 \/ pick_u64 bits 38 2 = 1) /\
     be_value (window bits 0 6) = 24 /\ vsd_mmsi v = be_value (window bits 8 30) /\
     fresh_part v /\ forall p, dispatch_message now t bits st own p = t24_store v p).
Proof.
  destruct (N.eq_dec (pick_u64 bits 0 6) 24) as [E|E].
  - unfold dispatch_message. rewrite E. cbv zeta iota beta. unfold handle_t24.
    destruct ((pick_u64 bits 38 2 =? 0) || (pick_u64 bits 38 2 =? 1)) eqn:Ep; [|left; eauto].
    destruct (t24_fields bits own _) as [v|e|] eqn:Ev; [|left; eauto|left; eauto].
    right. exists v. destruct (t24_fields_facts _ _ _ _ Ev) as [H1 H2].
    split; [reflexivity|]. split.
    { apply orb_true_iff in Ep as [Ep|Ep]; apply N.eqb_eq in Ep; auto. }
    rewrite pick_u64_spec in E by lia. auto.
  - left. pose proof (dispatch_message_case now t bits st own new_parser) as C.
    exists (fst (dispatch_message now t bits st own new_parser)). intros p.
    unfold dispatch_message. generalize dependent (pick_u64 bits 0 6). intros n E _. cbv zeta.
    destruct n as [|n]; [reflexivity|].
    do 5 (destruct n as [n|n|]; try reflexivity; try congruence).
Qed.

Lemma decode_act ovf now fff payload st :
  (exists r, forall p, decode_payload ovf now fff payload st p = (r, p)) \/
  (exists bits v, parse_payload ovf payload = Ok bits /\
     t24_fields bits (str_eqb fff (lit "VDO")) (pick_u64 bits 38 2 =? 1) = Ok v /\
     (pick_u64 bits 38 2 = 0 \/ pick_u64 bits 38 2 = 1) /\
     be_value (window bits 0 6) = 24 /\ vsd_mmsi v = be_value (window bits 8 30) /\
     fresh_part v /\ forall p, decode_payload ovf now fff payload st p = t24_store v p).
Proof.
  unfold decode_payload. destruct (parse_payload ovf payload) as [bits|e|] eqn:E; [|left; eauto|left; eauto].
  destruct (dispatch_act now (lit "!" ++ fff) bits st (str_eqb fff (lit "VDO")))
    as [H|(v & H1 & H2 & H3 & H4 & H5 & H6)]; [now left|right].
  exists bits, v. auto 10.
Qed.

(** ** GSV groups *)

Lemma gsv_found_from tt c range p v :
  fold_left (fun found i => if contains_key (make_gsv_key (lit "$" ++ tt ++ lit "GSV") c i) p
                            then found + 1 else found) range v
  = v + N.of_nat (List.length (List.filter
          (fun i => match saved_fragments p !! gsv_key tt c i with Some _ => true | None => false end) range)).
Proof.
  revert v. induction range as [|i range IH]; intros v; cbn [fold_left List.filter].
  - cbn. lia.
  - rewrite IH. unfold contains_key. rewrite gsv_key_model.
    destruct (saved_fragments p !! gsv_key tt c i); cbn [List.length]; lia.
Qed.

Lemma gsv_found_spec tt c range p :
  gsv_found (lit "$" ++ tt ++ lit "GSV") c range p
  = N.of_nat (List.length (List.filter
      (fun i => match saved_fragments p !! gsv_key tt c i with Some _ => true | None => false end) range)).
Proof. unfold gsv_found. now rewrite gsv_found_from. Qed.

Lemma gsv_found_ext tt c range p q :
  (forall i, saved_fragments p !! gsv_key tt c i = saved_fragments q !! gsv_key tt c i) ->
  gsv_found (lit "$" ++ tt ++ lit "GSV") c range p = gsv_found (lit "$" ++ tt ++ lit "GSV") c range q.
Proof.
  intros H. rewrite !gsv_found_spec. f_equal. f_equal. apply List.filter_ext. intros i. now rewrite H.
Qed.

Lemma gsv_collect_writes nav tt c range p k :
  (forall i, In i range -> k <> gsv_key tt c i) ->
  saved_fragments (snd (gsv_collect nav (lit "$" ++ tt ++ lit "GSV") c range p)) !! k = saved_fragments p !! k.
Proof.
  revert p. induction range as [|i range IH]; intros p H; cbn [gsv_collect]; [reflexivity|].
  unfold pull_string. rewrite gsv_key_model.
  match goal with |- context [gsv_collect ?a ?b ?c ?d ?e] => specialize (IH e); destruct (gsv_collect a b c d e) as [v p2] end.
  cbn [snd] in *. rewrite IH.
  - cbn [saved_fragments]. apply lookup_delete_ne. intros E. apply (H i); [now left|congruence].
  - intros j Hj. apply H. now right.
Qed.

Lemma gsv_collect_vsds nav tt c range p :
  saved_vsds (snd (gsv_collect nav (lit "$" ++ tt ++ lit "GSV") c range p)) = saved_vsds p.
Proof.
  revert p. induction range as [|i range IH]; intros p; cbn [gsv_collect]; [reflexivity|].
  unfold pull_string.
  match goal with |- context [gsv_collect ?a ?b ?c ?d ?e] => specialize (IH e); destruct (gsv_collect a b c d e) as [v p2] end.
  exact IH.
Qed.

Lemma gsv_collect_ext (K : str -> Prop) nav tt c range p q :
  (forall i, K (gsv_key tt c i)) ->
  (forall k, K k -> saved_fragments p !! k = saved_fragments q !! k) ->
  fst (gsv_collect nav (lit "$" ++ tt ++ lit "GSV") c range p)
  = fst (gsv_collect nav (lit "$" ++ tt ++ lit "GSV") c range q) /\
  forall k, K k ->
    saved_fragments (snd (gsv_collect nav (lit "$" ++ tt ++ lit "GSV") c range p)) !! k
    = saved_fragments (snd (gsv_collect nav (lit "$" ++ tt ++ lit "GSV") c range q)) !! k.
Proof.
  intros HK. revert p q. induction range as [|i range IH]; intros p q H; cbn [gsv_collect]; [auto|].
  unfold pull_string. rewrite gsv_key_model.
  specialize (IH (mk_parser (delete (gsv_key tt c i) (saved_fragments p)) (saved_vsds p))
                 (mk_parser (delete (gsv_key tt c i) (saved_fragments q)) (saved_vsds q))).
  match goal with |- context [gsv_collect ?a ?b ?c ?d (mk_parser (delete _ (saved_fragments p)) _)] =>
    destruct (gsv_collect a b c d (mk_parser (delete (gsv_key tt c i) (saved_fragments p)) (saved_vsds p))) as [v p2];
    destruct (gsv_collect a b c d (mk_parser (delete (gsv_key tt c i) (saved_fragments q)) (saved_vsds q))) as [w q2] end.
  cbn [fst snd saved_fragments] in *.
  destruct IH as [H1 H2].
  - intros k Hk. destruct (decide (gsv_key tt c i = k)) as [E|E].
    + rewrite E. now rewrite !lookup_delete.
    + rewrite !lookup_delete_ne by exact E. now apply H.
  - rewrite (H _ (HK i)), H1. auto.
Qed.

Lemma gsv_step_writes ovf tt c n body p k :
  (forall i, k <> gsv_key tt c i) ->
  saved_fragments (snd (gsv_step ovf tt c n body p)) !! k = saved_fragments p !! k.
Proof.
  intros H. unfold gsv_step. cbv zeta.
  assert (Hp : saved_fragments (push_string (gsv_key tt c n) body p) !! k = saved_fragments p !! k).
  { cbn. apply lookup_insert_ne. intros E. now apply (H n). }
  destruct (gsv_range ovf c) as [range|]; [|exact Hp].
  destruct (_ =? c); [|exact Hp].
  match goal with |- context [gsv_collect ?a ?b ?c ?d ?e] =>
    pose proof (gsv_collect_writes a tt c d e k) as Hw; destruct (gsv_collect a b c d e) as [v p2] end.
  cbn [snd] in *. rewrite Hw; [exact Hp|]. intros i _. apply H.
Qed.

Lemma gsv_step_vsds ovf tt c n body p : saved_vsds (snd (gsv_step ovf tt c n body p)) = saved_vsds p.
Proof.
  unfold gsv_step. cbv zeta. destruct (gsv_range ovf c) as [range|]; [|reflexivity].
  destruct (_ =? c); [|reflexivity].
  match goal with |- context [gsv_collect ?a ?b ?c ?d ?e] =>
    pose proof (gsv_collect_vsds a tt c d e) as Hw; destruct (gsv_collect a b c d e) as [v p2] end.
  exact Hw.
Qed.

Lemma gsv_step_ext (K : str -> Prop) ovf tt c n body p q :
  (forall i, K (gsv_key tt c i)) ->
  (forall k, K k -> saved_fragments p !! k = saved_fragments q !! k) ->
  fst (gsv_step ovf tt c n body p) = fst (gsv_step ovf tt c n body q) /\
  forall k, K k -> saved_fragments (snd (gsv_step ovf tt c n body p)) !! k
          = saved_fragments (snd (gsv_step ovf tt c n body q)) !! k.
Proof.
  intros HK H. unfold gsv_step. cbv zeta.
  assert (Hp : forall k, K k -> saved_fragments (push_string (gsv_key tt c n) body p) !! k
                       = saved_fragments (push_string (gsv_key tt c n) body q) !! k).
  { intros k Hk. unfold push_string. cbn [saved_fragments].
    destruct (decide (gsv_key tt c n = k)) as [E|E].
    - rewrite E. now rewrite !lookup_insert.
    - rewrite !lookup_insert_ne by exact E. now apply H. }
  destruct (gsv_range ovf c) as [range|]; [|auto].
  rewrite (gsv_found_ext tt c range _ _ (fun i => Hp _ (HK i))). destruct (_ =? c); [|auto].
  destruct (gsv_collect_ext K (nav_of_talker tt) tt c range _ _ HK Hp) as [H1 H2].
  match goal with |- context [gsv_collect ?a ?b ?c ?d (push_string _ _ p)] =>
    destruct (gsv_collect a b c d (push_string (gsv_key tt c n) body p)) as [v p2];
    destruct (gsv_collect a b c d (push_string (gsv_key tt c n) body q)) as [w q2] end.
  cbn [fst snd] in *. rewrite H1. auto.
Qed.

(** ** Entries *)

Global Instance entry_eq_dec : EqDecision entry.
Proof. solve_decision. Defined.

Lemma stored_ext p q : (forall e, stored p e = stored q e) -> p = q.
Proof.
  intros H. destruct p as [f v], q as [g w]. f_equal; apply map_eq; intros k.
  - specialize (H (Text k)). cbn in H. now apply (inj (fmap inl)) in H.
  - specialize (H (Vessel k)). cbn in H. now apply (inj (fmap inr)) in H.
Qed.

Lemma stored_text p q k : stored p (Text k) = stored q (Text k) <-> saved_fragments p !! k = saved_fragments q !! k.
Proof.
  cbn. split; [|now intros ->]. intros H. now apply (inj (fmap inl)) in H.
Qed.

Lemma stored_kept p k x : stored p (Text k) = Some (inl x) <-> kept p k = Some x.
Proof.
  unfold kept. cbn [stored]. destruct (saved_fragments p !! k) as [y|]; cbn [fmap option_fmap option_map].
  - split; intros H; injection H as ->; reflexivity.
  - split; discriminate.
Qed.

Lemma stored_kept_none p k : stored p (Text k) = None <-> kept p k = None.
Proof. unfold kept. cbn [stored]. apply fmap_None. Qed.

Lemma stored_vessel p q m : stored p (Vessel m) = stored q (Vessel m) <-> saved_vsds p !! m = saved_vsds q !! m.
Proof.
  cbn. split; [|now intros ->]. intros H. now apply (inj (fmap inr)) in H.
Qed.

Lemma waiting_lookup p fff mid channel n payload :
  waiting p fff mid channel n payload <-> saved_fragments p !! fragment_key fff mid channel n = Some payload.
Proof.
  unfold waiting. cbn. destruct (saved_fragments p !! _) as [x|]; cbn.
  - split; intros H; injection H as ->; reflexivity.
  - split; discriminate.
Qed.

Lemma not_waiting_lookup p fff mid channel :
  not_waiting p fff mid channel <->
  kept p (fragment_key fff mid channel 1) = None /\ kept p (fragment_key fff mid channel 2) = None.
Proof.
  unfold not_waiting. cbn [stored]. split.
  - intros H. split; [specialize (H 1 (or_introl eq_refl))|specialize (H 2 (or_intror eq_refl))];
      now apply fmap_None in H.
  - intros [H1 H2] n [-> | ->]; apply fmap_None; assumption.
Qed.

(** [t24_store] touches one vessel. *)
Lemma t24_store_writes v p e : e <> Vessel (vsd_mmsi v) -> stored (snd (t24_store v p)) e = stored p e.
Proof.
  intros H. unfold t24_store, pull_vsd. destruct e as [k|m].
  - destruct (saved_vsds p !! vsd_mmsi v); reflexivity.
  - assert (Hm : vsd_mmsi v <> m) by congruence.
    destruct (saved_vsds p !! vsd_mmsi v); apply stored_vessel; cbn.
    + now rewrite lookup_delete_ne.
    + now rewrite lookup_insert_ne, lookup_delete_ne.
Qed.

Lemma t24_store_ext v p q :
  stored p (Vessel (vsd_mmsi v)) = stored q (Vessel (vsd_mmsi v)) ->
  fst (t24_store v p) = fst (t24_store v q) /\
  stored (snd (t24_store v p)) (Vessel (vsd_mmsi v)) = stored (snd (t24_store v q)) (Vessel (vsd_mmsi v)).
Proof.
  rewrite !stored_vessel. intros H. unfold t24_store, pull_vsd. rewrite H.
  destruct (saved_vsds q !! vsd_mmsi v) as [w|]; cbn [fst snd].
  - split; [reflexivity|]. cbn. now rewrite !lookup_delete.
  - split; [reflexivity|]. cbn. now rewrite !lookup_insert.
Qed.

(** Frame of [decode_payload]. *)
Definition static_entry (ovf : bool) (payload : str) (e : entry) : Prop :=
  exists bits, parse_payload ovf payload = Ok bits /\ be_value (window bits 0 6) = 24 /\
    e = Vessel (be_value (window bits 8 30)).

Lemma decode_writes ovf now fff payload st p e :
  ~ static_entry ovf payload e -> stored (snd (decode_payload ovf now fff payload st p)) e = stored p e.
Proof.
  intros H. destruct (decode_act ovf now fff payload st) as [(r & ->)|(bits & v & H1 & _ & _ & H2 & H3 & _ & ->)];
    [reflexivity|].
  apply t24_store_writes. intros ->. apply H. exists bits. rewrite H3. auto.
Qed.

Lemma decode_ext ovf now fff payload st p q :
  (forall e, static_entry ovf payload e -> stored p e = stored q e) ->
  fst (decode_payload ovf now fff payload st p) = fst (decode_payload ovf now fff payload st q) /\
  (forall e, static_entry ovf payload e ->
     stored (snd (decode_payload ovf now fff payload st p)) e = stored (snd (decode_payload ovf now fff payload st q)) e).
Proof.
  intros H. destruct (decode_act ovf now fff payload st) as [(r & Hr)|(bits & v & H1 & _ & _ & H2 & H3 & _ & Hr)];
    rewrite !Hr; [auto|].
  destruct (t24_store_ext v p q) as [G1 G2].
  { apply H. exists bits. rewrite H3. auto. }
  split; [exact G1|]. intros e (bits' & E1 & _ & ->). rewrite H1 in E1. injection E1 as <-. now rewrite <- H3.
Qed.

(** ** The frame of a call *)

Lemma stored_without k p e : stored (without k p) e = if decide (e = Text k) then None else stored p e.
Proof.
  destruct (decide (e = Text k)) as [-> |H].
  - cbn. now rewrite lookup_delete.
  - destruct e as [k'|m]; [|reflexivity]. apply stored_text. cbn. rewrite lookup_delete_ne; [reflexivity|congruence].
Qed.

Lemma stored_push k x p e : stored (push_string k x p) e = if decide (e = Text k) then Some (inl x) else stored p e.
Proof.
  destruct (decide (e = Text k)) as [-> |H].
  - cbn. now rewrite lookup_insert.
  - destruct e as [k'|m]; [|reflexivity]. apply stored_text. cbn. rewrite lookup_insert_ne; [reflexivity|congruence].
Qed.

Lemma call_writes ovf now s p e : ~ touches ovf s p e -> stored (snd (parse_sentence ovf now s p)) e = stored p e.
Proof.
  intros H. destruct (sentence_kind ovf now s) as (f & K & Hf). rewrite Hf. clear Hf.
  destruct K as [r|tt fff payload Hs|tt fff mid channel a Hs|tt fff mid channel b Hs|tt c n body given Hs Hb].
  - reflexivity.
  - apply decode_writes. intros (bits & H1 & H2 & ->). apply H.
    eapply touch_vessel; [|eassumption|eassumption]. apply complete_one. exact Hs.
  - unfold first_step. destruct (kept p _) as [b|] eqn:E.
    + rewrite decode_writes, stored_without.
      * destruct (decide _) as [-> |_]; [|reflexivity]. exfalso. apply H.
        eapply touch_fragment; [eassumption|auto].
      * intros (bits & H1 & H2 & ->). apply H. eapply touch_vessel; [|eassumption|eassumption].
        eapply complete_first; [exact Hs|]. now apply waiting_lookup.
    + cbn [snd]. rewrite stored_push. destruct (decide _) as [-> |_]; [|reflexivity]. exfalso. apply H.
      eapply touch_fragment; [eassumption|auto].
  - unfold second_step. destruct (kept p _) as [a|] eqn:E.
    + rewrite decode_writes, stored_without.
      * destruct (decide _) as [-> |_]; [|reflexivity]. exfalso. apply H.
        eapply touch_fragment; [eassumption|auto].
      * intros (bits & H1 & H2 & ->). apply H. eapply touch_vessel; [|eassumption|eassumption].
        eapply complete_second; [exact Hs|]. now apply waiting_lookup.
    + cbn [snd]. rewrite stored_push. destruct (decide _) as [-> |_]; [|reflexivity]. exfalso. apply H.
      eapply touch_fragment; [eassumption|auto].
  - destruct e as [k|m].
    + apply stored_text. apply gsv_step_writes. intros i ->. apply H. eapply touch_gsv. exact Hs.
    + apply stored_vessel. now rewrite gsv_step_vsds.
Qed.

(** Entries outside the footprint do not matter. *)
Lemma call_frame ovf now s (K : entry -> Prop) p q :
  agree K p q -> (forall e, touches ovf s p e -> K e) ->
  fst (parse_sentence ovf now s p) = fst (parse_sentence ovf now s q) /\
  agree K (snd (parse_sentence ovf now s p)) (snd (parse_sentence ovf now s q)).
Proof.
  intros H Ht.
  assert (Hrest : forall p' q', agree K p' q' ->
    forall fff payload st, (forall e, static_entry ovf payload e -> K e) ->
    fst (decode_payload ovf now fff payload st p') = fst (decode_payload ovf now fff payload st q') /\
    agree K (snd (decode_payload ovf now fff payload st p'))
            (snd (decode_payload ovf now fff payload st q'))).
  { intros p' q' Ha fff payload st Hst.
    destruct (decode_ext ovf now fff payload st p' q') as [E1 E2]; [intros e He; apply Ha, Hst, He|].
    split; [exact E1|]. intros e He.
    destruct (decode_act ovf now fff payload st) as [(r & Hr)|(bits & v & H1 & _ & _ & H2 & H3 & _ & Hr)].
    - rewrite !Hr. cbn [snd]. apply Ha, He.
    - destruct (decide (e = Vessel (vsd_mmsi v))) as [-> |Hne].
      + apply E2. exists bits. rewrite H3. auto.
      + rewrite !Hr, !t24_store_writes by exact Hne. apply Ha, He. }
  destruct (sentence_kind ovf now s) as (f & Kd & Hf). rewrite !Hf. clear Hf.
  destruct Kd as [r|tt fff payload Hs|tt fff mid channel a Hs|tt fff mid channel b Hs|tt c n body given Hs Hb].
  - split; [reflexivity|]. exact H.
  - apply Hrest; [exact H|]. intros e (bits & H1 & H2 & ->). apply Ht.
    eapply touch_vessel; [|eassumption|eassumption]. apply complete_one. exact Hs.
  - assert (E : kept p (fragment_key fff mid channel 2) = kept q (fragment_key fff mid channel 2)).
    { apply stored_text, H, Ht. eapply touch_fragment; [exact Hs|auto]. }
    unfold first_step. rewrite <- E. destruct (kept p _) as [b|] eqn:Ep.
    + apply Hrest.
      * intros e He. rewrite !stored_without. destruct (decide _); [reflexivity|]. apply H, He.
      * intros e (bits & H1 & H2 & ->). apply Ht. eapply touch_vessel; [|eassumption|eassumption].
        eapply complete_first; [exact Hs|]. now apply waiting_lookup.
    + split; [reflexivity|]. intros e He. cbn [snd]. rewrite !stored_push.
      destruct (decide _); [reflexivity|]. apply H, He.
  - assert (E : kept p (fragment_key fff mid channel 1) = kept q (fragment_key fff mid channel 1)).
    { apply stored_text, H, Ht. eapply touch_fragment; [exact Hs|auto]. }
    unfold second_step. rewrite <- E. destruct (kept p _) as [b'|] eqn:Ep.
    + apply Hrest.
      * intros e He. rewrite !stored_without. destruct (decide _); [reflexivity|]. apply H, He.
      * intros e (bits & H1 & H2 & ->). apply Ht. eapply touch_vessel; [|eassumption|eassumption].
        eapply complete_second; [exact Hs|]. now apply waiting_lookup.
    + split; [reflexivity|]. intros e He. cbn [snd]. rewrite !stored_push.
      destruct (decide _); [reflexivity|]. apply H, He.
  - destruct (gsv_step_ext (fun k => K (Text k)) ovf tt c n body p q) as [E1 E2].
    { intros i. apply Ht. eapply touch_gsv. exact Hs. }
    { intros k Hk. apply stored_text, H, Hk. }
    split; [exact E1|]. intros [k|m] He.
    + apply stored_text, E2, He.
    + apply stored_vessel. rewrite !gsv_step_vsds. apply stored_vessel, H, He.
Qed.

(** The footprint depends only on the entries in it. *)
Lemma touches_agree ovf s (K : entry -> Prop) p q :
  agree K p q -> (forall e, touches ovf s p e -> K e) ->
  forall e, touches ovf s p e -> touches ovf s q e.
Proof.
  intros H Ht.
  assert (Hc : forall tt fff payload, completes s tt fff p payload -> completes s tt fff q payload).
  { intros tt fff payload [pl Hs|mid channel a b Hs Hw|mid channel a b Hs Hw].
    - now apply complete_one.
    - eapply complete_second; [exact Hs|]. unfold waiting in *. rewrite <- Hw. symmetry. apply H, Ht.
      eapply touch_fragment; [exact Hs|auto].
    - eapply complete_first; [exact Hs|]. unfold waiting in *. rewrite <- Hw. symmetry. apply H, Ht.
      eapply touch_fragment; [exact Hs|auto]. }
  intros e [tt fff mid channel n payload k H1 H2|tt c n k H1|tt fff payload H1 H2 H3].
  - eapply touch_fragment; eassumption.
  - eapply touch_gsv; eassumption.
  - eapply touch_static; [apply Hc; eassumption|eassumption|eassumption].
Qed.

Lemma agree_sym K p q : agree K p q -> agree K q p.
Proof. intros H e He. symmetry. now apply H. Qed.

Lemma agree_touches ovf s K p q :
  agree K p q -> (forall e, touches ovf s p e -> K e) -> forall e, touches ovf s q e -> touches ovf s p e.
Proof.
  intros H Ht.
  assert (Hc : forall tt fff payload, completes s tt fff q payload -> completes s tt fff p payload).
  { intros tt fff payload [pl Hs|mid channel a b Hs Hw|mid channel a b Hs Hw].
    - now apply complete_one.
    - eapply complete_second; [exact Hs|]. unfold waiting in *. rewrite <- Hw. apply H, Ht.
      eapply touch_fragment; [exact Hs|auto].
    - eapply complete_first; [exact Hs|]. unfold waiting in *. rewrite <- Hw. apply H, Ht.
      eapply touch_fragment; [exact Hs|auto]. }
  intros e [tt fff mid channel n payload k H1 H2|tt c n k H1|tt fff payload H1 H2 H3].
  - eapply touch_fragment; eassumption.
  - eapply touch_gsv; eassumption.
  - eapply touch_static; [apply Hc; eassumption|eassumption|eassumption].
Qed.

(** ** Fragments *)

Lemma Text_inj a b : Text a = Text b -> a = b.
Proof. congruence. Qed.

Lemma nth_error_unwrap {A} (l : list A) i d : unwrap_or (nth_error l i) d = nth i l d.
Proof.
  destruct (nth_error l i) as [x|] eqn:E; cbn [unwrap_or].
  - symmetry. now apply nth_error_nth.
  - symmetry. apply nth_overflow. now apply nth_error_None.
Qed.

Lemma fragment_vdm_step ovf now s p tt fff mid channel n payload :
  fragment s tt fff mid channel n payload ->
  parse_sentence ovf now s p =
  (if n =? 1 then first_step else second_step) ovf now tt fff mid channel payload p.
Proof.
  intros (fields & count & number & id & Hs & H0 & Hc & H1 & Hn & Hn12 & H2 & Hi & Hi' & -> & ->).
  rewrite (vdm_with_step _ _ _ _ _ _ _ Hs), (vdm_scan_fields _ _ _ H0), H1.
  rewrite (parse_u8_denotes count 2), (parse_u8_denotes number n) by (assumption || lia).
  unfold vdm_payload. cbn [scan_of vf_count vf_number vf_id vf_channel vf_payload]. rewrite H2.
  rewrite (proj2 (parse_uint_spec u64_max id mid)) by (split; [exact Hi|unfold u64_max; lia]).
  change (2 =? 1) with false. change (2 =? 2) with true. cbv iota zeta.
  rewrite nth_error_unwrap, !fragment_key_model. unfold pull_string.
  destruct Hn12 as [-> | ->]; [change (1 =? 1) with true|change (2 =? 1) with false]; cbv iota.
  - unfold first_step. fold (without (fragment_key fff mid (nth 3 fields []) 2) p).
    change (saved_fragments p !! ?k) with (kept p k).
    destruct (kept p _) eqn:Eq; [reflexivity|]. now rewrite without_none.
  - change (2 =? 2) with true. cbv iota.
    unfold second_step. fold (without (fragment_key fff mid (nth 3 fields []) 1) p).
    change (saved_fragments p !! ?k) with (kept p k).
    destruct (kept p _) eqn:Eq; [reflexivity|]. now rewrite without_none.
Qed.

Lemma gsv_part_step ovf now s p tt c n :
  gsv_part s tt c n -> exists body given, has_body s body given /\
  parse_sentence ovf now s p = gsv_step ovf tt c n body p.
Proof.
  intros (fields & Hs & Hc & Hn). pose proof Hs as ((body & given & Hb & Hok & Hf) & Hne & Ht).
  exists body, given. split; [exact Hb|].
  pose proof (gsv_with_plain _ _ _ Hs) as Hp.
  apply has_fields_split in Hf. symmetry in Hf.
  pose proof (proj2 (has_fields_split body _) (eq_sym Hf)) as (_ & _ & Hj).
  rewrite join_cons in Hj by exact Hne. rewrite <- byte_len_spec in Ht.
  rewrite (parse_gsv ovf now s p body given tt _ Hb Hok Hj Hp Ht).
  unfold handle_gsv. rewrite Hf. cbn [field nth].
  assert (Hnum : forall i v, count_field (nth i fields []) v ->
    exists o, number parse_u32 ((lit "$" ++ tt ++ lit "GSV") :: fields) (S i) = Ok o /\ unwrap_or o 0 = v).
  { intros i v Hv. unfold number, pick_number_field, field. cbn [nth]. rewrite str_eqb_nil_r.
    destruct Hv as [[-> ->]|[Hd Hv]]; [exists None; split; reflexivity|].
    destruct (nth i fields []) as [|x t] eqn:E.
    - destruct Hd as (ds & [Ed|Ed] & [Hd _] & _); [now subst|discriminate].
    - cbn [negb]. unfold parse_u32. rewrite (proj2 (parse_uint_spec u32_max (x :: t) v)).
      + exists (Some v). split; reflexivity.
      + split; [exact Hd|]. unfold u32_max. lia. }
  destruct (Hnum 0%nat c Hc) as (oc & -> & ->). destruct (Hnum 1%nat n Hn) as (on & -> & ->).
  cbv zeta. rewrite gsv_key_model. unfold gsv_step. destruct (gsv_range ovf c); reflexivity.
Qed.
