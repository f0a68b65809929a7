(** C100: the answer to every call and what the parser keeps after it. *)
From stdpp Require Import gmap.
From Coq Require Import List NArith ZArith Bool String Lia.
From Verif Require Import Base Str F64 Chrono Types Util AisMod Vdm Gnss Parser
  SpecText SpecResult SpecAis SpecTime SpecMeasure SpecState SpecGnss SpecReal SpecFields SpecPanic SpecError SpecWait SpecMerge
  SpecDirect SpecComplete CompleteFacts
  StrFacts FrontFacts CallFacts ResultFacts BitFacts VdmFacts LayoutFacts StateFacts RunFacts FieldFacts
  PropFront PropAis PropState PropBits PropStatic PropGsv PropMix PropFields PropTables PropPanic PropError PropWait
  PropGroups PropPairs PropDirect PropStates PropAssembly.
Import ListNotations.
Open Scope N_scope.
Local Opaque pick_string pick_u64 pick_i64 pick_eta parse_f64 be_value.

(** ** Parts of static reports *)

Lemma part_fields bits own v : part_says bits own v <->
  bits_at bits 0 6 = 24 /\ (bits_at bits 38 2 = 0 \/ bits_at bits 38 2 = 1) /\
  t24_fields bits own (bits_at bits 38 2 =? 1) = Ok v.
Proof.
  assert (U : forall i n a b, text_at bits i n a -> text_at bits i n b -> a = b).
  { intros i n a b Ha Hb. apply (@text_at_string ParseError) in Ha, Hb. rewrite Ha in Hb. now injection Hb. }
  split.
  - intros [name Ht Hp Hn|vendor call_sign Ht Hp Hv Hc]; (split; [exact Ht|]); (split; [tauto|]); rewrite Hp;
      unfold t24_fields.
    + change (0 =? 1) with false. cbv iota. cbn [bind]. rewrite (text_at_string _ _ _ _ Hn). cbn [bind].
      now rewrite at_u32 by lia.
    + change (1 =? 1) with true. cbv iota. cbn [bind].
      rewrite (text_at_string _ _ _ _ Hc), (text_at_string _ _ _ _ Hv). cbn [bind]. fields_at.
      now rewrite ship_value, cargo_value by in_range.
  - intros (Ht & Hp & Hv). unfold t24_fields in Hv. destruct Hp as [Hp|Hp]; rewrite Hp in Hv.
    + change (0 =? 1) with false in Hv. cbv iota in Hv. cbn [bind] in Hv.
      destruct (@at_string ParseError bits 40 120) as (a & Ea & Ha). rewrite Ea in Hv. cbn [bind] in Hv.
      injection Hv as <-. rewrite at_u32 by lia. now apply says_a.
    + change (1 =? 1) with true in Hv. cbv iota in Hv. cbn [bind] in Hv.
      destruct (@at_string ParseError bits 90 7) as (a & Ea & Ha). rewrite Ea in Hv.
      destruct (@at_string ParseError bits 48 3) as (b & Eb & Hb). rewrite Eb in Hv. cbn [bind] in Hv.
      injection Hv as <-. fields_at. rewrite ship_value, cargo_value by in_range. now apply says_b.
Qed.

Lemma part_unique bits own v w : part_says bits own v -> part_says bits own w -> v = w.
Proof. rewrite !part_fields. intros (_ & _ & Hv) (_ & _ & Hw). rewrite Hv in Hw. now injection Hw. Qed.

Lemma part_store now t bits st own v p : part_says bits own v -> dispatch_message now t bits st own p = t24_store v p.
Proof.
  rewrite part_fields. intros (Ht & Hp & Hv).
  rewrite (handler_called now 24 (fun bits st own p => handle_t24 bits st p own) t bits st own p eq_refl Ht).
  unfold handle_t24. rewrite at_u64 by lia. rewrite Hv. destruct Hp as [-> | ->]; reflexivity.
Qed.

Lemma part_fresh bits own v : part_says bits own v -> fresh_part v.
Proof. rewrite part_fields. intros (_ & _ & H). now apply t24_fields_facts in H. Qed.

Lemma part_or_none bits own : (exists v, part_says bits own v) \/ forall v, ~ part_says bits own v.
Proof.
  destruct (t24_fields_total bits own (bits_at bits 38 2 =? 1)) as (v & Hv).
  destruct (N.eq_dec (bits_at bits 0 6) 24) as [E|E]; [|right; intros w H; apply part_fields in H; tauto].
  destruct (N.lt_ge_cases (bits_at bits 38 2) 2) as [L|L].
  - left. exists v. apply part_fields. split; [exact E|]. split; [lia|exact Hv].
  - right. intros w H. apply part_fields in H. lia.
Qed.

(** A message that says no part of static data leaves the parser alone. *)
Lemma no_part_keeps ovf now fff payload st p :
  (readable ovf payload -> forall v, ~ part_says (payload_bits payload) (str_eqb fff (lit "VDO")) v) ->
  snd (decode_payload ovf now fff payload st p) = p.
Proof.
  intros H. destruct (decode_act ovf now fff payload st) as [(r & E)|(bits & v & Hb & Hv & Hp & Ht & _ & _ & _)]; [now rewrite E|].
  exfalso. apply parse_payload_readable in Hb as [R ->]. apply (H R v). apply part_fields. rewrite at_u64 in Hp, Hv by lia.
  split; [exact Ht|]. split; [exact Hp|exact Hv].
Qed.

Lemma decode_part ovf now fff payload st p v : readable ovf payload ->
  part_says (payload_bits payload) (str_eqb fff (lit "VDO")) v ->
  decode_payload ovf now fff payload st p = t24_store v p.
Proof.
  intros R H. unfold decode_payload. rewrite (proj2 (parse_payload_readable ovf payload _) (conj R eq_refl)).
  now apply part_store.
Qed.

(** ** Answers *)

Lemma message_satellites nav tt fields : plain tt -> Forall plain fields -> fields <> [] ->
  satellites nav fields (gsv_blocks nav (join ((lit "$" ++ tt ++ lit "GSV") :: fields))).
Proof.
  intros Ht Hf Hne. apply gsv_blocks_satellites with (lit "$" ++ tt ++ lit "GSV").
  apply split_on_join; [discriminate|]. constructor; [now apply gsv_type_plain|exact Hf].
Qed.

Lemma gsv_message_fields s tt c n fields : gsv_message s tt c n fields ->
  plain tt /\ Forall plain fields /\ fields <> [].
Proof.
  intros H. split; [exact (gsv_message_plain _ _ _ _ _ H)|].
  destruct H as (((b & g & _ & _ & (_ & Hp & _)) & Hne & _) & _). apply Forall_cons_iff in Hp as [_ Hp]. auto.
Qed.

Lemma gsv_message_part s tt c n fields : gsv_message s tt c n fields -> gsv_part s tt c n.
Proof. intros (A & B & C). now exists fields. Qed.

Lemma about_answer ovf now s p r : vsds_ok p -> clock now -> (0 <= dt_year now)%Z ->
  report_about ovf now s p r -> fst (parse_sentence ovf now s p) = Ok r.
Proof.
  intros Hok Hc Hy [tt fff nav fields r' Hs Hn R|tt c n fields nav all sats Hs Hlt Hn Ha Hall Hsat
    |tt fff payload st r' Hs Hr Hn R|tt fff payload v w d Hs Hr Hv Hw Hm].
  - revert Hs. destruct R as [d R|d R|d R|d R|d R]; intros Hs.
    + destruct (c39_gga ovf now s tt nav fields p Hs Hn Hc) as (_ & H & _). apply H. eauto.
    + destruct (c40_rmc ovf now s tt nav fields p Hs Hn Hy) as (_ & H & _). apply H. eauto.
    + destruct (c41_gsa ovf now s tt nav fields p Hs Hn) as (_ & H & _). apply H. eauto.
    + destruct (c42_gll ovf now s tt nav fields p Hs Hn Hc) as (_ & H & _). apply H. eauto.
    + destruct (c43_vtg ovf now s tt nav fields p Hs Hn) as (_ & H). now apply H.
  - destruct (gsv_message_fields _ _ _ _ _ Hs) as (Ht & Hp & Hne).
    rewrite (gsv_message_step ovf now s p tt c n fields Hs).
    rewrite (gsv_step_all ovf tt c n _ p (fun i => gsv_text tt (all i)) Ht Hlt).
    + cbn [fst]. f_equal. f_equal. rewrite !flat_map_concat_map. f_equal. apply map_ext_in. intros i Hi.
      apply numbers_to_in in Hi. eapply satellites_unique; [|exact (Hsat i Hi)].
      rewrite (names_system_unique _ _ _ (names_system_nav tt) Hn).
      destruct (N.eq_dec i n) as [-> |D].
      * rewrite Ha. now apply message_satellites.
      * destruct (Hall i Hi D) as (A & B & _). now apply message_satellites.
    + intros i Hi. rewrite kept_push. destruct (decide _) as [E|E].
      * apply gsv_key_inj in E as (_ & _ & ->); [|assumption|assumption]. now rewrite Ha.
      * destruct (Hall i Hi) as (_ & _ & X); [congruence|]. now apply stored_kept in X.
  - destruct (completes_step ovf now s tt fff p payload Hs) as (q & _ & ->). unfold decode_payload.
    rewrite (proj2 (parse_payload_readable ovf payload _) (conj Hr eq_refl)).
    rewrite (names_station_unique _ _ _ (names_station_station tt) Hn). apply ais_message; [|exact R].
    intros E. destruct R as [X|X|? ? ? ? X|X|X|X|X|? ? X|X]; rewrite E in X; cbn [In] in *; lia.
  - destruct (completes_step ovf now s tt fff p payload Hs) as (q & Hq & ->). rewrite (decode_part _ _ _ _ _ _ _ Hr Hv).
    unfold t24_store, pull_vsd. rewrite Hq. cbn [stored] in Hw.
    destruct (saved_vsds p !! vsd_mmsi v) as [w'|] eqn:E; [|discriminate Hw]. cbn in Hw. injection Hw as ->. cbn [fst].
    destruct (Hok _ _ E) as [E1 E2]. pose proof (part_fresh _ _ _ Hv) as F.
    destruct (merge_fresh v w F E2) as [m Em]; [congruence|]. rewrite Em. cbn [map_err bind].
    do 2 f_equal. apply (merged_unique v w); [|exact Hm]. now apply merge_merged.
Qed.

Lemma answer_about ovf now s p r : vsds_ok p -> texts_fine p -> clock now -> (0 <= dt_year now)%Z ->
  fst (parse_sentence ovf now s p) = Ok r -> r <> PsIncomplete -> report_about ovf now s p r.
Proof.
  intros Hok Htx Hc0 Hy H Hr.
  assert (Done : forall tt fff payload, completes s tt fff p payload -> report_about ovf now s p r).
  { intros tt fff payload C. pose proof H as H'. destruct (completes_step ovf now s tt fff p payload C) as (q & Hq & E).
    rewrite E in H'. unfold decode_payload in H'.
    destruct (parse_payload ovf payload) as [bits|e|] eqn:Ep; [|cbn [fst] in H'; congruence|discriminate].
    apply parse_payload_readable in Ep as [R ->].
    destruct (N.eq_dec (bits_at (payload_bits payload) 0 6) 24) as [E24|N24].
    - destruct (part_or_none (payload_bits payload) (str_eqb fff (lit "VDO"))) as [(v & Hv)|Hn].
      + rewrite (part_store _ _ _ _ _ _ _ Hv) in H'. unfold t24_store, pull_vsd in H'. rewrite Hq in H'.
        destruct (saved_vsds p !! vsd_mmsi v) as [w|] eqn:Ew; cbn [fst] in H'; [|congruence].
        destruct (merge v w) as [d|e|] eqn:Em; [|discriminate H'|discriminate H']. cbn [map_err bind] in H'. injection H' as <-.
        destruct (Hok _ _ Ew) as [E1 E2].
        eapply about_parts; [exact C|exact R|exact Hv|cbn [stored]; now rewrite Ew|].
        apply merge_merged; [exact (part_fresh _ _ _ Hv)|exact E1|exact Em].
      + exfalso. pose proof (handler_called now 24 (fun bits st own p => handle_t24 bits st p own) (lit "!" ++ fff)
          (payload_bits payload) (station_of_talker tt) (str_eqb fff (lit "VDO")) q eq_refl E24) as X. rewrite X in H'.
        unfold handle_t24 in H'. destruct ((_ =? 0) || (_ =? 1)) eqn:Eo; [|discriminate H'].
        destruct (t24_fields_total (payload_bits payload) (str_eqb fff (lit "VDO")) (bits_at (payload_bits payload) 38 2 =? 1)) as (v & Hv).
        apply (Hn v). apply part_fields. split; [exact E24|]. split; [|exact Hv]. rewrite at_u64 in Eo by lia.
        apply orb_true_iff in Eo as [Eo|Eo]; apply N.eqb_eq in Eo; auto.
    - apply ais_message in H'; [|exact N24]. eapply about_message; [exact C|exact R|apply names_station_station|exact H']. }
  pose proof (parse_call ovf now s p) as C.
  remember (parse_sentence ovf now s p) as o eqn:Er.
  destruct C as [body given Hb Hc|body given Hb Hc Hp|body given t rest Hb Hc Hbody Hp Ht
    |body given tt fff rest o Hb Hc Hbody Hp Ht Hr'|body given tt rest Hb Hc Hbody Hp Ht
    |body given tt fff rest Hb Hc Hbody Hp Ht Hf|body given t rest nav st t2 Hb Hc Hbody Hp Hr' Hn]; try discriminate H.
  - assert (Hs : gnss_with s tt fff (split_on 44 rest)).
    { split; [|split; [apply split_on_nonempty|now rewrite <- byte_len_spec]].
      eapply sentence_of; try eassumption. repeat apply plain_app; [now apply plain_lit_dec|exact Hp|].
      destruct Hr'; now apply plain_lit_dec. }
    eapply about_fields; [exact Hs|apply names_system_nav|].
    apply (gnss_ok ovf now s tt fff _ p r _ Hs (names_system_nav tt)); [destruct Hr'; cbn [In]; tauto|exact Hc0|exact Hy|].
    rewrite <- Er. exact H.
  - assert (G : gsv_with s tt (split_on 44 rest)).
    { split; [|split; [apply split_on_nonempty|now rewrite <- byte_len_spec]].
      eapply sentence_of; try eassumption. now apply gsv_type_plain. }
    rewrite Er in H. destruct (gsv_or_error ovf now s tt _ G) as [(c & n & fields & Hs)|E].
    2:{ destruct (E p) as (e & X). congruence. }
    change (gsv_message s tt c n fields) in Hs.
    destruct (gsv_message_fields _ _ _ _ _ Hs) as (Ht' & Hpf & Hne).
    assert (L : c <= 2 ^ 32 - 1).
    { destruct Hs as (_ & [[_ ->]|[_ X]] & _); lia. }
    assert (NW : ~ unfinished ovf s p) by (intros X; apply (c82_incomplete ovf now s p) in X; congruence).
    destruct (N.eq_dec c (2 ^ 32 - 1)) as [-> |C1].
    { exfalso. rewrite (gsv_message_step ovf now s p tt _ n fields Hs) in H. unfold gsv_step in H. cbv zeta in H.
      destruct ovf; [discriminate H|]. apply NW. eapply wait_overflow; [exact (gsv_message_part _ _ _ _ _ Hs)|reflexivity]. }
    assert (A : forall k, exists f, 1 <= k <= c -> k <> n -> Forall plain f /\ f <> [] /\
       stored p (Text (gsv_key tt c k)) = Some (inl (join ((lit "$" ++ tt ++ lit "GSV") :: f)))).
    { intros k. destruct (decide (1 <= k <= c)) as [Hk|Hk]; [|exists []; tauto].
      destruct (N.eq_dec k n) as [-> |D]; [exists []; tauto|].
      destruct (kept p (gsv_key tt c k)) as [x|] eqn:Ek.
      - destruct (Htx _ _ Ek) as [(fff' & mid' & channel' & n' & _ & _ & _ & _ & _ & X)
          |(tt' & c' & n' & f & _ & Ht2 & Hne2 & Hp2 & _ & _ & X & Y)].
        + symmetry in X. now apply fragment_key_gsv_key in X.
        + apply gsv_key_inj in X as (<- & <- & <-); [|assumption|assumption]. exists f. intros _ _.
          split; [exact Hp2|]. split; [exact Hne2|]. apply stored_kept. now rewrite Ek, Y.
      - exfalso. apply NW. apply (wait_group _ _ _ tt c n k); [exact (gsv_message_part _ _ _ _ _ Hs)|lia|exact Hk|exact D|].
        now apply stored_kept_none. }
    assert (exists all, all n = fields /\ forall k, 1 <= k <= c -> k <> n -> Forall plain (all k) /\ all k <> [] /\
       stored p (Text (gsv_key tt c k)) = Some (inl (join ((lit "$" ++ tt ++ lit "GSV") :: all k)))) as (all & A1 & A2).
    { exists (fun k => if decide (k = n) then fields
        else match kept p (gsv_key tt c k) with Some x => tl (split_on 44 x) | None => [] end).
      split; [now rewrite decide_True|]. intros k Hk D. rewrite decide_False by exact D.
      destruct (A k) as (f & F). destruct (F Hk D) as (F1 & F2 & F3). pose proof F3 as F4. apply stored_kept in F4. rewrite F4.
      rewrite split_on_join; [cbn [tl]; auto|discriminate|]. constructor; [now apply gsv_type_plain|exact F1]. }
    assert (R : report_about ovf now s p
      (PsGsv (flat_map (fun k => gsv_blocks (nav_of_talker tt) (gsv_text tt (all k))) (numbers_to c)))).
    { apply (about_satellites ovf now s p tt c n fields (nav_of_talker tt) all); [exact Hs|lia|apply names_system_nav|exact A1|exact A2|].
      intros k Hk. destruct (N.eq_dec k n) as [-> |D].
      - rewrite A1. now apply message_satellites.
      - destruct (A2 k Hk D) as (F1 & F2 & _). now apply message_satellites. }
    pose proof (about_answer _ _ _ _ _ Hok Hc0 Hy R) as X. rewrite H in X. injection X as ->. exact R.
  - assert (V : vdm_with s tt fff (split_on 44 rest)).
    { split; [|split; [apply split_on_nonempty|split; [now rewrite <- byte_len_spec|exact Hf]]].
      eapply sentence_of; try eassumption. repeat apply plain_app; [now apply plain_lit_dec|exact Hp|].
      destruct Hf as [-> | ->]; now apply plain_lit_dec. }
    rewrite Er in H. clear Er. destruct (vdm_kind ovf now s tt fff _ V) as (f & K & Ef). pose proof H as H''. rewrite Ef in H''.
    destruct K as [o Q|tt' fff' payload F|tt' fff' mid channel a F|tt' fff' mid channel b F|tt' c n body' given' G B].
    + cbn [fst] in H''. destruct (Q eq_refl) as [-> |(e & ->)]; congruence.
    + apply (Done tt' fff' payload). now apply complete_one.
    + unfold first_step in H''. destruct (kept p _) as [b|] eqn:Ek; [|cbn [fst] in H''; congruence].
      apply (Done tt' fff' (a ++ b)). eapply complete_first; [exact F|now apply stored_kept].
    + unfold second_step in H''. destruct (kept p _) as [a|] eqn:Ek; [|cbn [fst] in H''; congruence].
      apply (Done tt' fff' (a ++ b)). eapply complete_second; [exact F|now apply stored_kept].
    + exfalso. destruct G as (fields' & G & _). eapply vdm_not_gsv; eassumption.
Qed.

Lemma reachable_texts ovf p : reachable ovf p -> texts_fine p.
Proof.
  apply reachable_invariant; [intros now s q; apply call_texts|]. intros k x H.
  unfold kept in H. cbn in H. now rewrite lookup_empty in H.
Qed.

Lemma about_complete ovf now s p : ~ report_about ovf now s p PsIncomplete.
Proof.
  intros H. remember PsIncomplete as r eqn:E. destruct H as [? ? ? ? ? _ _ R| |? ? ? ? ? _ _ _ R|]; try discriminate E; subst; inversion R.
Qed.

(** ** C100 *)

(** A call of [parse_sentence] has exactly the answers of the description. *)
Theorem c100_answer ovf now s p o :
  reachable ovf p -> clock now -> (0 <= dt_year now)%Z ->
  fst (parse_sentence ovf now s p) = o <-> answer ovf now s p o.
Proof.
  intros Hr Hc Hy. pose proof (reachable_vsds_ok _ _ Hr) as Hok. pose proof (reachable_texts _ _ Hr) as Ht.
  assert (D : forall r, r <> PsIncomplete -> fst (parse_sentence ovf now s p) = Ok r <-> report_about ovf now s p r).
  { intros r Hn. split; intros H; [now apply answer_about|now apply about_answer]. }
  destruct o as [r|e|]; cbn [answer]; [|now apply c78_errors|now apply c08_panics].
  destruct r; try (apply D; discriminate). apply c82_incomplete.
Qed.
Print Assumptions c100_answer.

(** There is exactly one, whatever the sentence and whatever was parsed before. *)
Theorem c100_one_answer ovf now s p :
  reachable ovf p -> clock now -> (0 <= dt_year now)%Z ->
  exists o, answer ovf now s p o /\ forall o', answer ovf now s p o' -> o' = o.
Proof.
  intros Hr Hc Hy. exists (fst (parse_sentence ovf now s p)). split; [now apply c100_answer|].
  intros o' H. apply c100_answer in H; auto.
Qed.
Print Assumptions c100_one_answer.

(** ** What the parser keeps *)

Lemma completes_unique s p tt fff x tt' fff' x' :
  completes s tt fff p x -> completes s tt' fff' p x' -> tt = tt' /\ fff = fff' /\ x = x'.
Proof.
  assert (W : forall fff mid channel n a b, waiting p fff mid channel n a -> waiting p fff mid channel n b -> a = b).
  { unfold waiting. intros ? ? ? ? a b Ha Hb. rewrite Ha in Hb. now injection Hb. }
  intros [a F|mid ch a b F Ha|mid ch a b F Ha] [a' F'|mid' ch' a' b' F' Ha'|mid' ch' a' b' F' Ha'];
    try (exfalso; eapply one_fragment_not_fragment; eassumption);
    try (destruct (fragment_unique _ _ _ _ _ _ _ _ _ _ _ _ _ F F') as (<- & <- & <- & <- & E & <-); try discriminate E;
         now rewrite (W _ _ _ _ _ _ Ha Ha')).
  destruct F as (? & ? & ? & ? & ? & (m & V) & _), F' as (? & ? & ? & ? & ? & (m' & V') & _).
  destruct (vdm_with_unique _ _ _ _ _ _ _ V V') as (<- & <- & [= _ _ _ _ <- _]). auto.
Qed.

Lemma completes_not_gsv s tt fff p x tt' c n fields : completes s tt fff p x -> ~ gsv_message s tt' c n fields.
Proof.
  intros C G. destruct G as (G & _).
  destruct C as [a (? & ? & ? & ? & ? & (m & V) & _)|mid ch a b (? & ? & ? & ? & V & _) _|mid ch a b (? & ? & ? & ? & V & _) _];
    eapply vdm_not_gsv; eassumption.
Qed.

Lemma gsv_message_unique s tt c n fields tt' c' n' fields' :
  gsv_message s tt c n fields -> gsv_message s tt' c' n' fields' -> tt = tt' /\ c = c' /\ n = n' /\ fields = fields'.
Proof.
  intros H H'. destruct (gsv_part_unique _ _ _ _ _ _ _ (gsv_message_part _ _ _ _ _ H) (gsv_message_part _ _ _ _ _ H')) as (<- & <- & <-).
  destruct H as (G & _), H' as (G' & _). destruct (gsv_with_unique _ _ _ _ _ G G') as [_ <-]. auto.
Qed.

Lemma group_or_not p tt c n : completes_group p tt c n \/ ~ completes_group p tt c n.
Proof.
  unfold completes_group. destruct (N.lt_ge_cases c (2 ^ 32 - 1)) as [L|L]; [|right; lia].
  destruct (List.forallb (fun k => (k =? n) || match stored p (Text (gsv_key tt c k)) with Some _ => true | None => false end)
    (numbers_to c)) eqn:E.
  - left. split; [exact L|]. rewrite forallb_forall in E. intros k Hk Hn. apply numbers_to_in, E in Hk.
    rewrite (proj2 (N.eqb_neq k n)) in Hk by exact Hn. cbn [orb] in Hk. now destruct (stored p _).
  - right. intros (_ & H). enough (X : true = false) by discriminate. rewrite <- E. symmetry. apply forallb_forall.
    intros k Hk. apply numbers_to_in in Hk. destruct (N.eqb_spec k n) as [|D]; [reflexivity|]. cbn [orb].
    specialize (H k Hk D). now destruct (stored p _).
Qed.

(** What a GSV message leaves. *)
Lemma group_keeps ovf tt c n body p : plain tt -> ~ completes_group p tt c n ->
  snd (gsv_step ovf tt c n body p) = push_string (gsv_key tt c n) body p.
Proof.
  intros Ht H. unfold gsv_step. cbv zeta. destruct (N.lt_ge_cases c (2 ^ 32 - 1)) as [L|L].
  - destruct (List.forallb (fun k => (k =? n) || match stored p (Text (gsv_key tt c k)) with Some _ => true | None => false end)
      (numbers_to c)) eqn:E.
    + exfalso. apply H. split; [exact L|]. rewrite forallb_forall in E. intros k Hk Hn. apply numbers_to_in, E in Hk.
      rewrite (proj2 (N.eqb_neq k n)) in Hk by exact Hn. cbn [orb] in Hk. now destruct (stored p _).
    + assert (exists k, In k (numbers_to c) /\ k <> n /\ stored p (Text (gsv_key tt c k)) = None) as (k & Hk & D & K).
      { clear H. revert E. generalize (numbers_to c). induction l as [|x l IH]; cbn [forallb]; [discriminate|].
        destruct (N.eqb_spec x n) as [-> |D]; cbn [orb].
        - intros E. destruct (IH E) as (k & Hk & K). exists k. split; [now right|exact K].
        - destruct (stored p (Text (gsv_key tt c x))) eqn:Ex; cbn [andb].
          + intros E. destruct (IH E) as (k & Hk & K). exists k. split; [now right|exact K].
          + intros _. exists x. split; [now left|auto]. }
      apply numbers_to_in in Hk. apply stored_kept_none in K.
      pose proof (gsv_step_incomplete ovf tt c n body p k Ht L Hk D K) as X. unfold gsv_step in X. cbv zeta in X. now rewrite X.
  - unfold gsv_range. rewrite (proj2 (N.ltb_ge c u32_max)) by exact L.
    destruct ovf; [reflexivity|]. change (gsv_found _ c [] _) with 0. rewrite (proj2 (N.eqb_neq 0 c)) by lia. reflexivity.
Qed.

Lemma group_deletes ovf tt c n body p : plain tt -> completes_group p tt c n ->
  snd (gsv_step ovf tt c n body p) =
  snd (gsv_collect (nav_of_talker tt) (lit "$" ++ tt ++ lit "GSV") c (numbers_to c) (push_string (gsv_key tt c n) body p)).
Proof.
  intros Ht (L & H).
  rewrite (gsv_step_all ovf tt c n body p (fun i => match kept (push_string (gsv_key tt c n) body p) (gsv_key tt c i) with
    Some x => x | None => [] end) Ht L); [reflexivity|].
  intros i Hi. rewrite kept_push. destruct (decide _) as [E|E]; [reflexivity|].
  destruct (kept p (gsv_key tt c i)) as [x|] eqn:Ek; [reflexivity|]. exfalso. apply (H i Hi); [congruence|].
  now apply stored_kept_none.
Qed.

Lemma collect_vessels nav t c range p m : stored (snd (gsv_collect nav t c range p)) (Vessel m) = stored p (Vessel m).
Proof.
  revert p. induction range as [|i range IH]; intros p; cbn [gsv_collect]; [reflexivity|]. unfold pull_string.
  match goal with |- context [gsv_collect ?a ?b ?c ?d ?e] => specialize (IH e); destruct (gsv_collect a b c d e) as [v p2] end.
  exact IH.
Qed.

Lemma group_entry tt c e : (exists k, 1 <= k <= c /\ e = Text (gsv_key tt c k)) \/
  (forall k, 1 <= k <= c -> e <> Text (gsv_key tt c k)).
Proof.
  enough (H : (exists k, In k (numbers_to c) /\ e = Text (gsv_key tt c k)) \/
    (forall k, In k (numbers_to c) -> e <> Text (gsv_key tt c k))).
  { destruct H as [(k & Hk & H)|H]; [left; exists k; split; [now apply numbers_to_in|exact H]|].
    right. intros k Hk. apply H. now apply numbers_to_in. }
  generalize (numbers_to c). induction l as [|x l IH]; [right; intros k []|].
  destruct (decide (e = Text (gsv_key tt c x))) as [E|E]; [left; exists x; split; [now left|exact E]|].
  destruct IH as [(k & Hk & H)|H]; [left; exists k; split; [now right|exact H]|].
  right. intros k [<- |Hk]; auto.
Qed.

Lemma collect_other nav tt c p e : (forall k, 1 <= k <= c -> e <> Text (gsv_key tt c k)) ->
  stored (snd (gsv_collect nav (lit "$" ++ tt ++ lit "GSV") c (numbers_to c) p)) e = stored p e.
Proof.
  intros H. destruct e as [k|m]; [|apply collect_vessels]. apply stored_text, gsv_collect_writes.
  intros i Hi E. apply numbers_to_in in Hi. apply (H i Hi). now rewrite E.
Qed.

(** What a completed message leaves: [q] is what is left when its halves are together. *)
Lemma completes_after ovf now s tt fff p payload : completes s tt fff p payload ->
  exists q, parse_sentence ovf now s p = decode_payload ovf now fff payload (station_of_talker tt) q /\
  (one_fragment s tt fff payload /\ q = p \/
   exists mid channel n x y, fragment s tt fff mid channel n x /\ waiting p fff mid channel (3 - n) y /\
     q = without (fragment_key fff mid channel (3 - n)) p).
Proof.
  intros [a F|mid ch a b F W|mid ch a b F W].
  - exists p. rewrite (one_fragment_step _ _ _ _ _ _ _ F). auto.
  - exists (without (fragment_key fff mid ch 1) p). split; [|right; exists mid, ch, 2, b, a; auto].
    rewrite (fragment_vdm_step _ _ _ _ _ _ _ _ _ _ F). change (2 =? 1) with false. cbv iota. unfold second_step.
    apply stored_kept in W. now rewrite W.
  - exists (without (fragment_key fff mid ch 2) p). split; [|right; exists mid, ch, 1, a, b; auto].
    rewrite (fragment_vdm_step _ _ _ _ _ _ _ _ _ _ F). change (1 =? 1) with true. cbv iota. unfold first_step.
    apply stored_kept in W. now rewrite W.
Qed.

Lemma decode_after ovf now fff payload st p v e : readable ovf payload ->
  part_says (payload_bits payload) (str_eqb fff (lit "VDO")) v ->
  stored (snd (decode_payload ovf now fff payload st p)) e =
  if decide (e = Vessel (vsd_mmsi v)) then
    (if stored p (Vessel (vsd_mmsi v)) then None else Some (inr v))
  else stored p e.
Proof.
  intros R H. rewrite (decode_part _ _ _ _ _ _ _ R H). destruct (decide _) as [-> |D]; [|now apply t24_store_writes].
  unfold t24_store, pull_vsd. cbn [stored]. destruct (saved_vsds p !! vsd_mmsi v) as [w|]; cbn [snd push_vsd saved_vsds fmap option_fmap option_map].
  - now rewrite lookup_delete.
  - now rewrite lookup_insert.
Qed.

Lemma decode_text_kept ovf now fff payload st p k : stored (snd (decode_payload ovf now fff payload st p)) (Text k) = stored p (Text k).
Proof.
  destruct (decode_act ovf now fff payload st) as [(r & ->)|(bits & v & _ & _ & _ & _ & _ & _ & ->)]; [reflexivity|].
  now apply t24_store_writes.
Qed.

Lemma gsv_not_completes s tt' c n fields : gsv_message s tt' c n fields -> forall tt fff p x, ~ completes s tt fff p x.
Proof. intros G tt fff p x C. exact (completes_not_gsv _ _ _ _ _ _ _ _ _ C G). Qed.

Lemma gsv_not_fragment s tt' c k fields : gsv_message s tt' c k fields ->
  forall tt fff mid channel n x, ~ fragment s tt fff mid channel n x.
Proof. intros G tt fff mid channel n x F. eapply fragment_not_gsv; [exact F|]. exact (gsv_message_part _ _ _ _ _ G). Qed.

Lemma changes_stored ovf now s p e x : changes ovf s p e x -> stored (snd (parse_sentence ovf now s p)) e = x.
Proof.
  assert (T : forall v fff payload st (p q : NmeaParser), readable ovf payload ->
    part_says (payload_bits payload) (str_eqb fff (lit "VDO")) v ->
    stored q (Vessel (vsd_mmsi v)) = stored p (Vessel (vsd_mmsi v)) ->
    stored (snd (decode_payload ovf now fff payload st q)) (Vessel (vsd_mmsi v)) =
    if stored p (Vessel (vsd_mmsi v)) then None else Some (inr v)).
  { intros v fff payload st p0 q R P E. rewrite (decode_after _ _ _ _ _ _ v _ R P), decide_True by reflexivity. now rewrite E. }
  intros [tt fff mid ch n x' F N|tt fff mid ch n x' F N|tt c n fields G N|tt c n fields k G N Hk
    |tt fff payload v C R P N|tt fff payload v C R P N].
  - rewrite (fragment_vdm_step _ _ _ _ _ _ _ _ _ _ F). apply stored_kept_none in N.
    destruct (fragment_number _ _ _ _ _ _ _ F) as [-> | ->].
    + change (3 - 1) with 2 in N. change (1 =? 1) with true. cbv iota. unfold first_step. rewrite N. cbn [snd].
      now rewrite stored_push, decide_True.
    + change (3 - 2) with 1 in N. change (2 =? 1) with false. cbv iota. unfold second_step. rewrite N. cbn [snd].
      now rewrite stored_push, decide_True.
  - rewrite (fragment_vdm_step _ _ _ _ _ _ _ _ _ _ F).
    destruct (kept p (fragment_key fff mid ch (3 - n))) as [y|] eqn:Ek; [|exfalso; now apply N, stored_kept_none].
    destruct (fragment_number _ _ _ _ _ _ _ F) as [-> | ->].
    + change (3 - 1) with 2 in *. change (1 =? 1) with true. cbv iota. unfold first_step. rewrite Ek.
      now rewrite decode_text_kept, stored_without, decide_True.
    + change (3 - 2) with 1 in *. change (2 =? 1) with false. cbv iota. unfold second_step. rewrite Ek.
      now rewrite decode_text_kept, stored_without, decide_True.
  - rewrite (gsv_message_step ovf now s p tt c n fields G). destruct (gsv_message_fields _ _ _ _ _ G) as (Ht & _ & _).
    destruct (group_or_not p tt c n) as [D|D].
    + rewrite group_deletes by assumption. rewrite collect_other; [now rewrite stored_push, decide_True|].
      intros k Hk E. apply Text_inj in E. apply gsv_key_inj in E as (_ & _ & ->); [|assumption|assumption]. tauto.
    + rewrite group_keeps by assumption. now rewrite stored_push, decide_True.
  - rewrite (gsv_message_step ovf now s p tt c n fields G). destruct (gsv_message_fields _ _ _ _ _ G) as (Ht & _ & _).
    rewrite group_deletes by assumption. apply stored_kept_none, gsv_collect_deletes. now apply numbers_to_in.
  - destruct (completes_after ovf now _ _ _ _ _ C) as (q & -> & [[_ ->]|(mid & ch & n & a & b & _ & _ & ->)]);
      rewrite (T v fff payload _ p) by (exact R || exact P || reflexivity); now rewrite N.
  - destruct (completes_after ovf now _ _ _ _ _ C) as (q & -> & [[_ ->]|(mid & ch & n & a & b & _ & _ & ->)]);
      rewrite (T v fff payload _ p) by (exact R || exact P || reflexivity); now destruct (stored p _).
Qed.

Lemma fields_or_not s : (exists fs, sentence s fs) \/ forall fs, ~ sentence s fs.
Proof.
  destruct (has_body_total s) as (body & given & Hb). destruct (checksum_ok_dec body given) as [Hc|Hc].
  - left. exists (split_on 44 body), body, given. split; [exact Hb|]. split; [exact Hc|]. apply split_on_has_fields.
  - right. intros fs (b & g & Hb' & Hc' & _). destruct (has_body_unique _ _ _ _ _ Hb Hb') as [<- <-]. auto.
Qed.

Lemma vdm_or_not s : (exists tt fff fields, vdm_with s tt fff fields) \/ forall tt fff fields, ~ vdm_with s tt fff fields.
Proof.
  destruct (fields_or_not s) as [(fs & H)|H].
  2:{ right. intros tt fff fields (V & _). now apply H in V. }
  destruct fs as [|t fields].
  { right. intros tt fff fields (V & _). pose proof (sentence_unique _ _ _ H V). discriminate. }
  assert (U : forall tt fff fields', vdm_with s tt fff fields' -> t = lit "!" ++ tt ++ fff /\ fields = fields').
  { intros tt fff fields' (V & _). pose proof (sentence_unique _ _ _ H V) as [= -> ->]. auto. }
  destruct t as [|c r]; [right; intros tt fff f' V; now destruct (U _ _ _ V)|].
  set (tt := firstn (List.length r - 3) r). set (fff := skipn (List.length r - 3) r).
  destruct (decide (c = 33 /\ fields <> [] /\ utf8_bytes tt = 2%nat /\ (fff = lit "VDM" \/ fff = lit "VDO"))) as [D|D].
  - left. exists tt, fff, fields. destruct D as (-> & D). split; [|exact D].
    change (lit "!" ++ tt ++ fff) with (33 :: (tt ++ fff)). unfold tt, fff. now rewrite firstn_skipn.
  - right. intros tt' fff' f' V. apply D. destruct (U _ _ _ V) as [E ->]. destruct V as (_ & V1 & V2 & V3).
    change (lit "!" ++ tt' ++ fff') with (33 :: (tt' ++ fff')) in E. injection E as -> E.
    assert (L : List.length fff' = 3%nat) by (destruct V3 as [-> | ->]; reflexivity).
    assert (X : (List.length r - 3)%nat = List.length tt') by (rewrite E, app_length; lia).
    assert (Ett : tt = tt'). { unfold tt. rewrite X, E. rewrite firstn_app, Nat.sub_diag, firstn_all. cbn [firstn]. apply app_nil_r. }
    assert (Ef : fff = fff'). { unfold fff. rewrite X, E. rewrite skipn_app, Nat.sub_diag, skipn_all. reflexivity. }
    rewrite Ett, Ef. auto.
Qed.

Lemma whole_or_none s : (exists tt fff payload, one_fragment s tt fff payload) \/ forall tt fff payload, ~ one_fragment s tt fff payload.
Proof.
  destruct (vdm_or_not s) as [(tt & fff & fields & V)|H].
  - destruct (whole_or_not s tt fff fields V) as [(x & O)|N]; [left; eauto|right]. intros tt' fff' x O. pose proof O as O'.
    destruct O' as (? & ? & ? & ? & ? & (m & V') & _). destruct (vdm_with_unique _ _ _ _ _ _ _ V V') as (<- & <- & _). now apply N in O.
  - right. intros tt fff x (? & ? & ? & ? & ? & (m & V') & _). now apply H in V'.
Qed.

Lemma completes_or_not s p : (exists tt fff x, completes s tt fff p x) \/ forall tt fff x, ~ completes s tt fff p x.
Proof.
  destruct (whole_or_none s) as [(tt & fff & x & O)|N]; [left; exists tt, fff, x; now apply complete_one|].
  destruct (fragment_or_not s) as [(tt & fff & mid & ch & n & x & F)|F].
  2:{ right. intros tt fff x [a O|mid ch a b O _|mid ch a b O _]; [now apply N in O|now apply F in O|now apply F in O]. }
  destruct (kept p (fragment_key fff mid ch (3 - n))) as [y|] eqn:E.
  - apply stored_kept in E. left. destruct (fragment_number _ _ _ _ _ _ _ F) as [-> | ->].
    + exists tt, fff, (x ++ y). eapply complete_first; [exact F|exact E].
    + exists tt, fff, (y ++ x). eapply complete_second; [exact F|exact E].
  - apply stored_kept_none in E. right. intros tt' fff' z [a O|mid' ch' a b O W|mid' ch' a b O W]; [now apply N in O| |];
      destruct (fragment_unique _ _ _ _ _ _ _ _ _ _ _ _ _ F O) as (<- & <- & <- & <- & -> & <-).
    + change (3 - 2) with 1 in E. unfold waiting in W. congruence.
    + change (3 - 1) with 2 in E. unfold waiting in W. congruence.
Qed.

Lemma readable_or_not ovf payload : readable ovf payload \/ ~ readable ovf payload.
Proof.
  destruct (parse_payload ovf payload) as [bits|e|] eqn:E.
  - apply parse_payload_readable in E as [R _]. now left.
  - right. intros R. pose proof (proj2 (parse_payload_readable ovf payload _) (conj R eq_refl)). congruence.
  - right. intros R. pose proof (proj2 (parse_payload_readable ovf payload _) (conj R eq_refl)). congruence.
Qed.

(** An entry is changed, or it is not and stays. *)
Lemma changed_or_same ovf now s p e : (exists x, changes ovf s p e x) \/
  (forall x, ~ changes ovf s p e x) /\ stored (snd (parse_sentence ovf now s p)) e = stored p e.
Proof.
  destruct (gsv_or_not s) as [(tt & c & n & fields & G)|NG].
  { pose proof (gsv_message_step ovf now s p tt c n fields G) as St. destruct (gsv_message_fields _ _ _ _ _ G) as (Ht & _ & _).
    pose proof (gsv_not_completes _ _ _ _ _ G) as NC. pose proof (gsv_not_fragment _ _ _ _ _ G) as NF.
    destruct (group_or_not p tt c n) as [D|D].
    - destruct (group_entry tt c e) as [(k & Hk & ->)|Ne]; [left; eexists; eapply uses_message; eassumption|].
      destruct (decide (e = Text (gsv_key tt c n))) as [E|E].
      { left. subst e. eexists. eapply keeps_message; [exact G|]. intros [_ X]. now apply (Ne n X). }
      right. split.
      + intros x Hx; remember e as e0 eqn:He in Hx; destruct Hx as [tt' fff mid ch n' y F _|tt' fff mid ch n' y F _|tt' c' n' f' G' _|tt' c' n' f' k G' _ Hk
          |tt' fff payload v C _ _ _|tt' fff payload v C _ _ _]; subst e; try (now apply NF in F); try (now apply NC in C);
          destruct (gsv_message_unique _ _ _ _ _ _ _ _ _ G G') as (<- & <- & <- & <-); [now apply E|now apply (Ne k Hk)].
      + rewrite St, group_deletes by assumption. rewrite collect_other by exact Ne. now rewrite stored_push, decide_False.
    - destruct (decide (e = Text (gsv_key tt c n))) as [E|E].
      { left. subst e. eexists. eapply keeps_message; [exact G|]. tauto. }
      right. split.
      + intros x Hx; remember e as e0 eqn:He in Hx; destruct Hx as [tt' fff mid ch n' y F _|tt' fff mid ch n' y F _|tt' c' n' f' G' _|tt' c' n' f' k G' D' Hk
          |tt' fff payload v C _ _ _|tt' fff payload v C _ _ _]; subst e; try (now apply NF in F); try (now apply NC in C);
          destruct (gsv_message_unique _ _ _ _ _ _ _ _ _ G G') as (<- & <- & <- & <-); [now apply E|tauto].
      + rewrite St, group_keeps by assumption. now rewrite stored_push, decide_False. }
  destruct (completes_or_not s p) as [(tt & fff & payload & C)|NC].
  2:{ destruct (fragment_or_not s) as [(tt & fff & mid & ch & n & x & F)|NF].
    - assert (K : stored p (Text (fragment_key fff mid ch (3 - n))) = None).
      { apply stored_kept_none. destruct (kept p (fragment_key fff mid ch (3 - n))) as [y|] eqn:Ek; [|reflexivity]. exfalso.
        apply stored_kept in Ek. destruct (fragment_number _ _ _ _ _ _ _ F) as [-> | ->].
        - apply (NC tt fff (x ++ y)). eapply complete_first; [exact F|exact Ek].
        - apply (NC tt fff (y ++ x)). eapply complete_second; [exact F|exact Ek]. }
      destruct (decide (e = Text (fragment_key fff mid ch n))) as [E|E].
      { left. subst e. eexists. eapply keeps_half; eassumption. }
      right. split.
      + intros z Hx; remember e as e0 eqn:He in Hx; destruct Hx as [tt' fff' mid' ch' n' y F' K'|tt' fff' mid' ch' n' y F' K'|tt' c' n' f' G' _|tt' c' n' f' k G' D' Hk
          |tt' fff' payload v C _ _ _|tt' fff' payload v C _ _ _]; subst e; try (now apply NG in G'); try (now apply NC in C);
          destruct (fragment_unique _ _ _ _ _ _ _ _ _ _ _ _ _ F F') as (<- & <- & <- & <- & <- & <-); [now apply E|now apply K'].
      + rewrite (fragment_vdm_step _ _ _ _ _ _ _ _ _ _ F). apply stored_kept_none in K.
        destruct (fragment_number _ _ _ _ _ _ _ F) as [-> | ->].
        * change (3 - 1) with 2 in K. change (1 =? 1) with true. cbv iota. unfold first_step. rewrite K. cbn [snd].
          now rewrite stored_push, decide_False.
        * change (3 - 2) with 1 in K. change (2 =? 1) with false. cbv iota. unfold second_step. rewrite K. cbn [snd].
          now rewrite stored_push, decide_False.
    - right. split.
      + intros z Hx; remember e as e0 eqn:He in Hx; destruct Hx as [tt' fff' mid' ch' n' y F' K'|tt' fff' mid' ch' n' y F' K'|tt' c' n' f' G' _|tt' c' n' f' k G' D' Hk
          |tt' fff' payload v C _ _ _|tt' fff' payload v C _ _ _]; subst e; [now apply NF in F'|now apply NF in F'|now apply NG in G'
          |now apply NG in G'|now apply NC in C|now apply NC in C].
      + apply call_writes. intros [tt fff mid ch n x k F _|tt c n k (f & G)|tt fff x C _ _];
          [now apply NF in F|exact (NG _ _ _ _ G)|now apply NC in C]. }
  assert (Same : forall q, (forall x, ~ changes ovf s p e x) -> stored q e = stored p e ->
    parse_sentence ovf now s p = decode_payload ovf now fff payload (station_of_talker tt) q ->
    (forall v, readable ovf payload -> part_says (payload_bits payload) (str_eqb fff (lit "VDO")) v -> e <> Vessel (vsd_mmsi v)) ->
    stored (snd (parse_sentence ovf now s p)) e = stored p e).
  { intros q _ Eq -> Nv. destruct (readable_or_not ovf payload) as [R|R].
    - destruct (part_or_none (payload_bits payload) (str_eqb fff (lit "VDO"))) as [(v & Hv)|Hn].
      + rewrite (decode_after _ _ _ _ _ _ v _ R Hv), decide_False by now apply Nv. exact Eq.
      + rewrite no_part_keeps by auto. exact Eq.
    - rewrite no_part_keeps by tauto. exact Eq. }
  assert (V : (exists v, readable ovf payload /\ part_says (payload_bits payload) (str_eqb fff (lit "VDO")) v /\ e = Vessel (vsd_mmsi v)) \/
    forall v, readable ovf payload -> part_says (payload_bits payload) (str_eqb fff (lit "VDO")) v -> e <> Vessel (vsd_mmsi v)).
  { destruct (readable_or_not ovf payload) as [R|R]; [|right; tauto].
    destruct (part_or_none (payload_bits payload) (str_eqb fff (lit "VDO"))) as [(v & Hv)|Hn]; [|right; intros v _ Hv; now apply Hn in Hv].
    destruct (decide (e = Vessel (vsd_mmsi v))) as [E|E]; [left; eauto|].
    right. intros w _ Hw. now rewrite (part_unique _ _ _ _ Hw Hv). }
  destruct V as [(v & R & P & ->)|Nv].
  { left. destruct (stored p (Vessel (vsd_mmsi v))) as [w|] eqn:Ew.
    - eexists. eapply uses_part; try eassumption. now rewrite Ew.
    - eexists. eapply keeps_part; eassumption. }
  destruct (completes_after ovf now _ _ _ _ _ C) as (q & St & [[O ->]|(mid & ch & n & a & b & F & W & ->)]).
  - right. assert (X : forall x, ~ changes ovf s p e x).
    { intros z Hx; remember e as e0 eqn:He in Hx; destruct Hx as [tt' fff' mid' ch' n' y F' K'|tt' fff' mid' ch' n' y F' K'|tt' c' n' f' G' _|tt' c' n' f' k G' D' Hk
        |tt' fff' payload' v C' R' P' _|tt' fff' payload' v C' R' P' _]; subst e; try (now apply NG in G');
        try (eapply one_fragment_not_fragment; eassumption);
        destruct (completes_unique _ _ _ _ _ _ _ _ C C') as (<- & <- & <-); now apply (Nv v R' P'). }
    split; [exact X|]. now apply (Same p).
  - destruct (decide (e = Text (fragment_key fff mid ch (3 - n)))) as [E|E].
    { left. subst e. eexists. eapply uses_half; [exact F|]. unfold waiting in W. now rewrite W. }
    right. assert (X : forall x, ~ changes ovf s p e x).
    { intros z Hx; remember e as e0 eqn:He in Hx; destruct Hx as [tt' fff' mid' ch' n' y F' K'|tt' fff' mid' ch' n' y F' K'|tt' c' n' f' G' _|tt' c' n' f' k G' D' Hk
        |tt' fff' payload' v C' R' P' _|tt' fff' payload' v C' R' P' _]; subst e; try (now apply NG in G');
        try (destruct (completes_unique _ _ _ _ _ _ _ _ C C') as (<- & <- & <-); now apply (Nv v R' P'));
        destruct (fragment_unique _ _ _ _ _ _ _ _ _ _ _ _ _ F F') as (<- & <- & <- & <- & <- & <-).
      - unfold waiting in W. congruence.
      - now apply E. }
    split; [exact X|]. eapply Same; [exact X| |exact St|exact Nv]. now rewrite stored_without, decide_False.
Qed.

(** After a call the parser holds what the call changes, and everything else as before. *)
Theorem c100_memory ovf now s p e x :
  stored (snd (parse_sentence ovf now s p)) e = x <->
  changes ovf s p e x \/ (forall y, ~ changes ovf s p e y) /\ stored p e = x.
Proof.
  split.
  - intros <-. destruct (changed_or_same ovf now s p e) as [(x & H)|[H ->]]; [left|right; auto].
    now rewrite (changes_stored _ now _ _ _ _ H).
  - intros [H|[H <-]]; [now apply changes_stored|]. destruct (changed_or_same ovf now s p e) as [(y & C)|[_ E]]; [|exact E].
    now apply H in C.
Qed.
Print Assumptions c100_memory.

Lemma call_answers ovf now s p o q : reachable ovf p -> clock now -> (0 <= dt_year now)%Z ->
  parse_sentence ovf now s p = (o, q) <-> answers ovf now s p o q.
Proof.
  intros Hr Hc Hy. unfold answers. rewrite <- c100_answer by assumption. split.
  - intros E. rewrite E. split; [reflexivity|]. intros e.
    destruct (proj1 (c100_memory ovf now s p e (stored q e))) as [H|[H X]]; [now rewrite E|now left|right; auto].
  - intros [<- H]. rewrite (surjective_pairing (parse_sentence ovf now s p)). f_equal. apply stored_ext. intros e.
    apply c100_memory. destruct (H e) as [X|[X Y]]; auto.
Qed.

(** The calls of any history, on any parser there can be, are described completely: answers and the parser left. *)
Theorem c100_session ovf h p rs q :
  reachable ovf p -> Forall (fun c => clock (fst c) /\ (0 <= dt_year (fst c))%Z) h ->
  results ovf h p = rs /\ after ovf h p = q <-> session ovf h p rs q.
Proof.
  unfold results, after. revert p rs. induction h as [|[now s] h IH]; intros p rs Hr Hh; cbn [run].
  - cbn [fst snd]. split; [intros [<- <-]; constructor|]. intros H. inversion H; auto.
  - apply Forall_cons_iff in Hh as [[Hc Hy] Hh]. cbn [fst] in Hc, Hy.
    destruct (parse_sentence ovf now s p) as [o p1] eqn:E.
    assert (Hr1 : reachable ovf p1).
    { destruct Hr as (h0 & ->). exists (h0 ++ [(now, s)]). rewrite after_app. unfold after at 1. cbn [run]. now rewrite E. }
    specialize (IH p1 (fst (run ovf h p1)) Hr1 Hh) as IH1.
    destruct (run ovf h p1) as [os r] eqn:Er. cbn [fst snd] in *. split.
    + intros [<- <-]. econstructor; [apply call_answers; eassumption|]. apply IH1. auto.
    + intros H. inversion H as [|? ? ? ? o' q' os' r' A B]; subst. apply call_answers in A; [|assumption..].
      rewrite E in A. injection A as <- <-. apply (IH p1 os' Hr1 Hh) in B. rewrite Er in B. cbn [fst snd] in B. destruct B as [-> ->]. auto.
Qed.
Print Assumptions c100_session.

(** A group of three GSV messages, two halves of a message and two parts of static data, one after another: waiting,
    reports of every kind, an error and what is kept. *)
Definition ex_mixed : history :=
  [(ex_now, ex_first); (ex_now, ex_gsv3); (ex_now, ex_part_a); (ex_now, lit "$GPGSV,x,1"); (ex_now, ex_gsv1); (ex_now, ex_gga_fields);
   (ex_now, ex_second); (ex_now, ex_gsv2)].

Definition kind_of (o : outcome ParseError ParsedSentence) : N :=
  match o with
  | Ok PsIncomplete => 0 | Ok (PsVesselDynamicData _) => 1 | Ok (PsVesselStaticData _) => 2
  | Ok (PsGga _) => 3 | Ok (PsGsv l) => 10 + N.of_nat (List.length l) | Ok _ => 4 | Err _ => 5 | Panic => 6
  end.

Example c100_example :
  let p := after true ex_mixed new_parser in
  reachable true p /\ clock ex_now /\ (0 <= dt_year ex_now)%Z /\
  Forall (fun c => clock (fst c) /\ (0 <= dt_year (fst c))%Z) ex_mixed /\
  session true ex_mixed new_parser (results true ex_mixed new_parser) p /\
  map kind_of (results true ex_mixed new_parser) = [0; 0; 0; 5; 0; 3; 2; 21] /\
  (exists d, report_about true ex_now ex_part_b p (PsVesselStaticData d) /\ vsd_name d = Some (lit "PROGUY") /\ vsd_call_sign d = Some (lit "TC6163")) /\
  (changes true ex_part_b p (Vessel 271041815) None /\ stored p (Vessel 271041815) <> None) /\
  (forall k, stored p (Text k) = None).
Proof.
  cbv zeta.
  assert (Hh : Forall (fun c => clock (fst c) /\ (0 <= dt_year (fst c))%Z) ex_mixed).
  { repeat (constructor; [split; [exact ex_now_clock|vm_compute; discriminate]|]). constructor. }
  assert (Hn : reachable true new_parser) by now exists [].
  assert (Hr : reachable true (after true ex_mixed new_parser)) by now exists ex_mixed.
  assert (Hy : (0 <= dt_year ex_now)%Z) by (vm_compute; discriminate).
  split; [exact Hr|]. split; [exact ex_now_clock|]. split; [exact Hy|]. split; [exact Hh|].
  split; [now apply c100_session|]. split; [vm_compute; reflexivity|]. split.
  { eexists. split; [|split].
    - apply (proj1 (c100_answer true ex_now ex_part_b _ (Ok (PsVesselStaticData _)) Hr ex_now_clock Hy)). vm_compute. reflexivity.
    - reflexivity.
    - reflexivity. }
  assert (E : stored (after true ex_mixed new_parser) (Vessel 271041815) <> None) by (vm_compute; discriminate).
  split; [split; [|exact E]|].
  { destruct (proj1 (c100_memory true ex_now ex_part_b (after true ex_mixed new_parser) (Vessel 271041815) None)) as [H|[_ H]];
      [vm_compute; reflexivity|exact H|now apply E in H]. }
  intros k. cbn [stored]. assert (Z : size (saved_fragments (after true ex_mixed new_parser)) = 0%nat) by (vm_compute; reflexivity).
  apply map_size_empty_inv in Z. rewrite Z. now rewrite lookup_empty.
Qed.
