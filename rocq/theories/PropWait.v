(** C82: which calls are answered with [Incomplete], and the kind of report of the others. *)
From stdpp Require Import gmap.
From Coq Require Import List NArith ZArith Bool String Lia.
From Verif Require Import Base Str F64 Chrono Types Util AisMod Vdm Gnss Parser
  SpecText SpecResult SpecAis SpecTime SpecState SpecGnss SpecReal SpecFields SpecPanic SpecError SpecWait
  StrFacts FrontFacts CallFacts ResultFacts BitFacts VdmFacts LayoutFacts StateFacts RunFacts FieldFacts
  PropFront PropAis PropState PropBits PropStatic PropGsv PropMix PropFields PropTables PropPanic PropError.
Import ListNotations.
Open Scope N_scope.
Local Opaque pick_string pick_u64 pick_i64 pick_eta parse_f64 be_value.

(** ** Payloads *)

Lemma t24_store_waits v p : fst (t24_store v p) = Ok PsIncomplete <-> saved_vsds p !! vsd_mmsi v = None.
Proof.
  unfold t24_store, pull_vsd. destruct (saved_vsds p !! vsd_mmsi v) as [w|]; cbn [fst]; [|tauto].
  split; [|discriminate]. destruct (merge v w); discriminate.
Qed.

Lemma t24_fields_total bits own b : exists v, t24_fields bits own b = Ok v.
Proof.
  unfold t24_fields.
  destruct b; cbn [bind];
  repeat match goal with |- context [@pick_string ?E ?b ?i ?n] =>
    let x := fresh in destruct (@pick_string_ok E b i n) as [x ->] end; cbn [bind]; eauto.
Qed.

Lemma dispatch_waits now fff bits st own p :
  fst (dispatch_message now (lit "!" ++ fff) bits st own p) = Ok PsIncomplete <->
  bits_at bits 0 6 = 24 /\ bits_at bits 38 2 < 2 /\ saved_vsds p !! bits_at bits 8 30 = None.
Proof.
  assert (T : bits_at bits 0 6 = pick_u64 bits 0 6) by (unfold bits_at; now rewrite pick_u64_spec by lia).
  assert (P : bits_at bits 38 2 = pick_u64 bits 38 2) by (unfold bits_at; now rewrite pick_u64_spec by lia).
  rewrite T, P. clear T P.
  pose proof (dispatch_message_case now (lit "!" ++ fff) bits st own p) as C.
  destruct C as [n Hn| | | | | | | | | | |n Hn]; cbn [fst].
  10:{ unfold handle_t24. destruct ((pick_u64 bits 38 2 =? 0) || (pick_u64 bits 38 2 =? 1)) eqn:Ep.
    - assert (X : pick_u64 bits 38 2 < 2) by (apply orb_true_iff in Ep as [Ep|Ep]; apply N.eqb_eq in Ep; lia).
      destruct (t24_fields_total bits own (pick_u64 bits 38 2 =? 1)) as [v Hv]. rewrite Hv, t24_store_waits.
      destruct (t24_fields_facts _ _ _ _ Hv) as [Hm _]. rewrite Hm. rewrite bits_at_value. tauto.
    - apply orb_false_iff in Ep as [E0 E1]. apply N.eqb_neq in E0, E1. cbn [fst]. split; [discriminate|lia]. }
  all: split; [|intros (X & _); exfalso; try (subst n); try discriminate X; try lia].
  - unfold handle_t1t2t3. discriminate.
  - unfold handle_t4. intros H. inv_binds H. discriminate.
  - unfold handle_t5. intros H. inv_binds H. discriminate.
  - discriminate.
  - discriminate.
  - discriminate.
  - discriminate.
  - discriminate.
  - unfold handle_t21. intros H. inv_binds H. discriminate.
  - discriminate.
  - discriminate.
  - apply Hn. cbn [In]. lia.
Qed.

Lemma decode_waits ovf now fff payload st p :
  fst (decode_payload ovf now fff payload st p) = Ok PsIncomplete <->
  readable ovf payload /\ bits_at (payload_bits payload) 0 6 = 24 /\ bits_at (payload_bits payload) 38 2 < 2 /\
  stored p (Vessel (bits_at (payload_bits payload) 8 30)) = None.
Proof.
  assert (S : forall m, stored p (Vessel m) = None <-> saved_vsds p !! m = None).
  { intros m. cbn [stored]. apply fmap_None. }
  rewrite S. unfold decode_payload. destruct (parse_payload ovf payload) as [bits|e|] eqn:E.
  - apply parse_payload_readable in E as [R ->]. rewrite dispatch_waits. tauto.
  - exfalso. destruct (parse_payload_cases ovf payload) as [(b & X)|(_ & _ & X)]; congruence.
  - split; [discriminate|]. intros (R & _). exfalso.
    assert (X : parse_payload ovf payload = Ok (payload_bits payload)) by now apply parse_payload_readable. congruence.
Qed.

Lemma dispatch_kind now fff bits st own p r :
  fst (dispatch_message now (lit "!" ++ fff) bits st own p) = Ok r -> r <> PsIncomplete ->
  report_of (bits_at bits 0 6) r.
Proof.
  assert (T : bits_at bits 0 6 = pick_u64 bits 0 6) by (unfold bits_at; now rewrite pick_u64_spec by lia).
  rewrite T. pose proof (dispatch_message_case now (lit "!" ++ fff) bits st own p) as C.
  destruct C as [n Hn| | | | | | | | | | |n Hn]; cbn [fst]; intros H Hr.
  - unfold handle_t1t2t3 in H. injection H as <-. cbn [report_of In]. lia.
  - unfold handle_t4 in H. inv_binds H. injection H as <-. reflexivity.
  - unfold handle_t5 in H. inv_binds H. injection H as <-. cbn [report_of In]. lia.
  - unfold handle_t6 in H. injection H as <-. reflexivity.
  - unfold handle_t9 in H. injection H as <-. reflexivity.
  - unfold handle_t10 in H. injection H as <-. reflexivity.
  - unfold handle_t18 in H. injection H as <-. cbn [report_of In]. lia.
  - discriminate.
  - unfold handle_t21 in H. inv_binds H. injection H as <-. reflexivity.
  - unfold handle_t24 in H. destruct (_ || _); [|discriminate].
    destruct (t24_fields _ _ _) as [v|e|]; [|discriminate|discriminate].
    unfold t24_store, pull_vsd in H. destruct (saved_vsds p !! vsd_mmsi v) as [w|]; cbn [fst] in H.
    + destruct (merge v w); cbn [map_err bind] in H; [|discriminate|discriminate]. injection H as <-. cbn [report_of In]. lia.
    + now injection H as <-.
  - unfold handle_t27 in H. injection H as <-. cbn [report_of In]. lia.
  - discriminate.
Qed.

(** ** Parts *)

Lemma filter_keeps {A} (f : A -> bool) l : (forall x, In x l -> f x = true) -> List.filter f l = l.
Proof.
  induction l as [|x l IH]; intros H; cbn [List.filter]; [reflexivity|].
  rewrite (H x) by now left. f_equal. apply IH. intros y Hy. apply H. now right.
Qed.

Lemma gsv_step_waits ovf tt c n body p : plain tt ->
  fst (gsv_step ovf tt c n body p) = Ok PsIncomplete <->
  (c < 4294967295 /\ exists k, 1 <= k <= c /\ k <> n /\ stored p (Text (gsv_key tt c k)) = None) \/
  (4294967295 <= c /\ ovf = false).
Proof.
  intros Ht. assert (S : forall k, stored p (Text k) = None <-> kept p k = None).
  { intros k. unfold kept. cbn [stored]. apply fmap_None. }
  destruct (N.lt_ge_cases c 4294967295) as [Hc|Hc].
  - split.
    + intros H. left. split; [exact Hc|]. unfold gsv_step in H. cbv zeta in H. rewrite gsv_range_numbers in H by exact Hc.
      set (p1 := push_string _ _ _) in H. rewrite gsv_found_spec in H.
      destruct (List.forallb (fun k => match saved_fragments p1 !! gsv_key tt c k with Some _ => true | None => false end) (numbers_to c)) eqn:E.
      * exfalso. rewrite forallb_forall in E. rewrite (filter_keeps _ _ E), numbers_to_length, N2Nat.id, N.eqb_refl in H.
        destruct (gsv_collect _ _ _ _ _). discriminate.
      * assert (exists k, In k (numbers_to c) /\ saved_fragments p1 !! gsv_key tt c k = None) as (k & Hk & K).
        { clear H. revert E. generalize (numbers_to c). induction l as [|x l IH]; cbn [forallb]; [discriminate|].
          destruct (saved_fragments p1 !! gsv_key tt c x) eqn:Ex; [|exists x; split; [now left|exact Ex]].
          cbn [andb]. intros E. destruct (IH E) as (k & Hk & K). exists k. split; [now right|exact K]. }
        exists k. change (kept p1 (gsv_key tt c k) = None) in K. unfold p1 in K. rewrite kept_push in K.
        destruct (decide _) as [D|D]; [discriminate|]. split; [|split; [congruence|now apply S]].
        now apply numbers_to_in.
    + intros [(_ & k & Hk & Hn & K)|[X _]]; [|lia]. apply S in K.
      now rewrite (gsv_step_incomplete ovf tt c n body p k Ht Hc Hk Hn K).
  - unfold gsv_step, gsv_range. rewrite (proj2 (N.ltb_ge c u32_max)) by exact Hc.
    destruct ovf; cbn [fst].
    + split; [discriminate|]. intros [[X _]|[_ X]]; [lia|discriminate].
    + split; [intros _; right; auto|]. intros _. change (gsv_found _ c [] _) with 0.
      rewrite (proj2 (N.eqb_neq 0 c)) by lia. reflexivity.
Qed.

Lemma fragment_number s tt fff mid channel n payload : fragment s tt fff mid channel n payload -> n = 1 \/ n = 2.
Proof. intros (? & ? & ? & ? & _ & _ & _ & _ & _ & H & _). exact H. Qed.

Lemma number_or_not f : (exists v, denotes f v /\ v < 2 ^ 64) \/ (forall v, denotes f v -> 2 ^ 64 <= v).
Proof.
  destruct (parse_uint u64_max f) as [v|] eqn:E.
  - left. exists v. apply parse_uint_spec in E as [E1 E2]. unfold u64_max in E2. split; [exact E1|lia].
  - right. intros v Hv. destruct (N.lt_ge_cases v (2 ^ 64)) as [L|L]; [|exact L].
    rewrite (proj2 (parse_uint_spec u64_max f v)) in E; [discriminate|]. split; [exact Hv|unfold u64_max; lia].
Qed.

Lemma denotes_or_not f v : v < 2 ^ 64 -> denotes f v \/ ~ denotes f v.
Proof.
  intros L. destruct (number_or_not f) as [(w & Hw & _)|H].
  - destruct (N.eq_dec v w) as [-> |Hn]; [now left|right]. intros Hv. apply Hn. now apply (denotes_unique f).
  - right. intros Hv. apply H in Hv. lia.
Qed.

Lemma whole_or_not s tt fff fields : vdm_with s tt fff fields ->
  (exists payload, one_fragment s tt fff payload) \/ (forall payload, ~ one_fragment s tt fff payload).
Proof.
  intros V.
  assert (U : forall payload, one_fragment s tt fff payload -> exists count number id channel more n,
    fields = count :: number :: id :: channel :: payload :: more /\ denotes count 1 /\ denotes number n /\ n <= 255).
  { intros payload (count & number & id & channel & n & (more & V') & H1 & H2 & H3).
    destruct (vdm_with_unique _ _ _ _ _ _ _ V V') as (_ & _ & ->). exists count, number, id, channel, more, n. auto. }
  destruct fields as [|count [|number [|id [|channel [|payload more]]]]];
    try (right; intros payload' O; apply U in O as (? & ? & ? & ? & ? & ? & X & _); discriminate X).
  destruct (denotes_or_not count 1 ltac:(lia)) as [C|C].
  2:{ right. intros payload' O. apply U in O as (? & ? & ? & ? & ? & ? & X & Y & _). now injection X as <- _. }
  destruct (number_or_not number) as [(n & Hn & _)|Hn].
  - destruct (N.le_gt_cases n 255) as [L|L].
    + left. exists payload, count, number, id, channel, n. split; [now exists more|auto].
    + right. intros payload' O. apply U in O as (? & ? & ? & ? & ? & m & X & _ & Y & Z). injection X as _ <- _ _ _ _.
      rewrite (denotes_unique _ _ _ Hn Y) in L. lia.
  - right. intros payload' O. apply U in O as (? & ? & ? & ? & ? & m & X & _ & Y & Z). injection X as _ <- _ _ _ _.
    apply Hn in Y. lia.
Qed.

Lemma half_or_not s tt fff fields : vdm_with s tt fff fields ->
  (exists mid channel n payload, fragment s tt fff mid channel n payload) \/
  (forall mid channel n payload, ~ fragment s tt fff mid channel n payload).
Proof.
  intros V.
  assert (U : forall mid channel n payload, fragment s tt fff mid channel n payload ->
    exists count number id more, fields = count :: number :: id :: more /\ denotes count 2 /\ denotes number n /\
      (n = 1 \/ n = 2) /\ denotes id mid /\ mid < 2 ^ 64).
  { intros mid channel n payload (fields' & count & number & id & V' & H0 & H1 & H2 & H3 & H4 & H5 & H6 & H7 & _).
    destruct (vdm_with_unique _ _ _ _ _ _ _ V V') as (_ & _ & <-).
    destruct fields as [|x [|y [|z more]]]; try discriminate. injection H0 as ->. injection H2 as ->. injection H5 as ->.
    exists count, number, id, more. auto 10. }
  destruct fields as [|count [|number [|id more]]];
    try (right; intros mid channel n payload F; apply U in F as (? & ? & ? & ? & X & _); discriminate X).
  destruct (denotes_or_not count 2 ltac:(lia)) as [C|C].
  2:{ right. intros mid channel n payload F. apply U in F as (? & ? & ? & ? & X & Y & _). now injection X as <- _. }
  destruct (number_or_not id) as [(mid & Hm & Hl)|Hm].
  2:{ right. intros mid channel n payload F. apply U in F as (? & ? & ? & ? & X & _ & _ & _ & Y & Z).
      injection X as _ _ <- _. apply Hm in Y. lia. }
  assert (B : forall n, n = 1 \/ n = 2 -> denotes number n -> fragment s tt fff mid (nth 3 (count :: number :: id :: more) []) n
    (nth 4 (count :: number :: id :: more) [])).
  { intros n Hn D. exists (count :: number :: id :: more), count, number, id. auto 15. }
  destruct (denotes_or_not number 1 ltac:(lia)) as [N1|N1]; [left; do 4 eexists; apply (B 1); auto|].
  destruct (denotes_or_not number 2 ltac:(lia)) as [N2|N2]; [left; do 4 eexists; apply (B 2); auto|].
  right. intros mid' channel n payload F. apply U in F as (? & ? & ? & ? & X & _ & Y & Z & _). injection X as _ <- _ _.
  destruct Z as [-> | ->]; contradiction.
Qed.

(** An AIS sentence that does not read or write the memory and is answered with [Incomplete]. *)
Lemma never_assembled ovf now s tt fff fields : vdm_with s tt fff fields ->
  (forall payload, ~ one_fragment s tt fff payload) ->
  fst (parse_sentence ovf now s new_parser) = Ok PsIncomplete ->
  Forall small_number (firstn 2 fields) /\ ~ denotes (nth 0 fields []) 1.
Proof.
  intros Hs NO. pose proof Hs as (_ & Hne & _). rewrite (vdm_with_step _ _ _ _ _ _ _ Hs).
  destruct fields as [|count more]; [congruence|]. rewrite (vdm_scan_fields _ (count :: more) count eq_refl).
  destruct (parse_u8 count) as [c|] eqn:Ec; [|discriminate]. apply parse_u8_some in Ec as [Ec Ec'].
  change (nth_error (count :: more) 1) with (nth_error more 0).
  match goal with |- fst (match ?m with _ => _ end) = _ -> _ => destruct m as [f|e|] eqn:Ef; [|discriminate|discriminate] end.
  assert (exists n, f = scan_of (count :: more) c n /\
     forall nb, nth_error more 0 = Some nb -> denotes nb n /\ n <= 255) as (n & -> & Hn).
  { destruct (nth_error more 0) as [nb|].
    - destruct (parse_u8 nb) as [n|] eqn:En; [|discriminate]. injection Ef as <-. exists n. split; [reflexivity|].
      intros nb' [= <-]. now apply parse_u8_some.
    - injection Ef as <-. exists 0. split; [reflexivity|]. discriminate. }
  clear Ef. unfold vdm_payload. cbn [scan_of vf_count vf_number vf_id vf_channel vf_payload].
  intros H. split.
  - constructor; [exists c; auto|]. destruct more as [|nb more]; constructor; [|constructor].
    exists n. now apply Hn.
  - cbn [nth]. intros D. pose proof (denotes_unique _ _ _ Ec D) as ->. change (1 =? 1) with true in H. cbv iota in H.
    destruct more as [|number [|id [|channel [|payload more]]]].
    5:{ apply (NO payload). exists count, number, id, channel, n. destruct (Hn number eq_refl) as [Hn1 Hn2].
        split; [now exists more|auto]. }
    all: cbn [nth] in H; rewrite decode_empty in H; discriminate H.
Qed.

Lemma unassembled ovf now s p tt fff fields : vdm_with s tt fff fields ->
  Forall small_number (firstn 2 fields) -> ~ denotes (nth 0 fields []) 1 ->
  (forall mid channel n payload, ~ fragment s tt fff mid channel n payload) ->
  parse_sentence ovf now s p = (Ok PsIncomplete, p).
Proof.
  intros Hs F N1 NF. pose proof Hs as (_ & Hne & _). destruct fields as [|count more]; [congruence|].
  cbn [nth] in N1. cbn [firstn] in F. inversion F as [|? ? (c & Hc & Hc') F2]; subst.
  apply (c16_unassemblable_incomplete ovf now s p tt fff (count :: more) count c Hs eq_refl Hc Hc').
  - intros f Hf. cbn [nth_error] in Hf. destruct more as [|nb more]; [discriminate|]. injection Hf as <-.
    cbn [firstn] in F2. inversion F2; subst. assumption.
  - destruct (N.eq_dec c 1) as [-> |C1]; [now destruct N1|]. destruct (N.eq_dec c 2) as [-> |C2]; [right|now left].
    assert (D : (exists i, id_is (count :: more) i) \/ (forall i, ~ id_is (count :: more) i)).
    { unfold id_is. destruct (nth_error (count :: more) 2) as [f|]; [|right; intros i (f & X & _); discriminate].
      destruct (parse_uint u64_max f) as [v|] eqn:E.
      - left. exists v, f. apply parse_uint_spec in E as [E1 E2]. unfold u64_max in E2. repeat split; [exact E1|lia].
      - right. intros i (f' & X & Y & Z). injection X as <-. rewrite (proj2 (parse_uint_spec u64_max f i)) in E; [discriminate|].
        split; [exact Y|unfold u64_max; lia]. }
    destruct D as [(i & g & G1 & G2 & G3)|D]; [right|now left].
    assert (X : forall n, n = 1 \/ n = 2 -> ~ number_is (count :: more) n).
    { intros n Hn (f & H1 & H2). eapply (NF i _ n). exists (count :: more), count, f, g.
      split; [exact Hs|]. auto 15. }
    split; [reflexivity|]. split; apply X; auto.
Qed.

Lemma gsv_or_error ovf now s tt fields : gsv_with s tt fields ->
  (exists c n, gsv_part s tt c n) \/ (forall p, exists e, fst (parse_sentence ovf now s p) = Err e).
Proof.
  intros Hs. pose proof Hs as ((body & given & Hb & Hc & Hf) & Hne & Ht).
  pose proof (gsv_with_plain _ _ _ Hs) as Hp.
  apply has_fields_split in Hf. symmetry in Hf.
  pose proof (proj2 (has_fields_split body _) (eq_sym Hf)) as (_ & _ & Hj).
  rewrite join_cons in Hj by exact Hne.
  rewrite <- byte_len_spec in Ht.
  assert (Hst : forall p, parse_sentence ovf now s p = handle_gsv ovf body (nav_of_talker tt) p)
    by (intros p; exact (parse_gsv ovf now s p body given tt _ Hb Hc Hj Hp Ht)).
  unfold handle_gsv in Hst. rewrite Hf in Hst. cbn [field nth] in Hst.
  pose proof (number_u32_field ((lit "$" ++ tt ++ lit "GSV") :: fields) 1) as H1.
  pose proof (number_u32_field ((lit "$" ++ tt ++ lit "GSV") :: fields) 2) as H2.
  pose proof (number_no_panic parse_u32 ((lit "$" ++ tt ++ lit "GSV") :: fields) 1) as P1.
  destruct (number parse_u32 _ 1) as [oc|e|]; [| |congruence].
  2: right; intros p; rewrite Hst; eexists; reflexivity.
  pose proof (number_no_panic parse_u32 ((lit "$" ++ tt ++ lit "GSV") :: fields) 2) as P2.
  destruct (number parse_u32 _ 2) as [on|e|]; [| |congruence].
  2: right; intros p; rewrite Hst; eexists; reflexivity.
  left. exists (unwrap_or oc 0), (unwrap_or on 0), fields. cbn [field nth] in H1, H2. auto.
Qed.

(** ** The claims *)

(** Exactly these calls are answered with [Incomplete]. *)
Theorem c82_incomplete ovf now s p :
  fst (parse_sentence ovf now s p) = Ok PsIncomplete <-> unfinished ovf s p.
Proof.
  assert (KS : forall k, stored p (Text k) = None <-> kept p k = None).
  { intros k. unfold kept. cbn [stored]. apply fmap_None. }
  assert (Done : forall tt fff payload, completes s tt fff p payload ->
    fst (parse_sentence ovf now s p) = Ok PsIncomplete <->
    readable ovf payload /\ bits_at (payload_bits payload) 0 6 = 24 /\ bits_at (payload_bits payload) 38 2 < 2 /\
    stored p (Vessel (bits_at (payload_bits payload) 8 30)) = None).
  { intros tt fff payload C. destruct (completes_step ovf now s tt fff p payload C) as (q & Hq & ->).
    rewrite decode_waits. cbn [stored]. now rewrite Hq. }
  split.
  - intros H.
    assert (Wait : forall tt fff payload, completes s tt fff p payload -> unfinished ovf s p).
    { intros tt fff payload C. apply (Done tt fff payload C) in H as (A1 & A2 & A3 & A4). eapply wait_vessel; eassumption. }
    pose proof (parse_call ovf now s p) as C.
    remember (parse_sentence ovf now s p) as r eqn:Er.
    destruct C as [body given Hb Hc|body given Hb Hc Hp|body given t rest Hb Hc Hbody Hp Ht
      |body given tt fff rest r Hb Hc Hbody Hp Ht Hr'|body given tt rest Hb Hc Hbody Hp Ht
      |body given tt fff rest Hb Hc Hbody Hp Ht Hf|body given t rest nav st t2 Hb Hc Hbody Hp Hr' Hn]; try discriminate H.
    + cbn [fst] in H. subst r. apply plain_gnss_result in Hr'. discriminate Hr'.
    + assert (G : gsv_with s tt (split_on 44 rest)).
      { split; [|split; [apply split_on_nonempty|now rewrite <- byte_len_spec]].
        eapply sentence_of; try eassumption. now apply gsv_type_plain. }
      rewrite Er in H. destruct (gsv_or_error ovf now s tt _ G) as [(c & n & P)|E].
      2:{ destruct (E p) as (e & X). congruence. }
      destruct (gsv_part_step ovf now s p tt c n P) as (body' & given' & _ & E). rewrite E in H.
      apply (gsv_step_waits _ _ _ _ _ _ (gsv_with_plain _ _ _ G)) in H as [(Hlt & k & Hk & Hn & K)|[Hge Ho]].
      * eapply wait_group; eassumption.
      * assert (c = 4294967295) as ->.
        { destruct P as (fields & _ & [[_ ->]|[_ X]] & _); lia. }
        eapply wait_overflow; eassumption.
    + assert (V : vdm_with s tt fff (split_on 44 rest)).
      { split; [|split; [apply split_on_nonempty|split; [now rewrite <- byte_len_spec|exact Hf]]].
        eapply sentence_of; try eassumption. repeat apply plain_app; [now apply plain_lit_dec|exact Hp|].
        destruct Hf as [-> | ->]; now apply plain_lit_dec. }
      rewrite Er in H. clear Er. destruct (vdm_kind ovf now s tt fff _ V) as (f & K & Ef). pose proof H as H''. rewrite Ef in H''.
      destruct K as [r Q|tt' fff' payload F|tt' fff' mid channel a F|tt' fff' mid channel b F|tt' c n body' given' G B].
      * cbn [fst] in H''. assert (N : fst (parse_sentence ovf now s new_parser) = Ok PsIncomplete) by (rewrite Ef; exact H'').
        destruct (whole_or_not s tt fff _ V) as [(payload & O)|NO]; [apply (Wait tt fff payload); now apply complete_one|].
        destruct (half_or_not s tt fff _ V) as [(mid & channel & m & payload & F)|NF].
        -- destruct (kept p (fragment_key fff mid channel (3 - m))) as [b|] eqn:Ek.
           ++ destruct (fragment_number _ _ _ _ _ _ _ F) as [-> | ->].
              ** apply (Wait tt fff (payload ++ b)). eapply complete_first; [exact F|now apply stored_kept].
              ** apply (Wait tt fff (b ++ payload)). eapply complete_second; [exact F|now apply stored_kept].
           ++ eapply wait_half; [exact F|]. now apply KS.
        -- destruct (never_assembled ovf now s tt fff _ V NO N) as [A1 A2]. eapply wait_never; eassumption.
      * apply (Wait tt' fff' payload). now apply complete_one.
      * unfold first_step in H''. destruct (kept p _) as [b|] eqn:Ek.
        -- apply (Wait tt' fff' (a ++ b)). eapply complete_first; [exact F|now apply stored_kept].
        -- eapply wait_half; [exact F|]. now apply KS.
      * unfold second_step in H''. destruct (kept p _) as [a|] eqn:Ek.
        -- apply (Wait tt' fff' (a ++ b)). eapply complete_second; [exact F|now apply stored_kept].
        -- eapply wait_half; [exact F|]. now apply KS.
      * exfalso. destruct G as (fields' & G & _). eapply vdm_not_gsv; eassumption.
  - intros [tt fff mid channel n payload F W|tt fff fields V F N1 NF|tt c n k P Hc Hk Hn W|tt n P Ho|tt fff payload C R T PT W].
    + rewrite (fragment_vdm_step _ _ _ _ _ _ _ _ _ _ F). apply KS in W.
      destruct (fragment_number _ _ _ _ _ _ _ F) as [-> | ->].
      * change (1 =? 1) with true. change (3 - 1) with 2 in W. cbv iota. unfold first_step. now rewrite W.
      * change (2 =? 1) with false. change (3 - 2) with 1 in W. cbv iota. unfold second_step. now rewrite W.
    + now rewrite (unassembled ovf now s p tt fff fields V F N1 NF).
    + destruct (gsv_part_step ovf now s p tt c n P) as (body & given & _ & ->).
      destruct P as (fields & G & _). apply (gsv_step_waits _ _ _ _ _ _ (gsv_with_plain _ _ _ G)). left. eauto.
    + destruct (gsv_part_step ovf now s p tt _ n P) as (body & given & _ & ->).
      destruct P as (fields & G & _). apply (gsv_step_waits _ _ _ _ _ _ (gsv_with_plain _ _ _ G)). right. split; [lia|exact Ho].
    + apply (Done tt fff payload C). auto.
Qed.
Print Assumptions c82_incomplete.

(** Every other accepted call returns a report of the kind its sentence type or AIS message type says. *)
Theorem c82_kind ovf now s p r :
  fst (parse_sentence ovf now s p) = Ok r -> r <> PsIncomplete ->
  (exists tt fff fields sources, gnss_with s tt fff fields /\ gnss_result r = Some (fff, sources)) \/
  (exists tt fff payload, completes s tt fff p payload /\ readable ovf payload /\
     report_of (bits_at (payload_bits payload) 0 6) r).
Proof.
  intros H Hr.
  assert (Done : forall tt fff payload, completes s tt fff p payload ->
    exists tt fff payload, completes s tt fff p payload /\ readable ovf payload /\
      report_of (bits_at (payload_bits payload) 0 6) r).
  { intros tt fff payload C. exists tt, fff, payload. split; [exact C|].
    destruct (completes_step ovf now s tt fff p payload C) as (q & _ & E). rewrite E in H. unfold decode_payload in H.
    destruct (parse_payload ovf payload) as [bits|e|] eqn:Ep; [|cbn [fst] in H; congruence|discriminate].
    apply parse_payload_readable in Ep as [R ->]. split; [exact R|]. exact (dispatch_kind _ _ _ _ _ _ _ H Hr). }
  pose proof (parse_call ovf now s p) as C.
  remember (parse_sentence ovf now s p) as o eqn:Er.
  destruct C as [body given Hb Hc|body given Hb Hc Hp|body given t rest Hb Hc Hbody Hp Ht
    |body given tt fff rest o Hb Hc Hbody Hp Ht Hr'|body given tt rest Hb Hc Hbody Hp Ht
    |body given tt fff rest Hb Hc Hbody Hp Ht Hf|body given t rest nav st t2 Hb Hc Hbody Hp Hr' Hn]; try discriminate H.
  - left. cbn [fst] in H. subst o. exists tt, fff, (split_on 44 rest), [nav_of_talker tt].
    split; [|now apply plain_gnss_result in Hr'].
    split; [|split; [apply split_on_nonempty|now rewrite <- byte_len_spec]].
    eapply sentence_of; try eassumption. repeat apply plain_app; [now apply plain_lit_dec|exact Hp|].
    destruct Hr'; now apply plain_lit_dec.
  - left. apply handle_gsv_result in H as [-> |(ds & -> & _)]; [congruence|].
    exists tt, (lit "GSV"), (split_on 44 rest), (map gsv_source ds). split; [|reflexivity].
    split; [|split; [apply split_on_nonempty|now rewrite <- byte_len_spec]].
    eapply sentence_of; try eassumption. now apply gsv_type_plain.
  - right.
    assert (V : vdm_with s tt fff (split_on 44 rest)).
    { split; [|split; [apply split_on_nonempty|split; [now rewrite <- byte_len_spec|exact Hf]]].
      eapply sentence_of; try eassumption. repeat apply plain_app; [now apply plain_lit_dec|exact Hp|].
      destruct Hf as [-> | ->]; now apply plain_lit_dec. }
    rewrite Er in H. clear Er. destruct (vdm_kind ovf now s tt fff _ V) as (f & K & Ef). pose proof H as H''. rewrite Ef in H''.
    destruct K as [o Q|tt' fff' payload F|tt' fff' mid channel a F|tt' fff' mid channel b F|tt' c n body' given' G B].
    + cbn [fst] in H''. destruct (Q eq_refl) as [-> |(e & ->)]; congruence.
    + apply (Done tt' fff' payload). now apply complete_one.
    + unfold first_step in H''. destruct (kept p _) as [b|] eqn:Ek; [|cbn [fst] in H''; congruence].
      apply (Done tt' fff' (a ++ b)). eapply complete_first; [exact F|now apply stored_kept].
    + unfold second_step in H''. destruct (kept p _) as [a|] eqn:Ek; [|cbn [fst] in H''; congruence].
      apply (Done tt' fff' (a ++ b)). eapply complete_second; [exact F|now apply stored_kept].
    + exfalso. destruct G as (fields' & G & _). eapply vdm_not_gsv; eassumption.
Qed.
Print Assumptions c82_kind.

(** Nothing else happens: a call panics, fails, waits or reports. *)
Theorem c82_reports ovf now s p :
  reachable ovf p -> clock now -> (0 <= dt_year now)%Z ->
  (exists r, fst (parse_sentence ovf now s p) = Ok r /\ r <> PsIncomplete) <->
  ~ panics ovf now s p /\ (forall e, ~ error_of ovf now s p e) /\ ~ unfinished ovf s p.
Proof.
  intros Hr Hn Hy. rewrite <- (c82_incomplete ovf now s p). split.
  - intros (r & E & N). destruct (proj1 (c78_accepted ovf now s p Hr Hn Hy) (ex_intro _ r E)) as [A B].
    split; [exact A|]. split; [exact B|]. congruence.
  - intros (A & B & C). destruct (proj2 (c78_accepted ovf now s p Hr Hn Hy) (conj A B)) as (r & E).
    exists r. split; [exact E|]. congruence.
Qed.
Print Assumptions c82_reports.

(** All kinds of waiting calls and two that report: the second half of a message, and the second part
    of static data. Group of three: parts 1 and 3 of it arrived. *)
Example c82_example :
  let gsv n := lit "$GPGSV,3," ++ n ++ lit ",11,03,03,111,00,04,15,270,00,06,01,010,00,13,06,292,00" in
  let h := [(ex_now, ex_first); (ex_now, gsv (lit "1")); (ex_now, gsv (lit "3"));
            (ex_now, lit "!AIVDM,1,1,,A,H42O55i18tMET00000000000000,2");
            (ex_now, lit "!AIVDM,3,1,4,A,H42O,0"); (ex_now, lit "!AIVDM,2,1,,A,H42O,0")] in
  let p := after true h new_parser in
  reachable true p /\ clock ex_now /\ (0 <= dt_year ex_now)%Z /\
  Forall (fun r => r = Ok PsIncomplete) (results true h new_parser) /\
  unfinished true ex_first new_parser /\ unfinished true (lit "!AIVDM,2,1,,A,H42O,0") p /\
  Forall (fun s => ~ unfinished true s p /\
      exists r, fst (parse_sentence true ex_now s p) = Ok r /\ r <> PsIncomplete)
    [ex_second; gsv (lit "2"); lit "!AIVDM,1,1,,A,H42O55lt0000000D3nink000?0500,0"; ex_whole].
Proof.
  cbv zeta.
  match goal with |- reachable _ (after true ?h0 _) /\ _ => set (h := h0) end.
  assert (R : Forall (fun r => r = Ok PsIncomplete) (results true h new_parser)).
  { vm_compute. repeat constructor. }
  split; [now exists h|]. split; [exact ex_now_clock|]. split; [vm_compute; discriminate|]. split; [exact R|].
  split; [apply (c82_incomplete true ex_now); vm_compute; reflexivity|].
  split; [apply (c82_incomplete true ex_now); vm_compute; reflexivity|].
  repeat constructor; try (rewrite <- (c82_incomplete true ex_now); vm_compute; discriminate);
    eexists; (split; [vm_compute; reflexivity|discriminate]).
Qed.
