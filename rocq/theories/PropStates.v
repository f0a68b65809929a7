(** C99: which parsers there can be. *)
From stdpp Require Import gmap.
From Coq Require Import List NArith ZArith Bool String Lia.
From Verif Require Import Base Str F64 Chrono Types Util AisMod Vdm Gnss Parser
  SpecText SpecResult SpecAis SpecMeasure SpecState SpecGnss SpecMerge SpecAssembly SpecGroups SpecPairs SpecWhole SpecDirect SpecStates
  StrFacts FrontFacts CallFacts ResultFacts BitFacts VdmFacts
  StateFacts RunFacts PropFront PropAis PropState PropStatic PropGsv PropMix PropAssembly PropGroups PropPairs PropWhole PropMemory PropDirect.
Import ListNotations.
Open Scope N_scope.
Local Opaque pick_string pick_u64 pick_i64 pick_eta parse_f64.

(** ** Every parser that arises is of this form *)

(** A part of a message with these bits is a static part. *)
Lemma part_static fff bits v : formatter fff ->
  t24_fields bits (str_eqb fff (lit "VDO")) (pick_u64 bits 38 2 =? 1) = Ok v ->
  pick_u64 bits 38 2 = 0 \/ pick_u64 bits 38 2 = 1 -> be_value (window bits 0 6) = 24 ->
  static_part (vsd_mmsi v) v.
Proof.
  intros Hf Hv Hp Ht. exists fff, bits. split; [exact Hf|]. intros ovf now.
  assert (E : forall p, parse_sentence ovf now (encode_sentence (lit "AI") fff (lit "A") bits) p = t24_store v p).
  { intros p. rewrite (message_bits ovf now _ p (lit "AI") fff bits StMobileStation).
    - rewrite (handler_called now 24 (fun bits st own p => handle_t24 bits st p own) _ bits _ _ p eq_refl Ht).
      unfold handle_t24. rewrite Hv. destruct Hp as [-> | ->]; reflexivity.
    - apply encode_sentence_one_fragment; [reflexivity|now apply plain_lit_dec|exact Hf|now apply plain_lit_dec].
    - left. cbn. tauto. }
  now apply (says_store ovf now _ v _ _ E).
Qed.

Definition vessels_static (p : NmeaParser) : Prop :=
  forall m v, saved_vsds p !! m = Some v -> static_part m v.

Lemma decode_static ovf now fff payload st p : formatter fff -> vessels_static p ->
  vessels_static (snd (decode_payload ovf now fff payload st p)).
Proof.
  intros Hf H. destruct (decode_act ovf now fff payload st) as [(r & E)|(bits & v & _ & Hv & Hp & Ht & _ & _ & E)]; rewrite E; [exact H|].
  unfold t24_store, pull_vsd. destruct (saved_vsds p !! vsd_mmsi v) as [v0|] eqn:Ev; cbn [snd].
  - intros m w. cbn [saved_vsds]. intros Hm. apply lookup_delete_Some in Hm as [_ Hm]. exact (H _ _ Hm).
  - intros m w. unfold push_vsd. cbn [saved_vsds]. intros Hm.
    apply lookup_insert_Some in Hm as [[<- <-]|[_ Hm]].
    + now apply (part_static fff bits).
    + apply lookup_delete_Some in Hm as [_ Hm]. exact (H _ _ Hm).
Qed.

Lemma call_static ovf now s p : vessels_static p -> vessels_static (snd (parse_sentence ovf now s p)).
Proof.
  intros H. destruct (sentence_kind ovf now s) as (f & K & Hf). rewrite Hf.
  destruct K as [r|tt fff payload Hs|tt fff mid channel a Hs|tt fff mid channel b Hs|tt c n body given Hs Hb].
  - exact H.
  - apply decode_static; [|exact H]. destruct Hs as (? & ? & ? & ? & ? & (? & _ & _ & _ & X) & _). exact X.
  - pose proof (fragment_formatter _ _ _ _ _ _ _ Hs) as X. unfold first_step. destruct (kept _ _); [now apply decode_static|exact H].
  - pose proof (fragment_formatter _ _ _ _ _ _ _ Hs) as X. unfold second_step. destruct (kept _ _); [now apply decode_static|exact H].
  - intros m v. rewrite gsv_step_vsds. apply H.
Qed.

(** What the texts of a parser can be. *)
Definition half_text (k x : str) : Prop := exists fff mid channel n,
  formatter fff /\ mid < 2 ^ 64 /\ plain channel /\ plain x /\ (n = 1 \/ n = 2) /\ k = fragment_key fff mid channel n.
Definition message_text (k x : str) : Prop := exists tt c n fields,
  utf8_bytes tt = 2%nat /\ plain tt /\ fields <> [] /\ Forall plain fields /\
  count_field (nth 0 fields []) c /\ count_field (nth 1 fields []) n /\
  k = gsv_key tt c n /\ x = join ((lit "$" ++ tt ++ lit "GSV") :: fields).
Definition texts_fine (p : NmeaParser) : Prop := forall k x, kept p k = Some x -> half_text k x \/ message_text k x.

Lemma fragment_text s tt fff mid channel n x : fragment s tt fff mid channel n x ->
  half_text (fragment_key fff mid channel n) x.
Proof.
  intros H. exists fff, mid, channel, n. pose proof (fragment_plain _ _ _ _ _ _ _ H) as (_ & _ & Hx).
  pose proof (fragment_formatter _ _ _ _ _ _ _ H) as Hf. pose proof (fragment_number _ _ _ _ _ _ _ H) as Hn.
  destruct H as (fields & count & number & id & ((b & g & _ & _ & (_ & Hp & _)) & _) & _ & _ & _ & _ & _ & _ & _ & Hm & Hc & _).
  apply Forall_cons_iff in Hp as [_ P2].
  split; [exact Hf|]. split; [exact Hm|]. split; [|auto]. rewrite Hc.
  destruct (Nat.lt_ge_cases 3 (List.length fields)) as [L|L].
  - rewrite List.Forall_forall in P2. apply P2. now apply nth_In.
  - rewrite nth_overflow by exact L. intros [].
Qed.

Lemma gsv_message_text s tt c n fields : gsv_message s tt c n fields ->
  message_text (gsv_key tt c n) (join ((lit "$" ++ tt ++ lit "GSV") :: fields)).
Proof.
  intros H. pose proof (gsv_message_plain _ _ _ _ _ H) as Ht.
  destruct H as (((b & g & _ & _ & (_ & Hp & _)) & Hne & Hu) & Hc & Hn). apply Forall_cons_iff in Hp as [_ Hp].
  exists tt, c, n, fields. auto 10.
Qed.

Lemma texts_push k x p : half_text k x \/ message_text k x -> texts_fine p -> texts_fine (push_string k x p).
Proof.
  intros Hk H k' x'. rewrite kept_push. destruct (decide _) as [-> |D]; [|apply H]. now intros [= <-].
Qed.

Lemma collect_kept nav t c range p k x :
  kept (snd (gsv_collect nav t c range p)) k = Some x -> kept p k = Some x.
Proof.
  revert p. induction range as [|i range IH]; intros p; cbn [gsv_collect]; [auto|]. unfold pull_string.
  match goal with |- context [gsv_collect ?a ?b ?c ?d ?e] => specialize (IH e); destruct (gsv_collect a b c d e) as [v p2] end.
  cbn [snd] in *. intros H. apply IH in H. unfold kept in *. cbn [saved_fragments] in H. now apply lookup_delete_Some in H as [_ H].
Qed.

Lemma call_texts ovf now s p : texts_fine p -> texts_fine (snd (parse_sentence ovf now s p)).
Proof.
  intros H. destruct (sentence_kind ovf now s) as (f & K & Hf).
  assert (W : forall key k x, kept (without key p) k = Some x -> half_text k x \/ message_text k x).
  { intros key k x. rewrite kept_without. destruct (decide _); [discriminate|apply H]. }
  destruct K as [r|tt fff payload Hs|tt fff mid channel a Hs|tt fff mid channel b Hs|tt c n body given Hs Hb].
  - rewrite Hf. exact H.
  - rewrite Hf. intros k x. rewrite decode_text. apply H.
  - rewrite Hf. unfold first_step. destruct (kept _ _).
    + intros k x. rewrite decode_text. apply W.
    + cbn [snd]. apply texts_push; [|exact H]. left. exact (fragment_text _ _ _ _ _ _ _ Hs).
  - rewrite Hf. unfold second_step. destruct (kept _ _).
    + intros k x. rewrite decode_text. apply W.
    + cbn [snd]. apply texts_push; [|exact H]. left. exact (fragment_text _ _ _ _ _ _ _ Hs).
  - destruct Hs as (fields & Hs). pose proof (gsv_message_text s tt c n fields Hs) as T.
    rewrite (gsv_message_step ovf now s p tt c n fields Hs).
    assert (Q : texts_fine (push_string (gsv_key tt c n) (join ((lit "$" ++ tt ++ lit "GSV") :: fields)) p))
      by (apply texts_push; [now right|exact H]).
    intros k x Hx. unfold gsv_step in Hx. cbv zeta in Hx. destruct (gsv_range ovf c) as [range|]; [|exact (Q _ _ Hx)].
    destruct (_ =? c); [|exact (Q _ _ Hx)].
    match type of Hx with context [gsv_collect ?a ?b ?d ?e ?q] =>
      pose proof (collect_kept a b d e q k x) as M; destruct (gsv_collect a b d e q) as [v p2] end.
    apply Q, M. exact Hx.
Qed.

(** ** Every parser of this form arises *)

(** The parser without one entry. *)
Definition removed (e : entry) (p : NmeaParser) : NmeaParser :=
  match e with
  | Text k => without k p
  | Vessel m => mk_parser (saved_fragments p) (delete m (saved_vsds p))
  end.

Lemma stored_removed e p e' : stored (removed e p) e' = if decide (e' = e) then None else stored p e'.
Proof.
  destruct e as [k|m]; cbn [removed]; [apply stored_without|].
  destruct e' as [k'|m']; cbn [stored saved_fragments saved_vsds].
  - now destruct (decide _) as [E|E].
  - destruct (decide _) as [E|E].
    + injection E as ->. now rewrite lookup_delete.
    + rewrite lookup_delete_ne by congruence. reflexivity.
Qed.

Definition entries (p : NmeaParser) : nat := (size (saved_fragments p) + size (saved_vsds p))%nat.

Lemma entries_removed e p x : stored p e = Some x -> S (entries (removed e p)) = entries p.
Proof.
  unfold entries. destruct e as [k|m]; cbn [stored removed without saved_fragments saved_vsds]; intros H.
  - destruct (saved_fragments p !! k) as [y|] eqn:E; [|discriminate H].
    rewrite map_size_delete_Some by eauto.
    assert (size (saved_fragments p) <> 0%nat).
    { apply map_size_non_empty_iff. intros X. rewrite X, lookup_empty in E. discriminate E. }
    lia.
  - destruct (saved_vsds p !! m) as [y|] eqn:E; [|discriminate H].
    rewrite map_size_delete_Some by eauto.
    assert (size (saved_vsds p) <> 0%nat).
    { apply map_size_non_empty_iff. intros X. rewrite X, lookup_empty in E. discriminate E. }
    lia.
Qed.

Lemma no_entries p : (forall e, stored p e = None) -> p = new_parser.
Proof.
  intros H. apply stored_ext. intros e. rewrite H. destruct e; cbn; now rewrite lookup_empty.
Qed.

Lemma some_entry p : entries p <> 0%nat -> exists e x, stored p e = Some x.
Proof.
  unfold entries. intros H. destruct (decide (size (saved_fragments p) = 0%nat)) as [E|E].
  - assert (E' : size (saved_vsds p) <> 0%nat) by lia. apply map_size_non_empty_iff, map_choose in E' as (m & v & Hm).
    exists (Vessel m), (inr v). cbn. now rewrite Hm.
  - apply map_size_non_empty_iff, map_choose in E as (k & x & Hk). exists (Text k), (inl x). cbn. now rewrite Hk.
Qed.

Lemma may_hold_removed e p e' x : may_hold p e' x -> may_hold (removed e p) e' x.
Proof.
  assert (N : forall e', stored p e' = None -> stored (removed e p) e' = None).
  { intros e0 H. rewrite stored_removed. now destruct (decide _). }
  intros [fff mid channel n payload H1 H2 H3 H4 H5 H6|tt c n fields H1 H2 H3 H4 H5 H6 H7|m v H].
  - constructor; auto.
  - constructor; auto. intros Hc. destruct (H7 Hc) as (k & Hk & Hn). eauto.
  - now constructor.
Qed.

(** A sentence that puts one entry back. *)
Lemma entry_sentence ovf now p e x : may_hold p e x -> stored p e = Some x ->
  exists s, snd (parse_sentence ovf now s (removed e p)) = p.
Proof.
  intros [fff mid channel n payload Hf Hm Hc Hp Hn Hnone|tt c n fields Hu Ht Hne Hfs Hc Hn Hopen|m v (fff & bits & Hf & Hs)] Hst.
  - set (body := join ((lit "!" ++ lit "AI" ++ fff) :: [lit "2"; dec n; dec mid; channel; payload])).
    exists (body ++ lit "*" ++ nmea_checksum body).
    assert (F : fragment (body ++ lit "*" ++ nmea_checksum body) (lit "AI") fff mid channel n payload).
    { exists [lit "2"; dec n; dec mid; channel; payload], (lit "2"), (dec n), (dec mid). split.
      - split; [|split; [discriminate|split; [reflexivity|exact Hf]]].
        exists body, (nmea_checksum body). split; [right; split; [reflexivity|apply nmea_checksum_no_star]|].
        split; [now right|]. split; [discriminate|]. split; [|reflexivity].
        constructor; [destruct Hf as [-> | ->]; now apply plain_lit_dec|].
        constructor; [now apply plain_lit_dec|]. constructor; [apply dec_plain|]. constructor; [apply dec_plain|].
        constructor; [exact Hc|]. constructor; [exact Hp|constructor].
      - split; [reflexivity|]. split; [exact (dec_denotes 2)|]. split; [reflexivity|]. split; [apply dec_denotes|].
        split; [exact Hn|]. split; [reflexivity|]. split; [apply dec_denotes|]. auto. }
    assert (K : kept (removed (Text (fragment_key fff mid channel n)) p) (fragment_key fff mid channel (3 - n)) = None).
    { apply stored_kept_none. rewrite stored_removed. destruct (decide _); [reflexivity|exact Hnone]. }
    rewrite (fragment_vdm_step _ _ _ _ _ _ _ _ _ _ F). unfold first_step, second_step.
    destruct Hn as [-> | ->]; [change (3 - 1) with 2 in K; change (1 =? 1) with true|change (3 - 2) with 1 in K; change (2 =? 1) with false];
      cbv iota beta; rewrite K; cbn [snd]; apply stored_ext; intros e'; rewrite stored_push, stored_removed;
      destruct (decide _) as [-> |]; congruence.
  - set (body := join ((lit "$" ++ tt ++ lit "GSV") :: fields)).
    exists (body ++ lit "*" ++ nmea_checksum body).
    assert (G : gsv_message (body ++ lit "*" ++ nmea_checksum body) tt c n fields).
    { split; [|auto]. split; [|auto]. exists body, (nmea_checksum body).
      split; [right; split; [reflexivity|apply nmea_checksum_no_star]|]. split; [now right|].
      split; [discriminate|]. split; [|reflexivity]. constructor; [now apply gsv_type_plain|exact Hfs]. }
    rewrite (gsv_message_step ovf now _ _ tt c n fields G). fold body. fold body in Hst.
    set (q := removed _ p).
    assert (Back : push_string (gsv_key tt c n) body q = p).
    { apply stored_ext. intros e'. unfold q. rewrite stored_push, stored_removed. destruct (decide _) as [-> |]; congruence. }
    destruct (N.eq_dec c 0) as [-> |C0].
    { unfold gsv_step. cbv zeta. rewrite Back. reflexivity. }
    assert (L : c <= 2 ^ 32 - 1) by (destruct Hc as [[_ ->]|[_ X]]; lia).
    destruct (N.eq_dec c (2 ^ 32 - 1)) as [-> |C1].
    { unfold gsv_step. cbv zeta. rewrite Back. now destruct ovf. }
    destruct (Hopen ltac:(lia)) as (k & Hk & Hnk).
    rewrite (gsv_step_incomplete ovf tt c n body q k Ht ltac:(lia) Hk).
    + exact Back.
    + intros ->. congruence.
    + apply stored_kept_none. unfold q. rewrite stored_removed. destruct (decide _); [reflexivity|exact Hnk].
  - exists (encode_sentence (lit "AI") fff (lit "A") bits). specialize (Hs ovf now).
    assert (Hn : forall tt fff' mid channel n x, ~ fragment (encode_sentence (lit "AI") fff (lit "A") bits) tt fff' mid channel n x).
    { intros. eapply one_fragment_not_fragment.
      apply encode_sentence_one_fragment; [reflexivity|now apply plain_lit_dec|exact Hf|now apply plain_lit_dec]. }
    destruct (part_or_not ovf now _ Hn) as [E|(w & _ & E)]; [exfalso; eapply says_not; eassumption|].
    apply (says_store ovf now _ w m v E) in Hs as [-> ->]. rewrite E. unfold t24_store, pull_vsd. cbn [removed saved_vsds].
    rewrite lookup_delete. cbn [snd]. unfold push_vsd. cbn [saved_vsds saved_fragments]. destruct p as [f g]. cbn in *.
    f_equal. rewrite delete_idemp, insert_delete_insert. apply insert_id.
    destruct (g !! vsd_mmsi w) as [w'|]; [|discriminate Hst]. cbn in Hst. now injection Hst as ->.
Qed.

(** ** C99 *)

(** The parsers that a new parser can become are exactly those whose every entry is a half whose other half
    is not there, a message of a satellite group that is not complete, or a static part. *)
Theorem c99_states ovf p :
  reachable ovf p <-> forall e x, stored p e = Some x -> may_hold p e x.
Proof.
  split.
  - intros Hr e x He. destruct e as [k|m].
    + destruct x as [x|v]; [|cbn in He; destruct (saved_fragments p !! k); discriminate He].
      assert (T : texts_fine p).
      { revert Hr. apply reachable_invariant; [intros now s q; apply call_texts|]. intros k' x' H.
        unfold kept in H. cbn in H. now rewrite lookup_empty in H. }
      destruct (T k x (proj1 (stored_kept p k x) He)) as [(fff & mid & channel & n & Hf & Hm & Hc & Hx & Hn & ->)
        |(tt & c & n & fields & Hu & Ht & Hne & Hfs & Hc & Hn & -> & ->)].
      * constructor; auto. destruct Hr as (h & ->).
        destruct (c97_every_history ovf h) as (l & mm & ga & g & pa & w & A & C & P).
        destruct (c94_assembly ovf h l mm A) as (_ & _ & W).
        assert (E1 : mm (fff, mid, channel) = Some (n, x)) by (apply W; [exact Hf|]; split; [exact He|exact Hn]).
        destruct (stored _ (Text (fragment_key fff mid channel (3 - n)))) as [y|] eqn:Ey; [|reflexivity].
        destruct y as [y|v]; [|cbn in Ey; destruct (saved_fragments _ !! _); discriminate Ey].
        assert (E2 : mm (fff, mid, channel) = Some (3 - n, y)) by (apply W; [exact Hf|]; split; [exact Ey|]; destruct Hn as [-> | ->]; [now right|now left]).
        rewrite E1 in E2. injection E2 as E2 _. destruct Hn as [-> | ->]; discriminate E2.
      * constructor; auto. intros Hcc. destruct Hr as (h & ->).
        destruct (reachable_open_groups ovf h tt c Ht) as (k & Hk & Hk'); [exact Hcc|]. exists k. split; [exact Hk|].
        now apply stored_kept_none.
    + destruct x as [x|v]; [cbn in He; destruct (saved_vsds p !! m); discriminate He|].
      constructor. assert (V : vessels_static p).
      { revert Hr. apply reachable_invariant; [intros now s q; apply call_static|]. intros m' v' H. cbn in H. now rewrite lookup_empty in H. }
      apply V. cbn in He. destruct (saved_vsds p !! m) as [v'|]; [|discriminate He]. cbn in He. now injection He as ->.
  - remember (entries p) as n eqn:En. revert p En. induction n as [|n IH]; intros p En H.
    + exists []. cbn. apply no_entries. intros e. destruct (stored p e) as [x|] eqn:E; [|reflexivity].
      pose proof (entries_removed e p x E). lia.
    + destruct (some_entry p ltac:(lia)) as (e & x & He).
      destruct (entry_sentence ovf (mk_datetime 2026 1 1 0 0 0 0) p e x (H _ _ He) He) as (s & Hs).
      rewrite <- Hs. apply reachable_step. apply IH.
      * pose proof (entries_removed e p x He). lia.
      * intros e' x' He'. apply may_hold_removed, H. rewrite stored_removed in He'. now destruct (decide _).
Qed.
Print Assumptions c99_states.

(** A parser can arise in a build with overflow checks if and only if it can arise in one without. *)
Theorem c99_builds p : reachable true p <-> reachable false p.
Proof. now rewrite !c99_states. Qed.
Print Assumptions c99_builds.

(** A parser with one half, one message of an open satellite group, and one of a group that announces no
    messages. *)
Definition ex_kept : NmeaParser := mk_parser
  (<[fragment_key (lit "VDM") 7 (lit "A") 2 := lit "w"]>
   (<[gsv_key (lit "GP") 3 2 := lit "$GPGSV,3,2,1"]> {[gsv_key (lit "GP") 0 9 := lit "$GPGSV,,9"]})) ∅.

Example c99_example : reachable true ex_kept /\ reachable false ex_kept.
Proof.
  assert (H : forall e x, stored ex_kept e = Some x -> may_hold ex_kept e x).
  { intros e x He. destruct e as [k|m]; [|cbn in He; rewrite lookup_empty in He; discriminate He].
    cbn [stored saved_fragments ex_kept] in He.
    destruct (decide (k = fragment_key (lit "VDM") 7 (lit "A") 2)) as [-> |D1].
    { rewrite lookup_insert in He. injection He as <-.
      constructor; [now left|reflexivity|now apply plain_lit_dec|now apply plain_lit_dec|now right|].
      vm_compute. reflexivity. }
    rewrite lookup_insert_ne in He by congruence.
    destruct (decide (k = gsv_key (lit "GP") 3 2)) as [-> |D2].
    { rewrite lookup_insert in He. injection He as <-.
      apply (holds_message ex_kept (lit "GP") 3 2 [lit "3"; lit "2"; lit "1"]);
        [reflexivity|now apply plain_lit_dec|discriminate|repeat (constructor; [now apply plain_lit_dec|]); constructor| | |].
      - apply denotes_count; [exact (dec_denotes 3)|reflexivity].
      - apply denotes_count; [exact (dec_denotes 2)|reflexivity].
      - intros _. exists 1. split; [lia|]. vm_compute. reflexivity. }
    rewrite lookup_insert_ne in He by congruence.
    destruct (decide (k = gsv_key (lit "GP") 0 9)) as [-> |D3].
    { rewrite lookup_singleton in He. injection He as <-.
      apply (holds_message ex_kept (lit "GP") 0 9 [[]; lit "9"]);
        [reflexivity|now apply plain_lit_dec|discriminate|constructor; [now intros []|constructor; [now apply plain_lit_dec|constructor]]| | |].
      - now left.
      - apply denotes_count; [exact (dec_denotes 9)|reflexivity].
      - intros X. lia. }
    rewrite lookup_singleton_ne in He by congruence. discriminate He. }
  split; now apply c99_states.
Qed.

(** No parser ever keeps both halves of a message, nor a text under any other key. *)
Example c99_impossible_example ovf :
  ~ reachable ovf (mk_parser (<[fragment_key (lit "VDM") 7 (lit "A") 1 := lit "w"]>
                              {[fragment_key (lit "VDM") 7 (lit "A") 2 := lit "w"]}) ∅) /\
  ~ reachable ovf (mk_parser {[lit "key" := lit "value"]} ∅).
Proof.
  split; rewrite c99_states; intros H.
  - specialize (H (Text (fragment_key (lit "VDM") 7 (lit "A") 1)) (inl (lit "w")) ltac:(vm_compute; reflexivity)).
    remember (Text _) as e eqn:Ee in H.
    destruct H as [fff mid channel n payload Hf Hm Hc Hx Hn Hnone|tt c n fields Hu Ht Hne Hfs Hc Hn Hopen|]; [| |discriminate Ee];
      apply Text_inj in Ee.
    + apply fragment_key_inj in Ee as (-> & -> & -> & ->); [|exact Hf|now left]. vm_compute in Hnone. discriminate Hnone.
    + symmetry in Ee. now apply fragment_key_gsv_key in Ee.
  - specialize (H (Text (lit "key")) (inl (lit "value")) ltac:(vm_compute; reflexivity)).
    remember (Text _) as e eqn:Ee in H.
    destruct H as [fff mid channel n payload Hf Hm Hc Hx Hn Hnone|tt c n fields Hu Ht Hne Hfs Hc Hn Hopen|]; discriminate Ee.
Qed.

(** Static parts exist: part A of a report about vessel 351759000. *)
Example c99_part_example : exists v, static_part 351759000 v /\ vsd_mmsi v = 351759000.
Proof.
  eexists. split.
  - exists (lit "VDM"), (be_bits 6 24 ++ be_bits 2 0 ++ be_bits 30 351759000 ++ be_bits 2 0 ++ be_bits 120 0).
    split; [now left|]. intros [|] now; vm_compute; reflexivity.
  - reflexivity.
Qed.
